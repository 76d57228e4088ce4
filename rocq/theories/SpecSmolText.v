(** Vocabulary for the texts of the Smolyak modules: what is passed to them, what is called, what they return. *)
From Coq Require Import ZArith List Bool String Reals.
From Verif Require Import Base SmolyakModel SpecSmolyak PySyntax NpSem SrcSmolyakUtil SrcSmolyakGrid SrcSmolyakInterp.
Import ListNotations.
Open Scope Z_scope.

(** The three modules, parsed, one after the other (grid.py imports the names of util.py, interp.py those of
    grid.py), and a call of one of their functions or classes, or of a method of an object, with arguments by
    position [vs] and by name [ks]; [k] bounds the depth of the calls and the iterations of a while. *)
Definition modules (a b c : list text) : option (list stmt) :=
  match parse_text a, parse_text b, parse_text c with Some p, Some q, Some r => Some (p ++ q ++ r)%list | _, _, _ => None end.
Definition call_in (o : option (list stmt)) (X : externals R) (k : nat) (f : string) (vs : list (val R)) (ks : list (string * val R)) : res (val R) :=
  match o with Some P => run X P k f vs ks | None => Err TypeErr end.
(** The value of the method, and the object afterwards. *)
Definition method_in (o : option (list stmt)) (X : externals R) (k : nat) (v : val R) (m : string) (vs : list (val R)) (ks : list (string * val R)) : res (val R * val R) :=
  match o with Some P => run_method X P k v m vs ks | None => Err TypeErr end.
Definition smolyak_call := call_in (modules util_py grid_py interp_py).
Definition smolyak_method := method_in (modules util_py grid_py interp_py).
(** numpy and scipy as documented. *)
Definition routines_ok (X : externals R) : Prop := x_pi X = PI /\ x_cos X = cos /\ lu_ok (x_lu X) /\ solve_ok (x_solve X).

(** The density: an int, an array of ints, or a list of ints. *)
Definition vmu (mu : mu_t) : val R := match mu with MuInt m => VInt m | MuArr l => ivec l end.
Definition mu_arg (mu : mu_t) (w : val R) : Prop := w = vmu mu \/ exists l, mu = MuArr l /\ l <> [] /\ w = VList (map VInt l).
(** A bound: nothing, a number, a list of numbers, or something else. *)
Definition vbound (b : bound R) : val R := match b with BNone => VNone | BScalar x => VFlt x | BList l => VList (map VFlt l) | BOther => VTup [] end.
(** The bounds in a call: by position, by name, by default. *)
Definition bounds_args (lb ub : bound R) (vs : list (val R)) (ks : list (string * val R)) : Prop :=
  vs = [vbound lb; vbound ub] /\ ks = [] \/ vs = [] /\ ks = [("lb", vbound lb); ("ub", vbound ub)]%string \/ vs = [] /\ ks = [] /\ lb = BNone /\ ub = BNone.
(** What the constructor refuses. *)
Definition density_bad (d : Z) (mu : mu_t) : bool := match mu with MuInt m => m <? 1 | MuArr l => existsb (fun m => m <? 1) l || negb (zlen l =? d) end.
Definition bad_bound (d : Z) (b : bound R) : Prop := exists l, b = BList l /\ zlen l <> d.
(** The flags of interpolate in a call: all by position, or each by name or by default. *)
Definition flag (ks : list (string * val R)) (x : string) (df b : bool) : Prop :=
  match find (fun p => String.eqb (fst p) x) ks with Some (_, v) => v = VBool b | None => b = df end.
Definition flags_args (ip dv dt dx : bool) (vs : list (val R)) (ks : list (string * val R)) : Prop :=
  vs = [VBool ip; VBool dv; VBool dt; VBool dx] /\ ks = [] \/
  vs = [] /\ flag ks "interp" true ip /\ flag ks "deriv" false dv /\ flag ks "deriv_th" false dt /\ flag ks "deriv_X" false dx.
(** A list of one array is returned as that array. *)
Definition varr (a : arr R) : val R := VArr (canon a).
Definition packed (rets : list (arr R)) : val R := match rets with [r] => varr r | _ => VList (map varr rets) end.
