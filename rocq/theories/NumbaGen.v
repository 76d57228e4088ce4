(** The functions of eval_cubic_numba.py as a function of the number of dimensions: the syntax
    trees that the file contains for d = 1, 2, 3, 4, written once.  Definitions only; that these are
    the trees of the file is checked in NumbaText.v. *)
From Coq Require Import ZArith List Bool String Ascii.
From Verif Require Import PySyntax.
Import ListNotations.
Open Scope string_scope.
Open Scope nat_scope.

(** One decimal digit. *)
Definition digit (n : nat) : string := String (ascii_of_nat (48 + n)) "".
Definition nm (p : string) (m : nat) : string := p ++ digit m.
Definition nm2 (p : string) (m j : nat) : string := p ++ digit m ++ "_" ++ digit j.
Definition V (p : string) (m : nat) : expr := EName (nm p m).
Definition V2 (p : string) (m j : nat) : expr := EName (nm2 p m j).
Definition I (n : nat) : expr := EInt (Z.of_nat n).
Definition one : expr := EFlt 10 1.
Definition at1 (a : string) (m : nat) : expr := ESub (EName a) [I m].
Definition Adx (j c : nat) : expr := ESub (EName "Ad") [I j; I c].
Definition dAdx (j c : nat) : expr := ESub (EName "dAd") [I j; I c].
Infix "+." := (EBin "+") (at level 50, left associativity).
Infix "-." := (EBin "-") (at level 50, left associativity).
Infix "*." := (EBin "*") (at level 40, left associativity).
Infix "/." := (EBin "/") (at level 40, left associativity).
Definition set (x : string) (e : expr) : stmt := SAssign [EName x] e.

Definition js : list nat := [0; 1; 2; 3]%nat.

(** eval_cubic_numba.py 81-83: M, start, dinv of dimension m. *)
Definition s_dim (m : nat) : list stmt :=
  [set (nm "M" m) (at1 "orders" m); set (nm "start" m) (at1 "a" m);
   set (nm "dinv" m) ((at1 "orders" m -. one) /. (at1 "b" m -. at1 "a" m))].
(** 84: x = point[m]; 1257: x = points[n, m]. *)
Definition s_x (vec : bool) (m : nat) : stmt :=
  set (nm "x" m) (if vec then ESub (EName "points") [EName "n"; I m] else at1 "point" m).
(** 85-88: u, i, t. *)
Definition s_cell (m : nat) : list stmt :=
  [set (nm "u" m) ((V "x" m -. V "start" m) *. V "dinv" m);
   set (nm "i" m) (ECall (EName "int") [ECall (EName "floor") [V "u" m] []] []);
   set (nm "i" m) (ECall (EName "max") [ECall (EName "min") [V "i" m; V "M" m -. I 2] []; I 0] []);
   set (nm "t" m) (V "u" m -. V "i" m)].
(** 89-92: powers of t. *)
Definition s_pow (m : nat) : list stmt :=
  [set (nm2 "tp" m 0) (V "t" m *. V "t" m *. V "t" m); set (nm2 "tp" m 1) (V "t" m *. V "t" m);
   set (nm2 "tp" m 2) (V "t" m); set (nm2 "tp" m 3) one].
(** 93-125: the weights. *)
Definition e_low (m j : nat) : expr := dAdx j 3 *. V "t" m +. Adx j 3.
Definition e_high (m j : nat) : expr :=
  (I 3 *. Adx j 0 +. I 2 *. Adx j 1 +. Adx j 2) *. (V "t" m -. I 1) +. (Adx j 0 +. Adx j 1 +. Adx j 2 +. Adx j 3).
Definition e_in (A : nat -> nat -> expr) (m j : nat) : expr :=
  A j 0 *. V2 "tp" m 0 +. A j 1 *. V2 "tp" m 1 +. A j 2 *. V2 "tp" m 2 +. A j 3 *. V2 "tp" m 3.
Definition phis (m : nat) (e : nat -> nat -> expr) : list stmt := map (fun j => set (nm2 "Phi" m j) (e m j)) js.
Definition s_phi (m : nat) : list stmt :=
  phis m (fun _ _ => I 0) ++
  [SIf (ECmp (V "t" m) [("<", I 0)]) (phis m e_low)
     [SIf (ECmp (V "t" m) [(">", I 1)]) (phis m e_high) (phis m (e_in Adx))]].
(** 5116-5139: the derivative weights. *)
Definition s_dphi (m : nat) : list stmt :=
  map (fun j => set (nm2 "dPhi" m j) (e_in dAdx m j *. V "dinv" m)) js.

(** 127-132, 5141-5154 ..: the nested sum; [w m j] is the name of the weight j of dimension m. *)
Definition sum_left (l : list expr) : expr :=
  match l with [] => I 0 | e :: r => fold_left (EBin "+") r e end.
Fixpoint e_sum (k : bool) (w : nat -> nat -> string) (m n : nat) (idx : list expr) : expr :=
  match n with
  | O => ESub (EName "coefs") (idx ++ (if k then [EName "k"] else []))
  | S n => sum_left (map (fun j => EName (w m j) *. e_sum k w (S m) n (idx ++ [V "i" m +. I j])) js)
  end.
Definition w_val (m j : nat) : string := nm2 "Phi" m j.
Definition w_der (q m j : nat) : string := if Nat.eqb m q then nm2 "dPhi" m j else nm2 "Phi" m j.

Definition dims (d : nat) : list nat := seq 0 d.
Definition s_dims (d : nat) : list stmt := flat_map s_dim (dims d).
Definition s_cells (d : nat) : list stmt :=
  flat_map s_cell (dims d) ++ flat_map s_pow (dims d) ++ flat_map s_phi (dims d).
Definition s_xs (vec : bool) (d : nat) : list stmt := map (s_x vec) (dims d).
Definition shape_is (x a : string) (i : nat) : stmt := set x (ESub (EAttr (EName a) "shape") [I i]).
Definition range_loop (x n : string) (b : list stmt) : stmt := SFor (EName x) (ECall (EName "range") [EName n] []) b.
Definition params (l : list string) : list (string * option expr) := map (fun s => (s, None)) l.

(** 80-132 (d = 1), 139-266, 270-541, 545-1248. *)
Definition eval_spline_ps := params ["a"; "b"; "orders"; "coefs"; "point"].
Definition eval_spline_body (d : nat) : list stmt :=
  s_dims d ++ s_xs false d ++ s_cells d ++
  [set "t" (e_sum false w_val 0 d []); SRet (Some (EName "t"))].
(** 1252-1321 (d = 1) .. 2552. *)
Definition vec_eval_spline_ps := params ["a"; "b"; "orders"; "coefs"; "points"; "out"].
Definition vec_eval_spline_body (d : nat) : list stmt :=
  [shape_is "d" "a" 0; shape_is "N" "points" 0;
   range_loop "n" "N" (s_xs true d ++ s_dims d ++ s_cells d ++
     [SAssign [ESub (EName "out") [EName "n"]] (e_sum false w_val 0 d [])])].
(** 2556-2612 (d = 1) .. 3732. *)
Definition eval_splines_ps := params ["a"; "b"; "orders"; "coefs"; "point"; "vals"].
Definition eval_splines_body (d : nat) : list stmt :=
  shape_is "n_vals" "coefs" d :: s_dims d ++ s_xs false d ++ s_cells d ++
  [range_loop "k" "n_vals" [SAssign [ESub (EName "vals") [EName "k"]] (e_sum true w_val 0 d [])]].
(** 3736-3808 (d = 1) .. 5044. *)
Definition vec_eval_splines_ps := params ["a"; "b"; "orders"; "coefs"; "points"; "vals"].
Definition vec_eval_splines_body (d : nat) : list stmt :=
  shape_is "n_vals" "coefs" d :: shape_is "N" "points" 0 :: s_dims d ++
  [range_loop "n" "N" (s_xs true d ++ s_cells d ++
     [range_loop "k" "n_vals" [SAssign [ESub (EName "vals") [EName "n"; EName "k"]] (e_sum true w_val 0 d [])]])].
(** 5048-5151 (d = 1) .. 9078. *)
Definition vec_eval_splines_G_ps := params ["a"; "b"; "orders"; "coefs"; "points"; "vals"; "dvals"].
Definition vec_eval_splines_G_body (d : nat) : list stmt :=
  shape_is "n_vals" "coefs" d :: shape_is "N" "points" 0 :: s_dims d ++
  [range_loop "n" "N" (s_xs true d ++ s_cells d ++ flat_map s_dphi (dims d) ++
     [range_loop "k" "n_vals"
        (SAssign [ESub (EName "vals") [EName "n"; EName "k"]] (e_sum true w_val 0 d []) ::
         map (fun q => SAssign [ESub (EName "dvals") [EName "n"; I q; EName "k"]] (e_sum true (w_der q) 0 d [])) (dims d))])].

(** The five functions of dimension d. *)
Definition numba_defs (d : nat) : list (string * (list (string * option expr) * list stmt)) :=
  [(nm "eval_cubic_spline_" d, (eval_spline_ps, eval_spline_body d));
   (nm "vec_eval_cubic_spline_" d, (vec_eval_spline_ps, vec_eval_spline_body d));
   (nm "eval_cubic_splines_" d, (eval_splines_ps, eval_splines_body d));
   (nm "vec_eval_cubic_splines_" d, (vec_eval_splines_ps, vec_eval_splines_body d));
   (nm "vec_eval_cubic_splines_G_" d, (vec_eval_splines_G_ps, vec_eval_splines_G_body d))].

(** 14-34: the tables [Ad], [dAd], [d2Ad] (imports first). *)
Definition frac (z : Z) : expr := if Z.ltb z 0 then ENeg (EFlt (- z * 10) 1) /. EFlt 60 1 else EFlt (z * 10) 1 /. EFlt 60 1.
Definition der_table (x y : string) : list stmt :=
  [set x (ECall (EName "zeros") [ETup [I 4; I 4]] []);
   SFor (EName "i") (ECall (EName "range") [I 1; I 4] [])
     [SAssign [ESub (EName x) [ESlice None None None; EName "i"]]
        (ESub (EName y) [ESlice None None None; EName "i" -. I 1] *. (I 4 -. EName "i"))]].
Definition numba_header : list stmt :=
  [SImport; SImport; SImport; SImport; SImport; SImport; SImport;
   set "Ad" (ECall (EName "array") [EList
     [EList [frac (-1); frac 3; frac (-3); frac 1]; EList [frac 3; frac (-6); frac 0; frac 4];
      EList [frac (-3); frac 3; frac 3; frac 1]; EList [frac 1; frac 0; frac 0; frac 0]]] [])] ++
  der_table "dAd" "Ad" ++ der_table "d2Ad" "dAd".
