(** Vocabulary for the texts of the spline classes: the programs, the operations of the interpreter of ObSem.v,
    histories of a program that uses an object. *)
From Coq Require Import ZArith List Bool String Reals.
From Verif Require Import Base SplineModel PrefilterModel ArrayModel CartesianModel GradModel ObjectModel SpecObject PySyntax ObSem.
From Verif Require Import SrcSplines SrcMultilinear SrcEvalCubic SrcFilterCubic.
Import ListNotations.
Open Scope Z_scope.
Open Scope string_scope.

(** The texts, parsed.  The functions of filter_cubic.py and eval_cubic.py are visible in splines.py through imports;
    those of splines.py come first. *)
Definition join3 (a b c : list text) : option (list stmt) :=
  match parse_text a, parse_text b, parse_text c with Some p, Some q, Some r => Some (p ++ q ++ r)%list | _, _, _ => None end.
Definition cubic_program : option (list stmt) := join3 splines_py filter_cubic_py eval_cubic_py.
Definition linear_program : option (list stmt) := parse_text multilinear_py.

(** multilinear.py: the class of many functions, of one. *)
Definition lclass (multi : bool) : string := if multi then "LinearSplines" else "LinearSpline".

(** A heap: the next free place, and the arrays. *)
Record heap (T : Type) := mkHeap { h_next : nat; h_mem : memory T }.
Arguments mkHeap {T} h_next h_mem. Arguments h_next {T} h. Arguments h_mem {T} h.
Definition h_put {T} (h : heap T) (l : nat) (v : nd T) : nat -> nd T := fun i => if Nat.eqb i l then v else h_mem h i.

Section Any.
Context {T : Type} {NT : Num T}.
Definition h_read (h : heap T) (l : nat) (vs : list (list Z)) : res (arr T) := foldM areshape vs (nd_arr (h_mem h l)).
(** filter_cubic.py: [filter_coeffs_1d] .. [filter_coeffs_4d]. *)
Definition filter_dims (d : Z) (dinv : list T) (a : arr T) : res (arr T) :=
  if (zlen dinv =? d)%Z then c <- filter_data dinv a ;; match c with Some c => Ok c | None => Err TypeErr end else Err IndexErr.
(** [junk]: what [np.empty] contains. *)
Definition np_ops (junk : list Z -> T) : ops T (heap T) := {|
  o_eqb := Z.eqb; o_add := Z.add; o_num := n_ofZ; o_sub := n_sub; o_div := n_div;
  o_next := h_next;
  o_alloc h plain a := mkHeap (S (h_next h)) (h_put h (h_next h) (mkNd plain a));
  o_read := h_read;
  o_write h l a := mkHeap (h_next h) (h_put h l (mkNd (nd_plain (h_mem h l)) a));
  o_plain h l := nd_plain (h_mem h l);
  o_reshape := areshape;
  o_dim sh i := lget sh (if (i <? 0)%Z then (zlen sh + i)%Z else i);
  o_comp := acomp; o_setcomp := aset_comp;
  o_zeros := azeros; o_empty sh := mkArr sh junk;
  o_finite := all_finite; o_finite1 := forallb n_finite;
  o_row x := (zlen x, acell (atleast_2d x));
  o_first a := first_row (VArr a);
  o_ravel a := areshape a [zprod (ashape a)];
  o_filter := filter_dims;
  o_eval q g c p o := if (q =? 3)%Z then eval_cubic g c p o None else eval_linear g c p o None;
  o_grad := splines_G;
  o_mlinspace a b n := mlinspace a b n OrderC |}.

Definition state : Type := heap T * list (string * ov T).
(** [self.m(..)] and [C(..)] in the text [P] of a module, for the class named [c]: the new state, and what is returned. *)
Definition run (junk : list Z -> T) (P : option (list stmt)) (c m : string) (vs : list (ov T)) (kws : list (string * ov T)) (w : state)
  : state * res (ov T) :=
  match P with Some P => method (np_ops junk) P (find_class P c) m vs kws w | None => (w, Err FuelErr) end.
(** A point or rows of points, as an argument. *)
Definition pval (p : pts T) : ov T := match p with P1 x => OVec x | P2 q => OMat q end.
Definition vref (v : option nat) : ov T := match v with None => ONone | Some l => ORef l [] end.
Definition rows (p : pts T) : Prop := match p with P1 _ => True | P2 q => exists N D, ashape q = [N; D] end.

(** What the caller sees of the result of a call: numbers, the content of an array. *)
Fixpoint floats (l : list (ov T)) : option (list T) :=
  match l with
  | [] => Some []
  | OF x :: l => match floats l with Some l => Some (x :: l) | None => None end
  | _ => None
  end.
Definition seen (r : state * res (ov T)) : res (pyval T) :=
  match snd r with
  | Err e => Err e
  | Ok ONone => Ok VNone
  | Ok (OF x) => Ok (VNum x)
  | Ok (ORef l vs) => a <- h_read (fst (fst r)) l vs ;; Ok (VArr a)
  | Ok (OL l) => match floats l with Some l => Ok (VTuple l) | None => Err TypeErr end
  | Ok _ => Err TypeErr
  end.
(** The same for a pair of arrays. *)
Definition seen2 (r : state * res (ov T)) : res (pyval T * option (arr T)) :=
  match snd r with
  | Err e => Err e
  | Ok (OL [ORef l vs; ORef l' vs']) => a <- h_read (fst (fst r)) l vs ;; b <- h_read (fst (fst r)) l' vs' ;; Ok (VArr a, Some b)
  | Ok _ => Err TypeErr
  end.
(** Both raise, or both return the same. *)
Definition same {A} (r s : res A) : Prop :=
  match r, s with Ok x, Ok y => x = y | Err _, Err _ => True | _, _ => False end.

(** What a program does with an object: [set_values] with one of its arrays, writing an entry of one of its arrays,
    a call. *)
Inductive deed := DSet (id : nat) | DWrite (id : nat) (idx : list Z) (x : T) | DCall (p : pts T).
Definition deed_ok (k : nat) (e : deed) : Prop :=
  match e with DSet id => (id < k)%nat | DWrite id _ _ => (id < k)%nat | DCall p => rows p end.
(** The state after a history, and the array of the last call of [set_values] that did not raise, with its content at
    the time of the call. *)
Fixpoint history junk P c (hist : list deed) (w : state) (last : option (nat * arr T)) : state * option (nat * arr T) :=
  match hist with
  | [] => (w, last)
  | DSet id :: hist =>
      let r := run junk P c "set_values" [ORef id []] [] w in
      history junk P c hist (fst r) (match snd r with Ok _ => Some (id, nd_arr (h_mem (fst w) id)) | Err _ => last end)
  | DWrite id idx x :: hist => history junk P c hist (mkHeap (h_next (fst w)) (written (h_mem (fst w)) id idx x), snd w) last
  | DCall p :: hist => history junk P c hist (fst (run junk P c "__call__" [pval p] [] w)) last
  end.
(** The caller's arrays if only the caller writes. *)
Fixpoint writes (hist : list deed) (m : memory T) : memory T :=
  match hist with
  | [] => m
  | DWrite id idx x :: hist => writes hist (written m id idx x)
  | _ :: hist => writes hist m
  end.
(** The same history for the objects of ObjectModel.v. *)
Fixpoint events (hist : list deed) : list (event T) :=
  match hist with
  | [] => []
  | DSet id :: hist => SetValues id :: events hist
  | DWrite id idx x :: hist => Write id idx x :: events hist
  | DCall _ :: hist => events hist
  end.
(** The dimensions documented, arguments of the same length. *)
Definition dims (a b : list T) (n : list Z) : Prop := (1 <= List.length a <= 4)%nat /\ List.length b = List.length a /\ List.length n = List.length a.
(** [C(a, b, n, values)] *)
Definition make junk P c (a b : list T) (n : list Z) (v : option nat) (h : heap T) : state * res (ov T) :=
  run junk P c "__init__" [OL (map OF a); OL (map OF b); OL (map OI n); vref v] [] (h, []).
(** A caller with one array at most. *)
Definition alone (plain : bool) (v : option (arr T)) : heap T :=
  mkHeap 1 (fun _ => mkNd plain (match v with Some v => v | None => azeros [] end)).
End Any.
Arguments state : clear implicits.
Arguments deed : clear implicits.
