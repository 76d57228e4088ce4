(** Vocabulary for two objects of the spline classes in one program. *)
From Coq Require Import ZArith List Bool String.
From Verif Require Import Base SplineModel ArrayModel CartesianModel ObjectModel SpecObject PySyntax ObSem SpecObText.
Import ListNotations.
Open Scope Z_scope.
Open Scope string_scope.
(** The four classes of splines.py and multilinear.py: their programs and names. *)
Inductive kind := KCubic | KCubics | KLinear (multi : bool).
Definition text_of (c : kind) : option (list stmt) := match c with KLinear _ => linear_program | _ => cubic_program end.
Definition name_of (c : kind) : string := match c with KCubic => "CubicSpline" | KCubics => "CubicSplines" | KLinear multi => lclass multi end.
Section Any.
Context {T : Type} {NT : Num T}.
(** [obj.m(v)] *)
Definition meth junk (c : kind) (m : string) (v : ov T) (w : state T) : state T * res (ov T) := run junk (text_of c) (name_of c) m [v] [] w.
(** A history with two objects in one heap: [true] marks the deeds with the first one.  Their attributes are [A] and [B]. *)
Fixpoint both junk (c d : kind) (hist : list (bool * deed T)) (h : heap T) (A B : list (string * ov T)) : heap T * list (string * ov T) * list (string * ov T) :=
  match hist with
  | [] => (h, A, B)
  | (_, DWrite id idx x) :: hist => both junk c d hist (mkHeap (h_next h) (written (h_mem h) id idx x)) A B
  | (true, DSet id) :: hist => let w := fst (meth junk c "set_values" (ORef id []) (h, A)) in both junk c d hist (fst w) (snd w) B
  | (false, DSet id) :: hist => let w := fst (meth junk d "set_values" (ORef id []) (h, B)) in both junk c d hist (fst w) A (snd w)
  | (true, DCall p) :: hist => let w := fst (meth junk c "__call__" (pval p) (h, A)) in both junk c d hist (fst w) (snd w) B
  | (false, DCall p) :: hist => let w := fst (meth junk d "__call__" (pval p) (h, B)) in both junk c d hist (fst w) A (snd w)
  end.
(** What concerns one of the two objects: its deeds, and the writes to the arrays of the program. *)
Definition part (one : bool) (hist : list (bool * deed T)) : list (deed T) :=
  map snd (filter (fun e => match snd e with DWrite _ _ _ => true | _ => Bool.eqb (fst e) one end) hist).
End Any.
