(** Vocabulary for the property [grid] of CubicSpline: histories that also read it and write to the array it gave. *)
From Coq Require Import ZArith List Bool String.
From Verif Require Import Base SplineModel ArrayModel CartesianModel ObjectModel SpecObject PySyntax ObSem SpecObText.
Import ListNotations.
Open Scope Z_scope.
Open Scope string_scope.
Section Any.
Context {T : Type} {NT : Num T}.
(** A deed of SpecObText.v; reading [grid]; writing an entry of the array that [grid] gave. *)
Inductive gdeed := GDo (e : deed T) | GRead | GWrite (idx : list Z) (x : T).
Fixpoint deeds (hist : list gdeed) : list (deed T) :=
  match hist with [] => [] | GDo e :: hist => e :: deeds hist | _ :: hist => deeds hist end.
(** The state after a history; the array of the last accepted [set_values]; the place of the array that [grid] gave. *)
Fixpoint ghistory junk P c (hist : list gdeed) (w : state T) (last : option (nat * arr T)) (g : option nat) : state T * option (nat * arr T) * option nat :=
  match hist with
  | [] => (w, last, g)
  | GDo (DSet id) :: hist =>
      let r := run junk P c "set_values" [ORef id []] [] w in
      ghistory junk P c hist (fst r) (match snd r with Ok _ => Some (id, nd_arr (h_mem (fst w) id)) | Err _ => last end) g
  | GDo (DWrite id idx x) :: hist => ghistory junk P c hist (mkHeap (h_next (fst w)) (written (h_mem (fst w)) id idx x), snd w) last g
  | GDo (DCall p) :: hist => ghistory junk P c hist (fst (run junk P c "__call__" [pval p] [] w)) last g
  | GRead :: hist =>
      let r := run junk P c "grid" [] [] w in
      ghistory junk P c hist (fst r) last (match snd r with Ok (ORef l []) => Some l | _ => g end)
  | GWrite idx x :: hist =>
      ghistory junk P c hist (match g with None => w | Some l => (mkHeap (h_next (fst w)) (written (h_mem (fst w)) l idx x), snd w) end) last g
  end.
Definition entry (idx : list Z) (x : T) (a : arr T) : arr T := mkArr (ashape a) (fun j => if idx_eqb j idx then x else acell a j).
(** The array that [grid] gave, if it was [P] at the first reading and only the program writes to it. *)
Fixpoint grid_after (hist : list gdeed) (P : arr T) (g : option (arr T)) : option (arr T) :=
  match hist with
  | [] => g
  | GDo _ :: hist => grid_after hist P g
  | GRead :: hist => grid_after hist P (match g with None => Some P | Some a => Some a end)
  | GWrite idx x :: hist => grid_after hist P (option_map (entry idx x) g)
  end.
End Any.
Arguments gdeed : clear implicits.
