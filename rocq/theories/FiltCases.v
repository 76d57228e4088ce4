(** Concrete cases for C71. *)
From Coq Require Import ZArith List Bool String Reals QArith Lia Lra PrimFloat.
From Verif Require Import Base SplineModel PrefilterModel Spec SpecBasis SpecGrad GradCases PySyntax PySem SpecText SpecPref SpecFilt SrcPrefilterCubic SrcFilterCubic SrcEvalCubicNumba PrefCases.
Import ListNotations.
Open Scope list_scope.
Open Scope Z_scope.

(** 3 x 4 data and two steps. *)
Definition fD {T} `{Num T} : arr T := mkArr [3; 4] (fun idx => match idx with [i; j] => n_ofZ (i * i * j + 10 * j) | _ => n_ofZ 0 end).
Definition fh {T} `{Num T} : heap T := [OF (vecT [n_ofZ 5; n_ofZ 7]); OF fD].
Definition fspots : list (list Z) := [[0; 0]; [1; 2]; [4; 5]; [3; 1]].
Lemma case_filt_Q : match run_text (T := Q) filter_cubic_py 4 "filter_data" [PArr 0 []; PArr 1 []] [] fh with
  | Ok (PArr 2 [], h) => match nth_error h 2 with Some (OF C) => map Qred (cells C fspots) = [-19 # 2; 10; 70; 0]%Q | _ => False end
  | _ => False end.
Proof. vm_compute. reflexivity. Qed.
Lemma case_filt_float : match run_text (T := float) filter_cubic_py 4 "filter_data" [PArr 0 []; PArr 1 []] [] fh, filter_data (T := float) [5; 7]%float fD with
  | Ok (PArr 2 [], h), Ok (Some C) => match nth_error h 2 with Some (OF C') => cells C' fspots = cells C fspots | _ => False end
  | _, _ => False end.
Proof. vm_compute. reflexivity. Qed.
(** Filter with [filter_data], then evaluate at the node (1, 2). *)
Definition old_filtered : option (arr Q) :=
  array_of (run_text (T := Q) filter_cubic_py 4 "filter_data" [PArr 0 []; PArr 1 []] [] fh).
Lemma case_old_texts : match old_filtered with Some C => node_value C | None => None end = Some 22%Q.
Proof. vm_compute. reflexivity. Qed.
(** Five dimensions. *)
Lemma case_five : run_text (T := float) filter_cubic_py 4 "filter_data" [PArr 0 []; PArr 1 []] [] [OF (vecT [1; 1; 1; 1; 1]%float); OF (azeros [2; 2; 2; 2; 2])]
  = Ok (PNone, [OF (vecT [1; 1; 1; 1; 1]%float); OF (azeros [2; 2; 2; 2; 2])]).
Proof. vm_compute. reflexivity. Qed.
Lemma case_steps : valid_grid (unif_grid g2) /\ (1 <= List.length g2 <= 4)%nat /\ ashape (fD (T := R)) = counts g2 /\
  List.length [1; -2]%R = List.length g2 /\ List.Forall (fun x => x <> 0%R) [1; -2]%R.
Proof.
  split; [exact g2_valid|]. split; [cbn; lia|]. split; [reflexivity|]. split; [reflexivity|]. repeat constructor; lra.
Qed.
