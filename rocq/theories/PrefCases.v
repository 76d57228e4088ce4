(** Concrete cases for C63. *)
From Coq Require Import ZArith List Bool String Reals QArith Lia Lra PrimFloat.
From Verif Require Import Base SplineModel PrefilterModel Spec SpecBasis SpecGrad GradCases PySyntax PySem SpecText SpecPref SrcPrefilterCubic SrcEvalCubicNumba.
Import ListNotations.
Open Scope list_scope.
Open Scope Z_scope.

(** A uniform and a nonuniform dimension, two components. *)
Definition pg {T} `{Num T} : list (gdim T) := [Unif (n_ofZ 0) (n_ofZ 2) 3; Nonunif (map n_ofZ [0; 1; 3; 7])].
Definition pvs {T} `{Num T} : list (val T) := [PTup [PFlt (n_ofZ 0); PFlt (n_ofZ 2); PInt 3]; PArr 1 []].
Definition pV {T} `{Num T} : arr T := mkArr [3; 4; 2] (fun idx => match idx with [i; j; c] => n_ofZ (i * i + 10 * j + 100 * c) | _ => n_ofZ 0 end).
Definition pC {T} `{Num T} : arr T := mkArr [5; 6; 2] (fun _ => n_ofZ 5).
Definition ph {T} `{Num T} : heap T := [OF pV; OF (vecT (map n_ofZ [0; 1; 3; 7])); OF pC].
Lemma case_data {T} {NT : Num T} : data_arg ph 0 pg [3; 4] [2] (pV (T := T)) /\ grid_arg ph 2 pvs (pg (T := T)) /\
  nth_error ph 2 = Some (OF (pC (T := T))) /\ ashape (pC (T := T)) = map (fun m => m + 2) [3; 4] ++ [2].
Proof.
  split; [|split; [split|auto]].
  - repeat split; cbn; auto; try lia. repeat constructor; lia.
  - repeat constructor. exists 1%nat. auto.
  - intros [H|[H|[]]]; discriminate.
Qed.
Definition cells {T} (a : arr T) (l : list (list Z)) : list T := map (acell a) l.
Definition spots : list (list Z) := [[0; 0; 0]; [1; 2; 1]; [4; 5; 1]; [3; 1; 0]].
Lemma case_Q : match run_text (T := Q) prefilter_cubic_py 8 "prefilter" [PTup pvs; PArr 0 []] [] ph, filter_alloc pg pV with
  | Ok (PArr 3 [], h), Ok C => match nth_error h 3 with Some (OF C') => map Qred (cells C' spots) = map Qred (cells C spots) /\
       map Qred (cells C spots) = [-21 # 2; 110; 295 # 2; 4]%Q | _ => False end
  | _, _ => False end.
Proof. vm_compute. split; reflexivity. Qed.
Lemma case_float : match run_text (T := float) prefilter_cubic_py 7 "prefilter" [PTup pvs; PArr 0 []] [("out"%string, PArr 2 [])] ph, filter_inplace pg pV pC with
  | Ok (PNone, h), Ok C => match nth_error h 2 with Some (OF C') => cells C' spots = cells C spots | _ => False end
  | _, _ => False end.
Proof. vm_compute. reflexivity. Qed.
(** Filter, then evaluate at the node (1, 2). *)
Definition qg2 : list (Q * Q * Z) := [(0%Q, 1%Q, 3); ((-1)%Q, 1%Q, 4)].
Definition qv2 : arr Q := mkArr [3; 4] (fun idx => match idx with [i; j] => inject_Z (i * i * j + 10 * j) | _ => 0%Q end).
Definition array_of (r : res (val Q * heap Q)) : option (arr Q) :=
  match r with
  | Ok (PArr k [], h) => match nth_error h k with Some (OF C) => Some C | _ => None end
  | _ => None end.
Definition number_of (r : res (val Q * heap Q)) : option Q := match r with Ok (PFlt v, _) => Some (Qred v) | _ => None end.
Definition filtered : option (arr Q) :=
  array_of (run_text (T := Q) prefilter_cubic_py 7 "prefilter" [PTup (tuples qg2); PArr 0 []] [] [OF qv2]).
Definition node_value (C : arr Q) : option Q :=
  number_of (run_text (T := Q) eval_cubic_numba_py 1 (dim_name "eval_cubic_spline_" 2) (arrays 5) []
     [OF (vecT [0; -1]%Q); OF (vecT [1; 1]%Q); OI (vecZ [3; 4]); OF C; OF (vecT [1 # 2; 1 # 3]%Q)]).
Lemma case_texts : match filtered with Some C => node_value C | None => None end = Some 22%Q.
Proof. vm_compute. reflexivity. Qed.
