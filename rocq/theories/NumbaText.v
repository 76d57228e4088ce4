(** The text of eval_cubic_numba.py contains exactly the functions of NumbaGen.v. *)
From Coq Require Import ZArith List Bool String.
From Verif Require Import Base PySyntax PyEq PySem NumbaGen SrcEvalCubicNumba.
Import ListNotations.

(** The decorator of all functions. *)
Definition njit_cache : expr := ECall (EName "njit"%string) [] [("cache"%string, ETrue)].

(** The whole file: the tables, then the twenty functions, and nothing else. *)
Definition numba_program : list stmt :=
  numba_header ++
  map (fun x => SDeco njit_cache (SDef (fst x) (fst (snd x)) (snd (snd x))))
    (List.concat (map (fun k => map (fun d => nth k (numba_defs d) (""%string, ([], []))) [1; 2; 3; 4]%nat) [0; 1; 2; 3; 4]%nat)).

Lemma numba_check : match parse_text eval_cubic_numba_py with Some p => list_eqb stmt_eqb p numba_program | None => false end = true.
Proof. vm_cast_no_check (eq_refl true). Qed.

Lemma numba_text : parse_text eval_cubic_numba_py = Some numba_program.
Proof.
  pose proof numba_check as H. destruct (parse_text eval_cubic_numba_py) as [p|]; [|discriminate].
  apply list_eqb_ok in H; [congruence|]. apply Forall_forall; intros; apply stmt_eqb_ok; auto.
Qed.
