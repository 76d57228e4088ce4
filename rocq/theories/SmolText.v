(** The texts of smolyak/util.py, grid.py and interp.py compute what SmolyakModel.v computes: the program. *)
From Coq Require Import ZArith List Bool String Lia.
From Verif Require Import Base BaseFacts PySyntax NpSem SrcSmolyakUtil SrcSmolyakGrid SrcSmolyakInterp.
Import ListNotations.
Open Scope Z_scope.

(** The three modules, one after the other (grid.py imports the names of util.py, interp.py those of grid.py). *)
Definition sm_program : list stmt := Eval vm_compute in
  match parse_text util_py, parse_text grid_py, parse_text interp_py with Some p, Some q, Some r => (p ++ q ++ r)%list | _, _, _ => [] end.
Lemma sm_text : match parse_text util_py, parse_text grid_py, parse_text interp_py with Some p, Some q, Some r => Some (p ++ q ++ r)%list | _, _, _ => None end = Some sm_program.
Proof. vm_cast_no_check (eq_refl (Some sm_program)). Qed.
Definition sm_def (f : string) := match find_def sm_program f with Some d => d | None => ([], []) end.
Definition sm_meth (c f : string) := match find_class sm_program c with Some b => match find_def b f with Some d => d | None => ([], []) end | None => ([], []) end.
