(** Specification vocabulary for the text of filter_cubic.py. *)
From Coq Require Import ZArith List String.
From Verif Require Import Base PySyntax PySem.
Import ListNotations.
Open Scope list_scope.

Section Filt.
Context {T : Type} {NT : Num T}.
(** Outcome [r] of a computation that may return None, observed on a call: a new array, first after the
    arrays that existed before, which are all unchanged; or None and no new array. *)
Definition returns_opt (h : heap T) (r : res (option (arr T))) (x : res (val T * heap T)) : Prop :=
  match r with
  | Ok (Some C) => exists junk, x = Ok (PArr (List.length h) [], h ++ OF C :: junk)
  | Ok None => x = Ok (PNone, h)
  | Err e => x = Err e
  end.
End Filt.
