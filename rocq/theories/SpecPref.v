(** Specification vocabulary for the text of prefilter_cubic.py. *)
From Coq Require Import ZArith List String.
From Verif Require Import Base SplineModel PySyntax PySem SpecText.
Import ListNotations.
Open Scope list_scope.
Open Scope Z_scope.

Section Pref.
Context {T : Type} {NT : Num T}.

(** The Python value of one dimension of a grid: a tuple [(a, b, n)], or a whole array of nodes. *)
Definition dim_arg (h : heap T) (v : val T) (g : gdim T) : Prop :=
  match g with
  | Unif a b n => v = PTup [PFlt a; PFlt b; PInt n]
  | Nonunif gc => exists k, v = PArr k [] /\ nth_error h k = Some (OF (vecT gc))
  end.
(** [vs] are the Python values of the dimensions of [grid], none of them the array number [kc]. *)
Definition grid_arg (h : heap T) (kc : nat) (vs : list (val T)) (grid : list (gdim T)) : Prop :=
  Forall2 (dim_arg h) vs grid /\ ~ In (PArr kc []) vs.

(** The array number [kd] has one axis for each dimension of the grid, none of them empty, then [comps] axes. *)
Definition data_arg (h : heap T) (kd : nat) (grid : list (gdim T)) (dims comps : list Z) (D : arr T) : Prop :=
  nth_error h kd = Some (OF D) /\ ashape D = dims ++ comps /\ Forall (fun m => 1 <= m) dims /\
  List.length grid = List.length dims /\ (1 <= List.length dims <= 4)%nat.

(** [prefilter(grid, V, out=None, k=3)]: the ways of passing [out] and [k]. *)
Definition prefilter_call (us : list (val T)) (ks : list (string * val T)) (g V out : val T) (k : Z) : Prop :=
  In (us, ks)
    [([g; V; out; PInt k], []);
     ([g; V; out], [("k"%string, PInt k)]);
     ([g; V], [("out"%string, out); ("k"%string, PInt k)]);
     ([g; V], [("k"%string, PInt k); ("out"%string, out)])]
  \/ k = 3 /\ In (us, ks) [([g; V; out], []); ([g; V], [("out"%string, out)])]
  \/ out = PNone /\ (us, ks) = ([g; V], [("k"%string, PInt k)])
  \/ out = PNone /\ k = 3 /\ (us, ks) = ([g; V], []).

(** Outcome [r] of a computation, observed on a call: a new array is returned, first after the arrays
    that existed before, which are all unchanged. *)
Definition returns_new (h : heap T) (r : res (arr T)) (x : res (val T * heap T)) : Prop :=
  match r with
  | Ok C => exists junk, x = Ok (PArr (List.length h) [], h ++ OF C :: junk)
  | Err e => x = Err e
  end.
(** The same for a call that writes the array number [kc] and returns None: all others are unchanged. *)
Definition overwrites (h : heap T) (kc : nat) (r : res (arr T)) (x : res (val T * heap T)) : Prop :=
  match r with
  | Ok C => exists h' junk, x = Ok (PNone, h' ++ junk) /\ List.length h' = List.length h /\ nth_error h' kc = Some (OF C) /\
      forall k, k <> kc -> nth_error h' k = nth_error h k
  | Err e => x = Err e
  end.
End Pref.

(** A uniform grid as a tuple of tuples. *)
Definition tuples {T} (g : list (T * T * Z)) : list (val T) := map (fun t => PTup [PFlt (fst (fst t)); PFlt (snd (fst t)); PInt (snd t)]) g.
