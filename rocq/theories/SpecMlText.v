(** Vocabulary for the texts of multilinear/fungen.py and mlinterp.py: what is passed to [interp] and [mlinterp],
    and what they return. *)
From Coq Require Import ZArith List Bool String.
From Verif Require Import Base SplineModel InterpModel SpecInterp PySyntax MlSem SrcFungen SrcMlinterp.
Import ListNotations.
Open Scope Z_scope.

(** A call of a function of the two modules (mlinterp.py imports the names of fungen.py) with the arguments [vs]. *)
Definition ml_modules (a b : list text) : option (list stmt) :=
  match parse_text a, parse_text b with Some p, Some q => Some (p ++ q)%list | _, _ => None end.
Definition ml_in {T} {NT : Num T} (o : option (list stmt)) (f : string) (vs : list (rv T)) : res (rv T) :=
  match o with Some P => rcall std P 60 f vs | None => Err TypeErr end.
Definition ml_text {T} {NT : Num T} := ml_in (T := T) (ml_modules fungen_py mlinterp_py).

(** The arguments of the model as arguments of the text, and its results. *)
Definition of_arg {T} (e : iarg T) : rv T :=
  match e with AScalar x => RF x | ATuple l => RT (map RF l) | AArr a => RA a | ADim a b n => RT [RF a; RF b; RI n] end.
Definition of_val {T} (v : pyval T) : rv T :=
  match v with VNum x => RF x | VArr a => RA a | VTuple l => RT (map RF l) | VNone => RNone end.

(** The points in a call of [interp] in [d] dimensions: a tuple, [d] numbers, an array of one or two dimensions,
    in two dimensions also two vectors. *)
Definition points_arg {T} (d : nat) (ea : list (iarg T)) : Prop :=
  (exists pt, List.length pt = d /\ (ea = [ATuple pt] \/ ea = map AScalar pt)) \/
  (exists a, (andim a = 1 \/ andim a = 2) /\ ea = [AArr a]) \/
  (d = 2%nat /\ exists a b, andim a = 1 /\ andim b = 1 /\ ea = [AArr a; AArr b]).
