(** Specification vocabulary for the spline objects: histories of calls, row-major order. *)
From Coq Require Import ZArith List Bool Reals.
From Verif Require Import Base SplineModel SmolyakModel ObjectModel.
Import ListNotations.
Open Scope Z_scope.

(** What a caller does between two evaluations: [set_values] with one of its arrays, or writing
    an entry of one of its arrays. *)
Inductive event (T : Type) := SetValues (id : nat) | Write (id : nat) (idx : list Z) (x : T).
Arguments SetValues {T} id.
Arguments Write {T} id idx x.

(** The arrays of the caller after [arrays[id][idx] = x]. *)
Definition written {T} (m : memory T) (id : nat) (idx : list Z) (x : T) : memory T :=
  fun i => if Nat.eqb i id
           then mkNd (nd_plain (m i)) (mkArr (ashape (nd_arr (m i))) (fun j => if idx_eqb j idx then x else acell (nd_arr (m i)) j))
           else m i.

(** State of an object after a history, arrays of the caller, and the array of the last call of
    [set_values] that did not raise, with its content at the time of the call. *)
Fixpoint after {T S} (set : memory T -> S -> nat -> S * res unit) (h : list (event T)) (s : S) (m : memory T)
  (last : option (nat * arr T)) : S * memory T * option (nat * arr T) :=
  match h with
  | [] => (s, m, last)
  | SetValues id :: h =>
      let '(s', r) := set m s id in
      after set h s' m (match r with Ok _ => Some (id, nd_arr (m id)) | Err _ => last end)
  | Write id idx x :: h => after set h s (written m id idx x) last
  end.

(** Arrays of a caller who has a single one, not shared with anybody. *)
Definition only {T} (a : arr T) : memory T := fun _ => mkNd false a.

(** Position of a multi-index in row-major order: the last index varies fastest. *)
Definition position (sh idx : list Z) : Z := fold_left (fun r ni => r * fst ni + snd ni) (combine sh idx) 0.

(** Number of entries. *)
Definition entries (sh : list Z) : Z := fold_right Z.mul 1 sh.

(** Call with rows of points: [v] is entry [suf] of row [n] whenever row [n] of the argument is [pt]. *)
Definition rows_give {T} (ev : arr T -> res (pyval T)) (d : Z) (comps : list Z) (pt : list T) (suf : list Z) (v : T) : Prop :=
  forall points N n, ashape points = [N; d] -> 0 <= n < N -> map (fun j => acell points [n; j]) (zrange d) = pt ->
    exists o, ev points = Ok (VArr o) /\ ashape o = N :: comps /\ acell o (n :: suf) = v.

(** Call with one point: entry [suf] of the result ([] for a number). *)
Definition point_gives {T} (r : res (pyval T)) (suf : list Z) (v : T) : Prop :=
  match r, suf with
  | Ok (VNum x), [] => x = v
  | Ok (VArr a), [k] => acell a [k] = v /\ exists n, ashape a = [n] /\ 0 <= k < n
  | _, _ => False
  end.

(** [W] has shape [sh] and the entries of [V] in the same row-major order. *)
Definition same_order {T} (V : arr T) (sh : list Z) (W : arr T) : Prop :=
  ashape W = sh /\ forall idx j, inb sh idx = true -> inb (ashape V) j = true ->
    position (ashape V) j = position sh idx -> acell W idx = acell V j.

(** The optional output array of a call with rows has one entry per row. *)
Definition out_fits {T} (out : arr T -> option (arr T)) : Prop :=
  forall p o, out p = Some o -> ashape o = firstn 1 (ashape p).

Section Any.
Context {T : Type} {NT : Num T}.
(** [set_values] with an array of the caller. *)
Definition cs_step (m : memory T) (s : cubic T) (id : nat) := cs_set s (nd_arr (m id)).
Definition mcs_step (nan : T) (m : memory T) (s : cubics T) (id : nat) := mcs_set nan s (nd_arr (m id)).
Definition si_step (solve : solver) (m : memory T) (s : sinterp T) (id : nat) := si_update solve s (nd_arr (m id)).

(** The content that an array has now if it is shared, at the call if it was copied. *)
Definition content_used (m m' : memory T) (last : option (nat * arr T)) : option (arr T) :=
  match last with
  | None => None
  | Some (id, v) => Some (if nd_plain (m id) then nd_arr (m' id) else v)
  end.
(** A new LinearSpline or LinearSplines with values nobody else holds, and its evaluation. *)
Definition ls_fresh (multi : bool) (smin smax : list T) (orders : list Z) (v : option (arr T)) : res (linear T) :=
  match v with
  | None => ls_new (only (azeros [])) multi smin smax orders None
  | Some v => ls_new (only v) multi smin smax orders (Some 0%nat)
  end.
Definition ls_fresh_eval (s1 : linear T) (v : option (arr T)) (p : pts T) : res (pyval T) :=
  ls_interpolate (only (match v with Some v => v | None => azeros [] end)) s1 p.
End Any.

(** All calls of an object give [v] at [pt] (component [k] or [suf]). *)
Definition cs_gives (g : list (R * R * Z)) (s : cubic R) (pt : list R) (v : R) : Prop :=
  forall junk,
    (forall values, point_gives (cs_interpolate junk s (P1 pt) values false) [] v) /\
    point_gives (cs_call junk s (P1 pt)) [] v /\
    (forall out, out_fits out -> rows_give (fun p => cs_interpolate junk s (P2 p) (out p) false) (zlen g) [] pt [] v) /\
    rows_give (fun p => cs_call junk s (P2 p)) (zlen g) [] pt [] v.
Definition mcs_gives (g : list (R * R * Z)) (s : cubics R) (ns : Z) (pt : list R) (k : Z) (v : R) : Prop :=
  forall junk,
    point_gives (mcs_call junk s (P1 pt)) [k] v /\
    rows_give (fun p => mcs_call junk s (P2 p)) (zlen g) [ns] pt [k] v /\
    rows_give (fun p => r <- mcs_interpolate junk s (P2 p) false ;; Ok (fst r)) (zlen g) [ns] pt [k] v.
Definition ls_comps (multi : bool) (ns : Z) : list Z := if multi then [ns] else [].
Definition ls_gives (m : memory R) (g : list (R * R * Z)) (s : linear R) (comps : list Z) (pt : list R) (suf : list Z) (v : R) : Prop :=
  (point_gives (ls_interpolate m s (P1 pt)) suf v) /\
  (point_gives (ls_call m s (P1 pt)) suf v) /\
  rows_give (fun p => ls_interpolate m s (P2 p)) (zlen g) comps pt suf v /\
  rows_give (fun p => ls_call m s (P2 p)) (zlen g) comps pt suf v.
