(** C80-C82: polynomials reproduced by Smolyak interpolation, the points of the grids, refinement,
    symmetries. *)
From Coq Require Import ZArith List Bool Lia Reals Lra Permutation.
From Coquelicot Require Import Coquelicot.
From Verif Require Import Base CompleteModel SpecComplete SmolyakModel SpecSmolyak SmolyakGridR SmolyakProps SpecExact SmolyakExact SpecSym SmolyakSym.
Import ListNotations.
Open Scope Z_scope.
Local Notation Forall := List.Forall.

(** C80 *)
Theorem C80_polynomials_exact tiny lu solve d mu m lb ub lbl ubl tl : lu_ok lu -> solve_ok solve ->
  2 <= d -> density_ok d mu m -> tiny_ok tiny (m + 1) -> bound_list d (-1) lb lbl -> bound_list d 1 ub ubl -> Forall2 Rlt lbl ubl -> outshape tl ->
  exists sg n, sg_new (s_n PI cos tiny) lu d mu lb ub = Ok sg /\ 0 < n /\ ashape (sg_grid sg) = [n; d] /\
  forall f (F : list Z -> polynomial), ashape f = n :: tl -> (forall tail, inb tl tail = true -> in_space d mu m (F tail)) ->
    (forall p tail, 0 <= p < n -> inb tl tail = true -> acell f (p :: tail) = poly_value (F tail) (mrow d (sg_grid sg) p)) ->
  exists si, si_new solve sg f = Ok si /\ forall k pts, 0 <= k -> ashape pts = [k; d] ->
    exists v, si_interpolate solve si pts true false false false = Ok [v] /\ ashape v = k :: tl /\
      forall p tail, 0 <= p < k -> inb tl tail = true -> acell v (p :: tail) = poly_value (F tail) (mrow d pts p).
Proof. intros H1 H2 H3 H4 H5 H6 H7 H8 H9. exact (polynomials_exact tiny lu solve H1 H2 d lb ub lbl ubl H3 H6 H7 H8 mu m tl H4 H5 H9). Qed.
Print Assumptions C80_polynomials_exact.
Theorem C80_gradients_exact tiny lu solve d mu m lb ub lbl ubl : lu_ok lu -> solve_ok solve ->
  2 <= d -> density_ok d mu m -> tiny_ok tiny (m + 1) -> bound_list d (-1) lb lbl -> bound_list d 1 ub ubl -> Forall2 Rlt lbl ubl ->
  exists sg n, sg_new (s_n PI cos tiny) lu d mu lb ub = Ok sg /\ 0 < n /\ ashape (sg_grid sg) = [n; d] /\
  forall f (F : polynomial), ashape f = [n] -> in_space d mu m F -> (forall p, 0 <= p < n -> acell f [p] = poly_value F (mrow d (sg_grid sg) p)) ->
  exists si, si_new solve sg f = Ok si /\ forall k pts, 0 <= k -> ashape pts = [k; d] ->
    exists v dv, si_interpolate solve si pts true true false false = Ok [v; dv] /\ ashape v = [k] /\ ashape dv = [k; d] /\
      (forall p, 0 <= p < k -> acell v [p] = poly_value F (mrow d pts p)) /\
      forall p i, 0 <= p < k -> 0 <= i < d -> is_derive (fun s : R => poly_value F (replace_at (mrow d pts p) i s)) (acell pts [p; i]) (acell dv [p; i]).
Proof. intros H1 H2 H3 H4 H5 H6 H7 H8. exact (gradients_exact tiny lu solve H1 H2 d lb ub lbl ubl H3 H6 H7 H8 mu m H4 H5). Qed.
Print Assumptions C80_gradients_exact.
(** Enough: total degree at most the density (and the degree in each variable at most its own). *)
Theorem C80_low_degree d mu m p : density_ok d mu m ->
  Forall (fun t => zlen (snd t) = d /\ Z.of_nat (degree (snd t)) <= m /\ match mu with MuInt _ => True | MuArr l => Forall2 (fun e k => Z.of_nat e <= k) (snd t) l end) p -> in_space d mu m p.
Proof. exact (low_degree d mu m p). Qed.
Print Assumptions C80_low_degree.
(** 3 - 2 x y + x^4 on a grid of density 2, and a term outside of the space. *)
Example C80_case : lu_ok lu_triv /\ solve_ok solve_triv /\ in_space 2 (MuInt 2) 2 [(3%R, [0%nat; 0%nat]); ((-2)%R, [1%nat; 1%nat]); (1%R, [4%nat; 0%nat])] /\
  poly_value [(3%R, [0%nat; 0%nat]); ((-2)%R, [1%nat; 1%nat]); (1%R, [4%nat; 0%nat])] [2%R; 5%R] = (-1)%R /\
  ~ in_space 2 (MuInt 2) 2 [(1%R, [3%nat; 1%nat])].
Proof.
  split; [exact lu_triv_ok|]. split; [exact solve_triv_ok|]. split; [|split].
  - repeat constructor; cbn [snd].
    + exists [1; 1]. split; [repeat split; repeat constructor; cbn; lia|repeat constructor].
    + exists [2; 2]. split; [repeat split; repeat constructor; cbn; lia|repeat constructor].
    + exists [3; 1]. split; [repeat split; repeat constructor; cbn; lia|repeat constructor].
  - cbn. lra.
  - intros H. inversion H as [|? ? (v & (_ & Hv & Ht) & Hf) _]; subst. cbn [snd] in Hf. inversion Hf as [|i ? v' ? Hi Hf']; subst. inversion Hf' as [|j ? v'' ? Hj Hf'']; subst. inversion Hf''; subst. cbn in Ht. inversion Hv as [|? ? Hi1 Hv']; subst. inversion Hv' as [|? ? Hj1 _]; subst.
    assert (2 <= j). { destruct (Z.eq_dec j 1) as [->|]; [cbn in Hj; lia|lia]. } assert (3 <= i). { destruct (Z.eq_dec i 1) as [->|]; [cbn in Hi; lia|]. destruct (Z.eq_dec i 2) as [->|]; [cbn in Hi; lia|lia]. } lia.
Qed.

(** C81 *)
Theorem C81_grid_points tiny d mu m : 2 <= d -> density_ok d mu m -> tiny_ok tiny (m + 1) ->
  exists g n, build_grid (s_n PI cos tiny) d mu = Ok g /\ ashape g = [n; d] /\
  forall x, (exists p, 0 <= p < n /\ mrow d g p = x) <-> exists v, smolyak_index d mu m v /\ Forall2 is_extremum v x.
Proof. intros H1. exact (grid_points tiny d H1 mu m). Qed.
Print Assumptions C81_grid_points.
Theorem C81_grids_nested tiny lu d mu m mu' m' lb ub lbl ubl : lu_ok lu ->
  2 <= d -> bound_list d (-1) lb lbl -> bound_list d 1 ub ubl -> Forall2 Rlt lbl ubl ->
  density_ok d mu m -> density_ok d mu' m' -> coarser mu mu' -> tiny_ok tiny (m + 1) -> tiny_ok tiny (m' + 1) ->
  exists sg n sg' n', sg_new (s_n PI cos tiny) lu d mu lb ub = Ok sg /\ sg_new (s_n PI cos tiny) lu d mu' lb ub = Ok sg' /\
  ashape (sg_grid sg) = [n; d] /\ ashape (sg_grid sg') = [n'; d] /\ n <= n' /\
  forall p, 0 <= p < n -> exists q, 0 <= q < n' /\ mrow d (sg_grid sg') q = mrow d (sg_grid sg) p.
Proof. intros H1 H2 H3 H4 H5. exact (grids_nested tiny lu H1 d lb ub lbl ubl H2 H3 H4 H5 mu m mu' m'). Qed.
Print Assumptions C81_grids_nested.
Theorem C81_refine tiny lu solve d mu m mu' m' lb ub lbl ubl tl : lu_ok lu -> solve_ok solve ->
  2 <= d -> bound_list d (-1) lb lbl -> bound_list d 1 ub ubl -> Forall2 Rlt lbl ubl ->
  density_ok d mu m -> density_ok d mu' m' -> coarser mu mu' -> tiny_ok tiny (m + 1) -> tiny_ok tiny (m' + 1) -> outshape tl ->
  exists sg n sg' n', sg_new (s_n PI cos tiny) lu d mu lb ub = Ok sg /\ sg_new (s_n PI cos tiny) lu d mu' lb ub = Ok sg' /\
  0 < n /\ ashape (sg_grid sg) = [n; d] /\ 0 < n' /\ ashape (sg_grid sg') = [n'; d] /\
  forall f, ashape f = n :: tl -> exists si f' si', si_new solve sg f = Ok si /\ si_interpolate solve si (sg_grid sg') true false false false = Ok [f'] /\
    ashape f' = n' :: tl /\ si_new solve sg' f' = Ok si' /\
    forall k pts, 0 <= k -> ashape pts = [k; d] -> exists v v', si_interpolate solve si pts true false false false = Ok [v] /\
      si_interpolate solve si' pts true false false false = Ok [v'] /\ ashape v = k :: tl /\ aeq v v'.
Proof. intros H1 H2 H3 H4 H5 H6. exact (refine tiny lu solve H1 H2 d lb ub lbl ubl H3 H4 H5 H6 mu m mu' m' tl). Qed.
Print Assumptions C81_refine.
Example C81_case : density_ok 2 (MuInt 1) 1 /\ density_ok 2 (MuArr [1; 3]) 3 /\ coarser (MuInt 1) (MuArr [1; 3]) /\ tiny_ok tiny_code (1 + 1) /\ tiny_ok tiny_code (3 + 1) /\
  (exists v, smolyak_index 2 (MuArr [1; 3]) 3 v /\ Forall2 is_extremum v [1%R; (-1)%R]).
Proof.
  split; [cbn; lia|]. split; [split; [reflexivity|]; split; [repeat constructor; lia|]; split; [right; left; reflexivity|intros x [<-|[<-|[]]]; lia]|]. split; [cbn; repeat constructor; lia|]. split; [apply tiny_code_ok; lia|]. split; [apply tiny_code_ok; lia|].
  exists [2; 2]. split; [cbn; repeat split; repeat constructor; cbn; lia|]. repeat constructor; unfold is_extremum, extremum; cbn [Z.eqb Pos.eqb].
  - exists 2. split; [cbn; lia|]. change (2 ^ (2 - 1)) with 2. replace (PI * 2 / 2)%R with PI by field. rewrite cos_PI. lra.
  - exists 0. split; [cbn; lia|]. change (2 ^ (2 - 1)) with 2. replace (PI * 0 / 2)%R with 0%R by field. rewrite cos_0. lra.
Qed.

(** C82 *)
Theorem C82_linear tiny lu solve d mu m lb ub lbl ubl tl : lu_ok lu -> solve_ok solve ->
  2 <= d -> density_ok d mu m -> tiny_ok tiny (m + 1) -> bound_list d (-1) lb lbl -> bound_list d 1 ub ubl -> Forall2 Rlt lbl ubl -> outshape tl ->
  exists sg n, sg_new (s_n PI cos tiny) lu d mu lb ub = Ok sg /\ 0 < n /\ ashape (sg_grid sg) = [n; d] /\
  forall f g h a b, ashape f = n :: tl -> ashape g = n :: tl -> ashape h = n :: tl ->
    (forall p tail, 0 <= p < n -> inb tl tail = true -> acell h (p :: tail) = (a * acell f (p :: tail) + b * acell g (p :: tail))%R) ->
  exists sf sgg sh, si_new solve sg f = Ok sf /\ si_new solve sg g = Ok sgg /\ si_new solve sg h = Ok sh /\
    forall k pts, 0 <= k -> ashape pts = [k; d] -> exists vf vg vh, si_interpolate solve sf pts true false false false = Ok [vf] /\
      si_interpolate solve sgg pts true false false false = Ok [vg] /\ si_interpolate solve sh pts true false false false = Ok [vh] /\ ashape vh = k :: tl /\
      forall p tail, 0 <= p < k -> inb tl tail = true -> acell vh (p :: tail) = (a * acell vf (p :: tail) + b * acell vg (p :: tail))%R.
Proof. intros H1 H2 H3 H4 H5 H6 H7 H8 H9. exact (linear tiny lu solve H1 H2 d mu m lb ub lbl ubl H3 H4 H5 H6 H7 H8 tl H9). Qed.
Print Assumptions C82_linear.
Theorem C82_units_and_routines tiny lu lu' solve solve' d mu m lb ub lbl ubl tl lb' ub' lbl' ubl' : lu_ok lu -> lu_ok lu' -> solve_ok solve -> solve_ok solve' ->
  2 <= d -> density_ok d mu m -> tiny_ok tiny (m + 1) -> bound_list d (-1) lb lbl -> bound_list d 1 ub ubl -> Forall2 Rlt lbl ubl -> outshape tl ->
  bound_list d (-1) lb' lbl' -> bound_list d 1 ub' ubl' -> Forall2 Rlt lbl' ubl' ->
  exists sg sg' n, sg_new (s_n PI cos tiny) lu d mu lb ub = Ok sg /\ sg_new (s_n PI cos tiny) lu' d mu lb' ub' = Ok sg' /\ ashape (sg_grid sg) = [n; d] /\ ashape (sg_grid sg') = [n; d] /\
  (forall p, 0 <= p < n -> to_cube lbl ubl (mrow d (sg_grid sg) p) = to_cube lbl' ubl' (mrow d (sg_grid sg') p)) /\
  forall f, ashape f = n :: tl -> exists si si', si_new solve sg f = Ok si /\ si_new solve' sg' f = Ok si' /\
    forall k pts pts', 0 <= k -> ashape pts = [k; d] -> ashape pts' = [k; d] -> (forall p, 0 <= p < k -> to_cube lbl ubl (mrow d pts p) = to_cube lbl' ubl' (mrow d pts' p)) ->
    exists v v', si_interpolate solve si pts true false false false = Ok [v] /\ si_interpolate solve' si' pts' true false false false = Ok [v'] /\ ashape v = k :: tl /\ aeq v v'.
Proof. intros H1 H1' H2 H2' H3 H4 H5 H6 H7 H8 H9. exact (units tiny lu lu' solve solve' H1 H1' H2 H2' d mu m lb ub lbl ubl H3 H4 H5 H6 H7 H8 tl H9 lb' ub' lbl' ubl'). Qed.
Print Assumptions C82_units_and_routines.
Theorem C82_axes tiny lu lu' solve solve' d mu m lb ub lbl ubl tl s lb' ub' : lu_ok lu -> lu_ok lu' -> solve_ok solve -> solve_ok solve' ->
  2 <= d -> density_ok d mu m -> tiny_ok tiny (m + 1) -> bound_list d (-1) lb lbl -> bound_list d 1 ub ubl -> Forall2 Rlt lbl ubl -> outshape tl ->
  ordering d s -> bound_list d (-1) lb' (reorder 0%R s lbl) -> bound_list d 1 ub' (reorder 0%R s ubl) ->
  exists sg sg' n n', sg_new (s_n PI cos tiny) lu d mu lb ub = Ok sg /\ sg_new (s_n PI cos tiny) lu' d (reorder_mu s mu) lb' ub' = Ok sg' /\ ashape (sg_grid sg) = [n; d] /\ ashape (sg_grid sg') = [n'; d] /\
  (forall x, zlen x = d -> (exists p, 0 <= p < n /\ mrow d (sg_grid sg) p = x) <-> (exists p', 0 <= p' < n' /\ mrow d (sg_grid sg') p' = reorder 0%R s x)) /\
  forall f f', ashape f = n :: tl -> ashape f' = n' :: tl ->
    (forall p p' tail, 0 <= p < n -> 0 <= p' < n' -> inb tl tail = true -> mrow d (sg_grid sg') p' = reorder 0%R s (mrow d (sg_grid sg) p) -> acell f' (p' :: tail) = acell f (p :: tail)) ->
  exists si si', si_new solve sg f = Ok si /\ si_new solve' sg' f' = Ok si' /\
    forall k pts pts', 0 <= k -> ashape pts = [k; d] -> ashape pts' = [k; d] -> (forall p, 0 <= p < k -> mrow d pts' p = reorder 0%R s (mrow d pts p)) ->
    exists v v', si_interpolate solve si pts true false false false = Ok [v] /\ si_interpolate solve' si' pts' true false false false = Ok [v'] /\ ashape v = k :: tl /\ aeq v v'.
Proof. intros H1 H1' H2 H2' H3 H4 H5 H6 H7 H8 H9. exact (axes tiny lu lu' solve solve' H1 H1' H2 H2' d mu m lb ub lbl ubl H3 H4 H5 H6 H7 H8 tl H9 s lb' ub'). Qed.
Print Assumptions C82_axes.
Theorem C82_mirror tiny lu solve d mu m lb ub lbl ubl tl i : lu_ok lu -> solve_ok solve ->
  2 <= d -> density_ok d mu m -> tiny_ok tiny (m + 1) -> bound_list d (-1) lb lbl -> bound_list d 1 ub ubl -> Forall2 Rlt lbl ubl -> outshape tl ->
  0 <= i < d -> exists sg n, sg_new (s_n PI cos tiny) lu d mu lb ub = Ok sg /\ ashape (sg_grid sg) = [n; d] /\
  (forall p, 0 <= p < n -> exists p', 0 <= p' < n /\ mrow d (sg_grid sg) p' = mirror lbl ubl i (mrow d (sg_grid sg) p)) /\
  forall f f', ashape f = n :: tl -> ashape f' = n :: tl ->
    (forall p p' tail, 0 <= p < n -> 0 <= p' < n -> inb tl tail = true -> mrow d (sg_grid sg) p' = mirror lbl ubl i (mrow d (sg_grid sg) p) -> acell f' (p' :: tail) = acell f (p :: tail)) ->
  exists si si', si_new solve sg f = Ok si /\ si_new solve sg f' = Ok si' /\
    forall k pts pts', 0 <= k -> ashape pts = [k; d] -> ashape pts' = [k; d] -> (forall p, 0 <= p < k -> mrow d pts' p = mirror lbl ubl i (mrow d pts p)) ->
    exists v v', si_interpolate solve si pts true false false false = Ok [v] /\ si_interpolate solve si' pts' true false false false = Ok [v'] /\ ashape v = k :: tl /\ aeq v v'.
Proof. intros H1 H2 H3 H4 H5 H6 H7 H8 H9. exact (mirrored tiny lu solve H1 H2 d mu m lb ub lbl ubl H3 H4 H5 H6 H7 H8 tl H9 i). Qed.
Print Assumptions C82_mirror.
Example C82_case : ordering 3 [2; 0; 1]%nat /\ reorder_mu [2; 0; 1]%nat (MuArr [1; 3; 2]) = MuArr [2; 1; 3] /\ reorder 0%R [2; 0; 1]%nat [0; -2; 1]%R = [1; 0; -2]%R /\
  mirror [0; -2]%R [4; 2]%R 0 [1; 2]%R = [3; 2]%R.
Proof.
  split; [|split; [reflexivity|split; [reflexivity|]]].
  - unfold ordering. cbn. apply (Permutation_trans (l' := [0; 2; 1]%nat)); repeat constructor.
  - unfold mirror. cbn. f_equal. ring.
Qed.
