(** C44-C46, C53, C54: final statements for SmolyakGrid and SmolyakInterp. *)
From Coq Require Import ZArith List Bool Lia ZifyBool Reals Lra Psatz ClassicalEpsilon.
From Coquelicot Require Import Coquelicot.
From Verif Require Import Base BaseFacts RSum CompleteModel SpecComplete CompleteGeneric CompleteFit LinAlg SmolyakModel SpecSmolyak SmolyakInds SmolyakChains SmolyakNodes SmolyakB SmolyakGridR SmolyakUni SmolyakInterpR.
Import ListNotations.
Open Scope Z_scope.

Lemma transpose_kernel n A : 0 <= n -> trivial_kernel n A -> trivial_kernel n (fun i j => A j i).
Proof.
  intros Hn HA y Hy. destruct (onto n A Hn HA y) as (x & Hx).
  assert (E : zsum n (fun i => y i * y i)%R = 0%R).
  { rewrite (zsum_ext n _ (fun i => zsum n (fun j => y i * (A i j * x j)))%R) by (intros i Hi; rewrite zsum_scal, Hx; auto).
    rewrite zsum_swap. apply zsum_zero. intros j Hj. rewrite (zsum_ext n _ (fun i => x j * (A i j * y i))%R) by (intros; ring). rewrite zsum_scal, (Hy j Hj). ring. }
  intros j Hj.
  assert (G : forall k, 0 <= k -> zsum k (fun i => y i * y i)%R = 0%R -> forall i, 0 <= i < k -> y i = 0%R).
  { apply (zsum_ind (fun k => zsum k (fun i => y i * y i)%R = 0%R -> forall i, 0 <= i < k -> y i = 0%R)); [intros; lia|]. intros k Hk IH Ez i Hi.
    rewrite zsum_S in Ez by auto. assert (0 <= zsum k (fun i => y i * y i))%R by (apply zsum_nonneg; intros; nra). assert (0 <= y k * y k)%R by nra.
    destruct (Z.eq_dec i k) as [->|]; [nra|]. apply IH; [lra|lia]. }
  now apply (G n Hn E).
Qed.

Section Final.
Variables (tiny : R) (lu : arr R -> res (arr R * arr R)) (solve : arr R -> arr R -> res (arr R)).
Hypothesis (Hlu : lu_ok lu) (Hsolve : solve_ok solve).
Variables (d : Z) (mu : mu_t) (m : Z) (lb ub : bound R) (lbl ubl : list R).
Hypothesis (Hd : 2 <= d) (Hm : density_ok d mu m) (Ht : tiny_ok tiny (m + 1)).
Hypothesis (Hlb : bound_list d (-1) lb lbl) (Hub : bound_list d 1 ub ubl) (HW : Forall2 Rlt lbl ubl).
Notation sgn := (sg_new (s_n PI cos tiny) lu d mu lb ub).
Lemma the_widths : widths lbl ubl d. Proof. apply Forall2_widths; [apply Hlb|apply Hub|exact HW]. Qed.

(** The grid lies within the bounds and its points are distinct. *)
Theorem grid_in_bounds : exists sg n, sgn = Ok sg /\ ashape (sg_grid sg) = [n; d] /\ 0 < n /\
  (forall p k, 0 <= p < n -> 0 <= k < d -> (nth (Z.to_nat k) lbl 0 <= acell (sg_grid sg) [p; k] <= nth (Z.to_nat k) ubl 0)%R) /\
  (forall p q, 0 <= p < n -> 0 <= q < n -> mrow d (sg_grid sg) p = mrow d (sg_grid sg) q -> p = q).
Proof.
  destruct (sg_new_good tiny lu Hlu d mu m lb ub lbl ubl) as (sg & n & E & Hn & HG); auto. exists sg, n. split; auto.
  pose proof HG as (_ & _ & Glb & Gub & Gn & Sc & Eg & _ & _ & _ & _ & _ & _ & _ & Gb & Gd & _). pose proof the_widths as W.
  destruct (cube2dom_row lbl ubl d n (sg_cube sg) ltac:(lia) W Sc) as (w & Ew & Sw & Rw & Vw). rewrite Eg in Ew. injection Ew as <-.
  split; auto. split; auto. split.
  - intros p k Hp Hk. rewrite Vw by auto. specialize (Gb p k Hp Hk). destruct W as (_ & _ & W). specialize (W k Hk). nra.
  - intros p q Hp Hq Heq. apply Gd; auto. rewrite <- (Rw p), <- (Rw q). now rewrite Heq.
Qed.

Theorem sg_new_accepts : exists sg, sgn = Ok sg /\ sg_lb sg = lbl /\ sg_ub sg = ubl.
Proof. destruct (sg_new_good tiny lu Hlu d mu m lb ub lbl ubl) as (sg & n & E & Hn & HG); auto. exists sg. split; auto. destruct HG as (_ & _ & H1 & H2 & _). auto. Qed.

(** C44 *)
Theorem interpolates tl : outshape tl -> exists sg n, sgn = Ok sg /\ 0 < n /\ ashape (sg_grid sg) = [n; d] /\ ashape (sg_B sg) = [n; n] /\ nonsingular (sg_B sg) n /\
  forall f, ashape f = n :: tl -> exists si v, si_new solve sg f = Ok si /\ si_interpolate solve si (sg_grid sg) true false false false = Ok [v] /\
    aeq v f /\ ashape (si_theta si) = n :: tl /\
    forall x : Z -> R, forall tail, inb tl tail = true -> (forall i, 0 <= i < n -> zsum n (fun j => acell (sg_B sg) [i; j] * x j)%R = acell f (i :: tail)) <-> (forall j, 0 <= j < n -> x j = acell (si_theta si) (j :: tail)).
Proof.
  intros Ho. destruct (sg_new_good tiny lu Hlu d mu m lb ub lbl ubl) as (sg & n & E & Hn & HG); auto. exists sg, n. split; auto.
  destruct (density_max d mu m Hm) as [Emu Hm1]. pose proof the_widths as W.
  pose proof HG as (_ & _ & Glb & Gub & Gn & Sc & Eg & SB & VB & _ & Gns & _).
  destruct (cube2dom_row lbl ubl d n (sg_cube sg) ltac:(lia) W Sc) as (w & Ew & Sw & Rw & Vw). rewrite Eg in Ew. injection Ew as <-.
  split; auto. split; auto. split; auto. split; auto. intros f Sf.
  destruct (theta_spec solve Hsolve d mu m n lbl ubl sg Hn HG f tl Ho Sf) as (th & Eth & Sth & Vth). exists (mkSI sg f th). unfold si_new. rewrite Eth. cbn [bind].
  destruct (values_at solve d mu m n lbl ubl sg ltac:(lia) Hm1 Emu W HG th f tl n (sg_grid sg) false Ho Sth ltac:(lia) Sw) as (v & Bk & Ev & Sv & _ & Vv & _). exists v.
  split; auto. split; auto. split; [|split; [exact Sth|]].
  - split; [congruence|]. rewrite Sv. intros [|p tail] Hin; [discriminate|]. cbn in Hin. apply andb_prop in Hin as [Hp Hin]. assert (0 <= p < n) by lia. rewrite Vv by auto. unfold smolyak_value. rewrite Gn, Rw. rewrite <- Vth by auto.
    apply zsum_ext. intros j Hj. unfold Bf. now rewrite VB.
  - intros x tail Hin. cbn [si_theta]. split.
    + intros Hx j Hj. apply (theta_unique d mu m n lbl ubl sg HG x (fun j => acell th (j :: tail))); auto. intros i Hi. rewrite (Vth i tail Hi Hin). exact (Hx i Hi).
    + intros Hx i Hi. rewrite <- (Vth i tail Hi Hin). apply zsum_ext. intros j Hj. unfold Bf. now rewrite Hx.
Qed.

(** C46 *)
Theorem gradient : exists sg n, sgn = Ok sg /\ 0 < n /\
  forall f, ashape f = [n] -> exists si, si_new solve sg f = Ok si /\
  forall k pts, 0 <= k -> ashape pts = [k; d] -> exists v dv, si_interpolate solve si pts true true false false = Ok [v; dv] /\
    si_interpolate solve si pts false true false false = Ok [dv] /\ ashape v = [k] /\ ashape dv = [k; d] /\
    let F := smolyak_value lbl ubl (sg_pinds sg) (fun j => acell (si_theta si) [j]) in
    (forall p, 0 <= p < k -> acell v [p] = F (mrow d pts p)) /\
    forall p i, 0 <= p < k -> 0 <= i < d -> is_derive (fun s : R => F (replace_at (mrow d pts p) i s)) (acell pts [p; i]) (acell dv [p; i]).
Proof.
  destruct (sg_new_good tiny lu Hlu d mu m lb ub lbl ubl) as (sg & n & E & Hn & HG); auto. exists sg, n. split; auto. split; auto. intros f Sf.
  destruct (density_max d mu m Hm) as [Emu Hm1]. pose proof the_widths as W.
  destruct (theta_spec solve Hsolve d mu m n lbl ubl sg Hn HG f [] (or_introl eq_refl) Sf) as (th & Eth & Sth & Vth). exists (mkSI sg f th). unfold si_new. rewrite Eth. split; auto.
  intros k pts Hk Spts. destruct (gradient_at solve d mu m n lbl ubl sg ltac:(lia) Hn Hm1 Emu W HG th f k pts true Sth Hk Spts) as (v & dv & E1 & Sv & Sdv & Vv & Vd). exists v, dv. cbn [si_theta].
  split; auto. split; [|auto].
  destruct (deriv_core solve d mu m n lbl ubl sg ltac:(lia) Hm1 Emu W HG th f [] k pts (or_introl eq_refl) Sth Hk Spts) as (v' & B & D & _ & _ & _ & _ & EE).
  destruct (EE true) as [Et _]. destruct (EE false) as [Ef _]. rewrite Et in E1. rewrite Ef. destruct (tensordot0_T th D) as [t|e]; cbn [bind] in *; [|discriminate]. destruct (scale_last t _) as [t'|e]; cbn [bind app] in *; [|discriminate]. congruence.
Qed.
(** Vector values: what is returned. *)
Theorem gradient_vector_values : exists sg n, sgn = Ok sg /\ 0 < n /\
  forall q f, 0 <= q -> ashape f = [n; q] -> exists si, si_new solve sg f = Ok si /\
  forall k pts, 0 <= k -> ashape pts = [k; d] ->
    let F := fun c => smolyak_value lbl ubl (sg_pinds sg) (fun j => acell (si_theta si) [j; c]) in
    let width := fun i => (nth (Z.to_nat i) ubl 0 - nth (Z.to_nat i) lbl 0)%R in
    (q <> d -> q <> 1 -> si_interpolate solve si pts true true false false = Err ValueErr) /\
    (q = d \/ q = 1 -> exists v dv, si_interpolate solve si pts true true false false = Ok [v; dv] /\ ashape v = [k; q] /\ ashape dv = [k; d; d] /\
      (forall p c, 0 <= p < k -> 0 <= c < q -> acell v [p; c] = F c (mrow d pts p)) /\
      forall p i c, 0 <= p < k -> 0 <= i < d -> 0 <= c < d ->
        is_derive (fun s : R => F (if q =? d then c else 0) (replace_at (mrow d pts p) i s)) (acell pts [p; i]) (acell dv [p; i; c] * (width c / width i))%R).
Proof.
  destruct (sg_new_good tiny lu Hlu d mu m lb ub lbl ubl) as (sg & n & E & Hn & HG); auto. exists sg, n. split; auto. split; auto. intros q f Hq Sf.
  destruct (density_max d mu m Hm) as [Emu Hm1]. pose proof the_widths as W.
  assert (Ho : outshape [q]) by (right; eauto).
  destruct (theta_spec solve Hsolve d mu m n lbl ubl sg Hn HG f [q] Ho Sf) as (th & Eth & Sth & Vth). exists (mkSI sg f th). unfold si_new. rewrite Eth. split; auto.
  intros k pts Hk Spts. cbn [si_theta].
  destruct (gradient_vector solve d mu m n lbl ubl sg ltac:(lia) Hn Hm1 Emu W HG th f q k pts Sth Hk Spts) as (A & B & D). split.
  - intros H1 H2. apply A; auto. lia.
  - intros [->| ->].
    + destruct (B eq_refl) as (v & dv & Ev & Sv & Sdv & Vv & Vd). exists v, dv. rewrite Z.eqb_refl. auto 6.
    + destruct (D eq_refl) as (v & dv & Ev & Sv & Sdv & Vv & Vd). exists v, dv. replace (1 =? d) with false by lia.
      split; auto. split; auto. split; auto. split; auto. intros p c Hp Hc. assert (c = 0) as -> by lia. auto.
Qed.
(** Vector values: wrong unless all sides of the domain are equally long. *)
Theorem gradient_vector_wrong a b : 0 <= a < d -> 0 <= b < d ->
  (nth (Z.to_nat a) ubl 0 - nth (Z.to_nat a) lbl 0 <> nth (Z.to_nat b) ubl 0 - nth (Z.to_nat b) lbl 0)%R ->
  exists sg n f si, sgn = Ok sg /\ ashape f = [n; d] /\ si_new solve sg f = Ok si /\
  forall k pts, 0 <= k -> ashape pts = [k; d] -> exists v dv, si_interpolate solve si pts true true false false = Ok [v; dv] /\ ashape dv = [k; d; d] /\
    let F := smolyak_value lbl ubl (sg_pinds sg) (fun j => acell (si_theta si) [j; b]) in
    (forall p, 0 <= p < k -> acell v [p; b] = F (mrow d pts p)) /\
    forall p, 0 <= p < k -> ~ is_derive (fun s : R => F (replace_at (mrow d pts p) a s)) (acell pts [p; a]) (acell dv [p; a; b]).
Proof.
  intros Ha Hb Hne. destruct (sg_new_good tiny lu Hlu d mu m lb ub lbl ubl) as (sg & n & E & Hn & HG); auto.
  destruct (density_max d mu m Hm) as [Emu Hm1]. pose proof the_widths as W.
  pose proof HG as (_ & _ & Glb & Gub & Gn & Sc & Eg & SB & VB & _ & Gns & _ & _ & _ & _ & _ & GND & GP).
  (* the basis function that is coordinate a *)
  set (lev := map (fun k => if k =? a then 2 else 1) (zrange d)).
  assert (Hlev : zlen lev = d) by (unfold lev, zlen; rewrite map_length, zrange_length; lia).
  assert (Htot : total lev = d + 1).
  { unfold lev. assert (G : forall q, 0 <= q -> total (map (fun k => if k =? a then 2 else 1) (zrange q)) = q + (if a <? q then 1 else 0)).
    { apply (zsum_ind (fun q => total (map (fun k => if k =? a then 2 else 1) (zrange q)) = q + (if a <? q then 1 else 0))).
      - rewrite zrange_nil by lia. cbn. destruct (a <? 0) eqn:Ea; [lia|auto].
      - intros q Hq IH. rewrite zrange_S by auto. rewrite map_app. cbn [map]. unfold total in *. rewrite fold_right_app. cbn [fold_right].
        assert (F : forall l z, fold_right Z.add z l = fold_right Z.add 0 l + z) by (induction l; intros; cbn; [lia|rewrite IHl; lia]). rewrite F, IH. destruct (q =? a) eqn:E1, (a <? q) eqn:E2, (a <? q + 1) eqn:E3; lia. }
    rewrite G by lia. destruct (a <? d) eqn:Ea; lia. }
  assert (Hidx : smolyak_index d mu m lev).
  { assert (HI : iso_index d m lev).
    { split; auto. split; [|lia]. apply List.Forall_forall. intros x Hx. apply in_map_iff in Hx as (k & <- & _). destruct (k =? a); lia. }
    destruct mu as [k0|l]; cbn; auto. split; auto. destruct Hm as (HL & HF & _). unfold lev. clear -HL HF. assert (G : forall f : Z -> Z, (forall k, f k <= 2) -> Forall2 (fun i mk => i <= mk + 1) (map f (zrange d)) l).
    { subst d. induction HF as [|x l Hx HF IH]; intros f Hf; [constructor|]. rewrite zlen_cons. pose proof (zlen_nonneg l). rewrite zrange_cons by lia. cbn [map]. rewrite map_map. replace (zlen l + 1 - 1) with (zlen l) by lia. constructor; [specialize (Hf 0); lia|]. apply IH. intros; apply Hf. }
    apply G. intros k. destruct (k =? a); lia. }
  assert (Hin : In lev (sg_pinds sg)).
  { apply GP. exists lev. split; auto. unfold lev. generalize (zrange d). induction l; cbn; constructor; auto. destruct (a0 =? a); split; reflexivity || (cbn; lia). }
  apply In_nth with (d := []) in Hin as (j0 & Hj0 & Ej0).
  set (th0 := fun j => if j =? Z.of_nat j0 then 1%R else 0%R).
  set (f := mkArr [n; d] (fun idx => zsum n (fun j => Bf sg (nth 0 idx 0%Z) j * th0 j)%R)).
  assert (Ho : outshape [d]) by (right; eauto).
  destruct (theta_spec solve Hsolve d mu m n lbl ubl sg Hn HG f [d] Ho eq_refl) as (th & Eth & Sth & Vth).
  exists sg, n, f, (mkSI sg f th). unfold si_new. rewrite Eth. split; auto. split; auto. split; auto. intros k pts Hk Spts.
  destruct (proj1 (proj2 (gradient_vector solve d mu m n lbl ubl sg ltac:(lia) Hn Hm1 Emu W HG th f d k pts Sth Hk Spts)) eq_refl) as (v & dv & Ev & Sv & Sdv & Vv & Vd).
  exists v, dv. split; auto. split; auto. split; [intros; now apply Vv|]. intros p Hp HD. cbn [si_theta] in HD. pose proof (Vd p a b Hp Ha Hb) as HD'.
  assert (Hthb : forall j, 0 <= j < n -> acell th [j; b] = th0 j).
  { apply (theta_unique d mu m n lbl ubl sg HG). intros i Hi. rewrite (Vth i [b] Hi) by (cbn; lia). reflexivity. }
  assert (HF : forall x, zlen x = d -> smolyak_value lbl ubl (sg_pinds sg) (fun j => acell th [j; b]) x = ((2 * nth (Z.to_nat a) x 0 - nth (Z.to_nat a) lbl 0 - nth (Z.to_nat a) ubl 0) / (nth (Z.to_nat a) ubl 0 - nth (Z.to_nat a) lbl 0))%R).
  { intros x Hx. unfold smolyak_value. rewrite Gn. rewrite (zsum_single _ _ (Z.of_nat j0)).
    - rewrite Hthb by (unfold zlen in Gn; lia). unfold th0. rewrite Z.eqb_refl, Nat2Z.id, Ej0. rewrite <- (to_cube_nth lbl ubl x d) by (auto; apply W). pose proof (to_cube_len lbl ubl x d (proj1 W) (proj1 (proj2 W)) Hx) as Hc. rewrite Rmult_1_r.
      rewrite (basis_rprod d) by auto. unfold lev.
      assert (G : forall q, 0 <= q <= d -> rprod (map (fun i => cheb (Z.to_nat (nth (Z.to_nat i) (map (fun k => if k =? a then 2 else 1) (zrange d)) 0 - 1)) (nth (Z.to_nat i) (to_cube lbl ubl x) 0%R)) (zrange q)) = if a <? q then nth (Z.to_nat a) (to_cube lbl ubl x) 0%R else 1%R).
      { intros q [Hq Hq']. revert Hq'. pattern q. apply zsum_ind; auto; clear q Hq.
        - intros _. destruct (a <? 0) eqn:Ea; [lia|reflexivity].
        - intros q Hq IH Hq'. rewrite zrange_S by auto. rewrite map_app. unfold rprod in *. rewrite fold_right_app. cbn [map fold_right].
          assert (F : forall l z, fold_right Rmult z l = (fold_right Rmult 1%R l * z)%R) by (induction l; intros; cbn; [ring|rewrite IHl; ring]). rewrite F, IH by lia.
          rewrite (nth_indep _ 0 (if 0 =? a then 2 else 1)) by (rewrite map_length, zrange_length; lia). rewrite (map_nth (fun k => if k =? a then 2 else 1)). rewrite zrange_nth by lia.
          destruct (q =? a) eqn:E1, (a <? q) eqn:E2, (a <? q + 1) eqn:E3; try lia.
          + assert (q = a) as -> by lia. change (Z.to_nat (2 - 1)) with 1%nat. cbn [cheb]. ring.
          + change (Z.to_nat (1 - 1)) with O. cbn [cheb]. ring.
          + change (Z.to_nat (1 - 1)) with O. cbn [cheb]. ring. }
      rewrite (G d) by lia. destruct (a <? d) eqn:Ea; [auto|lia].
    - unfold zlen in Gn. lia.
    - intros i Hi Hni. rewrite Hthb by auto. unfold th0. destruct (i =? Z.of_nat j0) eqn:Ei; [lia|ring]. }
  destruct W as (W1 & W2 & W). pose proof (W a Ha) as Wa. pose proof (W b Hb) as Wb.
  set (la := nth (Z.to_nat a) lbl 0%R) in *. set (ua := nth (Z.to_nat a) ubl 0%R) in *.
  assert (Hlen : forall s, zlen (replace_at (mrow d pts p) a s) = d /\ nth (Z.to_nat a) (replace_at (mrow d pts p) a s) 0%R = s).
  { intros s. pose proof (mrow_length d pts p ltac:(lia)) as Hl. unfold replace_at, zlen in *. rewrite app_length. cbn [length]. rewrite firstn_length, skipn_length. split; [lia|].
    rewrite app_nth2 by (rewrite firstn_length; lia). rewrite firstn_length. replace (Z.to_nat a - Nat.min (Z.to_nat a) (length (mrow d pts p)))%nat with O by lia. reflexivity. }
  assert (HD2 : is_derive (fun s : R => smolyak_value lbl ubl (sg_pinds sg) (fun j => acell th [j; b]) (replace_at (mrow d pts p) a s)) (acell pts [p; a]) (2 / (ua - la))%R).
  { apply (is_derive_ext (fun s : R => ((2 * s - la - ua) / (ua - la))%R)).
    - intros s. destruct (Hlen s) as [H1 H2]. rewrite HF by auto. now rewrite H2.
    - auto_derive; [lra|]. field. lra. }
  apply is_derive_unique in HD. apply is_derive_unique in HD'. apply is_derive_unique in HD2. rewrite HD in HD', HD2. rewrite HD2 in HD'.
  assert (2 / (ua - la) <> 0)%R by (apply Rgt_not_eq, Rdiv_lt_0_compat; lra). set (lb_ := nth (Z.to_nat b) lbl 0%R) in *. set (ub_ := nth (Z.to_nat b) ubl 0%R) in *.
  assert (((ub_ - lb_) / (ua - la)) = 1)%R by (apply (Rmult_eq_reg_l (2 / (ua - la))); auto; lra). apply Hne. assert (ub_ - lb_ = (ub_ - lb_) / (ua - la) * (ua - la))%R by (field; lra). rewrite H0 in H1. lra.
Qed.

(** C54 *)
Theorem sensitivities tl : outshape tl -> exists sg n, sgn = Ok sg /\ 0 < n /\
  forall f, ashape f = n :: tl -> exists si, si_new solve sg f = Ok si /\
  forall k pts, 0 <= k -> ashape pts = [k; d] -> exists v dth dX,
    si_interpolate solve si pts true false true true = Ok [v; dth; dX] /\ ashape v = k :: tl /\ ashape dth = [k; n] /\ ashape dX = [k; n] /\
    (forall p tail, 0 <= p < k -> inb tl tail = true ->
       acell v (p :: tail) = zsum n (fun j => acell dth [p; j] * acell (si_theta si) (j :: tail))%R /\
       acell v (p :: tail) = zsum n (fun i => acell dX [p; i] * acell f (i :: tail))%R).
Proof.
  intros Ho. destruct (sg_new_good tiny lu Hlu d mu m lb ub lbl ubl) as (sg & n & E & Hn & HG); auto. exists sg, n. split; auto. split; auto. intros f Sf.
  destruct (density_max d mu m Hm) as [Emu Hm1]. pose proof the_widths as W.
  pose proof HG as (_ & _ & Glb & Gub & Gn & Sc & Eg & SB & VB & _ & Gns & SL & SU & GLU & _).
  destruct (theta_spec solve Hsolve d mu m n lbl ubl sg Hn HG f tl Ho Sf) as (th & Eth & Sth & Vth). exists (mkSI sg f th). unfold si_new. rewrite Eth. split; auto. intros k pts Hk Spts.
  destruct (values_at solve d mu m n lbl ubl sg ltac:(lia) Hm1 Emu W HG th f tl k pts true Ho Sth Hk Spts) as (v & Bk & Ev & Sv & SBk & Vv & VBk).
  assert (Ho' : outshape [k]) by (right; eauto).
  destruct (Hsolve (atranspose (sg_BU sg)) (atranspose Bk) n [k] Ho') as (y & Ey & Sy & Vy).
  { unfold atranspose. cbn [ashape]. now rewrite SU. } { unfold atranspose. cbn [ashape]. now rewrite SBk. }
  { apply (transpose_kernel n (Uf sg)); [lia|]. exact (U_kernel d mu m n lbl ubl sg HG). }
  destruct (Hsolve (atranspose (sg_BL sg)) y n [k] Ho') as (x & Ex & Sx & Vx).
  { unfold atranspose. cbn [ashape]. now rewrite SL. } { auto. }
  { apply (transpose_kernel n (Lf sg)); [lia|]. exact (L_kernel d mu m n lbl ubl sg Hn HG). }
  exists v, Bk, (atranspose x). split.
  - revert Ev. unfold si_interpolate. cbn [si_sg si_theta]. unfold adim. rewrite Spts. change (lget [k; d] 1) with (Ok d). cbn [bind]. destruct (dom2cube _ _ pts) as [tp|]; cbn [bind]; [|discriminate].
    destruct (build_B d (sg_mu sg) tp (sg_pinds sg) false) as [[nB o]|]; cbn [bind]; [|discriminate]. destruct (adot nB th) as [v0|]; cbn [bind]; [|discriminate]. intros Ev. injection Ev as -> ->. cbn [bind app]. rewrite Ey. cbn [bind]. rewrite Ex. reflexivity.
  - split; auto. split; auto. split; [unfold atranspose; cbn [ashape]; now rewrite Sx|]. intros p tail Hp Hin. cbn [si_theta].
    assert (E1 : acell v (p :: tail) = zsum n (fun j => acell Bk [p; j] * acell th (j :: tail))%R).
    { rewrite Vv by auto. unfold smolyak_value. rewrite Gn. apply zsum_ext. intros j Hj. now rewrite VBk. }
    split; auto. rewrite E1.
    assert (E2 : forall j, 0 <= j < n -> acell Bk [p; j] = zsum n (fun i => acell x [i; p] * acell (sg_B sg) [i; j])%R).
    { intros j Hj. assert (Hp1 : inb [k] [p] = true) by (cbn; lia). pose proof (Vy j [p] Hj Hp1) as Hy. unfold atranspose in Hy. cbn [acell rev app] in Hy. rewrite <- Hy.
      rewrite (zsum_ext n (fun i => acell x [i; p] * acell (sg_B sg) [i; j])%R (fun i => zsum n (fun q => acell x [i; p] * (acell (sg_BL sg) [i; q] * acell (sg_BU sg) [q; j])))%R) by (intros i Hi; rewrite zsum_scal, GLU; auto).
      rewrite zsum_swap. apply zsum_ext. intros q Hq. pose proof (Vx q [p] Hq Hp1) as Hx. unfold atranspose in Hx. cbn [acell rev app] in Hx. rewrite <- Hx. rewrite <- zsum_scal. apply zsum_ext. intros; ring. }
    unfold atranspose. cbn [acell rev app].
    rewrite (zsum_ext n _ (fun j => zsum n (fun i => acell x [i; p] * acell (sg_B sg) [i; j] * acell th (j :: tail)))%R) by (intros j Hj; rewrite E2 by auto; now rewrite zsum_scal_r).
    rewrite zsum_swap. apply zsum_ext. intros i Hi. rewrite <- (Vth i tail Hi Hin). rewrite <- zsum_scal. apply zsum_ext. intros; unfold Bf; ring.
Qed.
End Final.

(** C53: what the constructor rejects, in any arithmetic. *)
Theorem sg_new_accepts_only {T} {NT : Num T} (sn : Z -> list T) lu d mu (lb ub : bound T) sg : sg_new sn lu d mu lb ub = Ok sg ->
  2 <= d /\ (exists m, density_ok d mu m) /\
  (forall b, b = lb \/ b = ub -> match b with BList l => zlen l = d | BOther => False | _ => True end).
Proof.
  unfold sg_new. intros H.
  assert (RB : forall (dflt : T) (b : bound T) o, read_bound d dflt b = Ok o -> match b with BList l => zlen l = d | BOther => o = None | _ => True end).
  { intros dflt b o. destruct b as [|x|l|]; cbn; auto; [|congruence]. destruct (Z.eqb_spec (zlen l) d); [auto|discriminate]. }
  destruct (read_bound d (n_ofZ (-1)) lb) as [olb|] eqn:E1; cbn [bind] in H; [|discriminate].
  destruct (read_bound d (n_ofZ 1) ub) as [oub|] eqn:E2; cbn [bind] in H; [|discriminate].
  apply RB in E1, E2. destruct (d <=? 1) eqn:Ed; [discriminate|]. split; [lia|]. split.
  - destruct mu as [k|l].
    + destruct (k <? 1) eqn:Ek; [discriminate|]. exists k. cbn. split; [lia|auto].
    + destruct (existsb (fun m => m <? 1) l) eqn:Ex; [discriminate|]. destruct (negb (zlen l =? d)) eqn:El; [discriminate|]. apply negb_false_iff, Z.eqb_eq in El.
      assert (HF : List.Forall (fun x => 1 <= x) l).
      { apply List.Forall_forall. intros x Hx. destruct (Z_lt_le_dec x 1) as [Hlt|]; auto. exfalso. rewrite <- not_true_iff_false in Ex. apply Ex. apply existsb_exists. exists x. split; auto. lia. }
      assert (HM : exists m, density l m).
      { destruct l as [|a r]; [cbn in El; unfold zlen in El; cbn in El; lia|]. clear. revert a. induction r as [|b r IH]; intros a.
        - exists a. split; [now left|]. intros x [<-|[]]. lia.
        - destruct (IH b) as (m0 & Hi & Hx). destruct (Z_lt_le_dec m0 a).
          + exists a. split; [now left|]. intros x [<-|Hin]; [lia|]. specialize (Hx x Hin). lia.
          + exists m0. split; [now right|]. intros x [<-|Hin]; [lia|auto]. }
      destruct HM as [m0 HM]. exists m0. cbn. auto.
  - destruct (match mu with MuInt m => if m <? 1 then Err ValueErr else Ok tt | MuArr l => _ end) as [[]|]; cbn [bind] in H; [|discriminate].
    destruct (smol_inds d mu) as [inds|]; cbn [bind] in H; [|discriminate]. destruct (poly_inds_of mu inds) as [pinds|]; cbn [bind] in H; [|discriminate]. destruct (build_grid_of sn mu inds) as [cube|]; cbn [bind] in H; [|discriminate].
    destruct olb as [l1|]; [|discriminate]. destruct oub as [l2|]; [|discriminate].
    intros b [->| ->]; [destruct lb; auto; discriminate|destruct ub; auto; discriminate].
Qed.

(** ** The library routines can be met *)
Definition lu_triv (B : arr R) : res (arr R * arr R) :=
  Ok (B, mkArr (ashape B) (fun idx => if nth 0 idx 0 =? nth 1 idx 0 then 1%R else 0%R)).
Lemma lu_triv_ok : lu_ok lu_triv.
Proof.
  intros B n SB. exists B. eexists. split; [reflexivity|]. split; auto. split; [cbn; auto|]. intros i j Hi Hj. rewrite (zsum_single n _ j); auto.
  - cbn. rewrite Z.eqb_refl. ring.
  - intros k Hk Hne. cbn. destruct (k =? j) eqn:E; [lia|ring].
Qed.
Definition solve_triv (A b : arr R) : res (arr R) :=
  match excluded_middle_informative (exists x : arr R, ashape x = ashape b /\ forall n tl, ashape b = n :: tl -> forall i tail, 0 <= i < n -> inb tl tail = true -> zsum n (fun j => acell A [i; j] * acell x (j :: tail))%R = acell b (i :: tail)) with
  | left H => Ok (proj1_sig (constructive_indefinite_description _ H))
  | right _ => Err ValueErr
  end.
Lemma solve_triv_ok : solve_ok solve_triv.
Proof.
  intros A b n tl Ho SA Sb HA. unfold solve_triv. destruct (excluded_middle_informative _) as [H|H].
  - destruct (constructive_indefinite_description _ H) as (x & Sx & Vx). cbn. exists x. split; auto. split; [congruence|]. now apply Vx.
  - exfalso. apply H. destruct (Z_lt_le_dec n 0) as [Hlt|Hn].
    { exists b. split; auto. intros n0 tl0 E i tail Hi. rewrite Sb in E. injection E as <- <-. lia. }
    exists (mkArr (ashape b) (fun idx => match idx with j :: tail => proj1_sig (constructive_indefinite_description _ (onto n (fun i j => acell A [i; j]) Hn HA (fun i => acell b (i :: tail)))) j | [] => 0%R end)).
    split; auto. intros n0 tl0 E i tail Hi Hin. rewrite Sb in E. injection E as <- <-. cbn [acell].
    destruct (constructive_indefinite_description _ _) as (x & Hx). cbn. exact (Hx i Hi).
Qed.

(** C39 *)
Theorem grid_size_documented {T} {NT : Num T} (np_pi : T) (np_cos : T -> T) (tiny : T) d m : 2 <= d -> 1 <= m <= 3 -> exists g n,
  build_grid (s_n np_pi np_cos tiny) d (MuInt m) = Ok g /\ num_grid_points d m = Some n /\ ashape g = [n; d].
Proof. intros Hd Hm. destruct (grid_count np_pi np_cos tiny d m Hd ltac:(lia)) as (g & E & S). exists g, (N (Z.to_nat d) m). split; auto. split; auto. apply num_grid_points_N; lia. Qed.
(** C43 *)
Theorem build_B_gradient d m npts (pts : arr R) b_inds mu : 1 <= d -> 0 <= npts -> ashape pts = [npts; d] ->
  indices_ok d m b_inds -> 1 <= m -> max_mu mu = Ok m ->
  exists B D, build_B d mu pts b_inds true = Ok (B, Some D) /\ ashape B = [npts; zlen b_inds] /\ ashape D = [zlen b_inds; d; npts] /\
    (forall p j, 0 <= p < npts -> 0 <= j < zlen b_inds -> acell B [p; j] = basis (nth (Z.to_nat j) b_inds []) (mrow d pts p)) /\
    forall p j i, 0 <= p < npts -> 0 <= j < zlen b_inds -> 0 <= i < d ->
      is_derive (fun s : R => basis (nth (Z.to_nat j) b_inds []) (replace_at (mrow d pts p) i s)) (acell pts [p; i]) (acell D [j; i; p]).
Proof.
  intros Hd Hn Hs Hb Hm Hmu. destruct (build_B_deriv_spec d m npts pts b_inds Hd Hn Hs Hb Hm mu Hmu) as (B & D & E & SB & SD & VB & VD). exists B, D. split; auto. split; auto. split; auto. split; auto.
  intros p j i Hp Hj Hi. rewrite VD by auto. rewrite <- (mrow_at d pts p i Hi). apply dfactor_derive; auto; [|apply mrow_length; lia].
  unfold indices_ok in Hb. rewrite List.Forall_forall in Hb. apply Hb. apply nth_In. unfold zlen in Hj. lia.
Qed.
