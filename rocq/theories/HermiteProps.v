(** Proofs about Hermite interpolation (C27, C28). *)
From Coq Require Import ZArith List Bool Reals Lia Lra Psatz ZifyBool QArith.
From Coquelicot Require Import Coquelicot.
From Flocq Require Import Core.Raux.
From Verif Require Import Base BaseFacts SplineModel Spec HermiteModel ExampleData EvalR WeightsR EvalRProps PrefilterProps.
Import ListNotations.
Open Scope R_scope.

(** ** Call forms (any arithmetic) *)
Lemma hermite_vect_spec {T} {NT : Num T} (xs x y yp : list T) :
  (forall a, hermite_vect xs x y yp = Ok a -> ashape a = [zlen xs] /\
     forall i x0, (0 <= i)%Z -> nth_error xs (Z.to_nat i) = Some x0 -> hermite_interpolation x0 x y yp = Ok (acell a [i])) /\
  ((forall x0, In x0 xs -> exists v, hermite_interpolation x0 x y yp = Ok v) -> exists a, hermite_vect xs x y yp = Ok a).
Proof.
  unfold hermite_vect. set (G := fun (out : arr T) i => _).
  assert (H : forall k, (0 <= k)%Z -> (k <= zlen xs)%Z ->
    (forall a, foldM G (zrange k) (azeros [zlen xs]) = Ok a -> ashape a = [zlen xs] /\
      forall i x0, (0 <= i < k)%Z -> nth_error xs (Z.to_nat i) = Some x0 -> hermite_interpolation x0 x y yp = Ok (acell a [i])) /\
    ((forall x0, In x0 xs -> exists v, hermite_interpolation x0 x y yp = Ok v) -> exists a, foldM G (zrange k) (azeros [zlen xs]) = Ok a)).
  { refine (natlike_ind _ _ _).
    - intros _. rewrite zrange_nil by lia. cbn. split; [intros r E; inversion E; subst; split; auto; intros; lia|eauto].
    - intros k Hk IH HkN. destruct (IH ltac:(lia)) as [I1 I2]. rewrite <- Z.add_1_r, zrange_S by auto. rewrite foldM_app.
      destruct (nth_error xs (Z.to_nat k)) as [xk|] eqn:Ek.
      2:{ apply nth_error_None in Ek. unfold zlen in HkN. lia. }
      assert (EL : lget xs k = Ok xk). { unfold lget. destruct (Z.ltb_spec k 0); [lia|]. now rewrite Ek. }
      split.
      + intros r E. apply bind_ok in E as [r0 [E0 E]]. destruct (I1 r0 E0) as [S0 V0].
        cbn in E. apply bind_ok in E as [r1 [E1 E]]. inversion E; subst r1. clear E.
        unfold G in E1. rewrite EL in E1. cbn [bind] in E1. apply bind_ok in E1 as [v [Ev Es]].
        rewrite aset_ok in Es by (rewrite S0; cbn; lia). inversion Es; subst r.
        rewrite upd_shape. split; auto. intros n x0 Hn Hx. destruct (Z.eq_dec n k) as [->|Hne].
        * rewrite upd_same. congruence.
        * rewrite upd_other by congruence. apply V0; [lia|auto].
      + intros Hall. destruct (I2 Hall) as [r0 E0]. rewrite E0. cbn. destruct (I1 r0 E0) as [S0 _].
        destruct (Hall xk (nth_error_In _ _ Ek)) as [v Ev].
        unfold G. rewrite EL. cbn [bind]. rewrite Ev. cbn [bind]. rewrite aset_ok by (rewrite S0; cbn; lia). cbn. eauto. }
  destruct (H (zlen xs) (zlen_nonneg xs) ltac:(lia)) as [H1 H2]. split; auto.
  intros a E. destruct (H1 a E) as [S V]. split; auto. intros i x0 Hi Hx. apply V; auto. split; auto.
  assert (Z.to_nat i < length xs)%nat by (apply nth_error_Some; congruence). unfold zlen. lia.
Qed.

(** ** Over the reals *)
Section HR.
Variables (x y yp : list R).
Let g : gdim R := Nonunif x.
Hypothesis Hx : valid_dim g.
Hypothesis Hy : length y = length x.
Hypothesis Hyp : length yp = length x.
Let n := zlen x.
Let X (i : Z) := nth (Z.to_nat i) x 0.
Let Y (i : Z) := nth (Z.to_nat i) y 0.
Let M (i : Z) := nth (Z.to_nat i) yp 0.

Definition hpoly (x y yp : list R) (c : Z) (t : R) : R :=
  let xk := nth (Z.to_nat c) x 0 in let xkn := nth (Z.to_nat (c + 1)) x 0 in
  let u := (t - xk) * / (xkn - xk) in
  nth (Z.to_nat c) y 0 * (2 * u ^ 3 - 3 * u ^ 2 + 1) + nth (Z.to_nat c) yp 0 * (xkn - xk) * (u ^ 3 - 2 * u ^ 2 + u)
  + nth (Z.to_nat (c + 1)) y 0 * (-2 * u ^ 3 + 3 * u ^ 2) + nth (Z.to_nat (c + 1)) yp 0 * (xkn - xk) * (u ^ 3 - u ^ 2).
Definition hdpoly (x y yp : list R) (c : Z) (t : R) : R :=
  let xk := nth (Z.to_nat c) x 0 in let xkn := nth (Z.to_nat (c + 1)) x 0 in
  let u := (t - xk) * / (xkn - xk) in
  / (xkn - xk) * (nth (Z.to_nat c) y 0 * (6 * u ^ 2 - 6 * u) + nth (Z.to_nat c) yp 0 * (xkn - xk) * (3 * u ^ 2 - 4 * u + 1)
  + nth (Z.to_nat (c + 1)) y 0 * (-6 * u ^ 2 + 6 * u) + nth (Z.to_nat (c + 1)) yp 0 * (xkn - xk) * (3 * u ^ 2 - 2 * u)).

Lemma X_step i : (0 <= i < n - 1)%Z -> X i < X (i + 1)%Z.
Proof. intros Hi. apply (gnode_step g i Hx). exact Hi. Qed.

Lemma hpoly_derive c t : (0 <= c <= n - 2)%Z -> is_derive (hpoly x y yp c) t (hdpoly x y yp c t).
Proof. intros Hc. unfold hpoly, hdpoly. auto_derive; auto. ring. Qed.

Lemma hpoly_left c : (0 <= c <= n - 2)%Z -> hpoly x y yp c (X c) = Y c.
Proof.
  intros Hc. unfold hpoly. fold (X c). replace (X c - X c) with 0 by ring. rewrite Rmult_0_l.
  fold (Y c). ring.
Qed.
Lemma hpoly_right c : (0 <= c <= n - 2)%Z -> hpoly x y yp c (X (c + 1)%Z) = Y (c + 1)%Z.
Proof.
  intros Hc. pose proof (X_step c ltac:(lia)). unfold hpoly. fold (X c) (X (c + 1)%Z) (Y c) (Y (c + 1)%Z).
  rewrite Rinv_r by lra. ring.
Qed.
Lemma hdpoly_left c : (0 <= c <= n - 2)%Z -> hdpoly x y yp c (X c) = M c.
Proof.
  intros Hc. pose proof (X_step c ltac:(lia)). unfold hdpoly. fold (X c) (X (c + 1)%Z) (M c). replace (X c - X c) with 0 by ring. rewrite Rmult_0_l.
  field. lra.
Qed.
Lemma hdpoly_right c : (0 <= c <= n - 2)%Z -> hdpoly x y yp c (X (c + 1)%Z) = M (c + 1)%Z.
Proof.
  intros Hc. pose proof (X_step c ltac:(lia)). unfold hdpoly. fold (X c) (X (c + 1)%Z) (Y c) (Y (c + 1)%Z) (M (c + 1)%Z).
  rewrite Rinv_r by lra. field. lra.
Qed.

Definition hG (t : R) := hpoly x y yp (cellR g t) t.
Definition hD (t : R) := hdpoly x y yp (cellR g t) t.

Lemma n_ge2 : (2 <= n)%Z.
Proof. exact (proj1 Hx). Qed.

Lemma hG_derive t : is_derive hG t (hD t).
Proof.
  apply (glued_derive g hG (hpoly x y yp) Hx) with (D := hdpoly x y yp).
  - reflexivity.
  - intros c Hc. cbn in Hc. fold n in Hc. cbn [gnode]. fold (X (c + 1)%Z).
    rewrite hpoly_right, hpoly_left by lia. reflexivity.
  - intros c t' Hc. apply hpoly_derive. exact Hc.
  - intros c Hc. cbn in Hc. fold n in Hc. cbn [gnode]. fold (X (c + 1)%Z).
    rewrite hdpoly_right, hdpoly_left by lia. reflexivity.
Qed.
Lemma hD_continuous t : continuity_pt hD t.
Proof.
  apply (glued_continuous g hD (hdpoly x y yp) Hx).
  - reflexivity.
  - intros c Hc. cbn in Hc. fold n in Hc. cbn [gnode]. fold (X (c + 1)%Z).
    rewrite hdpoly_right, hdpoly_left by lia. reflexivity.
  - intros c u. apply continuity_pt_filterlim. apply (@ex_derive_continuous R_AbsRing R_NormedModule). unfold hdpoly. auto_derive. auto.
Qed.
Lemma hG_any c t : (0 <= c <= n - 2)%Z -> X c <= t <= X (c + 1)%Z -> hG t = hpoly x y yp c t.
Proof.
  intros Hc Ht. apply (glue_any g hG (hpoly x y yp) Hx).
  - reflexivity.
  - intros d Hd. cbn in Hd. fold n in Hd. cbn [gnode]. fold (X (d + 1)%Z). rewrite hpoly_right, hpoly_left by lia. reflexivity.
  - split; [exact Hc|]. split; intros; apply Ht.
Qed.
Lemma hD_any c t : (0 <= c <= n - 2)%Z -> X c <= t <= X (c + 1)%Z -> hD t = hdpoly x y yp c t.
Proof.
  intros Hc Ht. apply (glue_any g hD (hdpoly x y yp) Hx).
  - reflexivity.
  - intros d Hd. cbn in Hd. fold n in Hd. cbn [gnode]. fold (X (d + 1)%Z). rewrite hdpoly_right, hdpoly_left by lia. reflexivity.
  - split; [exact Hc|]. split; intros; apply Ht.
Qed.
Lemma node_cell i : (0 <= i < n)%Z -> exists c, (0 <= c <= n - 2)%Z /\ (i = c \/ i = c + 1)%Z /\ X c <= X i <= X (c + 1)%Z.
Proof.
  intros Hi. pose proof n_ge2. destruct (Z.eq_dec i (n - 1)) as [E|E].
  - exists (n - 2)%Z. split; [lia|]. split; [lia|]. pose proof (X_step (n - 2) ltac:(lia)).
    replace i with (n - 2 + 1)%Z by lia. lra.
  - exists i. split; [lia|]. split; [lia|]. pose proof (X_step i ltac:(lia)). lra.
Qed.
Lemma hG_node i : (0 <= i < n)%Z -> hG (X i) = Y i.
Proof.
  intros Hi. destruct (node_cell i Hi) as (c & Hc & Hic & Hb). rewrite (hG_any c) by auto.
  destruct Hic as [->| ->]; [now apply hpoly_left|now apply hpoly_right].
Qed.
Lemma hD_node i : (0 <= i < n)%Z -> hD (X i) = M i.
Proof.
  intros Hi. destruct (node_cell i Hi) as (c & Hc & Hic & Hb). rewrite (hD_any c) by auto.
  destruct Hic as [->| ->]; [now apply hdpoly_left|now apply hdpoly_right].
Qed.

Lemma fold_min_first : forall (r : list R) a, (forall b, In b r -> a <= b) -> fold_left pymin r a = a.
Proof.
  induction r as [|b r IH]; cbn; intros a H; auto. rewrite pymin_R.
  rewrite Rmin_left by (apply H; auto). apply IH. intros; apply H; auto.
Qed.
Lemma fold_max_last : forall (r : list R) a l0, (forall b, In b (a :: r) -> b <= l0) -> In l0 (a :: r) -> fold_left pymax r a = l0.
Proof.
  induction r as [|b r IH]; cbn; intros a l0 H Hin.
  - destruct Hin as [->|[]]. reflexivity.
  - rewrite pymax_R. apply IH.
    + intros c [<-|Hc]; [|apply H; auto]. apply Rmax_lub; apply H; auto.
    + cbn. destruct Hin as [->|[->|Hr]]; auto.
      * left. apply Rmax_left. apply H; auto.
      * left. apply Rmax_right. apply H; auto.
Qed.

Lemma in_X b : In b x -> exists i, (0 <= i < n)%Z /\ b = X i.
Proof.
  intros H. apply (In_nth _ _ 0) in H as [k [Hk E]]. exists (Z.of_nat k). split; [unfold n, zlen; lia|].
  unfold X. now rewrite Nat2Z.id.
Qed.
Lemma x_cons : x = X 0 :: tl x.
Proof. pose proof n_ge2 as Hn. unfold n, zlen in Hn. unfold X. clear - Hn. destruct x; cbn in *; [lia|auto]. Qed.
Lemma npmin_cons (l : list R) a r : l = a :: r -> npmin l = Ok (fold_left pymin r a).
Proof. now intros ->. Qed.
Lemma npmax_cons (l : list R) a r : l = a :: r -> npmax l = Ok (fold_left pymax r a).
Proof. now intros ->. Qed.
Lemma min_x : npmin x = Ok (X 0).
Proof.
  rewrite (npmin_cons x _ _ x_cons). f_equal. apply fold_min_first. intros b Hb.
  destruct (in_X b) as [i [Hi ->]]. { rewrite x_cons. now right. }
  exact (gnode_le g 0 i Hx ltac:(lia) ltac:(lia) ltac:(cbn; fold n; lia)).
Qed.
Lemma max_x : npmax x = Ok (X (n - 1)).
Proof.
  pose proof n_ge2 as Hn. rewrite (npmax_cons x _ _ x_cons). f_equal. apply fold_max_last.
  - intros b Hb. rewrite <- x_cons in Hb. destruct (in_X b Hb) as [i [Hi ->]].
    exact (gnode_le g i (n - 1) Hx ltac:(lia) ltac:(lia) ltac:(cbn; fold n; lia)).
  - rewrite <- x_cons. unfold X. apply nth_In. unfold n, zlen in *. lia.
Qed.

Lemma pyget_in (l : list R) i : (0 <= i < zlen l)%Z -> pyget l i = Ok (nth (Z.to_nat i) l 0).
Proof. intros H. unfold pyget. destruct (Z.ltb_spec i 0); [lia|]. apply lget_ok. auto. Qed.

Lemma hermite_R t : hermite_interpolation t x y yp = Ok (
  if Rle_bool t (X 0) then Y 0 else if Rle_bool (X (n - 1)%Z) t then Y (n - 1)%Z else hG t).
Proof.
  pose proof n_ge2 as Hn. assert (Ly : zlen y = n) by (unfold n, zlen; lia). assert (Lp : zlen yp = n) by (unfold n, zlen; lia).
  unfold hermite_interpolation. rewrite min_x. cbn [bind]. change (n_leb t (X 0)) with (Rle_bool t (X 0)).
  destruct (Rle_bool_spec t (X 0)) as [L|L]. { now rewrite pyget_in by lia. }
  rewrite max_x. cbn [bind]. change (n_leb (X (n - 1)) t) with (Rle_bool (X (n - 1)%Z) t).
  destruct (Rle_bool_spec (X (n - 1)%Z) t) as [U|U].
  { unfold pyget. cbn [Z.ltb Z.compare]. rewrite Ly. rewrite (lget_ok y _ 0) by lia. reflexivity. }
  destruct (searchsorted_spec x t) as (S1 & S2 & S3). fold n in S1, S3. set (s := searchsorted x t) in *.
  assert (Hs : (1 <= s <= n - 1)%Z).
  { split.
    - destruct (Z.eq_dec s 0) as [E|E]; [|lia]. rewrite E in S3. specialize (S3 ltac:(lia)). fold (X 0) in S3. lra.
    - destruct (Z.eq_dec s n) as [E|E]; [|lia]. specialize (S2 (n - 1)%Z ltac:(lia)). fold (X (n - 1)%Z) in S2. lra. }
  rewrite !pyget_in by lia. cbn [bind].
  assert (EC : cellR g t = (s - 1)%Z). { unfold cellR, g. fold s n. lia. }
  pose proof (X_step (s - 1) ltac:(lia)) as Hst. replace (s - 1 + 1)%Z with s in Hst by lia.
  unfold hermite_interp. cbn [n_sub NumR]. fold (X s) (X (s - 1)%Z). rewrite divE_R by lra. cbn [bind].
  unfold hermite_splines. cbn. f_equal. unfold hG. rewrite EC. unfold hpoly. replace (s - 1 + 1)%Z with s by lia.
  fold (X s) (X (s - 1)%Z). unfold Rdiv. ring.
Qed.

Lemma hermite_inside F : (forall t, hermite_interpolation t x y yp = Ok (F t)) -> forall t, X 0 <= t <= X (n - 1)%Z -> F t = hG t.
Proof.
  intros HF t Ht. pose proof n_ge2. pose proof (HF t) as E. rewrite hermite_R in E.
  destruct (Rle_bool_spec t (X 0)) as [L|L].
  - inversion E. assert (t = X 0) by lra. subst t. now rewrite hG_node by lia.
  - destruct (Rle_bool_spec (X (n - 1)%Z) t) as [U|U]; inversion E; auto.
    assert (t = X (n - 1)%Z) by lra. subst t. now rewrite hG_node by lia.
Qed.

(** On each cell a cubic polynomial. *)
Lemma hpoly_cubic c : exists a0 a1 a2 a3, forall t, hpoly x y yp c t = a0 + a1 * t + a2 * t ^ 2 + a3 * t ^ 3.
Proof.
  unfold hpoly. fold (X c) (X (c + 1)%Z) (Y c) (Y (c + 1)%Z) (M c) (M (c + 1)%Z).
  set (h := X (c + 1)%Z - X c). set (q := / h). set (s := - X c * q).
  (* u = q t + s *)
  exists (Y c * (2 * s ^ 3 - 3 * s ^ 2 + 1) + M c * h * (s ^ 3 - 2 * s ^ 2 + s) + Y (c + 1)%Z * (-2 * s ^ 3 + 3 * s ^ 2) + M (c + 1)%Z * h * (s ^ 3 - s ^ 2)).
  exists (q * (Y c * (6 * s ^ 2 - 6 * s) + M c * h * (3 * s ^ 2 - 4 * s + 1) + Y (c + 1)%Z * (-6 * s ^ 2 + 6 * s) + M (c + 1)%Z * h * (3 * s ^ 2 - 2 * s))).
  exists (q ^ 2 * (Y c * (6 * s - 3) + M c * h * (3 * s - 2) + Y (c + 1)%Z * (-6 * s + 3) + M (c + 1)%Z * h * (3 * s - 1))).
  exists (q ^ 3 * (2 * Y c + M c * h - 2 * Y (c + 1)%Z + M (c + 1)%Z * h)).
  intros t. unfold s. ring.
Qed.

(** Cubic data are reproduced. *)
Lemma hpoly_exact c a0 a1 a2 a3 : (0 <= c <= n - 2)%Z ->
  (forall i, (0 <= i < n)%Z -> Y i = a0 + a1 * X i + a2 * X i ^ 2 + a3 * X i ^ 3) ->
  (forall i, (0 <= i < n)%Z -> M i = a1 + 2 * a2 * X i + 3 * a3 * X i ^ 2) ->
  forall t, hpoly x y yp c t = a0 + a1 * t + a2 * t ^ 2 + a3 * t ^ 3.
Proof.
  intros Hc H0 H1 t. pose proof (X_step c ltac:(lia)). unfold hpoly. fold (X c) (X (c + 1)%Z) (Y c) (Y (c + 1)%Z) (M c) (M (c + 1)%Z).
  rewrite !H0, !H1 by lia. field. lra.
Qed.

Theorem hermite_C1 : exists D : R -> R,
  (forall F, (forall t, hermite_interpolation t x y yp = Ok (F t)) ->
     (forall i, (0 <= i < n)%Z -> F (X i) = Y i) /\
     (forall t, X 0 < t < X (n - 1)%Z -> derivable_pt_lim F t (D t)) /\
     right_slope F (X 0) (M 0) /\ left_slope F (X (n - 1)%Z) (M (n - 1)%Z)) /\
  (forall i, (0 <= i < n)%Z -> D (X i) = M i) /\
  (forall t, continuity_pt D t).
Proof.
  pose proof n_ge2 as Hn. exists hD.
  assert (L0n : X 0 < X (n - 1)%Z) by (apply (gnode_lt g 0 (n - 1) Hx); cbn; fold n; lia).
  split; [|split; [exact hD_node|exact hD_continuous]].
  intros F HF. pose proof (hermite_inside F HF) as HE. split; [|split; [|split]].
  - intros i Hi. rewrite HE; [now apply hG_node|]. split.
    + exact (gnode_le g 0 i Hx ltac:(lia) ltac:(lia) ltac:(cbn; fold n; lia)).
    + exact (gnode_le g i (n - 1) Hx ltac:(lia) ltac:(lia) ltac:(cbn; fold n; lia)).
  - intros t Ht. apply is_derive_Reals. apply (derive_local F hG t _ (Rmin (t - X 0) (X (n - 1)%Z - t))); [apply Rmin_glb_lt; lra| |apply hG_derive].
    intros u Hu. pose proof (Rmin_l (t - X 0) (X (n - 1)%Z - t)). pose proof (Rmin_r (t - X 0) (X (n - 1)%Z - t)). apply HE. lra.
  - rewrite <- hD_node by lia. apply (right_slope_local F hG _ _ (X (n - 1)%Z - X 0)); [lra| |apply hG_derive]. intros t Ht. apply HE. lra.
  - rewrite <- hD_node by lia. apply (left_slope_local F hG _ _ (X (n - 1)%Z - X 0)); [lra| |apply hG_derive]. intros t Ht. apply HE. lra.
Qed.
End HR.

Section Final.
Variables (x y yp : list R).
Hypothesis Hx : valid_dim (Nonunif x).
Hypothesis Hy : length y = length x.
Hypothesis Hyp : length yp = length x.

Lemma hermite_total : exists F, forall t, hermite_interpolation t x y yp = Ok (F t).
Proof. eexists. intros t. apply (hermite_R x y yp Hx Hy Hyp). Qed.

Lemma hermite_cubic F : (forall t, hermite_interpolation t x y yp = Ok (F t)) ->
  forall c, (0 <= c < zlen x - 1)%Z -> exists a0 a1 a2 a3, forall t,
    nth (Z.to_nat c) x 0 <= t <= nth (Z.to_nat (c + 1)) x 0 -> F t = a0 + a1 * t + a2 * t ^ 2 + a3 * t ^ 3.
Proof.
  intros HF c Hc. destruct (hpoly_cubic x y yp c) as (a0 & a1 & a2 & a3 & E). exists a0, a1, a2, a3. intros t Ht.
  rewrite (hermite_inside x y yp Hx Hy Hyp F HF).
  - rewrite (hG_any x y yp Hx) with (c := c) by (auto; lia). apply E.
  - pose proof (gnode_le (Nonunif x) 0 c Hx ltac:(lia) ltac:(lia) ltac:(cbn; lia)).
    pose proof (gnode_le (Nonunif x) (c + 1) (zlen x - 1) Hx ltac:(lia) ltac:(lia) ltac:(cbn; lia)).
    cbn in *. lra.
Qed.

Lemma hermite_exact a0 a1 a2 a3 :
  (forall i, (0 <= i < zlen x)%Z -> nth (Z.to_nat i) y 0 = a0 + a1 * nth (Z.to_nat i) x 0 + a2 * nth (Z.to_nat i) x 0 ^ 2 + a3 * nth (Z.to_nat i) x 0 ^ 3) ->
  (forall i, (0 <= i < zlen x)%Z -> nth (Z.to_nat i) yp 0 = a1 + 2 * a2 * nth (Z.to_nat i) x 0 + 3 * a3 * nth (Z.to_nat i) x 0 ^ 2) ->
  forall t, nth 0 x 0 <= t <= nth (Z.to_nat (zlen x - 1)) x 0 ->
    hermite_interpolation t x y yp = Ok (a0 + a1 * t + a2 * t ^ 2 + a3 * t ^ 3).
Proof.
  intros H0 H1 t Ht. destruct hermite_total as [F HF]. rewrite HF. f_equal.
  rewrite (hermite_inside x y yp Hx Hy Hyp F HF) by exact Ht. unfold hG. apply hpoly_exact; auto.
  pose proof (cellR_range (Nonunif x) t Hx) as H. cbn [gsize] in H. lia.
Qed.

Lemma hermite_below t : t <= nth 0 x 0 -> hermite_interpolation t x y yp = Ok (nth 0 y 0).
Proof.
  intros H. rewrite (hermite_R x y yp Hx Hy Hyp).
  destruct (Rle_bool_spec t (nth (Z.to_nat 0) x 0)) as [E|E]; [reflexivity|]. cbn in E. lra.
Qed.
Lemma hermite_above t : nth (Z.to_nat (zlen x - 1)) x 0 <= t -> hermite_interpolation t x y yp = Ok (nth (Z.to_nat (zlen x - 1)) y 0).
Proof.
  intros H. rewrite (hermite_R x y yp Hx Hy Hyp). assert (2 <= zlen x)%Z by exact (proj1 Hx).
  pose proof (gnode_lt (Nonunif x) 0 (zlen x - 1) Hx ltac:(lia) ltac:(lia) ltac:(cbn; lia)) as L. cbn [gnode] in L.
  destruct (Rle_bool_spec t (nth (Z.to_nat 0) x 0)) as [E|E]; [lra|].
  destruct (Rle_bool_spec (nth (Z.to_nat (zlen x - 1)) x 0) t) as [E2|E2]; [reflexivity|lra].
Qed.
End Final.

(** Vector and matrix call forms, any arithmetic. *)
Lemma hermite_vector_form {T} {NT : Num T} (xs x y yp : list T) out :
  (forall r o, hermite (HVec xs) x y yp out = Ok (r, o) ->
     o = out /\ exists a, r = VArr a /\ ashape a = [zlen xs] /\
     forall i x0, (0 <= i)%Z -> nth_error xs (Z.to_nat i) = Some x0 -> forall out', hermite (HNum x0) x y yp out' = Ok (VNum (acell a [i]), out')) /\
  ((forall x0, In x0 xs -> exists v, hermite (HNum x0) x y yp out = Ok v) -> exists v, hermite (HVec xs) x y yp out = Ok v).
Proof.
  destruct (hermite_vect_spec xs x y yp) as [H1 H2]. split.
  - intros r o E. cbn in E. apply bind_ok in E as [a [Ea E]]. inversion E; subst. split; auto. exists a. split; auto.
    destruct (H1 a Ea) as [S V]. split; auto. intros i x0 Hi Hx out'. cbn. now rewrite (V i x0 Hi Hx).
  - intros Hall. destruct H2 as [a Ea].
    + intros x0 Hin. destruct (Hall x0 Hin) as [v Ev]. cbn in Ev. apply bind_ok in Ev as [w [Ew _]]. eauto.
    + cbn. rewrite Ea. cbn. eauto.
Qed.
Lemma hermite_matrix_form {T} {NT : Num T} (a : arr T) N p (x y yp : list T) out : ashape a = [N; p] -> (0 < p)%Z ->
  hermite (HMat a) x y yp out = hermite (HVec (map (fun n => acell a [n; 0%Z]) (zrange N))) x y yp out.
Proof.
  intros S Hp. cbn. rewrite S.
  rewrite (mapM_all_ok _ (fun n => acell a [n; 0%Z])). { reflexivity. }
  intros n Hn. apply zrange_In in Hn. apply aget_ok. rewrite S. cbn. lia.
Qed.

Lemma hermite_num {T} {NT : Num T} t (x y yp : list T) out v :
  hermite (HNum t) x y yp out = Ok (VNum v, out) <-> hermite_interpolation t x y yp = Ok v.
Proof.
  cbn. split; intros H.
  - apply bind_ok in H as [w [Ew H]]. now inversion H; subst.
  - now rewrite H.
Qed.

(** A function tabulated by [hermite]. *)
Definition hermite_fun (x y yp : list R) (F : R -> R) : Prop :=
  forall t out, hermite (HNum t) x y yp out = Ok (VNum (F t), out).
Lemma hermite_fun_iff x y yp F : hermite_fun x y yp F <-> forall t, hermite_interpolation t x y yp = Ok (F t).
Proof.
  split.
  - intros H t. now apply (proj1 (hermite_num t x y yp None (F t))).
  - intros H t out. now apply hermite_num.
Qed.

Lemma C27_main x y yp : valid_dim (Nonunif x) -> length y = length x -> length yp = length x ->
  exists F D : R -> R,
    (forall t out, hermite (HNum t) x y yp out = Ok (VNum (F t), out)) /\
    (forall i, (0 <= i < zlen x)%Z -> F (nth (Z.to_nat i) x 0) = nth (Z.to_nat i) y 0) /\
    (forall t, nth 0 x 0 < t < nth (Z.to_nat (zlen x - 1)) x 0 -> derivable_pt_lim F t (D t) /\ continuity_pt D t) /\
    (forall i, (0 <= i < zlen x)%Z -> D (nth (Z.to_nat i) x 0) = nth (Z.to_nat i) yp 0) /\
    right_slope F (nth 0 x 0) (nth 0 yp 0) /\
    left_slope F (nth (Z.to_nat (zlen x - 1)) x 0) (nth (Z.to_nat (zlen x - 1)) yp 0) /\
    (forall c, (0 <= c < zlen x - 1)%Z -> exists a0 a1 a2 a3, forall t,
       nth (Z.to_nat c) x 0 <= t <= nth (Z.to_nat (c + 1)) x 0 -> F t = a0 + a1 * t + a2 * t ^ 2 + a3 * t ^ 3).
Proof.
  intros Hx Hy Hp. destruct (hermite_total x y yp Hx Hy Hp) as [F HF]. destruct (hermite_C1 x y yp Hx Hy Hp) as (D & HD & HN & HC).
  exists F, D. destruct (HD F HF) as (A & B & C & E). split; [now apply (proj2 (hermite_fun_iff x y yp F))|].
  split; [exact A|]. split; [intros t Ht; split; [now apply B|apply HC]|]. split; [exact HN|]. split; [exact C|]. split; [exact E|]. now apply (hermite_cubic x y yp Hx Hy Hp).
Qed.
Lemma C28_exact_main x y yp a0 a1 a2 a3 : valid_dim (Nonunif x) -> length y = length x -> length yp = length x ->
  (forall i, (0 <= i < zlen x)%Z -> let X := nth (Z.to_nat i) x 0 in
     nth (Z.to_nat i) y 0 = a0 + a1 * X + a2 * X ^ 2 + a3 * X ^ 3 /\
     nth (Z.to_nat i) yp 0 = a1 + 2 * a2 * X + 3 * a3 * X ^ 2) ->
  forall t out, nth 0 x 0 <= t <= nth (Z.to_nat (zlen x - 1)) x 0 ->
    hermite (HNum t) x y yp out = Ok (VNum (a0 + a1 * t + a2 * t ^ 2 + a3 * t ^ 3), out).
Proof. intros Hx Hy Hp H t out Ht. apply hermite_num. apply hermite_exact; auto; intros i Hi; now apply H. Qed.
Lemma C28_out_main x y yp : valid_dim (Nonunif x) -> length y = length x -> length yp = length x -> forall t out,
  (t <= nth 0 x 0 -> hermite (HNum t) x y yp out = Ok (VNum (nth 0 y 0), out)) /\
  (nth (Z.to_nat (zlen x - 1)) x 0 <= t -> hermite (HNum t) x y yp out = Ok (VNum (nth (Z.to_nat (zlen x - 1)) y 0), out)).
Proof. intros Hx Hy Hp t out. split; intros H; apply hermite_num; [now apply hermite_below|now apply hermite_above]. Qed.

Lemma ex13_valid : valid_dim (Nonunif [0; 1; 3]).
Proof. exact (Forall_inv (Forall_inv_tail exg_valid)). Qed.
Lemma ex_C28 : forall i, (0 <= i < zlen [0; 1; 3]%R)%Z -> let X := nth (Z.to_nat i) [0; 1; 3] 0 in
     nth (Z.to_nat i) [1; 2; 28] 0 = 1 + 0 * X + 0 * X ^ 2 + 1 * X ^ 3 /\
     nth (Z.to_nat i) [0; 3; 27] 0 = 0 + 2 * 0 * X + 3 * 1 * X ^ 2.
Proof. intros i Hi. change (zlen [0; 1; 3]) with 3%Z in Hi.
  assert (i = 0 \/ i = 1 \/ i = 2)%Z as [->|[->| ->]] by lia;
    [change (Z.to_nat 0) with 0%nat|change (Z.to_nat 1) with 1%nat|change (Z.to_nat 2) with 2%nat]; cbn; lra.
Qed.
