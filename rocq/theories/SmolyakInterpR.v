(** C44-C46: SmolyakGrid and SmolyakInterp over the reals. *)
From Coq Require Import ZArith List Bool Lia ZifyBool Reals Lra Psatz.
From Coquelicot Require Import Coquelicot.
From Verif Require Import Base BaseFacts RSum CompleteModel SpecComplete CompleteGeneric CompleteFit LinAlg SmolyakModel SpecSmolyak SmolyakInds SmolyakChains SmolyakNodes SmolyakB SmolyakGridR SmolyakUni.
Import ListNotations.
Open Scope Z_scope.

(** ** Rows and bounds *)
Lemma mrow_ext d (a b : arr R) p q : (forall k, 0 <= k < d -> acell a [p; k] = acell b [q; k]) -> mrow d a p = mrow d b q.
Proof. intros H. unfold mrow. apply map_ext_in. intros k Hk. apply zrange_In in Hk. auto. Qed.
Lemma mrow_length d (a : arr R) p : 0 <= d -> zlen (mrow d a p) = d.
Proof. intros. unfold mrow, zlen. rewrite map_length, zrange_length. lia. Qed.
Lemma mrow_at d (a : arr R) p k : 0 <= k < d -> nth (Z.to_nat k) (mrow d a p) 0%R = acell a [p; k].
Proof.
  intros Hk. unfold mrow. rewrite (nth_indep _ 0%R (acell a [p; 0])) by (rewrite map_length, zrange_length; lia).
  rewrite (map_nth (fun k => acell a [p; k])). f_equal. f_equal. now rewrite zrange_nth.
Qed.
Lemma to_cube_len : forall lb ub x d, zlen lb = d -> zlen ub = d -> zlen x = d -> zlen (to_cube lb ub x) = d.
Proof.
  induction lb as [|l lb IH]; intros [|u ub] [|t x] d; cbn [to_cube]; rewrite ?zlen_nil, ?zlen_cons; intros H1 H2 H3; auto; try (pose proof (zlen_nonneg lb); pose proof (zlen_nonneg ub); pose proof (zlen_nonneg x); lia).
  rewrite (IH ub x (d - 1)); lia.
Qed.
Lemma to_cube_nth : forall lb ub x d k, zlen lb = d -> zlen ub = d -> zlen x = d -> 0 <= k < d ->
  nth (Z.to_nat k) (to_cube lb ub x) 0%R = ((2 * nth (Z.to_nat k) x 0 - nth (Z.to_nat k) lb 0 - nth (Z.to_nat k) ub 0) / (nth (Z.to_nat k) ub 0 - nth (Z.to_nat k) lb 0))%R.
Proof.
  induction lb as [|l lb IH]; intros [|u ub] [|t x] d k; cbn [to_cube]; rewrite ?zlen_nil, ?zlen_cons; intros H1 H2 H3 Hk; try lia; try (pose proof (zlen_nonneg lb); pose proof (zlen_nonneg ub); pose proof (zlen_nonneg x); lia).
  destruct (Z.eq_dec k 0) as [->|]; [reflexivity|]. replace (Z.to_nat k) with (S (Z.to_nat (k - 1))) by lia. cbn [nth]. apply (IH ub x (d - 1)); lia.
Qed.
Lemma list_nth_eq d (a b : list R) : zlen a = d -> zlen b = d -> (forall k, 0 <= k < d -> nth (Z.to_nat k) a 0%R = nth (Z.to_nat k) b 0%R) -> a = b.
Proof.
  intros Ha Hb H. apply (nth_ext _ _ 0%R 0%R); [unfold zlen in *; lia|]. intros k Hk. specialize (H (Z.of_nat k)). rewrite Nat2Z.id in H. apply H. unfold zlen in *. lia.
Qed.
Definition widths (lb ub : list R) (d : Z) : Prop := zlen lb = d /\ zlen ub = d /\ forall k, 0 <= k < d -> (nth (Z.to_nat k) lb 0 < nth (Z.to_nat k) ub 0)%R.
Lemma Forall2_widths lb ub d : zlen lb = d -> zlen ub = d -> Forall2 Rlt lb ub -> widths lb ub d.
Proof.
  intros H1 H2 HF. split; auto. split; auto. intros k Hk. assert (G : forall j, (j < length lb)%nat -> (nth j lb 0 < nth j ub 0)%R).
  { clear -HF. induction HF; intros j Hj; cbn in *; [lia|]. destruct j; [auto|apply IHHF; lia]. }
  apply G. unfold zlen in *. lia.
Qed.
Lemma per_column_ok f lb ub d N (pts : arr R) : zlen lb = d -> zlen ub = d -> ashape pts = [N; d] ->
  exists r, per_column f lb ub pts = Ok r /\ ashape r = [N; d] /\ forall p k, acell r [p; k] = f (nth (Z.to_nat k) lb 0%R) (nth (Z.to_nat k) ub 0%R) (acell pts [p; k]).
Proof.
  intros H1 H2 Hs. unfold per_column. rewrite Hs, H1, H2, Z.eqb_refl. cbn. eexists. split; [reflexivity|]. split; [reflexivity|]. intros p k. reflexivity.
Qed.
Lemma dom2cube_row lb ub d N (pts : arr R) : 0 <= d -> widths lb ub d -> ashape pts = [N; d] ->
  exists tp, dom2cube lb ub pts = Ok tp /\ ashape tp = [N; d] /\ (forall p, mrow d tp p = to_cube lb ub (mrow d pts p)) /\
    forall p k, 0 <= k < d -> acell tp [p; k] = ((2 * acell pts [p; k] - nth (Z.to_nat k) lb 0 - nth (Z.to_nat k) ub 0) / (nth (Z.to_nat k) ub 0 - nth (Z.to_nat k) lb 0))%R.
Proof.
  intros Hd (H1 & H2 & HW) Hs. destruct (per_column_ok (fun l u x : R => n_div (n_sub x (center l u)) (radius l u)) lb ub d N pts H1 H2 Hs) as (r & E & Sr & V). exists r. split; [exact E|]. split; auto.
  assert (Hc : forall p k, 0 <= k < d -> acell r [p; k] = ((2 * acell pts [p; k] - nth (Z.to_nat k) lb 0 - nth (Z.to_nat k) ub 0) / (nth (Z.to_nat k) ub 0 - nth (Z.to_nat k) lb 0))%R).
  { intros p k Hk. rewrite V. unfold center, radius. cbn. specialize (HW k Hk). field. lra. }
  split; auto. intros p. apply (list_nth_eq d); [now apply mrow_length|apply to_cube_len; auto; now apply mrow_length|]. intros k Hk. rewrite mrow_at, (to_cube_nth lb ub _ d) by (auto; now apply mrow_length). rewrite mrow_at by auto. auto.
Qed.
Lemma cube2dom_row lb ub d N (pts : arr R) : 0 <= d -> widths lb ub d -> ashape pts = [N; d] ->
  exists r, cube2dom lb ub pts = Ok r /\ ashape r = [N; d] /\ (forall p, to_cube lb ub (mrow d r p) = mrow d pts p) /\
    forall p k, 0 <= k < d -> acell r [p; k] = (nth (Z.to_nat k) lb 0 + (acell pts [p; k] + 1) * (nth (Z.to_nat k) ub 0 - nth (Z.to_nat k) lb 0) / 2)%R.
Proof.
  intros Hd (H1 & H2 & HW) Hs. destruct (per_column_ok (fun l u x : R => n_add (n_mul x (radius l u)) (center l u)) lb ub d N pts H1 H2 Hs) as (r & E & Sr & V). exists r. split; [exact E|]. split; auto.
  assert (Hc : forall p k, 0 <= k < d -> acell r [p; k] = (nth (Z.to_nat k) lb 0 + (acell pts [p; k] + 1) * (nth (Z.to_nat k) ub 0 - nth (Z.to_nat k) lb 0) / 2)%R).
  { intros p k Hk. rewrite V. unfold center, radius. cbn. field. }
  split; auto. intros p. symmetry. apply (list_nth_eq d); [now apply mrow_length|apply to_cube_len; auto; now apply mrow_length|]. intros k Hk. rewrite mrow_at, (to_cube_nth lb ub _ d) by (auto; now apply mrow_length). rewrite mrow_at by auto.
  rewrite Hc by auto. specialize (HW k Hk). field. lra.
Qed.

(** ** C45 *)
Lemma scalar_maps l u x : (l < u)%R ->
  ((l <= x <= u <-> -1 <= (2 * x - l - u) / (u - l) <= 1) /\ (-1 <= x <= 1 <-> l <= l + (x + 1) * (u - l) / 2 <= u) /\
   (x = l -> (2 * x - l - u) / (u - l) = -1) /\ (x = u -> (2 * x - l - u) / (u - l) = 1))%R.
Proof.
  intros H. assert (E : ((2 * x - l - u) / (u - l) * (u - l))%R = (2 * x - l - u)%R) by (field; lra). set (t := ((2 * x - l - u) / (u - l))%R) in *.
  repeat split; try nra; intros ->; unfold t; field; lra.
Qed.
Theorem domain_maps lb ub d N (pts : arr R) : 0 <= d -> zlen lb = d -> zlen ub = d -> Forall2 Rlt lb ub -> ashape pts = [N; d] ->
  exists c w, dom2cube lb ub pts = Ok c /\ cube2dom lb ub pts = Ok w /\ ashape c = [N; d] /\ ashape w = [N; d] /\
  (exists c', cube2dom lb ub c = Ok c' /\ ashape c' = [N; d] /\ forall p k, 0 <= p < N -> 0 <= k < d -> acell c' [p; k] = acell pts [p; k]) /\
  (exists w', dom2cube lb ub w = Ok w' /\ ashape w' = [N; d] /\ forall p k, 0 <= p < N -> 0 <= k < d -> acell w' [p; k] = acell pts [p; k]) /\
  forall p k, 0 <= p < N -> 0 <= k < d ->
    ((nth (Z.to_nat k) lb 0 <= acell pts [p; k] <= nth (Z.to_nat k) ub 0 <-> -1 <= acell c [p; k] <= 1) /\
     (-1 <= acell pts [p; k] <= 1 <-> nth (Z.to_nat k) lb 0 <= acell w [p; k] <= nth (Z.to_nat k) ub 0) /\
     (acell pts [p; k] = nth (Z.to_nat k) lb 0 -> acell c [p; k] = -1) /\ (acell pts [p; k] = nth (Z.to_nat k) ub 0 -> acell c [p; k] = 1))%R.
Proof.
  intros Hd H1 H2 HF Hs. pose proof (Forall2_widths lb ub d H1 H2 HF) as W.
  destruct (dom2cube_row lb ub d N pts Hd W Hs) as (c & Ec & Sc & _ & Vc). destruct (cube2dom_row lb ub d N pts Hd W Hs) as (w & Ew & Sw & _ & Vw).
  destruct (cube2dom_row lb ub d N c Hd W Sc) as (c' & Ec' & Sc' & _ & Vc'). destruct (dom2cube_row lb ub d N w Hd W Sw) as (w' & Ew' & Sw' & _ & Vw').
  destruct W as (_ & _ & HW). exists c, w. split; auto. split; auto. split; auto. split; auto. split; [|split].
  - exists c'. split; auto. split; auto. intros p k _ Hk. rewrite Vc', Vc by auto. specialize (HW k Hk). field. lra.
  - exists w'. split; auto. split; auto. intros p k _ Hk. rewrite Vw', Vw by auto. specialize (HW k Hk). field. lra.
  - intros p k _ Hk. rewrite Vc, Vw by auto. apply scalar_maps. auto.
Qed.

(** ** SmolyakGrid *)
Definition good_sg (d : Z) (mu : mu_t) (m n : Z) (lb ub : list R) (sg : sgrid R) : Prop :=
  sg_d sg = d /\ sg_mu sg = mu /\ sg_lb sg = lb /\ sg_ub sg = ub /\ zlen (sg_pinds sg) = n /\
  ashape (sg_cube sg) = [n; d] /\ cube2dom lb ub (sg_cube sg) = Ok (sg_grid sg) /\ ashape (sg_B sg) = [n; n] /\
  (forall p j, 0 <= p < n -> 0 <= j < n -> acell (sg_B sg) [p; j] = basis (nth (Z.to_nat j) (sg_pinds sg) []) (mrow d (sg_cube sg) p)) /\
  indices_ok d m (sg_pinds sg) /\ nonsingular (sg_B sg) n /\
  ashape (sg_BL sg) = [n; n] /\ ashape (sg_BU sg) = [n; n] /\
  (forall i j, 0 <= i < n -> 0 <= j < n -> zsum n (fun k => acell (sg_BL sg) [i; k] * acell (sg_BU sg) [k; j])%R = acell (sg_B sg) [i; j]) /\
  (forall p k, 0 <= p < n -> 0 <= k < d -> (-1 <= acell (sg_cube sg) [p; k] <= 1)%R) /\
  (forall p q, 0 <= p < n -> 0 <= q < n -> mrow d (sg_cube sg) p = mrow d (sg_cube sg) q -> p = q) /\
  NoDup (sg_pinds sg) /\ (forall b, In b (sg_pinds sg) <-> exists v, smolyak_index d mu m v /\ Forall2 at_level v b).

Lemma read_bound_ok d dflt b l : 0 <= d -> bound_list d dflt b l -> read_bound d dflt b = Ok (Some l).
Proof.
  intros Hd [HL H]. assert (R : forall c, (forall x, In x l -> x = c) -> repeat c (Z.to_nat d) = l).
  { intros c Hc. replace (Z.to_nat d) with (length l) by (unfold zlen in HL; lia). clear -Hc. induction l; cbn; auto. rewrite (Hc a) by now left. f_equal. apply IHl. intros; apply Hc; now right. }
  destruct b; cbn in *; [now rewrite R|now rewrite R| |destruct H]. subst l. now rewrite HL, Z.eqb_refl.
Qed.

Section Interp.
Variables (tiny : R) (lu : arr R -> res (arr R * arr R)) (solve : arr R -> arr R -> res (arr R)).
Hypothesis (Hlu : lu_ok lu) (Hsolve : solve_ok solve).
Theorem sg_new_good d mu m lb ub lbl ubl : 2 <= d -> density_ok d mu m -> tiny_ok tiny (m + 1) ->
  bound_list d (-1) lb lbl -> bound_list d 1 ub ubl -> Forall2 Rlt lbl ubl ->
  exists sg n, sg_new (s_n PI cos tiny) lu d mu lb ub = Ok sg /\ 0 < n /\ good_sg d mu m n lbl ubl sg.
Proof.
  intros Hd Hm Ht Hlb Hub HW. destruct (grid_basis tiny d mu m Hd Hm Ht) as (L & g & P & E1 & E2 & E3 & Sg & Hp & Hv & Hi & HN & HP & Hok).
  destruct (density_max d mu m Hm) as [Emu Hm1].
  pose proof (Forall2_widths lbl ubl d (proj1 Hlb) (proj1 Hub) HW) as W.
  destruct (cube2dom_row lbl ubl d (zlen P) g ltac:(lia) W Sg) as (w & Ew & Sw & _ & Vw).
  destruct (build_B_spec d m (zlen P) g P ltac:(lia) (zlen_nonneg P) Sg Hok Hm1 mu Emu) as (B & EB & SB & VB).
  destruct (Hlu B (zlen P) SB) as (LL & U & EL & SL & SU & HLU).
  exists (mkSG d mu lbl ubl L P g w B LL U), (zlen P).
  assert (Hnon : nonsingular B (zlen P)).
  { intros x Hx. apply (coefficients_unique tiny d mu m) with (g := g); auto. intros p Hp'. rewrite <- (Hx p Hp'). apply zsum_ext. intros j Hj. now rewrite VB. }
  assert (Hpos : 0 < zlen P).
  { destruct (Hv (repeat 1 (Z.to_nat d)) (repeat 0%R (Z.to_nat d))) as (p & Hp' & _); [now apply ones_index| |lia]. clear. induction (Z.to_nat d); cbn; constructor; auto. now left. }
  split; [|split; [auto|]].
  - unfold sg_new. cbn [n_ofZ NumR]. rewrite (read_bound_ok d _ lb lbl), (read_bound_ok d _ ub ubl) by (auto; lia). cbn [bind]. destruct (d <=? 1) eqn:Ed; [lia|].
    assert (Emus : match mu with MuInt m0 => if m0 <? 1 then Err ValueErr else Ok tt | MuArr l => if existsb (fun m0 => m0 <? 1) l then Err ValueErr else if negb (zlen l =? d) then Err ValueErr else Ok tt end = Ok tt).
    { destruct mu as [k|l]; cbn in Hm.
      - destruct (k <? 1) eqn:E; [lia|auto].
      - destruct Hm as (HL & HF & _). rewrite HL, Z.eqb_refl. cbn. replace (existsb (fun m0 => m0 <? 1) l) with false; auto. symmetry. clear -HF. induction HF; cbn; auto. rewrite IHHF. destruct (x <? 1) eqn:E; [lia|auto]. }
    rewrite Emus. cbn [bind]. rewrite E1. cbn [bind]. rewrite E3. cbn [bind]. rewrite E2. cbn [bind]. rewrite Ew. cbn [bind]. rewrite EB. cbn [bind]. rewrite EL. reflexivity.
  - unfold good_sg. cbn. repeat (split; auto).
    + destruct (Hp p) as (v & Hv' & HF); auto. assert (HB : In (acell g [p; k]) (mrow d g p)) by (unfold mrow; apply in_map_iff; exists k; rewrite zrange_In; auto).
      assert (Hr : forall i, In i v -> 1 <= i <= m + 1) by (intros i; apply (iso_entries d); eapply index_iso; eauto).
      revert HB. generalize (acell g [p; k]). clear -HF Hr Ht Hm1. induction HF as [|i x v l Hx HF IH]; intros y []; [subst; apply (a_of_bounds tiny (m + 1) i); auto; [lia|apply Hr; now left]|apply IH; auto; intros; apply Hr; now right].
    + destruct (Hp p) as (v & Hv' & HF); auto. assert (HB : In (acell g [p; k]) (mrow d g p)) by (unfold mrow; apply in_map_iff; exists k; rewrite zrange_In; auto).
      assert (Hr : forall i, In i v -> 1 <= i <= m + 1) by (intros i; apply (iso_entries d); eapply index_iso; eauto).
      revert HB. generalize (acell g [p; k]). clear -HF Hr Ht Hm1. induction HF as [|i x v l Hx HF IH]; intros y []; [subst; apply (a_of_bounds tiny (m + 1) i); auto; [lia|apply Hr; now left]|apply IH; auto; intros; apply Hr; now right].
Qed.

(** ** The coefficients *)
Section Object.
Variables (d : Z) (mu : mu_t) (m n : Z) (lb ub : list R) (sg : sgrid R).
Hypothesis (Hd : 1 <= d) (Hn : 0 < n) (Hm : 1 <= m) (Hmax : max_mu mu = Ok m) (W : widths lb ub d).
Hypothesis (HG : good_sg d mu m n lb ub sg).
Definition Bf (i j : Z) : R := acell (sg_B sg) [i; j].
Definition Lf (i j : Z) : R := acell (sg_BL sg) [i; j].
Definition Uf (i j : Z) : R := acell (sg_BU sg) [i; j].
Lemma B_kernel : trivial_kernel n Bf. Proof. apply HG. Qed.
Lemma LU_B : forall i j, 0 <= i < n -> 0 <= j < n -> zsum n (fun k => Lf i k * Uf k j)%R = Bf i j. Proof. apply HG. Qed.
Lemma L_kernel : trivial_kernel n Lf. Proof. apply (left_kernel n Lf Uf Bf); [lia|exact B_kernel|exact LU_B]. Qed.
Lemma U_kernel : trivial_kernel n Uf. Proof. apply (right_kernel n Lf Uf Bf); [exact B_kernel|exact LU_B]. Qed.

Theorem theta_spec f tl : outshape tl -> ashape f = n :: tl -> exists th, find_theta solve sg f = Ok th /\ ashape th = n :: tl /\
  forall i tail, 0 <= i < n -> inb tl tail = true -> zsum n (fun j => Bf i j * acell th (j :: tail))%R = acell f (i :: tail).
Proof.
  intros Ho Hf. unfold find_theta. destruct (Hsolve (sg_BL sg) f n tl Ho) as (y & Ey & Sy & Vy); [apply HG|auto|exact L_kernel|]. rewrite Ey. cbn [bind].
  destruct (Hsolve (sg_BU sg) y n tl Ho) as (x & Ex & Sx & Vx); [apply HG|auto|exact U_kernel|]. rewrite Ex. exists x. split; auto. split; auto. intros i tail Hi Ht.
  rewrite <- (product_apply n Lf Uf Bf LU_B (fun j => acell x (j :: tail)) i Hi). rewrite <- Vy by auto. apply zsum_ext. intros k Hk. f_equal. exact (Vx k tail Hk Ht).
Qed.
Lemma theta_unique (x y : Z -> R) : (forall i, 0 <= i < n -> zsum n (fun j => Bf i j * x j)%R = zsum n (fun j => Bf i j * y j)%R) -> forall j, 0 <= j < n -> x j = y j.
Proof.
  intros H j Hj. assert (E : (x j - y j)%R = 0%R); [|lra]. apply (B_kernel (fun j => x j - y j)%R); auto. intros i Hi. rewrite (zsum_ext n _ (fun j => Bf i j * x j - Bf i j * y j)%R) by (intros; ring). rewrite zsum_minus, H by auto. ring.
Qed.

(** ** Values *)
Lemma n_pinds : zlen (sg_pinds sg) = n. Proof. exact (proj1 (proj2 (proj2 (proj2 (proj2 HG))))). Qed.
Theorem values_at (th f : arr R) tl k pts dth : outshape tl -> ashape th = n :: tl -> 0 <= k -> ashape pts = [k; d] ->
  exists v Bk, si_interpolate solve (mkSI sg f th) pts true false dth false = Ok (if dth then [v; Bk] else [v]) /\ ashape v = k :: tl /\ ashape Bk = [k; n] /\
  (forall p tail, 0 <= p < k -> inb tl tail = true -> acell v (p :: tail) = smolyak_value lb ub (sg_pinds sg) (fun j => acell th (j :: tail)) (mrow d pts p)) /\
  (forall p j, 0 <= p < k -> 0 <= j < n -> acell Bk [p; j] = basis (nth (Z.to_nat j) (sg_pinds sg) []) (to_cube lb ub (mrow d pts p))).
Proof.
  intros Ho Sth Hk Spts. pose proof HG as (_ & Gmu & Glb & Gub & Gn & _ & _ & _ & _ & Gok & _).
  destruct (dom2cube_row lb ub d k pts ltac:(lia) W Spts) as (tp & Et & St & Rt & _).
  destruct (build_B_spec d m k tp (sg_pinds sg) Hd Hk St Gok Hm mu Hmax) as (B & EB & SB & VB). rewrite Gn in *.
  destruct (adot_mat k n tl B th Ho SB Sth) as (v & Ev & Sv & Vv).
  exists v, B. unfold si_interpolate. cbn [si_sg si_theta]. unfold adim. rewrite Spts. change (lget [k; d] 1) with (Ok d). cbn [bind]. rewrite Glb, Gub, Et. cbn [bind]. rewrite Gmu, EB. cbn [bind]. rewrite Ev. cbn [bind].
  split; [destruct dth; reflexivity|]. split; auto. split; auto. split.
  - intros p tail Hp Ht. rewrite Vv by auto. unfold smolyak_value. rewrite Gn. apply zsum_ext. intros j Hj. now rewrite VB, Rt.
  - intros p j Hp Hj. now rewrite VB, Rt.
Qed.

(** ** Gradients *)
Lemma to_cube_replace x i s : zlen x = d -> 0 <= i < d ->
  to_cube lb ub (replace_at x i s) = replace_at (to_cube lb ub x) i ((2 * s - nth (Z.to_nat i) lb 0 - nth (Z.to_nat i) ub 0) / (nth (Z.to_nat i) ub 0 - nth (Z.to_nat i) lb 0))%R.
Proof.
  destruct W as (H1 & H2 & _). clear -H1 H2. revert ub x d i H1 H2. induction lb as [|l lb' IH]; intros [|u ub'] [|t x] d i; rewrite ?zlen_nil, ?zlen_cons; intros H1 H2 H3 Hi; try lia; try (pose proof (zlen_nonneg lb'); pose proof (zlen_nonneg ub'); pose proof (zlen_nonneg x); lia).
  destruct (Z.eq_dec i 0) as [->|]; [reflexivity|]. replace (Z.to_nat i) with (S (Z.to_nat (i - 1))) by lia. unfold replace_at. replace (Z.to_nat i) with (S (Z.to_nat (i - 1))) by lia. cbn [firstn app skipn to_cube nth]. f_equal.
  specialize (IH ub' x (d - 1) (i - 1) ltac:(lia) ltac:(lia) ltac:(lia) ltac:(lia)). unfold replace_at in IH. exact IH.
Qed.
Lemma basis_chain b x i : zlen b = d -> zlen x = d -> 0 <= i < d ->
  is_derive (fun s : R => basis b (to_cube lb ub (replace_at x i s))) (nth (Z.to_nat i) x 0%R)
    (rprod (map (dfactor b (to_cube lb ub x) i) (zrange d)) * (2 / (nth (Z.to_nat i) ub 0 - nth (Z.to_nat i) lb 0)))%R.
Proof.
  intros Hb Hx Hi. pose proof W as (H1 & H2 & HW). specialize (HW i Hi). set (l := nth (Z.to_nat i) lb 0%R) in *. set (u := nth (Z.to_nat i) ub 0%R) in *.
  apply (is_derive_ext (fun s : R => (fun t : R => basis b (replace_at (to_cube lb ub x) i t)) ((2 * s - l - u) / (u - l))%R)).
  { intros s. cbn. now rewrite to_cube_replace. }
  rewrite Rmult_comm. apply (is_derive_comp (fun t : R => basis b (replace_at (to_cube lb ub x) i t)) (fun s : R => ((2 * s - l - u) / (u - l))%R)).
  - pose proof (dfactor_derive b (to_cube lb ub x) d i Hb ltac:(now apply to_cube_len) Hi) as HD. rewrite (to_cube_nth lb ub x d) in HD by auto. exact HD.
  - auto_derive; [lra|]. field. lra.
Qed.
Lemma radii_nth i : 0 <= i < d -> nth (Z.to_nat i) (map2 (fun l u : R => n_div (n_ofZ 2) (n_sub u l)) lb ub) 0%R = (2 / (nth (Z.to_nat i) ub 0 - nth (Z.to_nat i) lb 0))%R.
Proof.
  destruct W as (H1 & H2 & _). clear -H1 H2. revert ub d i H1 H2. induction lb as [|l lb' IH]; intros [|u ub'] d i; rewrite ?zlen_nil, ?zlen_cons; intros H1 H2 Hi; try lia; try (pose proof (zlen_nonneg lb'); pose proof (zlen_nonneg ub'); lia).
  destruct (Z.eq_dec i 0) as [->|]; [reflexivity|]. replace (Z.to_nat i) with (S (Z.to_nat (i - 1))) by lia. cbn [map2 nth]. apply (IH ub' (d - 1)); lia.
Qed.
Lemma radii_len : zlen (map2 (fun l u : R => n_div (n_ofZ 2) (n_sub u l)) lb ub) = d.
Proof.
  destruct W as (H1 & H2 & _). clear -H1 H2. revert ub d H1 H2. induction lb as [|l lb' IH]; intros [|u ub'] d; rewrite ?zlen_nil, ?zlen_cons; intros H1 H2; cbn [map2]; rewrite ?zlen_nil, ?zlen_cons; auto; try (pose proof (zlen_nonneg lb'); pose proof (zlen_nonneg ub'); lia).
  rewrite (IH ub' (d - 1)); lia.
Qed.
Lemma pind_len j : 0 <= j < n -> zlen (nth (Z.to_nat j) (sg_pinds sg) []) = d.
Proof.
  intros Hj. pose proof HG as (_ & _ & _ & _ & Gn & _ & _ & _ & _ & Gok & _). unfold indices_ok in Gok. rewrite List.Forall_forall in Gok. apply Gok. apply nth_In. unfold zlen in Gn. lia.
Qed.
(** The derivative in coordinate [i] of the interpolated function. *)
Lemma value_derive (th : Z -> R) x i : zlen x = d -> 0 <= i < d ->
  is_derive (fun s : R => smolyak_value lb ub (sg_pinds sg) th (replace_at x i s)) (nth (Z.to_nat i) x 0%R)
    (zsum n (fun j => th j * rprod (map (dfactor (nth (Z.to_nat j) (sg_pinds sg) []) (to_cube lb ub x) i) (zrange d))) * (2 / (nth (Z.to_nat i) ub 0 - nth (Z.to_nat i) lb 0)))%R.
Proof.
  intros Hx Hi. rewrite <- zsum_scal_r. unfold smolyak_value. rewrite n_pinds.
  apply (zsum_derive (fun s j => basis (nth (Z.to_nat j) (sg_pinds sg) []) (to_cube lb ub (replace_at x i s)) * th j)%R
    (fun _ j => th j * rprod (map (dfactor (nth (Z.to_nat j) (sg_pinds sg) []) (to_cube lb ub x) i) (zrange d)) * (2 / (nth (Z.to_nat i) ub 0 - nth (Z.to_nat i) lb 0)))%R); [lia|].
  intros j Hj. apply (is_derive_ext (fun s : R => scal (th j) (basis (nth (Z.to_nat j) (sg_pinds sg) []) (to_cube lb ub (replace_at x i s))))); [intros; unfold scal; cbn; unfold mult; cbn; ring|].
  rewrite Rmult_assoc. apply @is_derive_scal. apply basis_chain; auto. now apply pind_len.
Qed.
Lemma deriv_core (th f : arr R) tl k pts : outshape tl -> ashape th = n :: tl -> 0 <= k -> ashape pts = [k; d] ->
  exists v B D, ashape v = k :: tl /\ ashape D = [n; d; k] /\
  (forall p tail, 0 <= p < k -> inb tl tail = true -> acell v (p :: tail) = smolyak_value lb ub (sg_pinds sg) (fun j => acell th (j :: tail)) (mrow d pts p)) /\
  (forall p j i, 0 <= p < k -> 0 <= j < n -> 0 <= i < d -> acell D [j; i; p] = rprod (map (dfactor (nth (Z.to_nat j) (sg_pinds sg) []) (to_cube lb ub (mrow d pts p)) i) (zrange d))) /\
  forall interp, si_interpolate solve (mkSI sg f th) pts interp true false false =
    (dv <- (dv <- tensordot0_T th D ;; scale_last dv (map2 (fun l u : R => n_div (n_ofZ 2) (n_sub u l)) lb ub)) ;; Ok ((if interp then [v] else []) ++ [dv])) /\
    adot B th = Ok v.
Proof.
  intros Ho Sth Hk Spts. pose proof HG as (_ & Gmu & Glb & Gub & Gn & _ & _ & _ & _ & Gok & _).
  destruct (dom2cube_row lb ub d k pts ltac:(lia) W Spts) as (tp & Et & St & Rt & _).
  destruct (build_B_deriv_spec d m k tp (sg_pinds sg) Hd Hk St Gok Hm mu Hmax) as (B & D & EB & SB & SD & VB & VD). rewrite Gn in *.
  destruct (adot_mat k n tl B th Ho SB Sth) as (v & Ev & Sv & Vv). exists v, B, D. split; auto. split; auto. split; [|split].
  - intros p tail Hp Ht. rewrite Vv by auto. unfold smolyak_value. rewrite Gn. apply zsum_ext. intros j Hj. now rewrite VB, Rt.
  - intros p j i Hp Hj Hi. now rewrite VD, Rt.
  - intros interp. split; auto. unfold si_interpolate. cbn [si_sg si_theta]. unfold adim. rewrite Spts. change (lget [k; d] 1) with (Ok d). cbn [bind]. rewrite Glb, Gub, Et. cbn [bind]. rewrite Gmu, EB. cbn [bind]. rewrite Ev. cbn [bind].
    destruct (tensordot0_T th D) as [dv|e]; cbn [bind]; auto. destruct (scale_last dv _) as [dw|e]; cbn [bind]; auto.
Qed.
(** C46, numbers as values *)
Theorem gradient_at (th f : arr R) k pts interp : ashape th = [n] -> 0 <= k -> ashape pts = [k; d] ->
  exists v dv, si_interpolate solve (mkSI sg f th) pts interp true false false = Ok (if interp then [v; dv] else [dv]) /\ ashape v = [k] /\ ashape dv = [k; d] /\
  (forall p, 0 <= p < k -> acell v [p] = smolyak_value lb ub (sg_pinds sg) (fun j => acell th [j]) (mrow d pts p)) /\
  forall p i, 0 <= p < k -> 0 <= i < d ->
    is_derive (fun s : R => smolyak_value lb ub (sg_pinds sg) (fun j => acell th [j]) (replace_at (mrow d pts p) i s)) (acell pts [p; i]) (acell dv [p; i]).
Proof.
  intros Sth Hk Spts. destruct (deriv_core th f [] k pts (or_introl eq_refl) Sth Hk Spts) as (v & B & D & Sv & SD & Vv & VD & E). destruct (E interp) as [E1 _].
  unfold tensordot0_T in E1. rewrite Sth, SD, Z.eqb_refl in E1. cbn [bind] in E1. unfold scale_last in E1. cbn [ashape rev app] in E1. rewrite radii_len, Z.eqb_refl in E1. cbn [bind] in E1.
  eexists v, _. split; [rewrite E1; destruct interp; reflexivity|]. split; auto. split; [reflexivity|]. split; [intros p Hp; exact (Vv p [] Hp eq_refl)|].
  intros p i Hp Hi. cbn [acell last rev app]. rewrite asum_R. change (n_ofZ 0) with 0%R. rewrite radii_nth by auto. rewrite <- (mrow_at d pts p i) by auto.
  cbn [n_mul NumR]. rewrite (zsum_ext n _ (fun j => acell th [j] * rprod (map (dfactor (nth (Z.to_nat j) (sg_pinds sg) []) (to_cube lb ub (mrow d pts p)) i) (zrange d)))%R) by (intros j Hj; now rewrite VD).
  apply value_derive; auto. apply mrow_length. lia.
Qed.
(** Vectors as values: what is returned. *)
Theorem gradient_vector (th f : arr R) q k pts : ashape th = [n; q] -> 0 <= k -> ashape pts = [k; d] ->
  (q <> d -> q <> 1 -> d <> 1 -> si_interpolate solve (mkSI sg f th) pts true true false false = Err ValueErr) /\
  (q = d -> exists v dv, si_interpolate solve (mkSI sg f th) pts true true false false = Ok [v; dv] /\ ashape v = [k; q] /\ ashape dv = [k; d; q] /\
    (forall p c, 0 <= p < k -> 0 <= c < q -> acell v [p; c] = smolyak_value lb ub (sg_pinds sg) (fun j => acell th [j; c]) (mrow d pts p)) /\
    forall p i c, 0 <= p < k -> 0 <= i < d -> 0 <= c < q ->
      is_derive (fun s : R => smolyak_value lb ub (sg_pinds sg) (fun j => acell th [j; c]) (replace_at (mrow d pts p) i s)) (acell pts [p; i])
        (acell dv [p; i; c] * ((nth (Z.to_nat c) ub 0 - nth (Z.to_nat c) lb 0) / (nth (Z.to_nat i) ub 0 - nth (Z.to_nat i) lb 0)))%R) /\
  (q = 1 -> exists v dv, si_interpolate solve (mkSI sg f th) pts true true false false = Ok [v; dv] /\ ashape v = [k; 1] /\ ashape dv = [k; d; d] /\
    (forall p, 0 <= p < k -> acell v [p; 0] = smolyak_value lb ub (sg_pinds sg) (fun j => acell th [j; 0]) (mrow d pts p)) /\
    forall p i c, 0 <= p < k -> 0 <= i < d -> 0 <= c < d ->
      is_derive (fun s : R => smolyak_value lb ub (sg_pinds sg) (fun j => acell th [j; 0]) (replace_at (mrow d pts p) i s)) (acell pts [p; i])
        (acell dv [p; i; c] * ((nth (Z.to_nat c) ub 0 - nth (Z.to_nat c) lb 0) / (nth (Z.to_nat i) ub 0 - nth (Z.to_nat i) lb 0)))%R).
Proof.
  intros Sth Hk Spts. destruct (deriv_core th f [q] k pts (or_intror (ex_intro _ q eq_refl)) Sth Hk Spts) as (v & B & D & Sv & SD & Vv & VD & E). destruct (E true) as [E1 _].
  unfold tensordot0_T in E1. rewrite Sth, SD, Z.eqb_refl in E1. cbn [bind] in E1. unfold scale_last in E1. cbn [ashape rev app] in E1. rewrite radii_len in E1. split; [|split].
  - intros Hq H1 H2. destruct (q =? d) eqn:Eq; [lia|]. destruct (q =? 1) eqn:Eq1; [lia|]. destruct (d =? 1) eqn:Ed; [lia|]. exact E1.
  - intros ->. rewrite Z.eqb_refl in E1. cbn [bind] in E1. eexists v, _. split; [exact E1|]. split; auto. split; [reflexivity|]. split; [intros p c Hp Hc; apply (Vv p [c] Hp); cbn; lia|].
    intros p i c Hp Hi Hc. cbn [acell last nth]. rewrite asum_R. change (n_ofZ 0) with 0%R. rewrite radii_nth by auto. rewrite <- (mrow_at d pts p i) by auto.
    cbn [n_mul NumR]. rewrite (zsum_ext n _ (fun j => acell th [j; c] * rprod (map (dfactor (nth (Z.to_nat j) (sg_pinds sg) []) (to_cube lb ub (mrow d pts p)) i) (zrange d)))%R) by (intros j Hj; now rewrite VD).
    pose proof (value_derive (fun j => acell th [j; c]) (mrow d pts p) i ltac:(apply mrow_length; lia) Hi) as HD.
    destruct W as (_ & _ & HW). pose proof (HW i Hi). pose proof (HW c Hc).
    match goal with |- is_derive _ _ ?r => match type of HD with is_derive _ _ ?r' => replace r with r'; [exact HD|] end end. field. split; lra.
  - intros ->. destruct (1 =? d) eqn:E1d.
    + assert (d = 1) by lia.
      cbn [bind] in E1. eexists v, _. split; [exact E1|]. split; auto. split; [cbn; congruence|]. split; [intros p Hp; apply (Vv p [0] Hp); reflexivity|].
      intros p i c Hp Hi Hc. assert (i = 0) as -> by lia. assert (c = 0) as -> by lia. cbn [acell last nth]. rewrite asum_R. change (n_ofZ 0) with 0%R. rewrite radii_nth by lia. rewrite <- (mrow_at d pts p 0) by auto.
      cbn [n_mul NumR]. rewrite (zsum_ext n _ (fun j => acell th [j; 0%Z] * rprod (map (dfactor (nth (Z.to_nat j) (sg_pinds sg) []) (to_cube lb ub (mrow d pts p)) 0%Z) (zrange d)))%R) by (intros j Hj; now rewrite VD by lia).
      pose proof (value_derive (fun j => acell th [j; 0]) (mrow d pts p) 0 ltac:(apply mrow_length; lia) ltac:(lia)) as HD.
      destruct W as (_ & _ & HW). pose proof (HW 0 ltac:(lia)).
      match goal with |- is_derive _ _ ?r => match type of HD with is_derive _ _ ?r' => replace r with r'; [exact HD|] end end. field. lra.
    + cbn [Z.eqb Pos.eqb bind] in E1. eexists v, _. split; [exact E1|]. split; auto. split; [reflexivity|]. split; [intros p Hp; apply (Vv p [0] Hp); reflexivity|].
      intros p i c Hp Hi Hc. cbn [acell last removelast app nth]. rewrite asum_R. change (n_ofZ 0) with 0%R. rewrite radii_nth by auto. rewrite <- (mrow_at d pts p i) by auto.
      cbn [n_mul NumR]. rewrite (zsum_ext n _ (fun j => acell th [j; 0%Z] * rprod (map (dfactor (nth (Z.to_nat j) (sg_pinds sg) []) (to_cube lb ub (mrow d pts p)) i) (zrange d)))%R) by (intros j Hj; now rewrite VD).
      pose proof (value_derive (fun j => acell th [j; 0]) (mrow d pts p) i ltac:(apply mrow_length; lia) Hi) as HD.
      destruct W as (_ & _ & HW). pose proof (HW i Hi). pose proof (HW c Hc).
      match goal with |- is_derive _ _ ?r => match type of HD with is_derive _ _ ?r' => replace r with r'; [exact HD|] end end. field. split; lra.
Qed.
End Object.
End Interp.
