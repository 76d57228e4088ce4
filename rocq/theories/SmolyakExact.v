(** C80, C81: polynomials reproduced by Smolyak interpolation; the points of the grid; refinement. *)
From Coq Require Import ZArith List Bool Lia ZifyBool Reals Lra Psatz.
From Coquelicot Require Import Coquelicot.
From Verif Require Import Base BaseFacts RSum CompleteModel SpecComplete LinAlg SmolyakModel SpecSmolyak SmolyakInds SmolyakChains SmolyakNodes SmolyakB SmolyakGridR SmolyakUni SmolyakInterpR SmolyakProps SpecExact.
Import ListNotations.
Open Scope Z_scope.
Local Notation Forall := List.Forall.

(** ** Powers in the Chebyshev basis *)
Definition lsum (l : list R) : R := fold_right Rplus 0%R l.
Lemma lsum_app l l' : lsum (l ++ l') = (lsum l + lsum l')%R.
Proof. unfold lsum. induction l; cbn; [ring|]. rewrite IHl. ring. Qed.
Lemma lsum_flat {A} (g : A -> list R) l : lsum (flat_map g l) = lsum (map (fun x => lsum (g x)) l).
Proof. induction l; cbn; auto. rewrite lsum_app, IHl. reflexivity. Qed.
Lemma lsum_scal c l : lsum (map (fun x => c * x)%R l) = (c * lsum l)%R.
Proof. unfold lsum. induction l; cbn; [ring|]. rewrite IHl. ring. Qed.
Lemma lsum_ext {A} (f g : A -> R) l : (forall x, In x l -> f x = g x) -> lsum (map f l) = lsum (map g l).
Proof. intros H. f_equal. now apply map_ext_in. Qed.

Definition times_x (l u : R) (t : R * Z) : list (R * Z) :=
  (((l + u) / 2 * fst t)%R, snd t) ::
  (if snd t =? 1 then [(((u - l) / 2 * fst t)%R, 2)] else [(((u - l) / 4 * fst t)%R, snd t + 1); (((u - l) / 4 * fst t)%R, snd t - 1)]).
Lemma cheb_up i t : 2 <= i -> (t * cheb (Z.to_nat (i - 1)) t = (cheb (Z.to_nat (i + 1 - 1)) t + cheb (Z.to_nat (i - 1 - 1)) t) / 2)%R.
Proof.
  intros Hi. replace (Z.to_nat (i + 1 - 1)) with (S (S (Z.to_nat (i - 2)))) by lia. replace (Z.to_nat (i - 1)) with (S (Z.to_nat (i - 2))) by lia. replace (Z.to_nat (i - 1 - 1)) with (Z.to_nat (i - 2)) by lia.
  set (k := Z.to_nat (i - 2)). change (cheb (S (S k)) t) with (2 * t * cheb (S k) t - cheb k t)%R. field.
Qed.
Lemma pow_cheb (l u : R) e : (l < u)%R -> exists L : list (R * Z), Forall (fun t => 1 <= snd t <= Z.of_nat e + 1) L /\
  forall x, (x ^ e)%R = lsum (map (fun t => fst t * cheb (Z.to_nat (snd t - 1)) ((2 * x - l - u) / (u - l)))%R L).
Proof.
  intros Hlu. induction e as [|e (L & HL & HV)].
  - exists [(1%R, 1)]. split; [repeat constructor; cbn; lia|]. intros x. cbn. ring.
  - exists (flat_map (times_x l u) L). split.
    + apply Forall_forall. intros t Ht. apply in_flat_map in Ht as (s & Hs & Ht). rewrite Forall_forall in HL. specialize (HL s Hs). unfold times_x in Ht.
      destruct Ht as [<-|Ht]; [cbn; lia|]. destruct (Z.eqb_spec (snd s) 1) as [E|E]; cbn in Ht; [destruct Ht as [<-|[]]; cbn; lia|]. destruct Ht as [<-|[<-|[]]]; cbn; lia.
    + intros x. cbn [pow]. rewrite HV, <- lsum_scal, map_map, flat_map_concat_map, concat_map, map_map, <- flat_map_concat_map, lsum_flat. apply lsum_ext. intros [c i] Hs. rewrite Forall_forall in HL. specialize (HL _ Hs). cbn [fst snd] in *.
      set (t := ((2 * x - l - u) / (u - l))%R). assert (Ex : x = ((u - l) / 2 * t + (l + u) / 2)%R) by (unfold t; field; lra). unfold times_x. cbn [fst snd].
      destruct (Z.eqb_spec i 1) as [->|E]; cbn [map lsum fold_right fst snd].
      * change (Z.to_nat (1 - 1)) with 0%nat. change (Z.to_nat (2 - 1)) with 1%nat. cbn [cheb]. rewrite Ex at 1. ring.
      * pose proof (cheb_up i t ltac:(lia)) as HU. rewrite Ex at 1.
        replace (((u - l) / 2 * t + (l + u) / 2) * (c * cheb (Z.to_nat (i - 1)) t))%R with ((u - l) / 2 * c * (t * cheb (Z.to_nat (i - 1)) t) + (l + u) / 2 * c * cheb (Z.to_nat (i - 1)) t)%R by ring. rewrite HU. field.
Qed.
Lemma mono_cheb lb ub : Forall2 Rlt lb ub -> forall e, length e = length lb -> exists L : list (R * list Z),
  Forall (fun t => Forall2 (fun i k => 1 <= i <= Z.of_nat k + 1) (snd t) e) L /\
  forall x, length x = length lb -> monomial x e = lsum (map (fun t => fst t * basis (snd t) (to_cube lb ub x))%R L).
Proof.
  induction 1 as [|l u lb ub Hlu HF IH]; intros [|k e] He; try discriminate.
  - exists [(1%R, [])]. split; [repeat constructor|]. intros [|] Hx; [|discriminate]. cbn. ring.
  - destruct (IH e ltac:(cbn in He; lia)) as (L2 & H2 & V2). destruct (pow_cheb l u k Hlu) as (L1 & H1 & V1).
    exists (flat_map (fun s => map (fun t => ((fst s * fst t)%R, snd s :: snd t)) L2) L1). split.
    + apply Forall_forall. intros t Ht. apply in_flat_map in Ht as (s & Hs & Ht). apply in_map_iff in Ht as (r & <- & Hr). rewrite Forall_forall in H1, H2. constructor; cbn; auto.
    + intros [|t x] Hx; [discriminate|]. cbn [monomial to_cube]. rewrite (V1 t), (V2 x) by (cbn in Hx; lia). rewrite flat_map_concat_map, concat_map, map_map, <- flat_map_concat_map, lsum_flat.
      rewrite Rmult_comm, <- lsum_scal, map_map. apply lsum_ext. intros s Hs. rewrite map_map. rewrite Rmult_comm, <- lsum_scal, map_map. apply lsum_ext. intros r Hr. cbn. ring.
Qed.

(** ** Levels *)
Lemma level_exists i b : 1 <= i -> 1 <= b <= last_of_level i -> exists k, 1 <= k <= i /\ at_level k b.
Proof.
  intros Hi. replace i with (1 + Z.of_nat (Z.to_nat (i - 1))) by lia. induction (Z.to_nat (i - 1)) as [|n IH]; intros Hb.
  - exists 1. split; [lia|]. unfold at_level. change (last_of_level (1 - 1)) with 0. change (1 + Z.of_nat 0) with 1 in Hb. lia.
  - destruct (Z.le_gt_cases b (last_of_level (1 + Z.of_nat n))) as [H|H].
    + destruct (IH ltac:(lia)) as (k & Hk & Hl). exists k. split; [lia|auto].
    + exists (1 + Z.of_nat (S n)). split; [lia|]. unfold at_level. replace (1 + Z.of_nat (S n) - 1) with (1 + Z.of_nat n) by lia. lia.
Qed.
Lemma levels_exist v b : Forall (fun i => 1 <= i) v -> Forall2 (fun i j => 1 <= j <= last_of_level i) v b ->
  exists w, Forall2 (fun a c => 1 <= a <= c) w v /\ Forall2 at_level w b.
Proof.
  intros Hv HF. induction HF as [|i j v b Hj HF IH]; [exists []; split; constructor|]. inversion Hv; subst.
  destruct (level_exists i j) as (k & Hk & Hl); auto. destruct IH as (w & H5 & H6); auto. exists (k :: w). split; constructor; auto.
Qed.
Lemma fits_pind d mu m v e b : density_ok d mu m -> smolyak_index d mu m v -> fits v e -> Forall2 (fun i k => 1 <= i <= Z.of_nat k + 1) b e ->
  exists w, smolyak_index d mu m w /\ Forall2 at_level w b.
Proof.
  intros Hm Hv Hf Hb. destruct (index_down d mu m Hm) as [D1 D2]. destruct (levels_exist v b) as (w & H1 & H2).
  - eapply Forall_impl; [|apply D1; eauto]. cbn. lia.
  - revert b Hb. unfold fits in Hf. clear -Hf. induction Hf as [|i k v e Hk Hf IH]; intros b Hb; inversion Hb; subst; constructor; auto. lia.
  - exists w. split; auto. eapply D2; eauto.
Qed.

(** ** Combinations of basis functions *)
Lemma span_value lb ub P (L : list (R * list Z)) : Forall (fun t => In (snd t) P) L ->
  exists th : Z -> R, forall x, lsum (map (fun t => fst t * basis (snd t) (to_cube lb ub x))%R L) = smolyak_value lb ub P th x.
Proof.
  induction 1 as [|[c b] L Hb HL (th & IH)].
  - exists (fun _ => 0%R). intros x. unfold smolyak_value. cbn. symmetry. apply zsum_zero. intros. ring.
  - cbn [snd] in Hb. destruct (In_nth P b [] Hb) as (k & Hk & Ek). exists (fun j => th j + (if j =? Z.of_nat k then c else 0))%R. intros x. cbn [map lsum fold_right fst snd].
    change (fold_right Rplus 0%R (map (fun t => fst t * basis (snd t) (to_cube lb ub x))%R L)) with (lsum (map (fun t => fst t * basis (snd t) (to_cube lb ub x))%R L)). rewrite IH. unfold smolyak_value.
    rewrite (zsum_ext _ (fun j => basis (nth (Z.to_nat j) P []) (to_cube lb ub x) * (th j + (if j =? Z.of_nat k then c else 0)))%R (fun j => basis (nth (Z.to_nat j) P []) (to_cube lb ub x) * (if j =? Z.of_nat k then c else 0) + basis (nth (Z.to_nat j) P []) (to_cube lb ub x) * th j)%R) by (intros; ring).
    rewrite zsum_plus. f_equal. rewrite (zsum_single _ _ (Z.of_nat k)); [|unfold zlen; lia|].
    + rewrite Z.eqb_refl, Nat2Z.id, Ek. ring.
    + intros i Hi Hn. destruct (Z.eqb_spec i (Z.of_nat k)); [contradiction|ring].
Qed.
Lemma poly_span d mu m lb ub P p : density_ok d mu m -> zlen lb = d -> Forall2 Rlt lb ub ->
  (forall b, In b P <-> exists v, smolyak_index d mu m v /\ Forall2 at_level v b) -> in_space d mu m p ->
  exists th : Z -> R, forall x, zlen x = d -> poly_value p x = smolyak_value lb ub P th x.
Proof.
  intros Hm Hlb HW HP Hp.
  assert (G : exists L : list (R * list Z), Forall (fun t => In (snd t) P) L /\ forall x, zlen x = d -> poly_value p x = lsum (map (fun t => fst t * basis (snd t) (to_cube lb ub x))%R L)).
  { induction Hp as [|[c e] p (v & Hv & Hf) Hp (L & HL & HV)]; [exists []; split; [constructor|reflexivity]|]. cbn [snd] in *.
    assert (Le : length e = length lb). { apply Forall2_length in Hf. pose proof (index_iso d mu m v Hv) as (HL1 & _). unfold zlen in *. lia. }
    destruct (mono_cheb lb ub HW e Le) as (L1 & H1 & V1). exists (map (fun t => ((c * fst t)%R, snd t)) L1 ++ L). split.
    - apply Forall_app. split; auto. apply Forall_forall. intros t Ht. apply in_map_iff in Ht as (s & <- & Hs). cbn. apply HP. rewrite Forall_forall in H1. eapply fits_pind; eauto.
    - intros x Hx. unfold poly_value in *. cbn [map fold_right fst snd]. rewrite HV by auto. rewrite map_app, lsum_app, map_map. f_equal. rewrite (V1 x) by (unfold zlen in *; lia). rewrite <- lsum_scal, map_map. apply lsum_ext. intros; cbn; ring. }
  destruct G as (L & HL & HV). destruct (span_value lb ub P L HL) as (th & Hth). exists th. intros x Hx. rewrite HV by auto. apply Hth.
Qed.

(** ** Functions of the space are reproduced *)
Lemma mrow_len {T} d (a : arr T) p : 0 <= d -> zlen (mrow d a p) = d.
Proof. intros. unfold mrow. now rewrite zlen_map, zlen_zrange. Qed.
Lemma replace_len x i s : 0 <= i < zlen x -> zlen (replace_at x i s) = zlen x.
Proof. intros. unfold replace_at, zlen in *. rewrite app_length, firstn_length. cbn [length]. rewrite skipn_length. lia. Qed.

Section Exact.
Variables (tiny : R) (lu : arr R -> res (arr R * arr R)) (solve : arr R -> arr R -> res (arr R)).
Hypothesis (Hlu : lu_ok lu) (Hsolve : solve_ok solve).
Variables (d : Z) (lb ub : bound R) (lbl ubl : list R).
Hypothesis (Hd : 2 <= d) (Hlb : bound_list d (-1) lb lbl) (Hub : bound_list d 1 ub ubl) (HW : Forall2 Rlt lbl ubl).
Notation sgn mu := (sg_new (s_n PI cos tiny) lu d mu lb ub).

(** The values on the grid of a function of the space give its coefficients. *)
Lemma reproduce mu m n sg f tl (F : list Z -> list R -> R) : density_ok d mu m -> 0 < n -> good_sg d mu m n lbl ubl sg -> outshape tl -> ashape f = n :: tl ->
  (forall tail, inb tl tail = true -> exists th0, forall x, zlen x = d -> F tail x = smolyak_value lbl ubl (sg_pinds sg) th0 x) ->
  (forall p tail, 0 <= p < n -> inb tl tail = true -> acell f (p :: tail) = F tail (mrow d (sg_grid sg) p)) ->
  exists th, find_theta solve sg f = Ok th /\ ashape th = n :: tl /\
    forall tail x, inb tl tail = true -> zlen x = d -> smolyak_value lbl ubl (sg_pinds sg) (fun j => acell th (j :: tail)) x = F tail x.
Proof.
  intros Hm Hn HG Ho Sf HF Hf. destruct (density_max d mu m Hm) as [Emu Hm1]. pose proof (the_widths d lb ub lbl ubl Hlb Hub HW) as W.
  pose proof HG as (_ & _ & _ & _ & Gn & Sc & Eg & SB & VB & _).
  destruct (cube2dom_row lbl ubl d n (sg_cube sg) ltac:(lia) W Sc) as (w & Ew & Sw & Rw & Vw). rewrite Eg in Ew. injection Ew as <-.
  destruct (theta_spec solve Hsolve d mu m n lbl ubl sg Hn HG f tl Ho Sf) as (th & Eth & Sth & Vth). exists th. split; auto. split; auto. intros tail x Ht Hx. destruct (HF tail Ht) as (th0 & HF'). rewrite HF' by auto.
  unfold smolyak_value. rewrite Gn. apply zsum_ext. intros j Hj. f_equal.
  apply (theta_unique d mu m n lbl ubl sg HG (fun j => acell th (j :: tail)) th0); auto. intros i Hi. rewrite (Vth i tail Hi Ht), Hf, HF' by (auto; apply mrow_len; lia).
  unfold smolyak_value. rewrite Gn, Rw. apply zsum_ext. intros k Hk. unfold Bf. now rewrite VB.
Qed.

Theorem polynomials_exact mu m tl : density_ok d mu m -> tiny_ok tiny (m + 1) -> outshape tl -> exists sg n, sgn mu = Ok sg /\ 0 < n /\ ashape (sg_grid sg) = [n; d] /\
  forall f (F : list Z -> polynomial), ashape f = n :: tl -> (forall tail, inb tl tail = true -> in_space d mu m (F tail)) ->
    (forall p tail, 0 <= p < n -> inb tl tail = true -> acell f (p :: tail) = poly_value (F tail) (mrow d (sg_grid sg) p)) ->
  exists si, si_new solve sg f = Ok si /\ forall k pts, 0 <= k -> ashape pts = [k; d] ->
    exists v, si_interpolate solve si pts true false false false = Ok [v] /\ ashape v = k :: tl /\
      forall p tail, 0 <= p < k -> inb tl tail = true -> acell v (p :: tail) = poly_value (F tail) (mrow d pts p).
Proof.
  intros Hm Ht Ho. destruct (sg_new_good tiny lu Hlu d mu m lb ub lbl ubl) as (sg & n & E & Hn & HG); auto. exists sg, n. split; auto. split; auto.
  destruct (density_max d mu m Hm) as [Emu Hm1]. pose proof (the_widths d lb ub lbl ubl Hlb Hub HW) as W. pose proof HG as (_ & _ & _ & _ & Gn & Sc & Eg & _ & _ & _ & _ & _ & _ & _ & _ & _ & _ & GP).
  split. { destruct (cube2dom_row lbl ubl d n (sg_cube sg) ltac:(lia) W Sc) as (w & Ew & Sw & _). rewrite Eg in Ew. injection Ew as <-. auto. }
  intros f F Sf HF Hf.
  assert (H0 : forall tail, inb tl tail = true -> exists th0, forall x, zlen x = d -> poly_value (F tail) x = smolyak_value lbl ubl (sg_pinds sg) th0 x).
  { intros tail Hi. apply (poly_span d mu m lbl ubl (sg_pinds sg) (F tail)); auto. apply Hlb. }
  destruct (reproduce mu m n sg f tl (fun tail => poly_value (F tail)) Hm Hn HG Ho Sf H0 Hf) as (th & Eth & Sth & Vth).
  exists (mkSI sg f th). unfold si_new. rewrite Eth. split; auto. intros k pts Hk Spts.
  destruct (values_at solve d mu m n lbl ubl sg ltac:(lia) Hm1 Emu W HG th f tl k pts false Ho Sth Hk Spts) as (v & Bk & Ev & Sv & _ & Vv & _). exists v. split; auto. split; auto. intros p tail Hp Hi. rewrite Vv by auto. apply Vth; auto. apply mrow_len; lia.
Qed.

Theorem gradients_exact mu m : density_ok d mu m -> tiny_ok tiny (m + 1) -> exists sg n, sgn mu = Ok sg /\ 0 < n /\ ashape (sg_grid sg) = [n; d] /\
  forall f (F : polynomial), ashape f = [n] -> in_space d mu m F -> (forall p, 0 <= p < n -> acell f [p] = poly_value F (mrow d (sg_grid sg) p)) ->
  exists si, si_new solve sg f = Ok si /\ forall k pts, 0 <= k -> ashape pts = [k; d] ->
    exists v dv, si_interpolate solve si pts true true false false = Ok [v; dv] /\ ashape v = [k] /\ ashape dv = [k; d] /\
      (forall p, 0 <= p < k -> acell v [p] = poly_value F (mrow d pts p)) /\
      forall p i, 0 <= p < k -> 0 <= i < d -> is_derive (fun s : R => poly_value F (replace_at (mrow d pts p) i s)) (acell pts [p; i]) (acell dv [p; i]).
Proof.
  intros Hm Ht. destruct (sg_new_good tiny lu Hlu d mu m lb ub lbl ubl) as (sg & n & E & Hn & HG); auto. exists sg, n. split; auto. split; auto.
  destruct (density_max d mu m Hm) as [Emu Hm1]. pose proof (the_widths d lb ub lbl ubl Hlb Hub HW) as W. pose proof HG as (_ & _ & _ & _ & Gn & Sc & Eg & _ & _ & _ & _ & _ & _ & _ & _ & _ & _ & GP).
  split. { destruct (cube2dom_row lbl ubl d n (sg_cube sg) ltac:(lia) W Sc) as (w & Ew & Sw & _). rewrite Eg in Ew. injection Ew as <-. auto. }
  intros f F Sf HF Hf. destruct (poly_span d mu m lbl ubl (sg_pinds sg) F) as (th0 & H0); auto; [apply Hlb|].
  destruct (reproduce mu m n sg f [] (fun _ => poly_value F) Hm Hn HG (or_introl eq_refl) Sf (fun _ _ => ex_intro _ th0 H0)) as (th & Eth & Sth & Vth).
  { intros p [|] Hp Hi; [auto|discriminate]. }
  specialize (Vth [] ). cbn [inb] in Vth. exists (mkSI sg f th). unfold si_new. rewrite Eth. split; auto. intros k pts Hk Spts.
  destruct (gradient_at solve d mu m n lbl ubl sg ltac:(lia) Hn Hm1 Emu W HG th f k pts true Sth Hk Spts) as (v & dv & E1 & Sv & Sdv & Vv & Vd). exists v, dv.
  do 3 (split; auto). split.
  - intros p Hp. rewrite Vv by auto. apply Vth; auto. apply mrow_len; lia.
  - intros p i Hp Hi. eapply is_derive_ext; [|apply Vd; auto]. intros s. cbn beta. apply Vth; auto. rewrite replace_len; rewrite mrow_len; lia.
Qed.

(** ** Refinement *)
Lemma coarser_index mu m mu' m' v : density_ok d mu m -> density_ok d mu' m' -> coarser mu mu' -> smolyak_index d mu m v -> smolyak_index d mu' m' v.
Proof.
  intros Hm Hm' Hc Hv. pose proof (fun i => iso_entries d m v i (index_iso d mu m v Hv)) as He. pose proof (index_iso d mu m v Hv) as (HL & H1 & HT).
  assert (Hi : m <= m' -> iso_index d m' v) by (intros; repeat split; auto; lia).
  destruct mu as [k|l], mu' as [k'|l']; cbn in *.
  - apply Hi. lia.
  - destruct Hm' as (HL' & HF' & Hin & Hmax). destruct Hm as [Hk ->]. assert (k <= m') by (rewrite Forall_forall in Hc; apply Hc in Hin; lia). split; [apply Hi; lia|].
    assert (Hlen : length v = length l') by (unfold zlen in *; lia). clear -Hlen Hc He. revert l' Hlen Hc He. induction v as [|i v IH]; intros [|k' l'] HL Hc He; try discriminate; constructor; inversion Hc; subst; [specialize (He i (or_introl eq_refl)); lia|]. apply IH; auto. intros j Hj. apply He. now right.
  - destruct Hm as (_ & _ & Hin & _). rewrite Forall_forall in Hc. apply Hc in Hin. apply Hi. lia.
  - destruct Hm as (_ & _ & Hin & _), Hm' as (_ & _ & _ & Hmax). destruct Hv as [_ Hv]. split.
    + apply Hi. clear -Hc Hin Hmax. induction Hc as [|x y l l' Hxy Hc IH]; [destruct Hin|]. destruct Hin as [->|Hin]; [specialize (Hmax y (or_introl eq_refl)); lia|]. apply IH; auto. intros z Hz. apply Hmax. now right.
    + clear -Hc Hv. revert l' Hc. induction Hv as [|i k v l Hi Hv IH]; intros l' Hc; inversion Hc; subst; constructor; auto. lia.
Qed.
Lemma pinds_coarser mu m n sg mu' m' n' sg' : density_ok d mu m -> density_ok d mu' m' -> coarser mu mu' -> good_sg d mu m n lbl ubl sg -> good_sg d mu' m' n' lbl ubl sg' ->
  forall b, In b (sg_pinds sg) -> In b (sg_pinds sg').
Proof.
  intros Hm Hm' Hc HG HG' b Hb. destruct HG as (_ & _ & _ & _ & _ & _ & _ & _ & _ & _ & _ & _ & _ & _ & _ & _ & _ & GP). destruct HG' as (_ & _ & _ & _ & _ & _ & _ & _ & _ & _ & _ & _ & _ & _ & _ & _ & _ & GP').
  apply GP' . apply GP in Hb as (v & Hv & HF). exists v. split; auto. apply (coarser_index mu m mu' m'); auto.
Qed.
Lemma value_lsum P th x : smolyak_value lbl ubl P th x = lsum (map (fun t => fst t * basis (snd t) (to_cube lbl ubl x))%R (map (fun j => (th j, nth (Z.to_nat j) P [])) (zrange (zlen P)))).
Proof.
  unfold smolyak_value. rewrite map_map. cbn [fst snd]. unfold zsum, zrange. generalize (Z.to_nat (zlen P)) as k. induction k as [|k IH]; [reflexivity|]. rewrite seq_S, !map_app, lsum_app, <- IH. cbn. ring.
Qed.
Lemma value_coarser P P' th : (forall b, In b P -> In b P') -> exists th', forall x, smolyak_value lbl ubl P th x = smolyak_value lbl ubl P' th' x.
Proof.
  intros H. destruct (span_value lbl ubl P' (map (fun j => (th j, nth (Z.to_nat j) P [])) (zrange (zlen P)))) as (th' & Hth').
  - apply Forall_forall. intros t Ht. apply in_map_iff in Ht as (j & <- & Hj). apply zrange_In in Hj. cbn. apply H. apply nth_In. unfold zlen in Hj. lia.
  - exists th'. intros x. rewrite <- Hth'. apply value_lsum.
Qed.

(** Interpolating an interpolant on a finer grid gives the same function. *)
Theorem refine mu m mu' m' tl : density_ok d mu m -> density_ok d mu' m' -> coarser mu mu' -> tiny_ok tiny (m + 1) -> tiny_ok tiny (m' + 1) -> outshape tl ->
  exists sg n sg' n', sgn mu = Ok sg /\ sgn mu' = Ok sg' /\ 0 < n /\ ashape (sg_grid sg) = [n; d] /\ 0 < n' /\ ashape (sg_grid sg') = [n'; d] /\
  forall f, ashape f = n :: tl -> exists si f' si', si_new solve sg f = Ok si /\ si_interpolate solve si (sg_grid sg') true false false false = Ok [f'] /\
    ashape f' = n' :: tl /\ si_new solve sg' f' = Ok si' /\
    forall k pts, 0 <= k -> ashape pts = [k; d] -> exists v v', si_interpolate solve si pts true false false false = Ok [v] /\
      si_interpolate solve si' pts true false false false = Ok [v'] /\ ashape v = k :: tl /\ aeq v v'.
Proof.
  intros Hm Hm' Hc Ht Ht' Ho. destruct (sg_new_good tiny lu Hlu d mu m lb ub lbl ubl) as (sg & n & E & Hn & HG); auto. destruct (sg_new_good tiny lu Hlu d mu' m' lb ub lbl ubl) as (sg' & n' & E' & Hn' & HG'); auto.
  exists sg, n, sg', n'. do 3 (split; auto). pose proof (the_widths d lb ub lbl ubl Hlb Hub HW) as W.
  assert (S1 : forall mu m n sg, good_sg d mu m n lbl ubl sg -> ashape (sg_grid sg) = [n; d]).
  { intros mu0 m0 n0 sg0 (_ & _ & _ & _ & _ & Sc & Eg & _). destruct (cube2dom_row lbl ubl d n0 (sg_cube sg0) ltac:(lia) W Sc) as (w & Ew & Sw & _). rewrite Eg in Ew. injection Ew as <-. auto. }
  pose proof (S1 _ _ _ _ HG) as Sg. pose proof (S1 _ _ _ _ HG') as Sg'. split; auto. split; auto. split; auto. intros f Sf.
  destruct (density_max d mu m Hm) as [Emu Hm1]. destruct (density_max d mu' m' Hm') as [Emu' Hm1'].
  destruct (theta_spec solve Hsolve d mu m n lbl ubl sg Hn HG f tl Ho Sf) as (th & Eth & Sth & _).
  destruct (values_at solve d mu m n lbl ubl sg ltac:(lia) Hm1 Emu W HG th f tl n' (sg_grid sg') false Ho Sth ltac:(lia) Sg') as (f' & B1 & Ef' & Sf' & _ & Vf' & _).
  assert (H0 : forall tail, inb tl tail = true -> exists th0, forall x, zlen x = d -> smolyak_value lbl ubl (sg_pinds sg) (fun j => acell th (j :: tail)) x = smolyak_value lbl ubl (sg_pinds sg') th0 x).
  { intros tail _. destruct (value_coarser (sg_pinds sg) (sg_pinds sg') (fun j => acell th (j :: tail))) as (th0 & H0); [eapply (pinds_coarser mu m n sg mu' m' n' sg'); eauto|]. exists th0. auto. }
  destruct (reproduce mu' m' n' sg' f' tl (fun tail => smolyak_value lbl ubl (sg_pinds sg) (fun j => acell th (j :: tail))) Hm' Hn' HG' Ho Sf' H0 Vf') as (th' & Eth' & Sth' & Vth').
  exists (mkSI sg f th), f', (mkSI sg' f' th'). unfold si_new. rewrite Eth, Eth'. do 4 (split; auto). intros k pts Hk Spts.
  destruct (values_at solve d mu m n lbl ubl sg ltac:(lia) Hm1 Emu W HG th f tl k pts false Ho Sth Hk Spts) as (v & B2 & Ev & Sv & _ & Vv & _).
  destruct (values_at solve d mu' m' n' lbl ubl sg' ltac:(lia) Hm1' Emu' W HG' th' f' tl k pts false Ho Sth' Hk Spts) as (v' & B3 & Ev' & Sv' & _ & Vv' & _).
  exists v, v'. do 3 (split; auto). split; [congruence|]. rewrite Sv. intros [|p tail] Hin; [discriminate|]. cbn in Hin. apply andb_prop in Hin as [Hp Hin]. rewrite Vv, Vv' by (auto; lia). symmetry. apply Vth'; auto. apply mrow_len; lia.
Qed.

(** ** The points of the grid *)
Theorem grid_points mu m : density_ok d mu m -> tiny_ok tiny (m + 1) -> exists g n, build_grid (s_n PI cos tiny) d mu = Ok g /\ ashape g = [n; d] /\
  forall x, (exists p, 0 <= p < n /\ mrow d g p = x) <-> exists v, smolyak_index d mu m v /\ Forall2 is_extremum v x.
Proof.
  intros Hm Ht. destruct (grid_basis tiny d mu m Hd Hm Ht) as (L & g & P & E1 & E2 & _ & Sg & Hp & Hv & _). exists g, (zlen P). unfold build_grid. rewrite E1. cbn [bind]. split; auto. split; auto.
  pose proof (proj2 (density_max _ _ _ Hm)) as Hm1. destruct (index_down d mu m Hm) as [D1 D2]. intros x. split.
  - intros (p & Hp' & <-). destruct (Hp p Hp') as (v & Hi & HF). exists v. split; auto. specialize (D1 v Hi). clear -HF D1 Ht Hm1. induction HF as [|i t v x Hx HF IH]; constructor; inversion D1; subst; auto. apply (a_of_union tiny (m + 1)); auto; [lia|]. exists i. split; [lia|auto].
  - intros (v & Hi & HF). specialize (D1 v Hi).
    assert (G : exists w, Forall2 (fun a c => 1 <= a <= c) w v /\ Forall2 (fun i t => In t (@a_of R NumR PI cos tiny (m + 1) i)) w x).
    { clear -HF D1 Ht Hm1. induction HF as [|i t v x Hx HF IH]; [exists []; split; constructor|]. inversion D1; subst. destruct IH as (w & W1 & W2); auto.
      apply (a_of_union tiny (m + 1)) in Hx as (k & Hk & Hk'); auto; [|lia]. exists (k :: w). split; constructor; auto. }
    destruct G as (w & W1 & W2). apply (Hv w x); auto. eapply D2; eauto.
Qed.
Lemma sg_cube_of mu sg : sgn mu = Ok sg -> build_grid (s_n PI cos tiny) d mu = Ok (sg_cube sg).
Proof.
  unfold sg_new, build_grid. destruct (read_bound d _ lb) as [olb|]; cbn [bind]; [|discriminate]. destruct (read_bound d _ ub) as [oub|]; cbn [bind]; [|discriminate].
  destruct (d <=? 1); [discriminate|]. match goal with |- bind ?r _ = _ -> _ => destruct r; cbn [bind]; [|discriminate] end. destruct (smol_inds d mu) as [L|]; cbn [bind]; [|discriminate].
  destruct (poly_inds_of mu L); cbn [bind]; [|discriminate]. destruct (build_grid_of _ mu L) as [c|]; cbn [bind]; [|discriminate]. destruct olb as [l|], oub as [u|]; try discriminate.
  destruct (cube2dom l u c); cbn [bind]; [|discriminate]. destruct (build_B d mu c _ false) as [[B ?]|]; cbn [bind]; [|discriminate]. destruct (lu B) as [[? ?]|]; cbn [bind]; [|discriminate]. intros H. injection H as <-. reflexivity.
Qed.
Theorem grids_nested mu m mu' m' : density_ok d mu m -> density_ok d mu' m' -> coarser mu mu' -> tiny_ok tiny (m + 1) -> tiny_ok tiny (m' + 1) ->
  exists sg n sg' n', sgn mu = Ok sg /\ sgn mu' = Ok sg' /\ ashape (sg_grid sg) = [n; d] /\ ashape (sg_grid sg') = [n'; d] /\ n <= n' /\
  forall p, 0 <= p < n -> exists q, 0 <= q < n' /\ mrow d (sg_grid sg') q = mrow d (sg_grid sg) p.
Proof.
  intros Hm Hm' Hc Ht Ht'. destruct (sg_new_good tiny lu Hlu d mu m lb ub lbl ubl) as (sg & n & E & Hn & HG); auto. destruct (sg_new_good tiny lu Hlu d mu' m' lb ub lbl ubl) as (sg' & n' & E' & Hn' & HG'); auto.
  exists sg, n, sg', n'. do 2 (split; auto). pose proof (the_widths d lb ub lbl ubl Hlb Hub HW) as W.
  pose proof HG as (_ & _ & _ & _ & Gn & Sc & Eg & _ & _ & _ & _ & _ & _ & _ & _ & _ & GN & GP). pose proof HG' as (_ & _ & _ & _ & Gn' & Sc' & Eg' & _ & _ & _ & _ & _ & _ & _ & _ & _ & GN' & GP').
  destruct (cube2dom_row lbl ubl d n (sg_cube sg) ltac:(lia) W Sc) as (w & Ew & Sw & Rw & Vw). rewrite Eg in Ew. injection Ew as <-.
  destruct (cube2dom_row lbl ubl d n' (sg_cube sg') ltac:(lia) W Sc') as (w & Ew & Sw' & Rw' & Vw'). rewrite Eg' in Ew. injection Ew as <-.
  split; auto. split; auto. split.
  { rewrite <- Gn, <- Gn'. unfold zlen. apply inj_le. apply NoDup_incl_length; auto. exact (pinds_coarser mu m n sg mu' m' n' sg' Hm Hm' Hc HG HG'). }
  intros p Hp. destruct (grid_points mu m Hm Ht) as (g & k & Eb & Sk & Gk). destruct (grid_points mu' m' Hm' Ht') as (g' & k' & Eb' & Sk' & Gk').
  rewrite (sg_cube_of mu sg E) in Eb. injection Eb as <-. rewrite (sg_cube_of mu' sg' E') in Eb'. injection Eb' as <-. rewrite Sc in Sk. injection Sk as <-. rewrite Sc' in Sk'. injection Sk' as <-.
  destruct (proj1 (Gk (mrow d (sg_cube sg) p)) (ex_intro _ p (conj Hp eq_refl))) as (v & Hv & HF).
  destruct (proj2 (Gk' (mrow d (sg_cube sg) p))) as (q & Hq & Eq); [exists v; split; auto; apply (coarser_index mu m mu' m'); auto|]. exists q. split; auto.
  unfold mrow in *. apply map_ext_in. intros j Hj. pose proof Hj as Hj'. apply zrange_In in Hj'. rewrite Vw, Vw' by auto. apply (map_ext_in_iff) with (a := j) in Eq; auto. now rewrite Eq.
Qed.
End Exact.

(** Polynomials of low degree. *)
Theorem low_degree d mu m p : density_ok d mu m ->
  Forall (fun t => zlen (snd t) = d /\ Z.of_nat (degree (snd t)) <= m /\ match mu with MuInt _ => True | MuArr l => Forall2 (fun e k => Z.of_nat e <= k) (snd t) l end) p -> in_space d mu m p.
Proof.
  intros Hm HF. unfold in_space. apply Forall_forall. intros [c e] Ht. rewrite List.Forall_forall in HF. destruct (HF _ Ht) as (HL & HD & Hl). cbn [snd] in *.
  exists (map (fun k => Z.of_nat k + 1) e). assert (Hi : iso_index d m (map (fun k => Z.of_nat k + 1) e)).
  { split; [now rewrite zlen_map|]. split; [apply Forall_forall; intros i Hi; apply in_map_iff in Hi as (k & <- & _); lia|]. rewrite <- HL. clear -HD. assert (total (map (fun k => Z.of_nat k + 1) e) = zlen e + Z.of_nat (degree e)); [|lia].
    clear. induction e as [|k e IH]; [reflexivity|]. cbn [map total fold_right degree]. rewrite zlen_cons. unfold total, degree in *. lia. }
  split.
  - destruct mu as [k|l]; cbn; auto. split; auto. clear -Hl. induction Hl; cbn; constructor; auto. lia.
  - unfold fits. clear. induction e as [|k e IH]; cbn [map]; constructor; auto. unfold last_of_level. destruct (Z.leb_spec (Z.of_nat k + 1) 0); [lia|]. destruct (Z.eqb_spec (Z.of_nat k + 1) 1); [lia|].
    replace (Z.of_nat k + 1 - 1) with (Z.of_nat k) by lia. assert (Z.of_nat k < 2 ^ Z.of_nat k) by (apply Z.pow_gt_lin_r; lia). lia.
Qed.
