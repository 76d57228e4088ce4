(** C82: Smolyak interpolation is linear in the values; units, order and direction of the axes,
    and the linear algebra routines do not matter. *)
From Coq Require Import ZArith List Bool Lia ZifyBool Reals Lra Psatz Permutation.
From Coquelicot Require Import Coquelicot.
From Verif Require Import Base BaseFacts RSum CompleteModel SpecComplete LinAlg SmolyakModel SpecSmolyak SmolyakInds SmolyakChains SmolyakNodes SmolyakB SmolyakGridR SmolyakUni SmolyakInterpR SmolyakProps SpecExact SmolyakExact SpecSym.
Import ListNotations.
Open Scope Z_scope.
Local Notation Forall := List.Forall.

(** ** Values carried from one grid to another *)
Section Transfer.
Variables (d : Z) (mu mu' : mu_t) (m m' n n' : Z) (lb ub lb' ub' : list R) (sg sg' : sgrid R) (solve solve' : arr R -> arr R -> res (arr R)).
Hypothesis (Hs : solve_ok solve) (Hs' : solve_ok solve').
Hypothesis (Hd : 2 <= d) (Hm : density_ok d mu m) (Hm' : density_ok d mu' m') (Hn : 0 < n) (Hn' : 0 < n').
Hypothesis (W : widths lb ub d) (W' : widths lb' ub' d).
Hypothesis (HG : good_sg d mu m n lb ub sg) (HG' : good_sg d mu' m' n' lb' ub' sg').
Variable rel : list R -> list R -> Prop.
Hypothesis H1 : forall b, In b (sg_pinds sg) -> exists c b', In b' (sg_pinds sg') /\ forall t t', zlen t = d -> rel t t' -> basis b t = (c * basis b' t')%R.
Hypothesis H2 : forall p', 0 <= p' < n' -> exists p, 0 <= p < n /\ rel (mrow d (sg_cube sg) p) (mrow d (sg_cube sg') p').

Lemma to_cube_len x : zlen x = d -> zlen (to_cube lb ub x) = d.
Proof.
  destruct W as (L1 & L2 & _). clear -L1 L2. revert ub x d L1 L2. induction lb as [|l lb0 IH]; intros [|u ub0] [|t x] d; rewrite ?zlen_nil, ?zlen_cons; intros L1 L2 L3; cbn [to_cube]; rewrite ?zlen_nil, ?zlen_cons; auto; try (pose proof (zlen_nonneg lb0); pose proof (zlen_nonneg ub0); pose proof (zlen_nonneg x); lia).
  rewrite (IH ub0 x (d - 1)); lia.
Qed.
Lemma rel_span th : exists th', forall x x', zlen x = d -> rel (to_cube lb ub x) (to_cube lb' ub' x') -> smolyak_value lb ub (sg_pinds sg) th x = smolyak_value lb' ub' (sg_pinds sg') th' x'.
Proof.
  assert (G : forall L : list (R * list Z), Forall (fun t => In (snd t) (sg_pinds sg)) L -> exists L', Forall (fun t => In (snd t) (sg_pinds sg')) L' /\
    forall t t', zlen t = d -> rel t t' -> lsum (map (fun s => fst s * basis (snd s) t)%R L) = lsum (map (fun s => fst s * basis (snd s) t')%R L')).
  { induction 1 as [|[c b] L Hb HL (L' & HL' & V)]; [exists []; split; [constructor|reflexivity]|]. cbn [snd] in Hb. destruct (H1 b Hb) as (c' & b' & Hb' & Vb). exists ((c * c', b')%R :: L'). split; [constructor; auto|].
    intros t t' Ht Hr. cbn [map lsum fold_right fst snd]. unfold lsum in V. rewrite (V t t') by auto. rewrite (Vb t t') by auto. ring. }
  destruct (G (map (fun j => (th j, nth (Z.to_nat j) (sg_pinds sg) [])) (zrange (zlen (sg_pinds sg))))) as (L' & HL' & V).
  - apply Forall_forall. intros t Ht. apply in_map_iff in Ht as (j & <- & Hj). apply zrange_In in Hj. cbn. apply nth_In. unfold zlen in Hj. lia.
  - destruct (span_value lb' ub' (sg_pinds sg') L' HL') as (th' & Hth'). exists th'. intros x x' Hx Hr. rewrite value_lsum, <- Hth'. apply (V (to_cube lb ub x) (to_cube lb' ub' x')); auto. now apply to_cube_len.
Qed.
Theorem transfer f f' tl : outshape tl -> ashape f = n :: tl -> ashape f' = n' :: tl ->
  (forall p p' tail, 0 <= p < n -> 0 <= p' < n' -> inb tl tail = true -> rel (mrow d (sg_cube sg) p) (mrow d (sg_cube sg') p') -> acell f' (p' :: tail) = acell f (p :: tail)) ->
  exists th th', find_theta solve sg f = Ok th /\ find_theta solve' sg' f' = Ok th' /\ ashape th = n :: tl /\ ashape th' = n' :: tl /\
    forall tail x x', inb tl tail = true -> zlen x = d -> rel (to_cube lb ub x) (to_cube lb' ub' x') ->
      smolyak_value lb ub (sg_pinds sg) (fun j => acell th (j :: tail)) x = smolyak_value lb' ub' (sg_pinds sg') (fun j => acell th' (j :: tail)) x'.
Proof.
  intros Ho Sf Sf' Hf. destruct (theta_spec solve Hs d mu m n lb ub sg Hn HG f tl Ho Sf) as (th & Eth & Sth & Vth). destruct (theta_spec solve' Hs' d mu' m' n' lb' ub' sg' Hn' HG' f' tl Ho Sf') as (th' & Eth' & Sth' & Vth').
  exists th, th'. do 4 (split; auto). intros tail x x' Ht Hx Hr. destruct (rel_span (fun j => acell th (j :: tail))) as (th0 & H0). rewrite (H0 x x') by auto. unfold smolyak_value.
  pose proof HG as (_ & _ & _ & _ & Gn & Sc & Eg & SB & VB & _). pose proof HG' as (_ & _ & _ & _ & Gn' & Sc' & Eg' & SB' & VB' & _).
  destruct (cube2dom_row lb ub d n (sg_cube sg) ltac:(lia) W Sc) as (w & Ew & Sw & Rw & _). rewrite Eg in Ew. injection Ew as <-.
  destruct (cube2dom_row lb' ub' d n' (sg_cube sg') ltac:(lia) W' Sc') as (w & Ew & Sw' & Rw' & _). rewrite Eg' in Ew. injection Ew as <-.
  apply zsum_ext. intros j Hj. f_equal. rewrite Gn' in Hj.
  apply (theta_unique d mu' m' n' lb' ub' sg' HG' th0 (fun j => acell th' (j :: tail))); auto. intros p' Hp'. rewrite (Vth' p' tail Hp' Ht). destruct (H2 p' Hp') as (p & Hp & Hpr). rewrite (Hf p p' tail) by auto. rewrite <- (Vth p tail Hp Ht).
  specialize (H0 (mrow d (sg_grid sg) p) (mrow d (sg_grid sg') p') (mrow_len d _ p ltac:(lia))). rewrite Rw, Rw' in H0. specialize (H0 Hpr). unfold smolyak_value in H0. rewrite Gn, Gn', Rw, Rw' in H0.
  transitivity (zsum n' (fun j => basis (nth (Z.to_nat j) (sg_pinds sg') []) (mrow d (sg_cube sg') p') * th0 j)%R); [apply zsum_ext; intros k Hk; unfold Bf; now rewrite VB'|].
  rewrite <- H0. apply zsum_ext. intros k Hk. unfold Bf. now rewrite VB.
Qed.
Theorem transfer_values f f' tl : outshape tl -> ashape f = n :: tl -> ashape f' = n' :: tl ->
  (forall p p' tail, 0 <= p < n -> 0 <= p' < n' -> inb tl tail = true -> rel (mrow d (sg_cube sg) p) (mrow d (sg_cube sg') p') -> acell f' (p' :: tail) = acell f (p :: tail)) ->
  exists si si', si_new solve sg f = Ok si /\ si_new solve' sg' f' = Ok si' /\
    forall k pts pts', 0 <= k -> ashape pts = [k; d] -> ashape pts' = [k; d] -> (forall p, 0 <= p < k -> rel (to_cube lb ub (mrow d pts p)) (to_cube lb' ub' (mrow d pts' p))) ->
    exists v v', si_interpolate solve si pts true false false false = Ok [v] /\ si_interpolate solve' si' pts' true false false false = Ok [v'] /\ ashape v = k :: tl /\ aeq v v'.
Proof.
  intros Ho Sf Sf' Hf. destruct (transfer f f' tl Ho Sf Sf' Hf) as (th & th' & Eth & Eth' & Sth & Sth' & V). exists (mkSI sg f th), (mkSI sg' f' th'). unfold si_new. rewrite Eth, Eth'. do 2 (split; auto). intros k pts pts' Hk Sp Sp' Hr.
  destruct (density_max d mu m Hm) as [Emu Hm1]. destruct (density_max d mu' m' Hm') as [Emu' Hm1'].
  destruct (values_at solve d mu m n lb ub sg ltac:(lia) Hm1 Emu W HG th f tl k pts false Ho Sth Hk Sp) as (v & B2 & Ev & Sv & _ & Vv & _).
  destruct (values_at solve' d mu' m' n' lb' ub' sg' ltac:(lia) Hm1' Emu' W' HG' th' f' tl k pts' false Ho Sth' Hk Sp') as (v' & B3 & Ev' & Sv' & _ & Vv' & _).
  exists v, v'. do 3 (split; auto). split; [congruence|]. rewrite Sv. intros [|p tail] Hin; [discriminate|]. cbn in Hin. apply andb_prop in Hin as [Hp Hin]. rewrite Vv, Vv' by (auto; lia). apply V; auto; [apply mrow_len; lia|apply Hr; lia].
Qed.
End Transfer.

(** ** Reordered axes *)
Section Order.
Variables (d : Z) (s : list nat).
Hypothesis (Hd : 0 <= d) (Hs : ordering d s).
Lemma s_range i : In i s -> (i < Z.to_nat d)%nat.
Proof. intros Hi. apply (Permutation_in _ Hs) in Hi. apply in_seq in Hi. lia. Qed.
Lemma s_len : length s = Z.to_nat d.
Proof. apply Permutation_length in Hs. now rewrite seq_length in Hs. Qed.
Lemma reorder_len {A} (z : A) x : zlen (reorder z s x) = d.
Proof. unfold reorder, zlen. rewrite map_length, s_len. lia. Qed.
Lemma list_nth {A} (z : A) x : zlen x = d -> map (fun i => nth i x z) (seq 0 (Z.to_nat d)) = x.
Proof.
  intros Hx. apply (nth_ext _ _ z z); [rewrite map_length, seq_length; unfold zlen in *; lia|]. intros k. rewrite map_length, seq_length. intros Hk. rewrite (nth_indep _ z (nth 0 x z)) by (rewrite map_length, seq_length; auto). rewrite (map_nth (fun i => nth i x z)). now rewrite seq_nth.
Qed.
Lemma reorder_perm {A} (z : A) x : zlen x = d -> Permutation (reorder z s x) x.
Proof. intros Hx. unfold reorder. transitivity (map (fun i => nth i x z) (seq 0 (Z.to_nat d))); [apply Permutation_map, Hs|]. now rewrite (list_nth z x Hx). Qed.
Lemma reorder_nth {A} (z : A) x k : (k < Z.to_nat d)%nat -> nth k (reorder z s x) z = nth (nth k s 0%nat) x z.
Proof. intros Hk. unfold reorder. rewrite (nth_indep _ z (nth 0 x z)) by (rewrite map_length, s_len; auto). now rewrite (map_nth (fun i => nth i x z)). Qed.
Lemma index_of_pos i : (i < Z.to_nat d)%nat -> exists k, (k < Z.to_nat d)%nat /\ nth k s 0%nat = i.
Proof. intros Hi. assert (In i s) as Hin by (apply (Permutation_in _ (Permutation_sym Hs)), in_seq; lia). apply In_nth with (d := 0%nat) in Hin as (k & Hk & Ek). rewrite s_len in Hk. eauto. Qed.
Lemma reorder_onto {A} (z : A) y : zlen y = d -> exists x, zlen x = d /\ reorder z s x = y.
Proof.
  intros Hy. assert (G : exists f : nat -> nat, forall i, (i < Z.to_nat d)%nat -> (f i < Z.to_nat d)%nat /\ nth (f i) s 0%nat = i).
  { assert (P : forall N, (N <= Z.to_nat d)%nat -> exists f : nat -> nat, forall i, (i < N)%nat -> (f i < Z.to_nat d)%nat /\ nth (f i) s 0%nat = i).
    { induction N as [|N IH]; intros HN; [exists (fun x => x); lia|]. destruct (IH ltac:(lia)) as (f & Hf). destruct (index_of_pos N ltac:(lia)) as (k & Hk & Ek). exists (fun i => if (i =? N)%nat then k else f i). intros i Hi. destruct (Nat.eqb_spec i N) as [->|]; [auto|apply Hf; lia]. }
    now apply P. }
  destruct G as (f & Hf). exists (map (fun i => nth (f i) y z) (seq 0 (Z.to_nat d))). split; [unfold zlen; rewrite map_length, seq_length; lia|].
  assert (ND : NoDup s) by (apply (Permutation_NoDup (Permutation_sym Hs)), seq_NoDup).
  unfold reorder. transitivity (map (fun i => nth i y z) (seq 0 (Z.to_nat d))); [|apply (list_nth z y Hy)]. apply (nth_ext _ _ z z); [rewrite !map_length, seq_length; apply s_len|]. intros k. rewrite map_length, s_len. intros Hk.
  assert (Hr : (nth k s 0 < Z.to_nat d)%nat) by (apply s_range, nth_In; rewrite s_len; auto).
  set (l := map (fun i => nth (f i) y z) (seq 0 (Z.to_nat d))).
  rewrite (nth_indep _ z (nth 0 l z)) by (rewrite map_length, s_len; auto). rewrite (map_nth (fun i => nth i l z)).
  rewrite (nth_indep (map _ (seq 0 _)) z (nth 0 y z)) by (rewrite map_length, seq_length; auto). rewrite (map_nth (fun i => nth i y z)), seq_nth by auto. cbn.
  unfold l. rewrite (nth_indep _ z (nth (f 0%nat) y z)) by (rewrite map_length, seq_length; auto). rewrite (map_nth (fun i => nth (f i) y z)), seq_nth by auto. cbn. f_equal.
  destruct (Hf _ Hr) as [Hfr Hfe]. rewrite (NoDup_nth s 0%nat) in ND. apply ND; rewrite ?s_len; auto.
Qed.
Lemma reorder_Forall2 {A B} (P : A -> B -> Prop) za zb x y : zlen x = d -> Forall2 P x y -> Forall2 P (reorder za s x) (reorder zb s y).
Proof.
  intros Hx HF. assert (Hy : zlen y = d) by (apply Forall2_length in HF; unfold zlen in *; lia). unfold reorder. assert (G : forall i, (i < Z.to_nat d)%nat -> P (nth i x za) (nth i y zb)).
  { intros i Hi. assert (Hi' : (i < length x)%nat) by (unfold zlen in Hx; lia). clear -HF Hi'. revert i Hi'. induction HF; intros [|i] Hi; cbn in *; try lia; auto. apply IHHF. lia. }
  pose proof s_range as R. clear -G R. induction s as [|i l IH]; cbn; constructor; [apply G, R; now left|apply IH; intros; apply R; now right].
Qed.
Lemma basis_prod b t : zlen b = d -> zlen t = d -> basis b t = fold_right Rmult 1%R (map (fun i => cheb (Z.to_nat (nth i b 0 - 1)) (nth i t 0%R)) (seq 0 (Z.to_nat d))).
Proof.
  intros Hb Ht. assert (Lb : length b = Z.to_nat d) by (unfold zlen in Hb; lia). assert (Lt : length t = Z.to_nat d) by (unfold zlen in Ht; lia). clear -Lb Lt. revert b t Lb Lt. induction (Z.to_nat d) as [|N IH]; intros [|i b] [|x t] Lb Lt; try discriminate; [reflexivity|].
  cbn [basis seq map fold_right nth]. rewrite <- seq_shift, map_map. cbn [nth]. rewrite (IH b t) by (cbn in *; lia). reflexivity.
Qed.
Lemma prod_perm (l l' : list R) : Permutation l l' -> fold_right Rmult 1%R l = fold_right Rmult 1%R l'.
Proof. induction 1; cbn; auto; [now rewrite IHPermutation|ring|congruence]. Qed.
Lemma basis_reorder b t : zlen b = d -> zlen t = d -> basis (reorder 0 s b) (reorder 0%R s t) = basis b t.
Proof.
  intros Hb Ht. rewrite (basis_prod (reorder 0 s b)), (basis_prod b t) by (auto; apply reorder_len).
  rewrite (map_ext_in _ (fun k => (fun i => cheb (Z.to_nat (nth i b 0 - 1)) (nth i t 0%R)) (nth k s 0%nat))) by (intros k Hk; apply in_seq in Hk; rewrite !reorder_nth by lia; reflexivity).
  rewrite <- (map_map (fun k => nth k s 0%nat) (fun i => cheb (Z.to_nat (nth i b 0 - 1)) (nth i t 0%R))). apply prod_perm, Permutation_map.
  rewrite (list_nth 0%nat s); [exact Hs|]. unfold zlen. rewrite s_len. lia.
Qed.
Lemma reorder_density mu m : density_ok d mu m -> density_ok d (reorder_mu s mu) m.
Proof.
  destruct mu as [k|l]; cbn; auto. intros (HL & HF & Hin & Hmax). pose proof (reorder_perm 0 l HL) as P. split; [apply reorder_len|]. split; [|split].
  - eapply Permutation_Forall; [apply Permutation_sym, P|auto].
  - eapply Permutation_in; [apply Permutation_sym, P|auto].
  - intros x Hx. apply Hmax. eapply Permutation_in; eauto.
Qed.
Lemma total_perm l l' : Permutation l l' -> total l = total l'.
Proof. unfold total. induction 1; cbn; lia. Qed.
Lemma reorder_iso m v : zlen v = d -> iso_index d m (reorder 0 s v) <-> iso_index d m v.
Proof.
  intros HL. pose proof (reorder_perm 0 v HL) as P. unfold iso_index. rewrite reorder_len, HL, (total_perm _ _ P). split; intros (_ & HF & HT); repeat split; auto; [exact (Permutation_Forall P HF)|exact (Permutation_Forall (Permutation_sym P) HF)].
Qed.
Lemma reorder_Forall2_iff {A B} (P : A -> B -> Prop) za zb x y : zlen x = d -> zlen y = d -> Forall2 P (reorder za s x) (reorder zb s y) -> Forall2 P x y.
Proof.
  intros Hx Hy HF. assert (G : forall i, (i < Z.to_nat d)%nat -> P (nth i x za) (nth i y zb)).
  { intros i Hi. destruct (index_of_pos i Hi) as (k & Hk & <-). rewrite <- !reorder_nth by auto. assert (Hk' : (k < length (reorder za s x))%nat) by (unfold reorder; now rewrite map_length, s_len). clear -HF Hk'. revert k Hk'. induction HF; intros [|k] Hk; cbn in *; try lia; auto. apply IHHF. lia. }
  assert (Lx : length x = Z.to_nat d) by (unfold zlen in Hx; lia). assert (Ly : length y = Z.to_nat d) by (unfold zlen in Hy; lia). clear -G Lx Ly. revert x y Lx Ly G. induction (Z.to_nat d) as [|N IH]; intros [|a x] [|b y] Lx Ly G; try discriminate; constructor; [apply (G 0%nat); lia|]. apply IH; auto. intros i Hi. apply (G (S i)). lia.
Qed.
Lemma reorder_index mu m v : density_ok d mu m -> zlen v = d -> smolyak_index d (reorder_mu s mu) m (reorder 0 s v) <-> smolyak_index d mu m v.
Proof.
  intros Hm HL. destruct mu as [k|l]; cbn; [now apply reorder_iso|]. unfold aniso_index. rewrite (reorder_iso m v HL). destruct Hm as (Hl & _). split; intros [A B]; split; auto; [eapply reorder_Forall2_iff; eauto|apply reorder_Forall2; auto].
Qed.
End Order.

(** ** Mirrored axes *)
Lemma cheb_opp k t : cheb k (- t) = ((-1) ^ k * cheb k t)%R /\ cheb (S k) (- t) = ((-1) ^ S k * cheb (S k) t)%R.
Proof.
  induction k as [|k [IH1 IH2]]; [cbn; split; ring|]. split; auto. change (cheb (S (S k)) (- t)) with (2 * - t * cheb (S k) (- t) - cheb k (- t))%R. rewrite IH1, IH2. change (cheb (S (S k)) t) with (2 * t * cheb (S k) t - cheb k t)%R. cbn [pow]. ring.
Qed.
Lemma basis_mirror b : forall t i, length b = length t -> (i < length t)%nat ->
  basis b (replace_at t (Z.of_nat i) (- nth i t 0)%R) = ((-1) ^ Z.to_nat (nth i b 0%Z - 1) * basis b t)%R.
Proof.
  induction b as [|j b IH]; intros [|x t] i HL Hi; try (cbn in *; lia). unfold replace_at in *. rewrite Nat2Z.id in *. destruct i as [|i].
  - cbn [firstn app skipn basis nth]. rewrite (proj1 (cheb_opp _ x)). ring.
  - change (skipn (S (S i)) (x :: t)) with (skipn (S i) t). cbn [firstn app basis nth]. specialize (IH t i ltac:(cbn in *; lia) ltac:(cbn in *; lia)). rewrite Nat2Z.id in IH. rewrite IH. ring.
Qed.
Lemma extremum_opp i x : 1 <= i -> is_extremum i x -> is_extremum i (- x)%R.
Proof.
  intros Hi. unfold is_extremum. destruct (Z.eqb_spec i 1); [intros ->; lra|]. intros (j & Hj & ->). exists (2 ^ (i - 1) - j). split; [lia|]. unfold extremum. rewrite minus_IZR.
  pose proof (pow2_pos (i - 1) ltac:(lia)) as P. apply IZR_lt in P. replace (PI * (IZR (2 ^ (i - 1)) - IZR j) / IZR (2 ^ (i - 1)))%R with (PI - PI * IZR j / IZR (2 ^ (i - 1)))%R by (field; lra).
  rewrite Rtrigo_facts.cos_pi_minus. reflexivity.
Qed.
Lemma extrema_mirror v t i : (i < length t)%nat -> Forall (fun i => 1 <= i) v -> Forall2 is_extremum v t -> Forall2 is_extremum v (replace_at t (Z.of_nat i) (- nth i t 0)%R).
Proof.
  intros Hi Hv HF. unfold replace_at. rewrite Nat2Z.id. revert i Hi. induction HF as [|k x v t Hx HF IH]; intros i Hi; [cbn in Hi; lia|]. inversion Hv; subst. destruct i as [|i]; [|change (skipn (S (S i)) (x :: t)) with (skipn (S i) t)]; cbn [firstn app nth].
  - constructor; auto. now apply extremum_opp.
  - constructor; auto. apply IH; auto. cbn in Hi. lia.
Qed.
Lemma to_cube_nth lb ub d x i : widths lb ub d -> zlen x = d -> 0 <= i < d ->
  nth (Z.to_nat i) (to_cube lb ub x) 0%R = ((2 * nth (Z.to_nat i) x 0 - nth (Z.to_nat i) lb 0 - nth (Z.to_nat i) ub 0) / (nth (Z.to_nat i) ub 0 - nth (Z.to_nat i) lb 0))%R.
Proof.
  intros (L1 & L2 & _) L3 Hi. revert ub x d i L1 L2 L3 Hi. induction lb as [|l lb IH]; intros [|u ub] [|t x] d i; rewrite ?zlen_nil, ?zlen_cons; intros L1 L2 L3 Hi; try lia; try (pose proof (zlen_nonneg lb); pose proof (zlen_nonneg ub); pose proof (zlen_nonneg x); lia).
  destruct (Z.eq_dec i 0) as [->|]; [reflexivity|]. replace (Z.to_nat i) with (S (Z.to_nat (i - 1))) by lia. cbn [to_cube nth]. apply (IH ub x (d - 1)); lia.
Qed.
Lemma to_cube_inj l u d x y : widths l u d -> zlen x = d -> zlen y = d -> to_cube l u x = to_cube l u y -> x = y.
Proof.
  intros Wl Hx Hy Eq. apply (nth_ext _ _ 0%R 0%R); [unfold zlen in *; lia|]. intros k Hk. assert (Hk' : 0 <= Z.of_nat k < d) by (unfold zlen in Hx; lia). pose proof (to_cube_nth l u d x (Z.of_nat k) Wl Hx Hk') as Nx. pose proof (to_cube_nth l u d y (Z.of_nat k) Wl Hy Hk') as Ny. rewrite Eq, Ny, Nat2Z.id in Nx.
    destruct Wl as (_ & _ & Wl). specialize (Wl _ Hk'). rewrite Nat2Z.id in Wl. set (a := nth k x 0%R) in *. set (b := nth k y 0%R) in *. set (lo := nth k l 0%R) in *. set (up := nth k u 0%R) in *.
    assert ((2 * b - lo - up) = (2 * a - lo - up))%R; [|lra]. apply (Rmult_eq_reg_r (/ (up - lo))); [exact Nx|]. apply Rinv_neq_0_compat. lra.
Qed.
Lemma mirror_cube lb ub d x i : widths lb ub d -> zlen x = d -> 0 <= i < d ->
  to_cube lb ub (mirror lb ub i x) = replace_at (to_cube lb ub x) i (- nth (Z.to_nat i) (to_cube lb ub x) 0)%R.
Proof.
  intros W Hx Hi. unfold mirror. rewrite (to_cube_replace d lb ub W) by auto. f_equal. rewrite (to_cube_nth lb ub d x i) by auto. destruct W as (_ & _ & W). specialize (W i Hi). field. lra.
Qed.
Lemma replace_twice x i a : 0 <= i < zlen x -> replace_at (replace_at x i a) i (nth (Z.to_nat i) x 0)%R = x.
Proof.
  intros Hi. unfold replace_at. assert (H : (Z.to_nat i < length x)%nat) by (unfold zlen in Hi; lia). clear Hi. revert H. generalize (Z.to_nat i) as k. induction x as [|t x IH]; intros [|k] Hk; cbn in *; try lia; [reflexivity|]. f_equal. apply IH. lia.
Qed.
Lemma replace_nth x i a : 0 <= i < zlen x -> nth (Z.to_nat i) (replace_at x i a) 0%R = a.
Proof.
  intros Hi. unfold replace_at. assert (H : (Z.to_nat i < length x)%nat) by (unfold zlen in Hi; lia). clear Hi. revert H. generalize (Z.to_nat i) as k. induction x as [|t x IH]; intros [|k] Hk; cbn in *; try lia; [reflexivity|]. apply IH. lia.
Qed.

(** ** Bounds in another order *)
Lemma reorder_to_cube d s lb ub x : 0 <= d -> ordering d s -> widths lb ub d -> zlen x = d ->
  to_cube (reorder 0%R s lb) (reorder 0%R s ub) (reorder 0%R s x) = reorder 0%R s (to_cube lb ub x).
Proof.
  intros Hd Hs W Hx. assert (R : forall i, In i s -> (i < Z.to_nat d)%nat) by (apply s_range; auto). unfold reorder. clear Hs. induction s as [|i s IH]; [reflexivity|]. cbn [map to_cube]. rewrite IH by (intros; apply R; now right). f_equal.
  rewrite <- (Nat2Z.id i). rewrite (to_cube_nth lb ub d x (Z.of_nat i)); auto. specialize (R i (or_introl eq_refl)). lia.
Qed.
Lemma reorder_widths d s lb ub : 0 <= d -> ordering d s -> widths lb ub d -> widths (reorder 0%R s lb) (reorder 0%R s ub) d.
Proof.
  intros Hd Hs (L1 & L2 & W). split; [now apply reorder_len|]. split; [now apply reorder_len|]. intros k Hk. rewrite !(reorder_nth d s) by (auto; lia).
  assert (Hr : (nth (Z.to_nat k) s 0 < Z.to_nat d)%nat) by (apply (s_range d s Hs), nth_In; rewrite (s_len d s Hs); lia). specialize (W (Z.of_nat (nth (Z.to_nat k) s 0%nat)) ltac:(lia)). now rewrite Nat2Z.id in W.
Qed.
Lemma widths_Forall2 lb ub d : widths lb ub d -> Forall2 Rlt lb ub.
Proof.
  intros (L1 & L2 & W). revert ub d L1 L2 W. induction lb as [|l lb IH]; intros [|u ub] d; rewrite ?zlen_nil, ?zlen_cons; intros L1 L2 W; [constructor|pose proof (zlen_nonneg ub); lia|pose proof (zlen_nonneg lb); lia|].
  pose proof (zlen_nonneg lb). constructor; [apply (W 0); lia|]. apply (IH ub (d - 1)); try lia. intros k Hk. specialize (W (k + 1) ltac:(lia)). replace (Z.to_nat (k + 1)) with (S (Z.to_nat k)) in W by lia. exact W.
Qed.

Section Final.
Variables (tiny : R) (lu lu' : arr R -> res (arr R * arr R)) (solve solve' : arr R -> arr R -> res (arr R)).
Hypothesis (Hlu : lu_ok lu) (Hlu' : lu_ok lu') (Hsolve : solve_ok solve) (Hsolve' : solve_ok solve').
Variables (d : Z) (mu : mu_t) (m : Z) (lb ub : bound R) (lbl ubl : list R).
Hypothesis (Hd : 2 <= d) (Hm : density_ok d mu m) (Ht : tiny_ok tiny (m + 1)) (Hlb : bound_list d (-1) lb lbl) (Hub : bound_list d 1 ub ubl) (HW : Forall2 Rlt lbl ubl).
Variables (tl : list Z).
Hypothesis Ho : outshape tl.
Notation sgn := (sg_new (s_n PI cos tiny)).

Lemma grid_shape mu0 m0 n sg l u : widths l u d -> good_sg d mu0 m0 n l u sg -> ashape (sg_grid sg) = [n; d] /\ ashape (sg_cube sg) = [n; d] /\ (forall p, to_cube l u (mrow d (sg_grid sg) p) = mrow d (sg_cube sg) p).
Proof.
  intros W (_ & _ & _ & _ & _ & Sc & Eg & _). destruct (cube2dom_row l u d n (sg_cube sg) ltac:(lia) W Sc) as (w & Ew & Sw & Rw & _). rewrite Eg in Ew. injection Ew as <-. auto.
Qed.
Lemma cube_rows lu0 mu0 m0 n sg lb0 ub0 l u : density_ok d mu0 m0 -> tiny_ok tiny (m0 + 1) -> sgn lu0 d mu0 lb0 ub0 = Ok sg -> good_sg d mu0 m0 n l u sg ->
  forall x, (exists p, 0 <= p < n /\ mrow d (sg_cube sg) p = x) <-> exists v, smolyak_index d mu0 m0 v /\ Forall2 is_extremum v x.
Proof.
  intros Hm0 Ht0 E HG. destruct (grid_points tiny d Hd mu0 m0 Hm0 Ht0) as (g & k & Eb & Sk & Gk). rewrite (sg_cube_of tiny lu0 d lb0 ub0 mu0 sg E) in Eb. injection Eb as <-. destruct HG as (_ & _ & _ & _ & _ & Sc & _). rewrite Sc in Sk. injection Sk as <-. exact Gk.
Qed.

Theorem linear : exists sg n, sgn lu d mu lb ub = Ok sg /\ 0 < n /\ ashape (sg_grid sg) = [n; d] /\
  forall f g h a b, ashape f = n :: tl -> ashape g = n :: tl -> ashape h = n :: tl ->
    (forall p tail, 0 <= p < n -> inb tl tail = true -> acell h (p :: tail) = (a * acell f (p :: tail) + b * acell g (p :: tail))%R) ->
  exists sf sgg sh, si_new solve sg f = Ok sf /\ si_new solve sg g = Ok sgg /\ si_new solve sg h = Ok sh /\
    forall k pts, 0 <= k -> ashape pts = [k; d] -> exists vf vg vh, si_interpolate solve sf pts true false false false = Ok [vf] /\
      si_interpolate solve sgg pts true false false false = Ok [vg] /\ si_interpolate solve sh pts true false false false = Ok [vh] /\ ashape vh = k :: tl /\
      forall p tail, 0 <= p < k -> inb tl tail = true -> acell vh (p :: tail) = (a * acell vf (p :: tail) + b * acell vg (p :: tail))%R.
Proof.
  destruct (sg_new_good tiny lu Hlu d mu m lb ub lbl ubl) as (sg & n & E & Hn & HG); auto. exists sg, n. split; auto. split; auto.
  destruct (density_max d mu m Hm) as [Emu Hm1]. pose proof (the_widths d lb ub lbl ubl Hlb Hub HW) as W. pose proof HG as (_ & _ & _ & _ & Gn & _). split; [eapply grid_shape; eauto|]. intros f g h a b Sf Sg Sh Hh.
  destruct (theta_spec solve Hsolve d mu m n lbl ubl sg Hn HG f tl Ho Sf) as (tf & Ef & Stf & Vtf). destruct (theta_spec solve Hsolve d mu m n lbl ubl sg Hn HG g tl Ho Sg) as (tg & Eg & Stg & Vtg). destruct (theta_spec solve Hsolve d mu m n lbl ubl sg Hn HG h tl Ho Sh) as (th & Eh & Sth & Vth).
  exists (mkSI sg f tf), (mkSI sg g tg), (mkSI sg h th). unfold si_new. rewrite Ef, Eg, Eh. do 3 (split; auto). intros k pts Hk Sp.
  destruct (values_at solve d mu m n lbl ubl sg ltac:(lia) Hm1 Emu W HG tf f tl k pts false Ho Stf Hk Sp) as (vf & B1 & E1 & S1 & _ & V1 & _). destruct (values_at solve d mu m n lbl ubl sg ltac:(lia) Hm1 Emu W HG tg g tl k pts false Ho Stg Hk Sp) as (vg & B2 & E2 & S2 & _ & V2 & _). destruct (values_at solve d mu m n lbl ubl sg ltac:(lia) Hm1 Emu W HG th h tl k pts false Ho Sth Hk Sp) as (vh & B3 & E3 & S3 & _ & V3 & _).
  exists vf, vg, vh. do 4 (split; auto). intros p tail Hp Hi. rewrite V1, V2, V3 by auto. unfold smolyak_value. rewrite Gn, <- !zsum_scal, <- zsum_plus. apply zsum_ext. intros j Hj.
  assert (Ej : acell th (j :: tail) = (a * acell tf (j :: tail) + b * acell tg (j :: tail))%R); [|rewrite Ej; ring].
  apply (theta_unique d mu m n lbl ubl sg HG (fun j => acell th (j :: tail)) (fun j => (a * acell tf (j :: tail) + b * acell tg (j :: tail))%R)); auto. intros i Hi'. rewrite (Vth i tail Hi' Hi), Hh, <- (Vtf i tail Hi' Hi), <- (Vtg i tail Hi' Hi) by auto. rewrite <- !zsum_scal, <- zsum_plus. apply zsum_ext. intros; ring.
Qed.

(** Units, and the linear algebra routines. *)
Theorem units lb' ub' lbl' ubl' : bound_list d (-1) lb' lbl' -> bound_list d 1 ub' ubl' -> Forall2 Rlt lbl' ubl' ->
  exists sg sg' n, sgn lu d mu lb ub = Ok sg /\ sgn lu' d mu lb' ub' = Ok sg' /\ ashape (sg_grid sg) = [n; d] /\ ashape (sg_grid sg') = [n; d] /\
  (forall p, 0 <= p < n -> to_cube lbl ubl (mrow d (sg_grid sg) p) = to_cube lbl' ubl' (mrow d (sg_grid sg') p)) /\
  forall f, ashape f = n :: tl -> exists si si', si_new solve sg f = Ok si /\ si_new solve' sg' f = Ok si' /\
    forall k pts pts', 0 <= k -> ashape pts = [k; d] -> ashape pts' = [k; d] -> (forall p, 0 <= p < k -> to_cube lbl ubl (mrow d pts p) = to_cube lbl' ubl' (mrow d pts' p)) ->
    exists v v', si_interpolate solve si pts true false false false = Ok [v] /\ si_interpolate solve' si' pts' true false false false = Ok [v'] /\ ashape v = k :: tl /\ aeq v v'.
Proof.
  intros Hlb' Hub' HW'. pose proof (the_widths d lb ub lbl ubl Hlb Hub HW) as W. pose proof (the_widths d lb' ub' lbl' ubl' Hlb' Hub' HW') as W'.
  destruct (sg_new_good tiny lu Hlu d mu m lb ub lbl ubl) as (sg & n & E & Hn & HG); auto. destruct (sg_new_good tiny lu' Hlu' d mu m lb' ub' lbl' ubl') as (sg' & n' & E' & Hn' & HG'); auto. exists sg, sg', n. do 2 (split; auto).
  destruct (grid_shape mu m n sg lbl ubl W HG) as (Sg & Sc & Rg). destruct (grid_shape mu m n' sg' lbl' ubl' W' HG') as (Sg' & Sc' & Rg').
  pose proof (sg_cube_of tiny lu d lb ub mu sg E) as C1. pose proof (sg_cube_of tiny lu' d lb' ub' mu sg' E') as C2. rewrite C1 in C2. injection C2 as C2. assert (n' = n) as -> by congruence. do 2 (split; auto). split; [intros p Hp; now rewrite Rg, Rg', C2|]. intros f Sf.
  apply (transfer_values d mu mu m m n n lbl ubl lbl' ubl' sg sg' solve solve' Hsolve Hsolve' Hd Hm Hm Hn Hn W W' HG HG' eq); auto.
  - intros b Hb. exists 1%R, b. destruct HG as (_ & _ & _ & _ & _ & _ & _ & _ & _ & _ & _ & _ & _ & _ & _ & _ & _ & GP). destruct HG' as (_ & _ & _ & _ & _ & _ & _ & _ & _ & _ & _ & _ & _ & _ & _ & _ & _ & GP'). split; [apply GP', GP, Hb|]. intros t t' _ ->. ring.
  - intros p Hp. exists p. split; auto. now rewrite C2.
  - intros p p' tail Hp Hp' Hi Eq. f_equal. f_equal. destruct HG as (_ & _ & _ & _ & _ & _ & _ & _ & _ & _ & _ & _ & _ & _ & _ & GD & _). symmetry. apply GD; auto. now rewrite C2 at 2.
Qed.

Theorem axes s lb' ub' : ordering d s -> bound_list d (-1) lb' (reorder 0%R s lbl) -> bound_list d 1 ub' (reorder 0%R s ubl) ->
  exists sg sg' n n', sgn lu d mu lb ub = Ok sg /\ sgn lu' d (reorder_mu s mu) lb' ub' = Ok sg' /\ ashape (sg_grid sg) = [n; d] /\ ashape (sg_grid sg') = [n'; d] /\
  (forall x, zlen x = d -> (exists p, 0 <= p < n /\ mrow d (sg_grid sg) p = x) <-> (exists p', 0 <= p' < n' /\ mrow d (sg_grid sg') p' = reorder 0%R s x)) /\
  forall f f', ashape f = n :: tl -> ashape f' = n' :: tl ->
    (forall p p' tail, 0 <= p < n -> 0 <= p' < n' -> inb tl tail = true -> mrow d (sg_grid sg') p' = reorder 0%R s (mrow d (sg_grid sg) p) -> acell f' (p' :: tail) = acell f (p :: tail)) ->
  exists si si', si_new solve sg f = Ok si /\ si_new solve' sg' f' = Ok si' /\
    forall k pts pts', 0 <= k -> ashape pts = [k; d] -> ashape pts' = [k; d] -> (forall p, 0 <= p < k -> mrow d pts' p = reorder 0%R s (mrow d pts p)) ->
    exists v v', si_interpolate solve si pts true false false false = Ok [v] /\ si_interpolate solve' si' pts' true false false false = Ok [v'] /\ ashape v = k :: tl /\ aeq v v'.
Proof.
  intros Hs Hlb' Hub'. pose proof (the_widths d lb ub lbl ubl Hlb Hub HW) as W. pose proof (reorder_widths d s lbl ubl ltac:(lia) Hs W) as W'. pose proof (reorder_density d s ltac:(lia) Hs mu m Hm) as Hm'.
  destruct (sg_new_good tiny lu Hlu d mu m lb ub lbl ubl) as (sg & n & E & Hn & HG); auto. destruct (sg_new_good tiny lu' Hlu' d (reorder_mu s mu) m lb' ub' (reorder 0%R s lbl) (reorder 0%R s ubl)) as (sg' & n' & E' & Hn' & HG'); auto; [eapply widths_Forall2; eauto|]. exists sg, sg', n, n'. do 2 (split; auto).
  destruct (grid_shape mu m n sg _ _ W HG) as (Sg & Sc & Rg). destruct (grid_shape _ m n' sg' _ _ W' HG') as (Sg' & Sc' & Rg'). do 2 (split; auto).
  pose proof (cube_rows lu mu m n sg lb ub lbl ubl Hm Ht E HG) as C. pose proof (cube_rows lu' _ m n' sg' lb' ub' _ _ Hm' Ht E' HG') as C'.
  pose proof (fun l u x y => to_cube_inj l u d x y) as Inj.
  assert (Lv : forall v, smolyak_index d mu m v -> zlen v = d) by (intros v Hv; apply (index_iso d mu m v Hv)).
  assert (CC : forall t, zlen t = d -> (exists p, 0 <= p < n /\ mrow d (sg_cube sg) p = t) <-> (exists p', 0 <= p' < n' /\ mrow d (sg_cube sg') p' = reorder 0%R s t)).
  { intros t Lt. rewrite C, C'. split.
    - intros (v & Hv & HF). exists (reorder 0 s v). split; [apply reorder_index; auto; lia|]. apply (reorder_Forall2 d s); auto.
    - intros (v' & Hv' & HF). destruct (reorder_onto d s ltac:(lia) Hs 0 v') as (v & Lv' & <-); [apply (index_iso d _ m v' Hv')|]. exists v. split; [apply (reorder_index d s); auto; lia|]. eapply (reorder_Forall2_iff d s); eauto. }
  split.
  { intros x Hx. assert (Lc : zlen (to_cube lbl ubl x) = d) by (apply to_cube_len; auto). specialize (CC _ Lc). split; intros (p & Hp & Ep).
    - destruct (proj1 CC) as (p' & Hp' & Ep'); [exists p; split; auto; now rewrite <- Rg, Ep|]. exists p'. split; auto. apply (Inj (reorder 0%R s lbl) (reorder 0%R s ubl)); [auto|apply mrow_len; lia|apply reorder_len; auto; lia|]. rewrite Rg', Ep', (reorder_to_cube d s); auto. lia.
    - destruct (proj2 CC) as (p' & Hp' & Ep'); [exists p; split; auto; rewrite <- Rg', Ep, (reorder_to_cube d s); auto; lia|]. exists p'. split; auto. apply (Inj lbl ubl); [auto|apply mrow_len; lia|auto|]. now rewrite Rg, Ep'. }
  intros f f' Sf Sf' Hf.
  destruct (transfer_values d mu (reorder_mu s mu) m m n n' lbl ubl (reorder 0%R s lbl) (reorder 0%R s ubl) sg sg' solve solve' Hsolve Hsolve' Hd Hm Hm' Hn Hn' W W' HG HG' (fun t t' => t' = reorder 0%R s t)) with (f := f) (f' := f') (tl := tl) as (si & si' & E1 & E2 & V); auto.
  - intros b Hb. exists 1%R, (reorder 0 s b). pose proof HG as (_ & _ & _ & _ & _ & _ & _ & _ & _ & GI & _ & _ & _ & _ & _ & _ & _ & GP). pose proof HG' as (_ & _ & _ & _ & _ & _ & _ & _ & _ & _ & _ & _ & _ & _ & _ & _ & _ & GP').
    unfold indices_ok in GI. rewrite List.Forall_forall in GI. destruct (GI b Hb) as [Lb _]. split.
    + apply GP'. apply GP in Hb as (v & Hv & HF). exists (reorder 0 s v). split; [apply (reorder_index d s); auto; lia|]. apply (reorder_Forall2 d s); auto.
    + intros t t' Lt ->. rewrite (basis_reorder d s) by (auto; lia). ring.
  - intros p' Hp'. destruct (reorder_onto d s ltac:(lia) Hs 0%R (mrow d (sg_cube sg') p')) as (t & Lt & Et); [apply mrow_len; lia|]. destruct (proj2 (CC t Lt)) as (p & Hp & Ep); [exists p'; split; auto|]. exists p. split; auto. now rewrite Ep.
  - intros p p' tail Hp Hp' Hi Eq. apply Hf; auto. apply (Inj (reorder 0%R s lbl) (reorder 0%R s ubl)); [auto|apply mrow_len; lia|apply reorder_len; auto; lia|]. rewrite Rg', Eq, (reorder_to_cube d s), Rg; auto; [lia|apply mrow_len; lia].
  - exists si, si'. do 2 (split; auto). intros k pts pts' Hk Sp Sp' Hpp. apply V; auto. intros p Hp. rewrite Hpp by auto. apply (reorder_to_cube d s); auto; [lia|apply mrow_len; lia].
Qed.

Theorem mirrored i : 0 <= i < d -> exists sg n, sgn lu d mu lb ub = Ok sg /\ ashape (sg_grid sg) = [n; d] /\
  (forall p, 0 <= p < n -> exists p', 0 <= p' < n /\ mrow d (sg_grid sg) p' = mirror lbl ubl i (mrow d (sg_grid sg) p)) /\
  forall f f', ashape f = n :: tl -> ashape f' = n :: tl ->
    (forall p p' tail, 0 <= p < n -> 0 <= p' < n -> inb tl tail = true -> mrow d (sg_grid sg) p' = mirror lbl ubl i (mrow d (sg_grid sg) p) -> acell f' (p' :: tail) = acell f (p :: tail)) ->
  exists si si', si_new solve sg f = Ok si /\ si_new solve sg f' = Ok si' /\
    forall k pts pts', 0 <= k -> ashape pts = [k; d] -> ashape pts' = [k; d] -> (forall p, 0 <= p < k -> mrow d pts' p = mirror lbl ubl i (mrow d pts p)) ->
    exists v v', si_interpolate solve si pts true false false false = Ok [v] /\ si_interpolate solve si' pts' true false false false = Ok [v'] /\ ashape v = k :: tl /\ aeq v v'.
Proof.
  intros Hi. pose proof (the_widths d lb ub lbl ubl Hlb Hub HW) as W. destruct (sg_new_good tiny lu Hlu d mu m lb ub lbl ubl) as (sg & n & E & Hn & HG); auto. exists sg, n. split; auto.
  destruct (grid_shape mu m n sg _ _ W HG) as (Sg & Sc & Rg). split; auto. pose proof (cube_rows lu mu m n sg lb ub lbl ubl Hm Ht E HG) as C. destruct (index_down d mu m Hm) as [D1 _].
  set (opp := fun t => replace_at t i (- nth (Z.to_nat i) t 0)%R).
  assert (CC : forall p, 0 <= p < n -> exists p', 0 <= p' < n /\ mrow d (sg_cube sg) p' = opp (mrow d (sg_cube sg) p)).
  { intros p Hp. apply C. destruct (proj1 (C (mrow d (sg_cube sg) p)) (ex_intro _ p (conj Hp eq_refl))) as (v & Hv & HF). exists v. split; auto. unfold opp. replace i with (Z.of_nat (Z.to_nat i)) at 1 by lia. apply extrema_mirror; auto; [pose proof (mrow_len d (sg_cube sg) p ltac:(lia)) as L; unfold zlen in L; lia|]. eapply Forall_impl; [|apply D1, Hv]. cbn. lia. }
  assert (ML : forall x, zlen x = d -> zlen (mirror lbl ubl i x) = d) by (intros x Hx; unfold mirror; rewrite replace_len; lia).
  assert (OO : forall t, zlen t = d -> opp (opp t) = t). { intros t Lt. unfold opp. rewrite replace_nth by lia. rewrite Ropp_involutive. apply replace_twice. lia. }
  split.
  { intros p Hp. destruct (CC p Hp) as (p' & Hp' & Ep'). exists p'. split; auto. apply (to_cube_inj lbl ubl d); [auto|apply mrow_len; lia|apply ML, mrow_len; lia|]. rewrite Rg, Ep', (mirror_cube lbl ubl d), Rg by (auto; apply mrow_len; lia). reflexivity. }
  intros f f' Sf Sf' Hf.
  destruct (transfer_values d mu mu m m n n lbl ubl lbl ubl sg sg solve solve Hsolve Hsolve Hd Hm Hm Hn Hn W W HG HG (fun t t' => t' = opp t)) with (f := f) (f' := f') (tl := tl) as (si & si' & E1 & E2 & V); auto.
  - intros b Hb. exists ((-1) ^ Z.to_nat (nth (Z.to_nat i) b 0%Z - 1))%R, b. split; auto. intros t t' Lt ->. unfold opp. replace i with (Z.of_nat (Z.to_nat i)) at 2 by lia.
    pose proof HG as (_ & _ & _ & _ & _ & _ & _ & _ & _ & GI & _). unfold indices_ok in GI. rewrite List.Forall_forall in GI. destruct (GI b Hb) as [Lb _]. rewrite basis_mirror by (unfold zlen in *; lia). rewrite <- Rmult_assoc, <- Rpow_mult_distr. replace (-1 * -1)%R with 1%R by ring. rewrite pow1. ring.
  - intros p' Hp'. destruct (CC p' Hp') as (p & Hp & Ep). exists p. split; auto. rewrite Ep. symmetry. apply OO, mrow_len. lia.
  - intros p p' tail Hp Hp' Hi' Eq. apply Hf; auto. apply (to_cube_inj lbl ubl d); [auto|apply mrow_len; lia|apply ML, mrow_len; lia|]. rewrite Rg, Eq, (mirror_cube lbl ubl d), Rg by (auto; apply mrow_len; lia). reflexivity.
  - exists si, si'. do 2 (split; auto). intros k pts pts' Hk Sp Sp' Hpp. apply V; auto. intros p Hp. rewrite Hpp by auto. apply (mirror_cube lbl ubl d); auto. apply mrow_len. lia.
Qed.
End Final.
