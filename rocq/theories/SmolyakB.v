(** C42, C43: [cheby2n] and [build_B] over the reals. *)
From Coq Require Import ZArith List Bool Lia ZifyBool Reals Lra Psatz.
From Coquelicot Require Import Coquelicot.
From Verif Require Import Base BaseFacts RSum CompleteModel CompleteGeneric CompleteFit SmolyakModel SpecSmolyak SmolyakChains.
Import ListNotations.
Open Scope Z_scope.

(** ** Chebyshev polynomials *)
Fixpoint chebk (kind : R) (n : nat) (x : R) : R :=
  match n with
  | O => 1
  | S m => match m with O => x * kind | S k => 2 * x * chebk kind m x - chebk kind k x end
  end%R.
Lemma cheb_SS n x : cheb (S (S n)) x = (2 * x * cheb (S n) x - cheb n x)%R. Proof. reflexivity. Qed.
Lemma chebk_SS kd n x : chebk kd (S (S n)) x = (2 * x * chebk kd (S n) x - chebk kd n x)%R. Proof. reflexivity. Qed.
Lemma pair_ind (P : nat -> Prop) : P O -> P 1%nat -> (forall n, P n -> P (S n) -> P (S (S n))) -> forall n, P n.
Proof. intros H0 H1 HS n. assert (P n /\ P (S n)); [|tauto]. induction n; [auto|]. destruct IHn. auto. Qed.
Lemma chebk_1 x n : chebk 1 n x = cheb n x.
Proof. induction n using pair_ind; [reflexivity|cbn; ring|]. now rewrite chebk_SS, cheb_SS, IHn, IHn0. Qed.
Theorem cheb_cos n t : cheb n (cos t) = cos (INR n * t).
Proof.
  induction n as [| |n I0 I1] using pair_ind.
  - cbn. now rewrite Rmult_0_l, cos_0.
  - cbn. now rewrite Rmult_1_l.
  - rewrite cheb_SS, I0, I1. rewrite !S_INR. replace ((INR n + 1 + 1) * t)%R with ((INR n + 1) * t + t)%R by ring.
    replace (INR n * t)%R with ((INR n + 1) * t - t)%R by ring. rewrite cos_plus, cos_minus. ring.
Qed.
(** T_(n+1) = x U_n - U_(n-1), and T_n' = n U_(n-1). *)
Lemma cheb_U n x : cheb (S (S n)) x = (x * chebk 2 (S n) x - chebk 2 n x)%R.
Proof.
  induction n as [| |n I0 I1] using pair_ind.
  - cbn. ring.
  - cbn. ring.
  - rewrite (cheb_SS (S (S n))), I0, I1. rewrite (chebk_SS 2 (S n)), (chebk_SS 2 n). ring.
Qed.
Definition dcheb (n : nat) (x : R) : R := match n with O => 0%R | S m => (INR n * chebk 2 m x)%R end.
Lemma cheb_derive n x : is_derive (cheb n : R -> R) x (dcheb n x).
Proof.
  induction n as [| |n I0 I1] using pair_ind.
  - cbn. apply @is_derive_const.
  - cbn. apply (is_derive_ext (fun y : R => y)); [intros; reflexivity|]. replace (1 * 1)%R with 1%R by ring. apply @is_derive_id.
  - apply (is_derive_ext (fun y : R => (2 * y * cheb (S n) y - cheb n y)%R)); [intros; reflexivity|].
    replace (dcheb (S (S n)) x) with (2 * cheb (S n) x + 2 * x * dcheb (S n) x - dcheb n x)%R.
    + apply (is_derive_minus (fun y : R => (2 * y * cheb (S n) y)%R : R) (cheb n : R -> R)); auto.
      apply (is_derive_mult (fun y : R => (2 * y)%R : R) (cheb (S n) : R -> R) x 2%R (dcheb (S n) x)); auto; [|intros; apply Rmult_comm]. auto_derive; auto. ring.
    + unfold dcheb. destruct n as [|n]; [cbn; ring|]. rewrite !S_INR. rewrite (cheb_U n). rewrite (chebk_SS 2 n). ring.
Qed.

(** ** The table *)
Lemma cheby2n_spec (x : arr R) n kd : 1 <= n -> exists tab, cheby2n x n kd = Ok tab /\ ashape tab = (n + 1) :: ashape x /\
  forall i r, 0 <= i <= n -> acell tab (i :: r) = chebk kd (Z.to_nat i) (acell x r).
Proof.
  intros Hn. unfold cheby2n. unfold aset_row at 1. cbn [ashape azeros]. destruct ((0 <=? 0) && (0 <? n + 1)) eqn:E0; [|lia]. cbn [bind].
  unfold aset_row at 1. cbn [ashape]. destruct ((0 <=? 1) && (1 <? n + 1)) eqn:E1; [|lia]. cbn [bind].
  match goal with |- context [foldM ?f _ ?s0] => destruct (foldM_zrange2 f
    (fun i tab => ashape tab = (n + 1) :: ashape x /\ forall k r, 0 <= k < i -> acell tab (k :: r) = chebk kd (Z.to_nat k) (acell x r)) 2 (n + 1) s0)
    as (tab & E & Hsh & Hc) end.
  - lia.
  - split; [reflexivity|]. intros k r Hk. assert (k = 0 \/ k = 1) as [->| ->] by lia; reflexivity.
  - intros i tab Hi [Hsh Hc]. unfold aset_row. rewrite Hsh. destruct ((0 <=? i) && (i <? n + 1)) eqn:Ei; [|lia]. eexists. split; [reflexivity|]. cbn [ashape acell]. split; auto.
    intros k r Hk. destruct (Z.eqb_spec k i) as [->|]; [|apply Hc; lia]. rewrite !Hc by lia. cbn [n_sub n_mul n_ofZ NumR].
    replace (Z.to_nat i) with (S (S (Z.to_nat (i - 2)))) by lia. rewrite chebk_SS. do 2 f_equal. f_equal. f_equal. lia.
  - exists tab. split; [exact E|]. split; auto. intros i r Hi. apply Hc. lia.
Qed.

(** ** Products *)
Definition rprod (l : list R) : R := fold_right Rmult 1%R l.
Lemma reduce_mul_R l : l <> [] -> reduce_mul l = Ok (rprod l).
Proof.
  destruct l as [|a l]; [congruence|]. intros _. cbn [reduce_mul]. f_equal. cbn [rprod fold_right]. 
  assert (G : forall l a, fold_left Rmult l a = (a * fold_right Rmult 1 l)%R); [|apply (G l a)].
  induction l0 as [|b l0 IH]; intros c; cbn; [ring|]. rewrite IH. ring.
Qed.
Lemma basis_rprod : forall d (b : list Z) (x : list R), zlen b = d -> zlen x = d ->
  basis b x = rprod (map (fun k => cheb (Z.to_nat (nth (Z.to_nat k) b 0 - 1)) (nth (Z.to_nat k) x 0%R)) (zrange d)).
Proof.
  intros d b. revert d. induction b as [|i b IH]; intros d [|t x] Hb Hx; rewrite ?zlen_cons, ?zlen_nil in *; try (pose proof (zlen_nonneg b)); try (pose proof (zlen_nonneg x)); try lia.
  - subst d. reflexivity.
  - rewrite zrange_cons by lia. cbn [basis map rprod fold_right]. change (Z.to_nat 0) with O. cbn [nth]. f_equal. rewrite (IH (d - 1)) by lia. rewrite map_map. unfold rprod. f_equal.
    apply map_ext_in. intros k Hk. apply zrange_In in Hk. replace (Z.to_nat (Z.succ k)) with (S (Z.to_nat k)) by lia. reflexivity.
Qed.

Lemma loop_cells {S X} (I : S -> Prop) (good : S -> X -> Prop) (Q : Z -> X -> Prop) (f : S -> Z -> res S) n s :
  I s -> 0 <= n ->
  (forall k s, 0 <= k < n -> I s -> exists s', f s k = Ok s' /\ I s' /\ forall r, (good s r \/ Q k r) -> good s' r) ->
  exists s', foldM f (zrange n) s = Ok s' /\ I s' /\ forall r, (good s r \/ exists k, 0 <= k < n /\ Q k r) -> good s' r.
Proof.
  intros HJ Hn H.
  destruct (foldM_zrange f (fun k s' => I s' /\ forall r, (good s r \/ exists j, 0 <= j < k /\ Q j r) -> good s' r) n s) as (s' & E & HJ' & HG).
  - auto.
  - split; auto. intros r [G|(k & Hk & _)]; [auto|lia].
  - intros k s1 Hk [J1 G1]. destruct (H k s1 Hk J1) as (s2 & E & J2 & G2). exists s2. split; auto. split; auto.
    intros r [G|(j & Hj & Hq)]; apply G2.
    + left. apply G1. auto.
    + destruct (Z.eq_dec j k) as [->|Hne]; auto. left. apply G1. right. exists j. split; [lia|auto].
  - exists s'. auto.
Qed.

Section B.
Variables (d m npts : Z) (pts : arr R) (b_inds : list (list Z)).
Hypothesis (Hd : 1 <= d) (Hn : 0 <= npts) (Hsh : ashape pts = [npts; d]) (Hb : indices_ok d m b_inds) (Hm : 1 <= m).
Let P := zlen b_inds.
Let top := 2 ^ m + 1.

Lemma top_ge : 3 <= top.
Proof. unfold top. replace m with (m - 1 + 1) by lia. rewrite pow2_S by lia. pose proof (pow2_pos (m - 1) ltac:(lia)). lia. Qed.
Lemma comb_ok j : 0 <= j < P -> exists comb, lget b_inds j = Ok comb /\ comb = nth (Z.to_nat j) b_inds [] /\ zlen comb = d /\
  forall k, 0 <= k < d -> exists c, lget comb k = Ok c /\ c = nth (Z.to_nat k) comb 0 /\ 1 <= c <= top.
Proof.
  intros Hj. exists (nth (Z.to_nat j) b_inds []). split; [apply lget_ok; auto|]. split; auto. unfold indices_ok in Hb. rewrite Forall_forall in Hb.
  destruct (Hb (nth (Z.to_nat j) b_inds [])) as [HL HF]; [apply nth_In; unfold P, zlen in Hj; lia|]. split; auto. intros k Hk.
  exists (nth (Z.to_nat k) (nth (Z.to_nat j) b_inds []) 0). split; [apply lget_ok; lia|]. split; auto. rewrite Forall_forall in HF. apply HF. apply nth_In. unfold zlen in HL. lia.
Qed.
Lemma mrow_nth k p : 0 <= k < d -> nth (Z.to_nat k) (mrow d pts p) 0%R = acell pts [p; k].
Proof. intros. unfold mrow. rewrite (nth_zmap (fun k => acell pts [p; k])); auto. Qed.
Lemma mrow_len p : zlen (mrow d pts p) = d.
Proof. unfold mrow. rewrite zlen_map, zlen_zrange; lia. Qed.

Lemma values_spec Ts : ashape Ts = [top + 1; d; npts] ->
  (forall i k p, 0 <= i <= top -> acell Ts [i; k; p] = cheb (Z.to_nat i) (acell pts [p; k])) ->
  exists B, build_B_values d Ts npts b_inds = Ok B /\ ashape B = [npts; P] /\
    forall p j, 0 <= p < npts -> 0 <= j < P -> acell B [p; j] = basis (nth (Z.to_nat j) b_inds []) (mrow d pts p).
Proof.
  intros HT HC. unfold build_B_values. fold P.
  set (good := fun (B : arr R) (pj : Z * Z) => acell B [fst pj; snd pj] = basis (nth (Z.to_nat (snd pj)) b_inds []) (mrow d pts (fst pj))).
  set (f := fun B ind => _).
  destruct (loop_cells (fun B => ashape B = [npts; P]) good (fun j pj => snd pj = j /\ 0 <= fst pj < npts) f P (azeros [npts; P])) as (B & E & HB & G).
  - reflexivity.
  - unfold P. apply zlen_nonneg.
  - intros j B Hj HB. unfold f. destruct (comb_ok j Hj) as (comb & -> & Ecomb & Hcl & Hc). cbn [bind].
    match goal with |- exists s', foldM ?g _ _ = _ /\ _ => destruct (loop_cells (fun B => ashape B = [npts; P]) good (fun p pj => pj = (p, j)) g npts B) as (B' & E & HB' & G) end; auto.
    + intros p B1 Hp HB1. 
      rewrite (mapM_all_ok _ (fun k => cheb (Z.to_nat (nth (Z.to_nat k) comb 0 - 1)) (nth (Z.to_nat k) (mrow d pts p) 0%R))).
      2:{ intros k Hk. apply zrange_In in Hk. destruct (Hc k Hk) as (c & -> & -> & Hcr). cbn [bind]. rewrite aget_ok; [|rewrite HT; cbn; lia]. rewrite HC by lia. now rewrite mrow_nth. }
      cbn [bind]. rewrite reduce_mul_R; [|rewrite zrange_cons by lia; discriminate]. cbn [bind]. rewrite <- (basis_rprod d comb (mrow d pts p)) by (auto; apply mrow_len).
      rewrite aset_ok; [|rewrite HB1; cbn; lia]. eexists. split; [reflexivity|]. split; [now rewrite upd_shape|].
      intros [q i] H. unfold good in *. cbn [fst snd] in *. destruct (Z.eq_dec q p) as [->|]; [destruct (Z.eq_dec i j) as [->|]|].
      * rewrite upd_same. now rewrite Ecomb.
      * destruct H as [H|H]; [|congruence]. rewrite upd_other by congruence. auto.
      * destruct H as [H|H]; [|congruence]. rewrite upd_other by congruence. auto.
    + exists B'. split; [exact E|]. split; auto. intros r [H|[<- H]]; apply G; auto. right. exists (fst r). split; auto. now destruct r.
  - exists B. split; [exact E|]. split; auto. intros p j Hp Hj. apply (G (p, j)). right. exists j. auto.
Qed.

(** Factors of the derivative in coordinate [i]. *)
Definition dfactor (comb : list Z) (x : list R) (i k : Z) : R :=
  let n := Z.to_nat (nth (Z.to_nat k) comb 0 - 1) in let t := nth (Z.to_nat k) x 0%R in if i =? k then dcheb n t else cheb n t.
Lemma deriv_spec Ts Us : ashape Ts = [top + 1; d; npts] -> ashape Us = [top + 1 + 1; d; npts] ->
  (forall i k p, 0 <= i <= top -> acell Ts [i; k; p] = cheb (Z.to_nat i) (acell pts [p; k])) ->
  (forall i k p, 0 <= i <= top -> acell Us [i; k; p] = dcheb (Z.to_nat i) (acell pts [p; k])) ->
  exists D, build_B_deriv d Ts Us npts b_inds = Ok D /\ ashape D = [P; d; npts] /\
    forall p j i, 0 <= p < npts -> 0 <= j < P -> 0 <= i < d -> acell D [j; i; p] = rprod (map (dfactor (nth (Z.to_nat j) b_inds []) (mrow d pts p) i) (zrange d)).
Proof.
  intros HT HU HC HD. unfold build_B_deriv. fold P.
  set (good := fun (D : arr R) (q : Z * Z * Z) => let '(j, i, p) := q in acell D [j; i; p] = rprod (map (dfactor (nth (Z.to_nat j) b_inds []) (mrow d pts p) i) (zrange d))).
  set (f := fun D i => _).
  destruct (loop_cells (fun D => ashape D = [P; d; npts]) good (fun i q => snd (fst q) = i /\ 0 <= snd q < npts /\ 0 <= fst (fst q) < P) f d (azeros [P; d; npts])) as (D & E & HB & G).
  - reflexivity.
  - lia.
  - intros i D Hi HDs. unfold f.
    match goal with |- exists s', foldM ?g _ _ = _ /\ _ => destruct (loop_cells (fun B => ashape B = [P; d; npts]) good (fun j q => fst q = (j, i) /\ 0 <= snd q < npts) g P D) as (D' & E & HD' & G) end; auto.
    + apply zlen_nonneg.
    + intros j D1 Hj HD1. destruct (comb_ok j Hj) as (comb & -> & Ecomb & Hcl & Hc). cbn [bind].
      match goal with |- exists s', foldM ?g _ _ = _ /\ _ => destruct (loop_cells (fun B => ashape B = [P; d; npts]) good (fun p q => q = (j, i, p)) g npts D1) as (D2 & E & HD2 & G) end; auto.
      * intros p D2 Hp HD2.
        rewrite (mapM_all_ok _ (dfactor comb (mrow d pts p) i)).
        2:{ intros k Hk. apply zrange_In in Hk. destruct (Hc k Hk) as (c & -> & -> & Hcr). cbn [bind]. unfold dfactor. rewrite mrow_nth by auto. destruct (i =? k).
            - rewrite aget_ok; [|rewrite HU; cbn; lia]. now rewrite HD by lia.
            - rewrite aget_ok; [|rewrite HT; cbn; lia]. now rewrite HC by lia. }
        cbn [bind]. rewrite reduce_mul_R; [|rewrite zrange_cons by lia; discriminate]. cbn [bind].
        rewrite aset_ok; [|rewrite HD2; cbn; lia]. eexists. split; [reflexivity|]. split; [now rewrite upd_shape|].
        intros [[j' i'] p'] H. unfold good in *. destruct (list_eq_dec Z.eq_dec [j'; i'; p'] [j; i; p]) as [Eq|Ne].
        { injection Eq as -> -> ->. rewrite upd_same. now rewrite Ecomb. }
        { rewrite upd_other by auto. destruct H as [H|H]; auto. exfalso. apply Ne. congruence. }
      * exists D2. split; [exact E|]. split; auto. intros [[j' i'] p'] [H|[H1 H2]]; apply G; auto. cbn [fst snd] in *. right. exists p'. split; auto. congruence.
    + exists D'. split; [exact E|]. split; auto. intros [[j' i'] p'] [H|[H1 [H2 H3]]]; apply G; auto. cbn [fst snd] in *. right. exists j'. split; auto. split; auto. congruence.
  - exists D. split; [exact E|]. split; auto. intros p j i Hp Hj Hi. apply (G (j, i, p)). right. exists i. auto.
Qed.

Variable mu : mu_t.
Hypothesis (Hmu : max_mu mu = Ok m).
Theorem build_B_spec : exists B, build_B d mu pts b_inds false = Ok (B, None) /\ ashape B = [npts; P] /\
    forall p j, 0 <= p < npts -> 0 <= j < P -> acell B [p; j] = basis (nth (Z.to_nat j) b_inds []) (mrow d pts p).
Proof.
  unfold build_B. rewrite Hmu. cbn [bind]. rewrite m_i_last by lia. rewrite last_ge2 by lia. replace (m + 1 - 1) with m by lia. fold top. cbn [bind].
  pose proof top_ge. destruct (cheby2n_spec (atranspose pts) top (n_ofZ 1) ltac:(lia)) as (Ts & -> & HT & HC). cbn [bind].
  unfold adim. rewrite Hsh. cbn [lget]. change (lget [npts; d] 0) with (Ok npts). cbn [bind].
  unfold atranspose in HT. cbn [ashape] in HT. rewrite Hsh in HT. cbn [rev app] in HT.
  destruct (values_spec Ts HT) as (B & -> & HB & HV).
  - intros i k p Hi. rewrite HC by auto. cbn [n_ofZ NumR]. now rewrite chebk_1.
  - cbn [bind]. exists B. auto.
Qed.
Theorem build_B_deriv_spec : exists B D, build_B d mu pts b_inds true = Ok (B, Some D) /\ ashape B = [npts; P] /\ ashape D = [P; d; npts] /\
    (forall p j, 0 <= p < npts -> 0 <= j < P -> acell B [p; j] = basis (nth (Z.to_nat j) b_inds []) (mrow d pts p)) /\
    (forall p j i, 0 <= p < npts -> 0 <= j < P -> 0 <= i < d -> acell D [j; i; p] = rprod (map (dfactor (nth (Z.to_nat j) b_inds []) (mrow d pts p) i) (zrange d))).
Proof.
  unfold build_B. rewrite Hmu. cbn [bind]. rewrite m_i_last by lia. rewrite last_ge2 by lia. replace (m + 1 - 1) with m by lia. fold top. cbn [bind].
  pose proof top_ge. destruct (cheby2n_spec (atranspose pts) top (n_ofZ 1) ltac:(lia)) as (Ts & -> & HT & HC). cbn [bind].
  unfold adim. rewrite Hsh. change (lget [npts; d] 0) with (Ok npts). cbn [bind].
  unfold atranspose in HT. cbn [ashape] in HT. rewrite Hsh in HT. cbn [rev app] in HT.
  assert (HC' : forall i k p, 0 <= i <= top -> acell Ts [i; k; p] = cheb (Z.to_nat i) (acell pts [p; k])) by (intros i k p Hi; rewrite HC by auto; cbn [n_ofZ NumR]; now rewrite chebk_1).
  destruct (values_spec Ts HT HC') as (B & -> & HB & HV). cbn [bind].
  destruct (cheby2n_spec (atranspose pts) top (n_ofZ 2) ltac:(lia)) as (Us & -> & HU & HCU). cbn [bind].
  unfold atranspose in HU. cbn [ashape] in HU. rewrite Hsh in HU. cbn [rev app] in HU.
  destruct (deriv_spec Ts (scale_us Us) HT) as (D & -> & HD & HDV); auto.
  - unfold scale_us. cbn [ashape]. now rewrite HU.
  - intros i k p Hi. unfold scale_us. cbn [acell]. destruct (Z.eqb_spec i 0) as [->|]; [cbn; ring|]. rewrite HCU by lia. cbn [n_mul n_ofZ NumR].
    replace (Z.to_nat i) with (S (Z.to_nat (i - 1))) by lia. unfold dcheb. rewrite S_INR, INR_IZR_INZ, Z2Nat.id by lia. rewrite <- plus_IZR. replace (i - 1 + 1) with i by lia. unfold atranspose. cbn [acell rev app]. ring.
  - cbn [bind]. exists B, D. auto.
Qed.
End B.

(** ** The gradient of a basis function *)
Lemma dfactor_derive (b : list Z) : forall (x : list R) d i, zlen b = d -> zlen x = d -> 0 <= i < d ->
  is_derive (fun s : R => basis b (replace_at x i s)) (nth (Z.to_nat i) x 0%R) (rprod (map (dfactor b x i) (zrange d))).
Proof.
  induction b as [|c b IH]; intros [|t x] d i Hb Hx Hi; rewrite ?zlen_cons, ?zlen_nil in *; try lia; pose proof (zlen_nonneg b).
  rewrite zrange_cons by lia. cbn [map rprod fold_right]. rewrite map_map. destruct (Z.eq_dec i 0) as [->|Hi0].
  - change (Z.to_nat 0) with O. cbn [nth]. apply (is_derive_ext (fun s : R => (cheb (Z.to_nat (c - 1)) s * basis b x)%R)); [intros; reflexivity|].
    replace (fold_right Rmult 1%R _) with (basis b x).
    + unfold dfactor at 1. cbn [Z.eqb]. change (Z.to_nat 0) with O. cbn [nth].
      apply (is_derive_ext (fun s : R => scal (basis b x) (cheb (Z.to_nat (c - 1)) s))); [intros; unfold scal; cbn; unfold mult; cbn; ring|].
      replace (dcheb (Z.to_nat (c - 1)) t * basis b x)%R with (scal (basis b x) (dcheb (Z.to_nat (c - 1)) t)) by (unfold scal; cbn; unfold mult; cbn; ring).
      apply @is_derive_scal. apply cheb_derive.
    + rewrite (basis_rprod (d - 1) b x) by lia. unfold rprod. f_equal. apply map_ext_in. intros k Hk. apply zrange_In in Hk. unfold dfactor. destruct (0 =? Z.succ k) eqn:E; [lia|].
      replace (Z.to_nat (Z.succ k)) with (S (Z.to_nat k)) by lia. reflexivity.
  - replace (Z.to_nat i) with (S (Z.to_nat (i - 1))) by lia. cbn [nth].
    apply (is_derive_ext (fun s : R => scal (cheb (Z.to_nat (c - 1)) t) (basis b (replace_at x (i - 1) s)))).
    { intros s. unfold replace_at. replace (Z.to_nat i) with (S (Z.to_nat (i - 1))) by lia. reflexivity. }
    unfold dfactor at 1. destruct (i =? 0) eqn:E; [lia|]. change (Z.to_nat 0) with O. cbn [nth].
    match goal with |- is_derive _ _ (?a * ?r)%R => replace (a * r)%R with (scal a (rprod (map (dfactor b x (i - 1)) (zrange (d - 1))))) end.
    + apply @is_derive_scal. apply IH; lia.
    + unfold scal. cbn. unfold mult. cbn. f_equal. unfold rprod. f_equal. apply map_ext_in. intros k Hk. apply zrange_In in Hk. unfold dfactor.
      replace (Z.to_nat (Z.succ k)) with (S (Z.to_nat k)) by lia. cbn [nth]. destruct (i - 1 =? k) eqn:E1; destruct (i =? Z.succ k) eqn:E2; try lia; reflexivity.
Qed.
