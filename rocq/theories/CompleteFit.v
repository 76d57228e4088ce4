(** Complete polynomials: the CompletePolynomial class (C33) and final forms of C29-C31. *)
From Coq Require Import ZArith List Bool Reals Lia Lra Psatz ZifyBool.
From Coquelicot Require Import Coquelicot.
From Verif Require Import Base BaseFacts RSum CompleteModel SpecComplete CompleteGeneric CompleteLoops CompleteProps.
Import ListNotations.
Open Scope Z_scope.

Lemma vec_entries_R n d j t (z : arr R) : 0 <= n -> nth_error (tuples n d) j = Some t ->
  pval (fun i => acell z [i]) t = monomial (vec_entries n z) (expo n t).
Proof.
  intros Hn Ht. rewrite pval_R. apply nth_error_In in Ht. apply tuples_In in Ht as [_ Ht]; auto.
  unfold vec_entries. apply tprod_monomial. intros i Hi. apply (nondec_in n t 0); auto; lia.
Qed.
Lemma col_entries_R n d j t (z : arr R) k : 0 <= n -> nth_error (tuples n d) j = Some t ->
  pval (fun i => acell z [i; k]) t = monomial (col_entries n z k) (expo n t).
Proof.
  intros Hn Ht. rewrite pval_R. apply nth_error_In in Ht. apply tuples_In in Ht as [_ Ht]; auto.
  unfold col_entries. apply (tprod_monomial (fun i => acell z [i; k])). intros i Hi. apply (nondec_in n t 0); auto; lia.
Qed.

Lemma complete_basis n d : 0 <= n -> 0 <= d <= 5 ->
  exists E : list (list nat),
    NoDup E /\ zlen E = n_complete n d /\ hd_error E = Some (repeat 0%nat (Z.to_nat n)) /\
    (forall e, In e E <-> length e = Z.to_nat n /\ (degree e <= Z.to_nat d)%nat) /\
    (forall z : arr R, ashape z = [n] -> exists out, complete_polynomial z d = Ok out /\ ashape out = [zlen E] /\
       forall r e, nth_error E r = Some e -> acell out [Z.of_nat r] = monomial (vec_entries n z) e) /\
    (forall (z : arr R) nobs, 0 <= nobs -> ashape z = [n; nobs] -> exists out, complete_polynomial z d = Ok out /\ ashape out = [zlen E; nobs] /\
       forall r e k, nth_error E r = Some e -> 0 <= k < nobs -> acell out [Z.of_nat r; k] = monomial (col_entries n z k) e).
Proof.
  intros Hn Hd. exists (basis n d). rewrite basis_length by lia. split; [now apply basis_NoDup|]. split; [reflexivity|].
  split; [apply basis_hd|]. split; [intros; now apply basis_In|]. split.
  - intros z S. destruct (cp_vec n d z) as (out & E & So & V); auto. exists out. repeat split; auto.
    intros r e He. unfold basis in He. rewrite nth_error_map in He. destruct (nth_error (tuples n (Z.to_nat d)) r) as [t|] eqn:Et; [|discriminate].
    injection He as <-. rewrite (V r t Et). eapply vec_entries_R; eauto.
  - intros z nobs Ho S. destruct (cp_mat n nobs d z) as (out & E & So & V); auto. exists out. repeat split; auto.
    intros r e k He Hk. unfold basis in He. rewrite nth_error_map in He. destruct (nth_error (tuples n (Z.to_nat d)) r) as [t|] eqn:Et; [|discriminate].
    injection He as <-. rewrite (V r t k Et Hk). eapply col_entries_R; eauto.
Qed.

Definition getok {A} (dflt : A) (r : res A) : A := match r with Ok a => a | Err _ => dflt end.

Lemma complete_der_vec n d der (Z_ : R -> arr R) : 0 <= d <= 5 -> 0 <= der < n ->
  (forall x, ashape (Z_ x) = [n]) -> (forall x, acell (Z_ x) [der] = x) ->
  (forall x y i, 0 <= i < n -> i <> der -> acell (Z_ x) [i] = acell (Z_ y) [i]) ->
  exists A D : R -> arr R,
    (forall x, complete_polynomial (Z_ x) d = Ok (A x) /\ complete_polynomial_der (Z_ x) d der = Ok (D x) /\
               ashape (A x) = [n_complete n d] /\ ashape (D x) = [n_complete n d]) /\
    forall r x, 0 <= r < n_complete n d -> derivable_pt_lim (fun x => acell (A x) [r]) x (acell (D x) [r]).
Proof.
  intros Hd Hder S Sd So. assert (Hn : 0 <= n) by lia.
  exists (fun x => getok (Z_ x) (complete_polynomial (Z_ x) d)), (fun x => getok (Z_ x) (complete_polynomial_der (Z_ x) d der)). split.
  - intros x. destruct (cp_vec n d (Z_ x)) as (A & EA & SA & VA); auto. destruct (cpd_vec n d der (Z_ x)) as (D & ED & SD & VD); auto.
    rewrite EA, ED. cbn. auto.
  - intros r x0 Hr. destruct (tuple_at n d r Hn ltac:(lia) Hr) as [t Ht]. rewrite <- (Z2Nat.id r) by lia.
    assert (HI : forall i, In i t -> 0 <= i < n).
    { apply nth_error_In in Ht. apply tuples_In in Ht as [_ Ht]; auto. apply (nondec_in n t 0); auto; lia. }
    destruct (cpd_vec n d der (Z_ x0)) as (D & ED & SD & VD); auto. rewrite ED. cbn [getok]. rewrite (VD _ _ Ht).
    apply is_derive_Reals. apply (is_derive_ext (fun x => pval (fun i => acell (Z_ x) [i]) t)).
    + intros x. destruct (cp_vec n d (Z_ x)) as (A & EA & SA & VA); auto. rewrite EA. cbn [getok]. now rewrite (VA _ _ Ht).
    + apply is_derive_Reals. apply (row_derive (fun x i => acell (Z_ x) [i])); auto.
Qed.
Lemma complete_der_mat n nobs d der k (Z_ : R -> arr R) : 0 <= d <= 5 -> 0 <= der < n -> 0 <= k < nobs ->
  (forall x, ashape (Z_ x) = [n; nobs]) -> (forall x, acell (Z_ x) [der; k] = x) ->
  (forall x y i, 0 <= i < n -> i <> der -> acell (Z_ x) [i; k] = acell (Z_ y) [i; k]) ->
  exists A D : R -> arr R,
    (forall x, complete_polynomial (Z_ x) d = Ok (A x) /\ complete_polynomial_der (Z_ x) d der = Ok (D x) /\
               ashape (A x) = [n_complete n d; nobs] /\ ashape (D x) = [n_complete n d; nobs]) /\
    forall r x, 0 <= r < n_complete n d -> derivable_pt_lim (fun x => acell (A x) [r; k]) x (acell (D x) [r; k]).
Proof.
  intros Hd Hder Hk S Sd So. assert (Hn : 0 <= n) by lia.
  exists (fun x => getok (Z_ x) (complete_polynomial (Z_ x) d)), (fun x => getok (Z_ x) (complete_polynomial_der (Z_ x) d der)). split.
  - intros x. destruct (cp_mat n nobs d (Z_ x)) as (A & EA & SA & VA); auto; [lia|]. destruct (cpd_mat n nobs d der (Z_ x)) as (D & ED & SD & VD); auto; [lia|].
    rewrite EA, ED. cbn. auto.
  - intros r x0 Hr. destruct (tuple_at n d r Hn ltac:(lia) Hr) as [t Ht]. rewrite <- (Z2Nat.id r) by lia.
    assert (HI : forall i, In i t -> 0 <= i < n).
    { apply nth_error_In in Ht. apply tuples_In in Ht as [_ Ht]; auto. apply (nondec_in n t 0); auto; lia. }
    destruct (cpd_mat n nobs d der (Z_ x0)) as (D & ED & SD & VD); auto; [lia|]. rewrite ED. cbn [getok]. rewrite (VD _ _ _ Ht Hk).
    apply is_derive_Reals. apply (is_derive_ext (fun x => pval (fun i => acell (Z_ x) [i; k]) t)).
    + intros x. destruct (cp_mat n nobs d (Z_ x)) as (A & EA & SA & VA); auto; [lia|]. rewrite EA. cbn [getok]. now rewrite (VA _ _ _ Ht Hk).
    + apply is_derive_Reals. apply (row_derive (fun x i => acell (Z_ x) [i; k])); auto.
Qed.

(** ** The class *)
Lemma asum_R n f : asum n f = zsum n f.
Proof.
  unfold asum. destruct (Z.le_gt_cases n 0) as [H|H]. { rewrite zrange_nil, zsum_0 by lia. reflexivity. }
  assert (G : forall k, 0 <= k -> fold_left (fun s i => (s + f i)%R) (zrange k) 0%R = zsum k f).
  { apply zsum_ind. - reflexivity. - intros k Hk IH. rewrite zrange_S, fold_left_app, IH, zsum_S by auto. reflexivity. }
  apply G. lia.
Qed.
Lemma zsum_derive (f df : R -> Z -> R) x : forall n, 0 <= n -> (forall r, 0 <= r < n -> is_derive (fun t => f t r) x (df x r)) ->
  is_derive (fun t => zsum n (f t)) x (zsum n (df x)).
Proof.
  apply (zsum_ind (fun n => (forall r, 0 <= r < n -> is_derive (fun t => f t r) x (df x r)) -> is_derive (fun t => zsum n (f t)) x (zsum n (df x)))).
  - intros _. rewrite zsum_0 by lia. apply (is_derive_ext (fun _ => 0%R)); [intros; now rewrite zsum_0 by lia|]. apply @is_derive_const.
  - intros n Hn IH H. rewrite zsum_S by auto. apply (is_derive_ext (fun t => (zsum n (f t) + f t n)%R)); [intros; now rewrite zsum_S|].
    apply @is_derive_plus; [apply IH; intros; apply H; lia|apply H; lia].
Qed.

Lemma adot_mat N m tl (A c : arr R) : outshape tl -> ashape A = [N; m] -> ashape c = m :: tl ->
  exists B, adot A c = Ok B /\ ashape B = N :: tl /\
    forall k tail, inb tl tail = true -> acell B (k :: tail) = zsum m (fun r => acell A [k; r] * acell c (r :: tail))%R.
Proof.
  intros [->|[q ->]] SA Sc; unfold adot; rewrite SA, Sc, Z.eqb_refl; eexists; (split; [reflexivity|]); (split; [reflexivity|]); intros k tail Ht.
  - destruct tail; [|discriminate]. cbn [acell app]. now rewrite asum_R.
  - destruct tail as [|j [|]]; cbn in Ht; try discriminate; [|lia]. cbn [acell nth]. now rewrite asum_R.
Qed.
Lemma adot_vec m tl (A c : arr R) : outshape tl -> ashape A = [m] -> ashape c = m :: tl ->
  exists B, adot A c = Ok B /\ ashape B = tl /\
    forall tail, inb tl tail = true -> acell B tail = zsum m (fun r => acell A [r] * acell c (r :: tail))%R.
Proof.
  intros [->|[q ->]] SA Sc; unfold adot; rewrite SA, Sc, Z.eqb_refl; eexists; (split; [reflexivity|]); (split; [reflexivity|]); intros tail Ht.
  - destruct tail; [|discriminate]. cbn [acell app]. now rewrite asum_R.
  - cbn [acell]. now rewrite asum_R.
Qed.

Definition tup (n d r : Z) : list Z := nth (Z.to_nat r) (tuples n (Z.to_nat d)) [].
Lemma tup_at n d r : 0 <= n -> 0 <= d -> 0 <= r < n_complete n d -> nth_error (tuples n (Z.to_nat d)) (Z.to_nat r) = Some (tup n d r).
Proof. intros Hn Hd Hr. destruct (tuple_at n d r Hn Hd Hr) as [t Ht]. rewrite Ht. f_equal. symmetry. now apply nth_error_nth. Qed.
Lemma tup_in n d r i : 0 <= n -> 0 <= d -> 0 <= r < n_complete n d -> In i (tup n d r) -> 0 <= i < n.
Proof.
  intros Hn Hd Hr Hi. pose proof (tup_at n d r Hn Hd Hr) as Ht. apply nth_error_In in Ht. apply tuples_In in Ht as [_ Ht]; auto.
  apply (nondec_in n (tup n d r) 0); auto; lia.
Qed.

Lemma design_mat n N d (s : arr R) : 0 <= n -> 0 <= N -> 0 <= d <= 5 -> ashape s = [N; n] ->
  exists P, complete_polynomial (atranspose s) d = Ok P /\ ashape (atranspose P) = [N; n_complete n d] /\
  forall k r, 0 <= k < N -> 0 <= r < n_complete n d -> acell (atranspose P) [k; r] = pval (fun i => acell s [k; i]) (tup n d r).
Proof.
  intros Hn HN Hd S. destruct (cp_mat n N d (atranspose s)) as (P & E & SP & V); auto. { cbn. now rewrite S. }
  exists P. split; auto. split; [cbn; now rewrite SP|]. intros k r Hk Hr. cbn [atranspose acell rev app].
  rewrite <- (Z2Nat.id r) at 1 by lia. rewrite (V _ _ k (tup_at n d r Hn ltac:(lia) Hr) Hk). reflexivity.
Qed.
Lemma design_vec n d (s : arr R) : 0 <= n -> 0 <= d <= 5 -> ashape s = [n] ->
  exists P, complete_polynomial (atranspose s) d = Ok P /\ ashape (atranspose P) = [n_complete n d] /\
  forall r, 0 <= r < n_complete n d -> acell (atranspose P) [r] = pval (fun i => acell s [i]) (tup n d r).
Proof.
  intros Hn Hd S. destruct (cp_vec n d (atranspose s)) as (P & E & SP & V); auto. { cbn. now rewrite S. }
  exists P. split; auto. split; [cbn; now rewrite SP|]. intros r Hr. cbn [atranspose acell rev app].
  rewrite <- (Z2Nat.id r) at 1 by lia. rewrite (V _ _ (tup_at n d r Hn ltac:(lia) Hr)). reflexivity.
Qed.
Lemma ddesign_mat n N d der (s : arr R) : 0 <= N -> 0 <= d <= 5 -> 0 <= der < n -> ashape s = [N; n] ->
  exists P, complete_polynomial_der (atranspose s) d der = Ok P /\ ashape (atranspose P) = [N; n_complete n d] /\
  forall k r, 0 <= k < N -> 0 <= r < n_complete n d -> acell (atranspose P) [k; r] = dval (fun i => acell s [k; i]) der (tup n d r).
Proof.
  intros HN Hd Hder S. assert (Hn : 0 <= n) by lia. destruct (cpd_mat n N d der (atranspose s)) as (P & E & SP & V); auto. { cbn. now rewrite S. }
  exists P. split; auto. split; [cbn; now rewrite SP|]. intros k r Hk Hr. cbn [atranspose acell rev app].
  rewrite <- (Z2Nat.id r) at 1 by lia. rewrite (V _ _ k (tup_at n d r Hn ltac:(lia) Hr) Hk). reflexivity.
Qed.
Lemma ddesign_vec n d der (s : arr R) : 0 <= d <= 5 -> 0 <= der < n -> ashape s = [n] ->
  exists P, complete_polynomial_der (atranspose s) d der = Ok P /\ ashape (atranspose P) = [n_complete n d] /\
  forall r, 0 <= r < n_complete n d -> acell (atranspose P) [r] = dval (fun i => acell s [i]) der (tup n d r).
Proof.
  intros Hd Hder S. assert (Hn : 0 <= n) by lia. destruct (cpd_vec n d der (atranspose s)) as (P & E & SP & V); auto. { cbn. now rewrite S. }
  exists P. split; auto. split; [cbn; now rewrite SP|]. intros r Hr. cbn [atranspose acell rev app].
  rewrite <- (Z2Nat.id r) at 1 by lia. rewrite (V _ _ (tup_at n d r Hn ltac:(lia) Hr)). reflexivity.
Qed.

Section Cls.
Variables (n : Z) (tl : list Z) (cp : cpoly R) (c : arr R).
Hypotheses (Hn : 0 <= n) (Hd : 0 <= cp_d cp <= 5) (Hc : cp_coefs cp = Some c) (Hs : ashape c = n_complete n (cp_d cp) :: tl) (Ht : outshape tl).
Let m := n_complete n (cp_d cp).

Lemma call_mat N (s : arr R) : 0 <= N -> ashape s = [N; n] -> exists A, cp_call cp s = Ok A /\ ashape A = N :: tl /\
  forall k tail, 0 <= k < N -> inb tl tail = true -> acell A (k :: tail) = zsum m (fun r => pval (fun i => acell s [k; i]) (tup n (cp_d cp) r) * acell c (r :: tail))%R.
Proof.
  intros HN S. destruct (design_mat n N (cp_d cp) s Hn HN Hd S) as (P & E & SP & V). unfold cp_call. rewrite E. cbn [bind]. rewrite Hc.
  destruct (adot_mat N m tl (atranspose P) c Ht SP Hs) as (B & EB & SB & VB). exists B. split; auto. split; auto.
  intros k tail Hk Hi. rewrite VB by auto. apply zsum_ext. intros r Hr. now rewrite V.
Qed.
Lemma call_vec (s : arr R) : ashape s = [n] -> exists A, cp_call cp s = Ok A /\ ashape A = tl /\
  forall tail, inb tl tail = true -> acell A tail = zsum m (fun r => pval (fun i => acell s [i]) (tup n (cp_d cp) r) * acell c (r :: tail))%R.
Proof.
  intros S. destruct (design_vec n (cp_d cp) s Hn Hd S) as (P & E & SP & V). unfold cp_call. rewrite E. cbn [bind]. rewrite Hc.
  destruct (adot_vec m tl (atranspose P) c Ht SP Hs) as (B & EB & SB & VB). exists B. split; auto. split; auto.
  intros tail Hi. rewrite VB by auto. apply zsum_ext. intros r Hr. now rewrite V.
Qed.
Variable der : Z.
Hypothesis Hder : 0 <= der < n.
Lemma der_mat N (s : arr R) : 0 <= N -> ashape s = [N; n] -> exists A, cp_der cp s der = Ok A /\ ashape A = N :: tl /\
  forall k tail, 0 <= k < N -> inb tl tail = true -> acell A (k :: tail) = zsum m (fun r => dval (fun i => acell s [k; i]) der (tup n (cp_d cp) r) * acell c (r :: tail))%R.
Proof.
  intros HN S. destruct (ddesign_mat n N (cp_d cp) der s HN Hd Hder S) as (P & E & SP & V). unfold cp_der. rewrite E. cbn [bind]. rewrite Hc.
  destruct (adot_mat N m tl (atranspose P) c Ht SP Hs) as (B & EB & SB & VB). exists B. split; auto. split; auto.
  intros k tail Hk Hi. rewrite VB by auto. apply zsum_ext. intros r Hr. now rewrite V.
Qed.
Lemma der_vec (s : arr R) : ashape s = [n] -> exists A, cp_der cp s der = Ok A /\ ashape A = tl /\
  forall tail, inb tl tail = true -> acell A tail = zsum m (fun r => dval (fun i => acell s [i]) der (tup n (cp_d cp) r) * acell c (r :: tail))%R.
Proof.
  intros S. destruct (ddesign_vec n (cp_d cp) der s Hd Hder S) as (P & E & SP & V). unfold cp_der. rewrite E. cbn [bind]. rewrite Hc.
  destruct (adot_vec m tl (atranspose P) c Ht SP Hs) as (B & EB & SB & VB). exists B. split; auto. split; auto.
  intros tail Hi. rewrite VB by auto. apply zsum_ext. intros r Hr. now rewrite V.
Qed.
Lemma m_pos : 0 <= m.
Proof. destruct (N_ge n (cp_d cp) Hn ltac:(lia)). unfold m. lia. Qed.

Lemma der_of_call_mat N k0 (S : R -> arr R) : 0 <= k0 < N -> (forall x, ashape (S x) = [N; n]) ->
  (forall x, acell (S x) [k0; der] = x) ->
  (forall x y i, 0 <= i < n -> i <> der -> acell (S x) [k0; i] = acell (S y) [k0; i]) ->
  exists A D : R -> arr R,
    (forall x, cp_call cp (S x) = Ok (A x) /\ cp_der cp (S x) der = Ok (D x) /\ ashape (A x) = N :: tl /\ ashape (D x) = N :: tl) /\
    forall tail x, inb tl tail = true -> derivable_pt_lim (fun x => acell (A x) (k0 :: tail)) x (acell (D x) (k0 :: tail)).
Proof.
  intros Hk SS Sd So. exists (fun x => getok c (cp_call cp (S x))), (fun x => getok c (cp_der cp (S x) der)). split.
  - intros x. destruct (call_mat N (S x)) as (A & EA & SA & _); auto; [lia|]. destruct (der_mat N (S x)) as (D & ED & SD & _); auto; [lia|].
    rewrite EA, ED. cbn. auto.
  - intros tail x Hi. destruct (der_mat N (S x)) as (D & ED & _ & VD); auto; [lia|]. rewrite ED. cbn [getok]. rewrite VD by auto.
    apply is_derive_Reals. apply (is_derive_ext (fun x => zsum m (fun r => pval (fun i => acell (S x) [k0; i]) (tup n (cp_d cp) r) * acell c (r :: tail))%R)).
    { intros y. destruct (call_mat N (S y)) as (A & EA & _ & VA); auto; [lia|]. rewrite EA. cbn [getok]. now rewrite VA. }
    apply (zsum_derive (fun x r => pval (fun i => acell (S x) [k0; i]) (tup n (cp_d cp) r) * acell c (r :: tail))%R
      (fun x r => dval (fun i => acell (S x) [k0; i]) der (tup n (cp_d cp) r) * acell c (r :: tail))%R); [apply m_pos|].
    intros r Hr. apply @is_derive_scal_l. apply is_derive_Reals.
    apply (row_derive (fun x i => acell (S x) [k0; i])); auto. intros y i Hne Hin. apply So; auto. apply (tup_in n (cp_d cp) r); auto; lia.
Qed.
Lemma der_of_call_vec (S : R -> arr R) : (forall x, ashape (S x) = [n]) ->
  (forall x, acell (S x) [der] = x) ->
  (forall x y i, 0 <= i < n -> i <> der -> acell (S x) [i] = acell (S y) [i]) ->
  exists A D : R -> arr R,
    (forall x, cp_call cp (S x) = Ok (A x) /\ cp_der cp (S x) der = Ok (D x) /\ ashape (A x) = tl /\ ashape (D x) = tl) /\
    forall tail x, inb tl tail = true -> derivable_pt_lim (fun x => acell (A x) tail) x (acell (D x) tail).
Proof.
  intros SS Sd So. exists (fun x => getok c (cp_call cp (S x))), (fun x => getok c (cp_der cp (S x) der)). split.
  - intros x. destruct (call_vec (S x)) as (A & EA & SA & _); auto. destruct (der_vec (S x)) as (D & ED & SD & _); auto.
    rewrite EA, ED. cbn. auto.
  - intros tail x Hi. destruct (der_vec (S x)) as (D & ED & _ & VD); auto. rewrite ED. cbn [getok]. rewrite VD by auto.
    apply is_derive_Reals. apply (is_derive_ext (fun x => zsum m (fun r => pval (fun i => acell (S x) [i]) (tup n (cp_d cp) r) * acell c (r :: tail))%R)).
    { intros y. destruct (call_vec (S y)) as (A & EA & _ & VA); auto. rewrite EA. cbn [getok]. now rewrite VA. }
    apply (zsum_derive (fun x r => pval (fun i => acell (S x) [i]) (tup n (cp_d cp) r) * acell c (r :: tail))%R
      (fun x r => dval (fun i => acell (S x) [i]) der (tup n (cp_d cp) r) * acell c (r :: tail))%R); [apply m_pos|].
    intros r Hr. apply @is_derive_scal_l. apply is_derive_Reals.
    apply (row_derive (fun x i => acell (S x) [i])); auto. intros y i Hne Hin. apply So; auto. apply (tup_in n (cp_d cp) r); auto; lia.
Qed.
End Cls.

(** ** Fitting *)
Lemma zsum_sq_zero n f : (zsum n (fun k => f k ^ 2) <= 0)%R -> forall k, 0 <= k < n -> f k = 0%R.
Proof.
  intros H k Hk. assert (G : (f k ^ 2 <= zsum n (fun k => f k ^ 2))%R).
  { assert (E : zsum n (fun j => if j =? k then f j ^ 2 else 0)%R = (f k ^ 2)%R).
    { rewrite (zsum_single n _ k); [now rewrite Z.eqb_refl|auto|]. intros i Hi Hne. destruct (Z.eqb_spec i k); [congruence|auto]. }
    rewrite <- E. apply zsum_le. intros i Hi. destruct (i =? k); [lra|apply pow2_ge_0]. }
  pose proof (pow2_ge_0 (f k)). assert (f k ^ 2 = 0)%R by lra. simpl in *. nra.
Qed.
Lemma least_squares_exact Phi x c c0 : least_squares Phi x c -> full_column_rank Phi ->
  (exists N m tl, ashape Phi = [N; m] /\ ashape x = N :: tl /\ ashape c0 = m :: tl /\
     forall k tail, 0 <= k < N -> inb tl tail = true -> acell x (k :: tail) = zsum m (fun r => acell Phi [k; r] * acell c0 (r :: tail))%R) ->
  aeq c c0.
Proof.
  intros (N & m & tl & SP & Sx & Sc & L) (N' & m' & SP' & FR) (N2 & m2 & tl2 & SP2 & Sx2 & Sc2 & D).
  assert (N' = N /\ m' = m) as [-> ->] by (split; congruence). assert (N2 = N /\ m2 = m /\ tl2 = tl) as (-> & -> & ->) by (repeat split; congruence).
  split; [congruence|]. intros idx Hidx. rewrite Sc in Hidx. destruct idx as [|r tail]; [discriminate|]. cbn in Hidx.
  assert (Hr : 0 <= r < m) by lia. assert (Hi : inb tl tail = true) by (destruct (inb tl tail); auto; rewrite andb_false_r in Hidx; discriminate).
  apply Rminus_diag_uniq. apply (FR (fun r => acell c (r :: tail) - acell c0 (r :: tail))%R); auto.
  assert (Z0 : forall k, 0 <= k < N -> (zsum m (fun r => acell Phi [k; r] * acell c (r :: tail)) - acell x (k :: tail))%R = 0%R).
  { apply (zsum_sq_zero N (fun k => (zsum m (fun r => acell Phi [k; r] * acell c (r :: tail)) - acell x (k :: tail))%R)).
    eapply Rle_trans; [apply (L tail Hi (fun r => acell c0 (r :: tail)))|]. unfold residual2.
    right. apply zsum_zero. intros k Hk. rewrite D by auto. rewrite Rminus_diag_eq by reflexivity. simpl. ring. }
  intros k Hk. specialize (Z0 k Hk). rewrite D in Z0 by auto. rewrite <- zsum_minus in Z0. rewrite <- Z0. apply zsum_ext. intros. ring.
Qed.

Lemma fit_step lstsq n d tl c0 (cp : cpoly R) s x damp : 0 <= n -> 0 <= d <= 5 -> outshape tl -> ashape c0 = n_complete n d :: tl ->
  cp_d cp = d -> good_fit lstsq n d tl c0 s x ->
  (damp = 0%R \/ exists c, cp_coefs cp = Some c /\ aeq c c0) ->
  exists cp' c, cp_fit lstsq cp s x damp = (cp', Ok tt) /\ cp_d cp' = d /\ cp_coefs cp' = Some c /\ aeq c c0.
Proof.
  intros Hn Hd Ht Sc0 Hcd (N & P & y & HN & Ss & Sx & Ey & Hxy & EP & FR & c & El & LS) Hdamp.
  destruct (call_mat n tl (mkCP n d None (Some c0)) c0 Hn Hd eq_refl Sc0 Ht N s HN Ss) as (y' & Ey' & Sy & Vy).
  rewrite Ey in Ey'. injection Ey' as <-. cbn [cp_d] in Vy.
  destruct (design_mat n N d s Hn HN Hd Ss) as (P' & EP' & SP & VP). rewrite EP in EP'. injection EP' as <-.
  assert (AE : aeq c c0).
  { apply (least_squares_exact _ _ _ _ LS FR). exists N, (n_complete n d), tl. split; auto. split; auto. split; auto.
    intros k tail Hk Hi. rewrite Hxy, Vy by auto. apply zsum_ext. intros r Hr. now rewrite VP. }
  unfold cp_fit. rewrite Hcd, EP, El. cbn [cp_d cp_n cp_coefs].
  destruct (n_is0 damp) eqn:Ed.
  - eexists. exists c. split; [reflexivity|]. auto.
  - destruct Hdamp as [->|(c1 & E1 & A1)].
    { cbn in Ed. unfold Reqb0 in Ed. destruct (Raux.Req_bool_spec 0 0); [discriminate|congruence]. }
    rewrite E1. destruct (list_eq_dec Z.eq_dec (ashape c) (ashape c1)) as [Es|Es].
    2:{ destruct AE as [Q1 _], A1 as [Q2 _]. congruence. }
    eexists. eexists. split; [reflexivity|]. split; auto. split; [reflexivity|].
    destruct AE as [Q1 Q2], A1 as [Q3 Q4]. split; [exact Q1|]. cbn [ashape acell]. intros idx Hi.
    rewrite Q2 by auto. rewrite Q4 by congruence. cbn. ring.
Qed.

Lemma fit_history lstsq n d tl c0 s x fits : 0 <= n -> 0 <= d <= 5 -> outshape tl -> ashape c0 = n_complete n d :: tl ->
  good_fit lstsq n d tl c0 s x -> List.Forall (fun f => let '(s, x, _) := f in good_fit lstsq n d tl c0 s x) fits ->
  exists c, cp_coefs (run_fits lstsq (cp_new n d) ((s, x, 0%R) :: fits)) = Some c /\ aeq c c0.
Proof.
  intros Hn Hd Ht Sc G0 GF.
  destruct (fit_step lstsq n d tl c0 (cp_new n d) s x 0%R Hn Hd Ht Sc eq_refl G0 (or_introl eq_refl)) as (cp1 & c1 & E1 & D1 & C1 & A1).
  unfold run_fits. cbn [fold_left]. rewrite E1. cbn [fst].
  clear E1 G0. revert cp1 c1 D1 C1 A1. induction GF as [|[[s' x'] dp] fits G GF IH]; intros cp1 c1 D1 C1 A1; cbn [fold_left]; [eauto|].
  destruct (fit_step lstsq n d tl c0 cp1 s' x' dp Hn Hd Ht Sc D1 G) as (cp2 & c2 & E2 & D2 & C2 & A2); eauto.
  rewrite E2. cbn [fst]. eapply IH; eauto.
Qed.
(** Evaluation depends on the coefficients only through their cells. *)
Lemma call_aeq n tl (cp cp' : cpoly R) c c' N s : 0 <= n -> 0 <= cp_d cp <= 5 -> cp_d cp' = cp_d cp ->
  cp_coefs cp = Some c -> cp_coefs cp' = Some c' -> aeq c c' -> ashape c = n_complete n (cp_d cp) :: tl -> outshape tl -> 0 <= N -> ashape s = [N; n] ->
  exists A A', cp_call cp s = Ok A /\ cp_call cp' s = Ok A' /\ aeq A A'.
Proof.
  intros Hn Hd Hdd C C' [Q1 Q2] Sc Ht HN Ss.
  destruct (call_mat n tl cp c Hn Hd C Sc Ht N s HN Ss) as (A & EA & SA & VA).
  destruct (call_mat n tl cp' c' Hn ltac:(lia) C' ltac:(rewrite Hdd; congruence) Ht N s HN Ss) as (A' & EA' & SA' & VA').
  exists A, A'. split; auto. split; auto. split; [congruence|]. rewrite SA. intros [|k tail] Hi; [discriminate|]. cbn in Hi.
  assert (Hi2 : inb tl tail = true) by (destruct (inb tl tail); auto; rewrite andb_false_r in Hi; discriminate).
  rewrite VA, VA' by (auto; lia). rewrite Hdd. apply zsum_ext. intros r Hr. rewrite Q2; auto. rewrite Sc. cbn. rewrite Hi2. lia.
Qed.
Lemma outshape_1 q : outshape [q].
Proof. right. eauto. Qed.

(** The damped update, in any arithmetic. *)
Lemma damped_update {T} {NT : Num T} lstsq (cp : cpoly T) s x damp P new old :
  complete_polynomial (atranspose s) (cp_d cp) = Ok P -> lstsq (atranspose P) x = Ok new ->
  (n_is0 damp = true -> cp_coefs (fst (cp_fit lstsq cp s x damp)) = Some new /\ snd (cp_fit lstsq cp s x damp) = Ok tt) /\
  (n_is0 damp = false -> cp_coefs cp = Some old -> ashape new = ashape old ->
     snd (cp_fit lstsq cp s x damp) = Ok tt /\
     exists c, cp_coefs (fst (cp_fit lstsq cp s x damp)) = Some c /\ ashape c = ashape new /\
     forall idx, acell c idx = (n_ofZ 1 -! damp) *! acell new idx +! damp *! acell old idx) /\
  (n_is0 damp = false -> cp_coefs cp = None ->
     snd (cp_fit lstsq cp s x damp) = Err NameErr /\ cp_coefs (fst (cp_fit lstsq cp s x damp)) = None).
Proof.
  intros EP El. unfold cp_fit. rewrite EP, El. cbn [cp_d cp_n cp_coefs]. split; [|split].
  - intros ->. auto.
  - intros -> -> Es. destruct (list_eq_dec _ _ _) as [_|Q]; [|congruence]. cbn. split; auto. eexists. split; [reflexivity|]. auto.
  - intros -> Hc. rewrite Hc. auto.
Qed.
Lemma degree_rejected {T} {NT : Num T} (z : arr T) d :
  (d < 0 -> complete_polynomial z d = Err AssertErr) /\ (5 < d -> complete_polynomial z d = Err ValueErr).
Proof.
  unfold complete_polynomial. split; intros H.
  - destruct (Z.leb_spec 0 d); [lia|reflexivity].
  - destruct (Z.leb_spec 0 d); [|lia]. destruct (Z.ltb_spec 5 d); [reflexivity|lia].
Qed.
