(** Complete polynomials: what the loops write, in any arithmetic. *)
From Coq Require Import ZArith List Bool Lia ZifyBool.
From Verif Require Import Base BaseFacts CompleteModel SpecComplete CompleteGeneric.
Import ListNotations.
Open Scope Z_scope.
Open Scope num_scope.

Lemma foldM_flat_map {S A B} (f : S -> B -> res S) (g : A -> list B) l s :
  foldM f (flat_map g l) s = foldM (fun s a => foldM f (g a) s) l s.
Proof.
  revert s; induction l; cbn; intros; auto. rewrite foldM_app. apply bind_ext. intros; apply IHl.
Qed.
Lemma bind_ret {A} (r : res A) : bind r (fun a => Ok a) = r.
Proof. now destruct r. Qed.
Lemma bind_cong {A B} (r1 r2 : res A) (f g : A -> res B) : r1 = r2 -> (forall a, f a = g a) -> bind r1 f = bind r2 g.
Proof. intros -> H. destruct r2; cbn; auto. Qed.
Lemma for_ext {S} lo hi (b1 b2 : Z -> S -> res S) s :
  (forall i s, lo <= i < hi -> b1 i s = b2 i s) -> for_ lo hi b1 s = for_ lo hi b2 s.
Proof. intros H. apply foldM_ext. intros s' i Hi. apply H. now apply zrange2_In. Qed.

Section Loops.
Context {T : Type} {NT : Num T}.
Notation cst := (@cstate T).

Section Nest.
Variable W : list Z -> cst -> res cst.
Let F := fun s t => W t s.
Lemma ext_for n k p lo s : foldM F (ext n (S k) p lo) s =
  for_ lo n (fun i s => s <- W (p ++ [i]) s ;; foldM F (ext n k (p ++ [i]) i) s) s.
Proof. cbn [ext]. rewrite foldM_flat_map. reflexivity. Qed.
Lemma high_for n d s : foldM F (high n d) s = for_ 0 n (fun i s => foldM F (ext n (pred d) [i] i) s) s.
Proof. unfold high. now rewrite foldM_flat_map. Qed.

Lemma high2 n s : foldM F (high n 2) s = for_ 0 n (fun i1 s => for_ i1 n (fun i2 s => W [i1; i2] s) s) s.
Proof.
  rewrite high_for. apply for_ext; intros i1 s1 H1. cbn [pred]. rewrite ext_for. apply for_ext; intros i2 s2 H2. apply bind_ret.
Qed.
Lemma high3 n s : foldM F (high n 3) s = for_ 0 n (fun i1 s => for_ i1 n (fun i2 s =>
  s <- W [i1; i2] s ;; for_ i2 n (fun i3 s => W [i1; i2; i3] s) s) s) s.
Proof.
  rewrite high_for. apply for_ext; intros i1 s1 H1. cbn [pred]. rewrite ext_for. apply for_ext; intros i2 s2 H2.
  apply bind_ext; intros s3 E3. rewrite ext_for. apply for_ext; intros. apply bind_ret.
Qed.
Lemma high4 n s : foldM F (high n 4) s = for_ 0 n (fun i1 s => for_ i1 n (fun i2 s =>
  s <- W [i1; i2] s ;; for_ i2 n (fun i3 s => s <- W [i1; i2; i3] s ;; for_ i3 n (fun i4 s => W [i1; i2; i3; i4] s) s) s) s) s.
Proof.
  rewrite high_for. apply for_ext; intros i1 s1 H1. cbn [pred]. rewrite ext_for. apply for_ext; intros i2 s2 H2.
  apply bind_ext; intros s3 E3. rewrite ext_for. apply for_ext; intros. 
  apply bind_ext; intros. rewrite ext_for. apply for_ext; intros. apply bind_ret.
Qed.
Lemma high5 n s : foldM F (high n 5) s = for_ 0 n (fun i1 s => for_ i1 n (fun i2 s =>
  s <- W [i1; i2] s ;; for_ i2 n (fun i3 s => s <- W [i1; i2; i3] s ;; for_ i3 n (fun i4 s => s <- W [i1; i2; i3; i4] s ;;
    for_ i4 n (fun i5 s => W [i1; i2; i3; i4; i5] s) s) s) s) s) s.
Proof.
  rewrite high_for. apply for_ext; intros i1 s1 H1. cbn [pred]. rewrite ext_for. apply for_ext; intros i2 s2 H2.
  apply bind_ext; intros s3 E3. rewrite ext_for. apply for_ext; intros. 
  apply bind_ext; intros. rewrite ext_for. apply for_ext; intros.
  apply bind_ext; intros. rewrite ext_for. apply for_ext; intros. apply bind_ret.
Qed.
End Nest.

(** ** Writing a row *)
Definition rowspec (N : Z) (st : list Z) (act : arr T -> res (arr T)) (r : Z) (pv : list Z -> T) : Prop :=
  forall out, ashape out = N :: st -> exists out', act out = Ok out' /\ ashape out' = N :: st /\
    (forall tail, inb st tail = true -> acell out' (r :: tail) = pv tail) /\
    (forall r' tail, r' <> r -> acell out' (r' :: tail) = acell out (r' :: tail)).

Lemma rowspec_vec N r (w : T) : 0 <= r < N -> rowspec N [] (fun out => aset out [r] w) r (fun _ => w).
Proof.
  intros Hr out S. exists (upd out [r] w). rewrite aset_ok by (rewrite S; cbn; lia). split; auto. split; auto. split.
  - intros [|]; [intros _; apply upd_same|discriminate].
  - intros r' tail Hne. apply upd_other. congruence.
Qed.
Lemma rowspec_row N nobs r (v : Z -> res T) (w : Z -> T) : 0 <= r < N -> 0 <= nobs -> (forall k, 0 <= k < nobs -> v k = Ok (w k)) ->
  rowspec N [nobs] (for_ 0 nobs (fun k out => x <- v k ;; aset out [r; k] x)) r (fun tail => w (hd 0 tail)).
Proof.
  intros Hr Hn Hv out S.
  destruct (foldM_zrange2 (fun out k => x <- v k ;; aset out [r; k] x)
    (fun k out' => ashape out' = [N; nobs] /\ (forall j, 0 <= j < k -> acell out' [r; j] = w j) /\
       (forall r' tail, r' <> r -> acell out' (r' :: tail) = acell out (r' :: tail))) 0 nobs out) as (out' & E & S' & V & O).
  - lia.
  - split; auto. split; auto. intros; lia.
  - intros k o Hk (So & Vo & Oo). rewrite Hv by lia. cbn [bind]. rewrite aset_ok by (rewrite So; cbn; lia).
    eexists. split; [reflexivity|]. split; auto. split.
    + intros j Hj. destruct (Z.eq_dec j k) as [->|Hne]; [apply upd_same|]. rewrite upd_other by congruence. apply Vo. lia.
    + intros r' tail Hne. rewrite upd_other by congruence. now apply Oo.
  - exists out'. split; [exact E|]. split; auto. split; auto.
    intros tail Ht. destruct tail as [|k [|]]; cbn in Ht; [discriminate| |lia]. cbn [hd]. apply V. lia.
Qed.
Lemma rowspec_ext N st act1 act2 r pv : (forall out, act1 out = act2 out) -> rowspec N st act1 r pv -> rowspec N st act2 r pv.
Proof. intros H R out S. destruct (R out S) as (o & E & Q). exists o. rewrite <- H. auto. Qed.

(** Writing rows lo+c .. hi+c-1. *)
Lemma for_rows N st (act : Z -> arr T -> res (arr T)) (pv : Z -> list Z -> T) lo hi c out :
  lo <= hi -> (forall i, lo <= i < hi -> rowspec N st (act i) (i + c) (pv i)) -> ashape out = N :: st ->
  exists out', for_ lo hi act out = Ok out' /\ ashape out' = N :: st /\
    (forall i tail, lo <= i < hi -> inb st tail = true -> acell out' (i + c :: tail) = pv i tail) /\
    (forall r tail, r < lo + c \/ hi + c <= r -> acell out' (r :: tail) = acell out (r :: tail)).
Proof.
  intros Hlh HA S. unfold for_.
  destruct (foldM_zrange2 (fun out i => act i out)
    (fun k o => ashape o = N :: st /\ (forall i tail, lo <= i < k -> inb st tail = true -> acell o (i + c :: tail) = pv i tail) /\
       (forall r tail, r < lo + c \/ hi + c <= r -> acell o (r :: tail) = acell out (r :: tail))) lo hi out) as (out' & E & H).
  - auto.
  - split; auto. split; auto. intros; lia.
  - intros i o Hi (So & Vo & Oo). destruct (HA i Hi o So) as (o' & E' & S' & V' & O'). exists o'. split; auto. split; auto. split.
    + intros j tail Hj Ht. destruct (Z.eq_dec j i) as [->|Hne]; [now apply V'|]. rewrite O' by lia. apply Vo; auto; lia.
    + intros r tail Hr. rewrite O' by lia. now apply Oo.
  - exists out'. auto.
Qed.

(** Writing one row per tuple, from row ix+1. *)
Definition writes (N : Z) (st : list Z) (W : list Z -> cst -> res cst) (pv : list Z -> list Z -> T) (t : list Z) : Prop :=
  forall out ix, ashape out = N :: st -> 0 <= ix + 1 < N ->
    exists out', W t (out, ix) = Ok (out', ix + 1) /\ ashape out' = N :: st /\
    (forall tail, inb st tail = true -> acell out' (ix + 1 :: tail) = pv tail t) /\
    (forall r tail, r <> ix + 1 -> acell out' (r :: tail) = acell out (r :: tail)).
Lemma fold_writes N st W pv : forall L out ix, (forall t, In t L -> writes N st W pv t) ->
  ashape out = N :: st -> 0 <= ix + 1 -> ix + 1 + zlen L <= N ->
  exists out', foldM (fun s t => W t s) L (out, ix) = Ok (out', ix + zlen L) /\ ashape out' = N :: st /\
    (forall j t tail, nth_error L j = Some t -> inb st tail = true -> acell out' (ix + 1 + Z.of_nat j :: tail) = pv tail t) /\
    (forall r tail, r < ix + 1 \/ ix + 1 + zlen L <= r -> acell out' (r :: tail) = acell out (r :: tail)).
Proof.
  induction L as [|t L IH]; intros out ix HW S H0 HN.
  - exists out. change (zlen (@nil (list Z))) with 0. rewrite Z.add_0_r. cbn. repeat split; auto. intros [|]; discriminate.
  - assert (EL : zlen (t :: L) = zlen L + 1) by (unfold zlen; cbn; lia). rewrite EL in *. pose proof (zlen_nonneg L).
    destruct (HW t (or_introl eq_refl) out ix S ltac:(lia)) as (o & E & So & Vo & Oo).
    destruct (IH o (ix + 1) (fun t' H => HW t' (or_intror H)) So ltac:(lia) ltac:(lia)) as (o' & E' & S' & V' & O').
    exists o'. cbn [foldM]. rewrite E. cbn [bind]. rewrite E'. split; [do 2 f_equal; lia|]. split; auto. split.
    + intros [|j] t' tail Ht Hi; cbn in Ht.
      * injection Ht as <-. rewrite O' by lia. rewrite Z.add_0_r. now apply Vo.
      * replace (ix + 1 + Z.of_nat (Datatypes.S j)) with (ix + 1 + 1 + Z.of_nat j) by lia. now apply V'.
    + intros r tail Hr. rewrite O' by lia. apply Oo. lia.
Qed.
Lemma put_writes N (pv : list Z -> T) t : writes N [] (fun t s => put (Ok (pv t)) s) (fun _ => pv) t.
Proof.
  intros out ix S Hix. destruct (rowspec_vec N (ix + 1) (pv t) Hix out S) as (o & E & H). exists o. split; auto.
  unfold put. cbn [bind]. now rewrite E.
Qed.
Lemma put_row_writes N nobs (pv : Z -> list Z -> T) t : 0 <= nobs ->
  writes N [nobs] (fun t s => put_row nobs (fun k => Ok (pv k t)) s) (fun tail => pv (hd 0 tail)) t.
Proof.
  intros Hn out ix S Hix. destruct (rowspec_row N nobs (ix + 1) (fun k => Ok (pv k t)) (fun k => pv k t) Hix Hn ltac:(auto) out S) as (o & E & H).
  exists o. split; auto. unfold put_row. now rewrite E.
Qed.
Lemma put_row_ext nobs v1 v2 (s : cst) : (forall k, 0 <= k < nobs -> v1 k = v2 k) -> put_row nobs v1 s = put_row nobs v2 s.
Proof.
  intros H. destruct s as [out ix]. unfold put_row. f_equal. apply for_ext. intros k o Hk. now rewrite H.
Qed.

(** The first order rows 1..n. *)
Definition linspec (n N : Z) (st : list Z) (A1 : arr T -> res (arr T)) (pv : list Z -> Z -> T) : Prop :=
  forall out, ashape out = N :: st -> exists out', A1 out = Ok out' /\ ashape out' = N :: st /\
    (forall i tail, 0 <= i < n -> inb st tail = true -> acell out' (i + 1 :: tail) = pv tail i) /\
    (forall r tail, r < 1 \/ n + 1 <= r -> acell out' (r :: tail) = acell out (r :: tail)).

(** ** Putting the pieces together: rows 0, 1..n and the rest. *)
Lemma assemble (n : Z) (d : Z) (st : list Z) (A0 : arr T -> res (arr T)) (A1 : arr T -> res (arr T))
  (W : list Z -> cst -> res cst) (pv : list Z -> list Z -> T) out :
  0 <= n -> 0 <= d ->
  ashape out = n_complete n d :: st ->
  rowspec (n_complete n d) st A0 0 (fun tail => pv tail []) ->
  (1 <= d -> linspec n (n_complete n d) st A1 (fun tail i => pv tail [i])) ->
  (forall t, In t (high n (Z.to_nat d)) -> writes (n_complete n d) st W pv t) ->
  exists out',
    (o <- A0 out ;; o <- (if 1 <=? d then A1 o else Ok o) ;;
     if d <=? 1 then Ok o else out_of (foldM (fun s t => W t s) (high n (Z.to_nat d)) (o, n))) = Ok out' /\
    ashape out' = n_complete n d :: st /\
    forall j t tail, nth_error (tuples n (Z.to_nat d)) j = Some t -> inb st tail = true -> acell out' (Z.of_nat j :: tail) = pv tail t.
Proof.
  intros Hn Hd S H0 H1 HW. destruct (H0 out S) as (o & E0 & S0 & V0 & O0). rewrite E0. cbn [bind].
  pose proof (tuples_length n d Hn Hd) as HL.
  destruct (Z.leb_spec 1 d) as [Hd1|Hd1].
  2:{ cbn [bind]. destruct (Z.leb_spec d 1); [|lia]. exists o. split; auto. split; auto. assert (d = 0) by lia. subst d.
      intros [|[|j]] t tail Ht Hi; cbn in Ht; try discriminate. injection Ht as <-. now apply V0. }
  destruct (H1 Hd1 o S0) as (o1 & E1 & S1 & V1 & O1).
  rewrite E1. cbn [bind]. destruct (Z.to_nat d) as [|m] eqn:Em; [lia|].
  assert (HL2 : zlen (high n (Datatypes.S m)) = n_complete n d - 1 - n).
  { unfold tuples in HL. unfold zlen in *. cbn [length] in HL. rewrite app_length, map_length, zrange_length in HL. lia. }
  pose proof (zlen_nonneg (high n (Datatypes.S m))) as HL3.
  assert (HT : forall o2, (forall r tail, r < n + 1 -> acell o2 (r :: tail) = acell o1 (r :: tail)) ->
    (forall j t tail, nth_error (high n (Datatypes.S m)) j = Some t -> inb st tail = true -> acell o2 (n + 1 + Z.of_nat j :: tail) = pv tail t) ->
    forall j t tail, nth_error (tuples n (Datatypes.S m)) j = Some t -> inb st tail = true -> acell o2 (Z.of_nat j :: tail) = pv tail t).
  { intros o2 P Q j t tail Ht Hi. unfold tuples in Ht. destruct j as [|j].
    - cbn in Ht. injection Ht as <-. change (Z.of_nat 0) with 0. rewrite P by lia. rewrite O1 by lia. now apply V0.
    - cbn [nth_error] in Ht. destruct (Nat.lt_ge_cases j (Z.to_nat n)) as [Hj|Hj].
      + rewrite nth_error_app1 in Ht by (rewrite map_length, zrange_length; lia).
        rewrite nth_error_map in Ht. destruct (nth_error (zrange n) j) as [i|] eqn:Ei; [|discriminate]. injection Ht as <-.
        assert (i = Z.of_nat j). { apply nth_error_nth with (d := 0) in Ei. rewrite <- (Nat2Z.id j) in Ei. rewrite zrange_nth in Ei by lia. auto. }
        subst i. rewrite P by lia. replace (Z.of_nat (Datatypes.S j)) with (Z.of_nat j + 1) by lia. apply V1; auto; lia.
      + rewrite nth_error_app2 in Ht by (rewrite map_length, zrange_length; lia). rewrite map_length, zrange_length in Ht.
        replace (Z.of_nat (Datatypes.S j)) with (n + 1 + Z.of_nat (j - Z.to_nat n)) by lia. now apply Q. }
  destruct (Z.leb_spec d 1) as [Hd2|Hd2].
  - exists o1. split; auto. split; auto. apply HT; auto.
    assert (m = 0%nat) by lia. subst m. unfold high. cbn [pred ext]. intros j t tail Ht.
    assert (N : flat_map (fun _ : Z => @nil (list Z)) (zrange2 0 n) = []) by (induction (zrange2 0 n); auto).
    rewrite N in Ht. destruct j; discriminate.
  - destruct (fold_writes (n_complete n d) st W pv (high n (Datatypes.S m)) o1 n HW S1 ltac:(lia) ltac:(lia)) as (o2 & E2 & S2 & V2 & O2).
    exists o2. rewrite E2. cbn. split; auto. 
Qed.

(** Members of [high] are tuples of at least two indices. *)
Lemma high_In n d t : In t (high n d) -> exists i j q, t = i :: j :: q /\ nondec n 0 t.
Proof.
  unfold high. rewrite in_flat_map. intros (i & Hi & H). apply zrange2_In in Hi. apply ext_In in H as (q & -> & Hl & Hq).
  destruct q as [|j q]; [cbn in Hl; lia|]. exists i, j, q. cbn [app]. split; auto. cbn in *. intuition lia.
Qed.

(** ** Values *)
Definition pval (f : Z -> T) (t : list Z) : T :=
  match t with [] => n_ofZ 1 | i :: r => fold_left (fun a j => a *! f j) r (f i) end.

Fixpoint dcount (der : Z) (t : list Z) (c : Z) : Z :=
  match t with [] => c | i :: r => dcount der r (if i =? der then c + 1 else c) end.
Definition dval (f : Z -> T) (der : Z) (t : list Z) : T :=
  match t with
  | [] => n_ofZ 0
  | [i] => if i =? der then n_ofZ 1 else n_ofZ 0
  | _ => let c := dcount der t 0 in
         if 0 <? c then fold_left (fun a i => a *! (if i =? der then n_ofZ 1 else f i)) t (n_ofZ c) *! npow (f der) (c - 1)
         else n_ofZ 0
  end.

Lemma degs (d : Z) : 0 <= d -> d <= 5 -> d = 0 \/ d = 1 \/ d = 2 \/ d = 3 \/ d = 4 \/ d = 5.
Proof. lia. Qed.

Ltac get z S := repeat (rewrite (aget_ok z) by (rewrite S; cbn; lia); cbn [bind]).

Lemma N_ge n d : 0 <= n -> 0 <= d -> 0 < n_complete n d /\ (1 <= d -> n + 1 <= n_complete n d).
Proof.
  intros Hn Hd. pose proof (tuples_length n d Hn Hd) as HL. rewrite <- HL. destruct (tuples_hd n (Z.to_nat d)) as [tt0 Ett]. split.
  - rewrite Ett. unfold zlen. cbn. lia.
  - intros Hd1. destruct (Z.to_nat d) eqn:Ed; [lia|]. unfold tuples, zlen. cbn [length]. rewrite app_length, map_length, zrange_length. lia.
Qed.

Section Vec.
Variables (n d : Z) (z out : arr T).
Hypotheses (Hn : 0 <= n) (Hd : 0 <= d) (Hd5 : d <= 5) (Sz : ashape z = [n]) (So : ashape out = [n_complete n d]).
Let f := fun i => acell z [i].

Lemma impl_vec_spec : exists out', complete_poly_impl_vec z d out = Ok out' /\ ashape out' = [n_complete n d] /\
  forall j t, nth_error (tuples n (Z.to_nat d)) j = Some t -> acell out' [Z.of_nat j] = pval f t.
Proof.
  destruct (N_ge n d Hn Hd) as [HN0 HN1]. set (pv := pval f).
  destruct (assemble n d [] (fun out => aset out [0] (n_ofZ 1))
    (fun out => for_ 1 (n + 1) (fun i out => v <- aget z [i - 1] ;; aset out [i] v) out)
    (fun t s => put (Ok (pv t)) s) (fun _ => pv) out Hn Hd So) as (o & E & S & V).
  - apply (rowspec_vec _ 0 (n_ofZ 1)). lia.
  - intros Hd1 o S. specialize (HN1 Hd1).
    destruct (for_rows (n_complete n d) [] (fun i out => v <- aget z [i - 1] ;; aset out [i] v) (fun i _ => f (i - 1)) 1 (n + 1) 0 o) as (o1 & E1 & S1 & V1 & O1); auto.
    { lia. }
    { intros i Hi. rewrite Z.add_0_r. eapply rowspec_ext; [|apply (rowspec_vec _ i (f (i - 1))); lia]. intros o'. get z Sz. reflexivity. }
    exists o1. split; auto. split; auto. split.
    + intros i tail Hi Ht. rewrite <- (Z.add_0_r (i + 1)). rewrite V1 by (auto; lia). cbn. f_equal. lia.
    + intros r tail Hr. apply O1. lia.
  - intros t _. apply put_writes.
  - exists o. split; [|split; [auto|]].
    + rewrite <- E. unfold complete_poly_impl_vec. unfold adim. rewrite Sz. cbn [lget Z.to_nat nth_error bind Z.ltb Z.compare].
      apply bind_ext; intros o0 _. apply bind_ext; intros o1 _.
      destruct (degs d Hd Hd5) as [->|[->|[->|[->|[->| ->]]]]]; cbn [Z.eqb Pos.eqb Z.leb Z.compare Pos.compare Pos.compare_cont]; try reflexivity;
        unfold out_of; f_equal.
      * change (Z.to_nat 2) with 2%nat. rewrite high2. repeat (apply for_ext; intros). get z Sz. reflexivity.
      * change (Z.to_nat 3) with 3%nat. rewrite high3. repeat (apply for_ext; intros). get z Sz. apply bind_ext; intros.
        apply for_ext; intros. get z Sz. reflexivity.
      * change (Z.to_nat 4) with 4%nat. rewrite high4. repeat (apply for_ext; intros). get z Sz. apply bind_ext; intros.
        apply for_ext; intros. get z Sz. apply bind_ext; intros. apply for_ext; intros. get z Sz. reflexivity.
      * change (Z.to_nat 5) with 5%nat. rewrite high5. repeat (apply for_ext; intros). get z Sz. apply bind_ext; intros.
        apply for_ext; intros. get z Sz. apply bind_ext; intros. apply for_ext; intros. get z Sz. apply bind_ext; intros.
        apply for_ext; intros. get z Sz. reflexivity.
    + intros j t Ht. now apply (V j t []).
Qed.

Variable der : Z.
Hypothesis Hder : 0 <= der < n.
Ltac dstep z S := unfold der_step at 1; (* one index *)
  match goal with |- context [if ?i =? der then _ else _] => destruct (Z.eqb_spec i der) end;
  [|rewrite (aget_ok z) by (rewrite S; cbn; lia)]; cbn [bind].
Ltac dterm z S := f_equal; unfold der_term; rewrite (aget_ok z [der]) by (rewrite S; cbn; lia);
  cbn [dval dcount fold_left]; repeat match goal with
   | E : ?i = der |- context [?i =? der] => rewrite (proj2 (Z.eqb_eq i der) E)
   | E : ?i <> der |- context [?i =? der] => rewrite (proj2 (Z.eqb_neq i der) E) end; reflexivity.

Lemma der_vec_spec : exists out', complete_poly_der_impl_vec z d der out = Ok out' /\ ashape out' = [n_complete n d] /\
  forall j t, nth_error (tuples n (Z.to_nat d)) j = Some t -> acell out' [Z.of_nat j] = dval f der t.
Proof.
  destruct (N_ge n d Hn Hd) as [HN0 HN1]. set (pv := dval f der).
  destruct (assemble n d [] (fun out => aset out [0] (n_ofZ 0))
    (fun out => out <- for_ 0 n (fun i out => aset out [i + 1] (n_ofZ 0)) out ;; aset out [der + 1] (n_ofZ 1))
    (fun t s => put (Ok (pv t)) s) (fun _ => pv) out Hn Hd So) as (o & E & S & V).
  - apply (rowspec_vec _ 0 (n_ofZ 0)). lia.
  - intros Hd1 o S. specialize (HN1 Hd1).
    destruct (for_rows (n_complete n d) [] (fun i out => aset out [i + 1] (n_ofZ 0)) (fun i _ => n_ofZ 0) 0 n 1 o) as (o1 & E1 & S1 & V1 & O1); auto.
    { intros i Hi. apply rowspec_vec. lia. }
    rewrite E1. cbn [bind]. destruct (rowspec_vec (n_complete n d) (der + 1) (n_ofZ 1) ltac:(lia) o1 S1) as (o2 & E2 & S2 & V2 & O2).
    exists o2. split; auto. split; auto. split.
    + intros i tail Hi Ht. cbn. destruct (Z.eqb_spec i der) as [->|Hne]; [now apply V2|]. rewrite O2 by lia. now apply V1.
    + intros r tail Hr. rewrite O2 by lia. apply O1. lia.
  - intros t _. apply put_writes.
  - exists o. split; [|split; [auto|]].
    + rewrite <- E. unfold complete_poly_der_impl_vec. unfold adim. rewrite Sz. cbn [lget Z.to_nat nth_error bind Z.ltb Z.compare].
      apply bind_ext; intros o0 _. apply bind_ext; intros o1 _.
      destruct (degs d Hd Hd5) as [->|[->|[->|[->|[->| ->]]]]]; cbn [Z.eqb Pos.eqb Z.leb Z.compare Pos.compare Pos.compare_cont]; try reflexivity;
        unfold out_of; f_equal; subst pv.
      * change (Z.to_nat 2) with 2%nat. rewrite high2. apply for_ext; intros. dstep z Sz; (apply for_ext; intros; dstep z Sz; dterm z Sz).
      * change (Z.to_nat 3) with 3%nat. rewrite high3. apply for_ext; intros. dstep z Sz; (apply for_ext; intros; dstep z Sz;
          (apply bind_cong; [dterm z Sz|intros; apply for_ext; intros; dstep z Sz; dterm z Sz])).
      * change (Z.to_nat 4) with 4%nat. rewrite high4. apply for_ext; intros. dstep z Sz; (apply for_ext; intros; dstep z Sz;
          (apply bind_cong; [dterm z Sz|intros; apply for_ext; intros; dstep z Sz;
          (apply bind_cong; [dterm z Sz|intros; apply for_ext; intros; dstep z Sz; dterm z Sz])])).
      * change (Z.to_nat 5) with 5%nat. rewrite high5. apply for_ext; intros. dstep z Sz; (apply for_ext; intros; dstep z Sz;
          (apply bind_cong; [dterm z Sz|intros; apply for_ext; intros; dstep z Sz;
          (apply bind_cong; [dterm z Sz|intros; apply for_ext; intros; dstep z Sz;
          (apply bind_cong; [dterm z Sz|intros; apply for_ext; intros; dstep z Sz; dterm z Sz])])])).
    + intros j t Ht. now apply (V j t []).
Qed.
End Vec.

Section Mat.
Variables (n nobs d : Z) (z out : arr T).
Hypotheses (Hn : 0 <= n) (Ho : 0 <= nobs) (Hd : 0 <= d) (Hd5 : d <= 5) (Sz : ashape z = [n; nobs]) (So : ashape out = [n_complete n d; nobs]).
Let f := fun k i => acell z [i; k].

Lemma impl_spec : exists out', complete_poly_impl z d out = Ok out' /\ ashape out' = [n_complete n d; nobs] /\
  forall j t k, nth_error (tuples n (Z.to_nat d)) j = Some t -> 0 <= k < nobs -> acell out' [Z.of_nat j; k] = pval (f k) t.
Proof.
  destruct (N_ge n d Hn Hd) as [HN0 HN1].
  destruct (assemble n d [nobs] (fun out => for_ 0 nobs (fun k out => aset out [0; k] (n_ofZ 1)) out)
    (fun out => for_ 1 (n + 1) (fun i out => for_ 0 nobs (fun k out => v <- aget z [i - 1; k] ;; aset out [i; k] v) out) out)
    (fun t s => put_row nobs (fun k => Ok (pval (f k) t)) s) (fun tail => pval (f (hd 0 tail))) out Hn Hd So) as (o & E & S & V).
  - exact (rowspec_row (n_complete n d) nobs 0 (fun k => Ok (n_ofZ 1)) (fun k => n_ofZ 1) ltac:(lia) Ho ltac:(auto)).
  - intros Hd1 o S. specialize (HN1 Hd1).
    destruct (for_rows (n_complete n d) [nobs] (fun i out => for_ 0 nobs (fun k out => v <- aget z [i - 1; k] ;; aset out [i; k] v) out)
      (fun i tail => f (hd 0 tail) (i - 1)) 1 (n + 1) 0 o) as (o1 & E1 & S1 & V1 & O1); auto.
    { lia. }
    { intros i Hi. rewrite Z.add_0_r. apply (rowspec_row _ nobs i (fun k => aget z [i - 1; k]) (fun k => f k (i - 1))); [lia|auto|].
      intros k Hk. get z Sz. reflexivity. }
    exists o1. split; auto. split; auto. split.
    + intros i tail Hi Ht. rewrite <- (Z.add_0_r (i + 1)). rewrite V1 by (auto; lia). cbn. f_equal. lia.
    + intros r tail Hr. apply O1. lia.
  - intros t _. now apply (put_row_writes _ nobs (fun k => pval (f k))).
  - exists o. split; [|split; [auto|]].
    + rewrite <- E. unfold complete_poly_impl. unfold adim. rewrite Sz. cbn [lget Z.to_nat nth_error bind Z.ltb Z.compare Pos.to_nat Pos.iter_op].
      change (Pos.to_nat 1) with 1%nat. cbn [nth_error bind].
      apply bind_ext; intros o0 _. apply bind_ext; intros o1 _.
      destruct (degs d Hd Hd5) as [->|[->|[->|[->|[->| ->]]]]]; cbn [Z.eqb Pos.eqb Z.leb Z.compare Pos.compare Pos.compare_cont]; try reflexivity;
        unfold out_of; f_equal.
      * change (Z.to_nat 2) with 2%nat. rewrite high2. repeat (apply for_ext; intros). apply put_row_ext; intros. get z Sz. reflexivity.
      * change (Z.to_nat 3) with 3%nat. rewrite high3. repeat (apply for_ext; intros).
        apply bind_cong; [apply put_row_ext; intros; get z Sz; reflexivity|intros; apply for_ext; intros].
        apply put_row_ext; intros. get z Sz. reflexivity.
      * change (Z.to_nat 4) with 4%nat. rewrite high4. repeat (apply for_ext; intros).
        do 2 (apply bind_cong; [apply put_row_ext; intros; get z Sz; reflexivity|intros; apply for_ext; intros]).
        apply put_row_ext; intros. get z Sz. reflexivity.
      * change (Z.to_nat 5) with 5%nat. rewrite high5. repeat (apply for_ext; intros).
        do 3 (apply bind_cong; [apply put_row_ext; intros; get z Sz; reflexivity|intros; apply for_ext; intros]).
        apply put_row_ext; intros. get z Sz. reflexivity.
    + intros j t k Ht Hk. apply (V j t [k]); auto. cbn. lia.
Qed.

Variable der : Z.
Hypothesis Hder : 0 <= der < n.
Ltac dstep z S := unfold der_step at 1; (* one index *)
  match goal with |- context [if ?i =? der then _ else _] => destruct (Z.eqb_spec i der) end;
  [|rewrite (aget_ok z) by (rewrite S; cbn; lia)]; cbn [bind].
Ltac dterm z S := unfold der_term; rewrite (aget_ok z [der; _]) by (rewrite S; cbn; lia);
  cbn [dval dcount fold_left]; repeat match goal with
   | E : ?i = der |- context [?i =? der] => rewrite (proj2 (Z.eqb_eq i der) E)
   | E : ?i <> der |- context [?i =? der] => rewrite (proj2 (Z.eqb_neq i der) E) end; reflexivity.

Lemma der_spec : exists out', complete_poly_der_impl z d der out = Ok out' /\ ashape out' = [n_complete n d; nobs] /\
  forall j t k, nth_error (tuples n (Z.to_nat d)) j = Some t -> 0 <= k < nobs -> acell out' [Z.of_nat j; k] = dval (f k) der t.
Proof.
  destruct (N_ge n d Hn Hd) as [HN0 HN1].
  destruct (assemble n d [nobs] (fun out => for_ 0 nobs (fun k out => aset out [0; k] (n_ofZ 0)) out)
    (fun out => out <- for_ 0 n (fun i out => for_ 0 nobs (fun k out => aset out [i + 1; k] (n_ofZ 0)) out) out ;;
               for_ 0 nobs (fun k out => aset out [der + 1; k] (n_ofZ 1)) out)
    (fun t s => put_row nobs (fun k => Ok (dval (f k) der t)) s) (fun tail => dval (f (hd 0 tail)) der) out Hn Hd So) as (o & E & S & V).
  - exact (rowspec_row (n_complete n d) nobs 0 (fun k => Ok (n_ofZ 0)) (fun k => n_ofZ 0) ltac:(lia) Ho ltac:(auto)).
  - intros Hd1 o S. specialize (HN1 Hd1).
    destruct (for_rows (n_complete n d) [nobs] (fun i out => for_ 0 nobs (fun k out => aset out [i + 1; k] (n_ofZ 0)) out)
      (fun i tail => n_ofZ 0) 0 n 1 o) as (o1 & E1 & S1 & V1 & O1); auto.
    { intros i Hi. exact (rowspec_row (n_complete n d) nobs (i + 1) (fun k => Ok (n_ofZ 0)) (fun k => n_ofZ 0) ltac:(lia) Ho ltac:(auto)). }
    rewrite E1. cbn [bind].
    destruct (rowspec_row (n_complete n d) nobs (der + 1) (fun k => Ok (n_ofZ 1)) (fun k => n_ofZ 1) ltac:(lia) Ho ltac:(auto) o1 S1) as (o2 & E2 & S2 & V2 & O2).
    exists o2. split; auto. split; auto. split.
    + intros i tail Hi Ht. cbn. destruct (Z.eqb_spec i der) as [->|Hne]; [now apply V2|]. rewrite O2 by lia. now apply V1.
    + intros r tail Hr. rewrite O2 by lia. apply O1. lia.
  - intros t _. now apply (put_row_writes _ nobs (fun k => dval (f k) der)).
  - exists o. split; [|split; [auto|]].
    + rewrite <- E. unfold complete_poly_der_impl. unfold adim. rewrite Sz. cbn [lget Z.to_nat nth_error bind Z.ltb Z.compare Pos.to_nat Pos.iter_op].
      change (Pos.to_nat 1) with 1%nat. cbn [nth_error bind].
      apply bind_ext; intros o0 _. apply bind_ext; intros o1 _.
      destruct (degs d Hd Hd5) as [->|[->|[->|[->|[->| ->]]]]]; cbn [Z.eqb Pos.eqb Z.leb Z.compare Pos.compare Pos.compare_cont]; try reflexivity;
        unfold out_of; f_equal.
      * change (Z.to_nat 2) with 2%nat. rewrite high2. repeat (apply for_ext; intros). apply put_row_ext; intros. do 2 dstep z Sz; dterm z Sz.
      * change (Z.to_nat 3) with 3%nat. rewrite high3. repeat (apply for_ext; intros).
        apply bind_cong; [apply put_row_ext; intros; (do 2 dstep z Sz); dterm z Sz|intros; apply for_ext; intros].
        apply put_row_ext; intros. (do 3 dstep z Sz); dterm z Sz.
      * change (Z.to_nat 4) with 4%nat. rewrite high4. repeat (apply for_ext; intros).
        apply bind_cong; [apply put_row_ext; intros; (do 2 dstep z Sz); dterm z Sz|intros; apply for_ext; intros].
        apply bind_cong; [apply put_row_ext; intros; (do 3 dstep z Sz); dterm z Sz|intros; apply for_ext; intros].
        apply put_row_ext; intros. (do 4 dstep z Sz); dterm z Sz.
      * change (Z.to_nat 5) with 5%nat. rewrite high5. repeat (apply for_ext; intros).
        apply bind_cong; [apply put_row_ext; intros; (do 2 dstep z Sz); dterm z Sz|intros; apply for_ext; intros].
        apply bind_cong; [apply put_row_ext; intros; (do 3 dstep z Sz); dterm z Sz|intros; apply for_ext; intros].
        apply bind_cong; [apply put_row_ext; intros; (do 4 dstep z Sz); dterm z Sz|intros; apply for_ext; intros].
        apply put_row_ext; intros. (do 5 dstep z Sz); dterm z Sz.
    + intros j t k Ht Hk. apply (V j t [k]); auto. cbn. lia.
Qed.
End Mat.
End Loops.
