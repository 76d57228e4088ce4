(** Memory-free description of the prefilter of PrefilterModel.v, for any number type:
    the band matrix and the 1-d views are replaced by functions, and the algorithm on
    functions is shown to be what the array code computes whatever the arrays held before. *)
From Coq Require Import ZArith List Bool Lia ZifyBool.
From Verif Require Import Base BaseFacts SplineModel PrefilterModel.
Import ListNotations.
Open Scope Z_scope.
Open Scope num_scope.

(** ** Related outcomes *)
Definition resrel {A B} (P : A -> B -> Prop) (x : res A) (y : res B) : Prop :=
  match x, y with Ok a, Ok b => P a b | Err e, Err e' => e = e' | _, _ => False end.

Lemma resrel_bind {A B A' B'} (P : A -> B -> Prop) (Q : A' -> B' -> Prop) x y f g :
  resrel P x y -> (forall a b, P a b -> resrel Q (f a) (g b)) -> resrel Q (bind x f) (bind y g).
Proof. destruct x, y; cbn; intros; try contradiction; auto. Qed.

Lemma resrel_foldM {A B S} (P : A -> B -> Prop) (l : list S) f g a b :
  P a b -> (forall a b i, In i l -> P a b -> resrel P (f a i) (g b i)) ->
  resrel P (foldM f l a) (foldM g l b).
Proof.
  revert a b; induction l as [|i l IH]; cbn; intros a b H K; auto.
  apply resrel_bind with (P := P); [auto|]. intros; apply IH; auto.
Qed.

Lemma resrel_mono {A B} (P Q : A -> B -> Prop) x y :
  resrel P x y -> (forall a b, P a b -> Q a b) -> resrel Q x y.
Proof. destruct x, y; cbn; intros; auto. Qed.

Lemma resrel_ok {A B} (P : A -> B -> Prop) x b :
  resrel P x (Ok b) -> exists a, x = Ok a /\ P a b.
Proof. destruct x; cbn; intros; [eauto|contradiction]. Qed.

Section Gen.
Context {T : Type} {NT : Num T}.

Definition tbl := Z -> Z -> T.
Definition fset (f : tbl) r c v : tbl :=
  fun r' c' => if (r' =? r) && (c' =? c) then v else f r' c'.

(** [b] is a matrix with [K] rows and 4 columns holding [f]. *)
Definition Bt (K : Z) (b : arr T) (f : tbl) : Prop :=
  ashape b = [K; 4] /\ forall r c, 0 <= r < K -> 0 <= c < 4 -> acell b [r; c] = f r c.

Lemma inb2 K r c : 0 <= r < K -> 0 <= c < 4 -> inb [K; 4] [r; c] = true.
Proof. intros. apply inb_spec. repeat constructor; lia. Qed.

Lemma bget_t K b f r c : Bt K b f -> 0 <= r < K -> 0 <= c < 4 -> bget b r c = Ok (f r c).
Proof.
  intros [S H] Hr Hc. unfold bget. rewrite aget_ok. now rewrite H.
  rewrite S. now apply inb2.
Qed.

Lemma bset_t K b f r c v :
  Bt K b f -> 0 <= r < K -> 0 <= c < 4 -> exists b', bset b r c v = Ok b' /\ Bt K b' (fset f r c v).
Proof.
  intros [S H] Hr Hc. unfold bset. rewrite aset_ok by (rewrite S; now apply inb2).
  eexists; split; [reflexivity|]. split; [exact S|].
  intros r' c' Hr' Hc'. unfold upd, fset. cbn. rewrite H by auto. now rewrite andb_true_r.
Qed.

(** The solver on functions. *)
Definition tidiv (f : tbl) r c r' c' : res tbl := q <- divE (f r c) (f r' c') ;; Ok (fset f r c q).
Definition tisub (f : tbl) r c r1 c1 r2 c2 : tbl := fset f r c (f r c -! f r1 c1 *! f r2 c2).

Lemma bidiv_t K b f r c r' c' :
  Bt K b f -> 0 <= r < K -> 0 <= c < 4 -> 0 <= r' < K -> 0 <= c' < 4 ->
  resrel (Bt K) (bidiv b r c r' c') (tidiv f r c r' c').
Proof.
  intros H Hr Hc Hr' Hc'. unfold bidiv, tidiv.
  rewrite (bget_t K b f r c), (bget_t K b f r' c') by auto. cbn.
  destruct (divE (f r c) (f r' c')) as [q|e]; cbn; auto.
  destruct (bset_t K b f r c q) as [b' [E H']]; auto. rewrite E. exact H'.
Qed.

Lemma bisub_t K b f r c r1 c1 r2 c2 :
  Bt K b f -> 0 <= r < K -> 0 <= c < 4 -> 0 <= r1 < K -> 0 <= c1 < 4 -> 0 <= r2 < K -> 0 <= c2 < 4 ->
  exists b', bisubmul b r c r1 c1 r2 c2 = Ok b' /\ Bt K b' (tisub f r c r1 c1 r2 c2).
Proof.
  intros H Hr Hc H1 H2 H3 H4. unfold bisubmul, tisub.
  rewrite (bget_t K b f r c), (bget_t K b f r1 c1), (bget_t K b f r2 c2) by auto. cbn.
  apply bset_t; auto.
Qed.

Definition t_first (f : tbl) : res tbl :=
  f <- tidiv f 0 1 0 0 ;;
  f <- tidiv f 0 2 0 0 ;;
  f <- tidiv f 0 3 0 0 ;;
  let f := fset f 0 0 (n_ofZ 1) in
  let f := tisub f 1 1 1 0 0 1 in
  let f := tisub f 1 2 1 0 0 2 in
  let f := tisub f 1 3 1 0 0 3 in
  let f := fset f 0 0 (n_ofZ 0) in
  f <- tidiv f 1 2 1 1 ;;
  f <- tidiv f 1 3 1 1 ;;
  Ok (fset f 1 1 (n_ofZ 1)).

Definition t_row (f : tbl) (row : Z) : res tbl :=
  let f := tisub f row 1 row 0 (row - 1) 2 in
  let f := tisub f row 3 row 0 (row - 1) 3 in
  f <- tidiv f row 2 row 1 ;;
  f <- tidiv f row 3 row 1 ;;
  let f := fset f row 0 (n_ofZ 0) in
  Ok (fset f row 1 (n_ofZ 1)).

Definition t_last (M : Z) (f : tbl) : res tbl :=
  let f := tisub f (M + 1) 1 (M + 1) 0 (M - 1) 2 in
  let f := tisub f (M + 1) 3 (M + 1) 0 (M - 1) 3 in
  let f := tisub f (M + 1) 2 (M + 1) 1 M 2 in
  let f := tisub f (M + 1) 3 (M + 1) 1 M 3 in
  f <- tidiv f (M + 1) 3 (M + 1) 2 ;;
  Ok (fset f (M + 1) 2 (n_ofZ 1)).

Ltac stepdiv H :=
  match goal with
  | |- resrel _ (bind (bidiv ?b ?r ?c ?r' ?c') _) (bind (tidiv ?f ?r ?c ?r' ?c') _) =>
      eapply resrel_bind; [apply bidiv_t; [exact H| lia..]| clear H; intros ? ? H; cbv beta]
  end.
Ltac stepset H :=
  match goal with
  | |- resrel _ (bind (bset ?b ?r ?c ?v) _) _ =>
      let E := fresh in let b' := fresh "b" in let H2 := fresh in
      edestruct (bset_t _ b _ r c v H) as [b' [E H2]]; [lia|lia|]; rewrite E; cbn [bind];
      clear E; clear H; rename H2 into H
  | |- resrel _ (bset ?b ?r ?c ?v) _ =>
      let E := fresh in let b' := fresh "b" in let H2 := fresh in
      edestruct (bset_t _ b _ r c v H) as [b' [E H2]]; [lia|lia|]; rewrite E; cbn [bind];
      clear E; clear H; rename H2 into H
  | |- resrel _ (bind (bisubmul ?b ?r ?c ?r1 ?c1 ?r2 ?c2) _) _ =>
      let E := fresh in let b' := fresh "b" in let H2 := fresh in
      edestruct (bisub_t _ b _ r c r1 c1 r2 c2 H) as [b' [E H2]]; [lia..|]; rewrite E; cbn [bind];
      clear E; clear H; rename H2 into H
  end.

Lemma solve_first_t K b f : 2 <= K -> Bt K b f -> resrel (Bt K) (solve_first b) (t_first f).
Proof.
  intros HK H. unfold solve_first, t_first.
  do 3 stepdiv H. cbv zeta. do 5 stepset H. do 2 stepdiv H. stepset H. exact H.
Qed.

Lemma solve_row_t K b f row : 1 <= row < K -> Bt K b f -> resrel (Bt K) (solve_row b row) (t_row f row).
Proof.
  intros HK H. unfold solve_row, t_row. cbv zeta.
  do 2 stepset H. do 2 stepdiv H. do 2 stepset H. exact H.
Qed.

Lemma solve_last_t M b f : 1 <= M -> Bt (M + 2) b f -> resrel (Bt (M + 2)) (solve_last M b) (t_last M f).
Proof.
  intros HK H. unfold solve_last, t_last. cbv zeta.
  do 4 stepset H. stepdiv H. stepset H. exact H.
Qed.

Definition t_solve (M : Z) (f : tbl) : res tbl :=
  f <- t_first f ;; f <- foldM t_row (zrange2 2 (M + 1)) f ;; t_last M f.

(** Back substitution on functions. *)
Definition zset (g : Z -> T) i v : Z -> T := fun j => if j =? i then v else g j.
Definition t_back (M : Z) (f : tbl) (g : Z -> T) : Z -> T :=
  let g := zset g (M + 1) (f (M + 1) 3) in
  let g := fold_left (fun g row => zset g row (f row 3 -! f row 2 *! g (row + 1))) (zrange_down M 0) g in
  zset g 0 (f 0 3 -! f 0 1 *! g 1 -! f 0 2 *! g 2).

(** [C] holds [g] on the line [ln] of length [nc], and agrees with [C0] elsewhere. *)
Definition Ln (C0 : arr T) (ln : Z -> list Z) (nc : Z) (C : arr T) (g : Z -> T) : Prop :=
  ashape C = ashape C0 /\
  (forall i, 0 <= i < nc -> acell C (ln i) = g i) /\
  (forall j, (forall i, 0 <= i < nc -> j <> ln i) -> acell C j = acell C0 j).

Definition line_ok (sh : list Z) (ln : Z -> list Z) (nc : Z) : Prop :=
  (forall i, 0 <= i < nc -> inb sh (ln i) = true) /\
  (forall i j, ln i = ln j -> i = j).

Lemma aget_l C0 ln nc C g i :
  line_ok (ashape C0) ln nc -> Ln C0 ln nc C g -> 0 <= i < nc -> aget C (ln i) = Ok (g i).
Proof.
  intros [L _] (S & H & _) Hi. rewrite aget_ok by (rewrite S; auto). now rewrite H.
Qed.

Lemma aset_l C0 ln nc C g i v :
  line_ok (ashape C0) ln nc -> Ln C0 ln nc C g -> 0 <= i < nc ->
  exists C', aset C (ln i) v = Ok C' /\ Ln C0 ln nc C' (zset g i v).
Proof.
  intros [L I] (S & H & O) Hi. rewrite aset_ok by (rewrite S; auto).
  eexists; split; [reflexivity|]. repeat split.
  - exact S.
  - intros j Hj. unfold zset. cbn. destruct (Z.eqb_spec j i) as [->|N].
    + now rewrite idx_eqb_refl.
    + rewrite idx_eqb_neq; auto.
  - intros j Hj. cbn. rewrite idx_eqb_neq; auto.
Qed.

Lemma solve_1d_t M b f C0 ln C g :
  1 <= M -> Bt (M + 2) b f -> line_ok (ashape C0) ln (M + 2) -> Ln C0 ln (M + 2) C g ->
  resrel (fun bC f' => Bt (M + 2) (fst bC) f' /\ Ln C0 ln (M + 2) (snd bC) (t_back M f' g))
    (solve_deriv_interp_1d b C ln (M + 2)) (t_solve M f).
Proof.
  intros HM HB HL HC. unfold solve_deriv_interp_1d, t_solve.
  replace (M + 2 - 2) with M by lia. cbv zeta.
  eapply resrel_bind. apply solve_first_t with (K := M + 2); [lia|exact HB]. clear b f HB. intros b f HB.
  eapply resrel_bind.
  { apply resrel_foldM. exact HB. intros. apply solve_row_t; auto.
    rewrite zrange2_as in H. apply in_map_iff in H as [x [<- H]]. apply zrange_In in H. lia. }
  clear b f HB. intros b f HB. cbv beta.
  pose proof (solve_last_t M b f HM HB) as HL2. clear HB.
  destruct (solve_last M b) as [b2|e], (t_last M f) as [f2|e']; cbn in HL2; try contradiction; cbn [bind].
  2: exact HL2. clear b f. rename b2 into b, f2 into f, HL2 into HB.
  rewrite (bget_t _ _ _ (M + 1) 3 HB) by lia. cbn [bind].
  destruct (aset_l C0 ln (M + 2) C g (M + 1) (f (M + 1) 3)) as [C1 [E HC1]]; auto; try lia.
  rewrite E. cbn [bind].
  assert (HF : exists C2, foldM (back_row b ln) (zrange_down M 0) C1 = Ok C2 /\
     Ln C0 ln (M + 2) C2
       (fold_left (fun g row => zset g row (f row 3 -! f row 2 *! g (row + 1))) (zrange_down M 0)
          (zset g (M + 1) (f (M + 1) 3)))).
  { assert (HR : forall r, In r (zrange_down M 0) -> 1 <= r <= M).
    { intros r Hr. unfold zrange_down in Hr. apply in_map_iff in Hr as [x [<- Hr]].
      apply zrange_In in Hr. lia. }
    clear E HC. revert HC1 HR. generalize (zset g (M + 1) (f (M + 1) 3)). clear C g.
    revert C1. induction (zrange_down M 0) as [|r l IH]; cbn; intros C1 g HC1 HR.
    - eauto.
    - assert (Hr : 1 <= r <= M) by auto. unfold back_row at 1.
      rewrite (bget_t _ _ _ r 3 HB), (bget_t _ _ _ r 2 HB) by lia. cbn [bind].
      rewrite (aget_l _ _ _ _ _ _ HL HC1) by lia. cbn [bind].
      edestruct (aset_l C0 ln (M + 2) C1 g r) as [C2 [E HC2]]; eauto; try lia.
      rewrite E. cbn [bind]. apply IH; auto. }
  destruct HF as [C2 [EF HC2]]. rewrite EF. cbn [bind].
  rewrite (bget_t _ _ _ 0 3 HB), (bget_t _ _ _ 0 1 HB), (bget_t _ _ _ 0 2 HB) by lia. cbn [bind].
  rewrite (aget_l _ _ _ _ _ 1 HL HC2), (aget_l _ _ _ _ _ 2 HL HC2) by lia. cbn [bind].
  edestruct (aset_l C0 ln (M + 2) C2) with (i := 0) as [C3 [E3 HC3]]; eauto; try lia.
  rewrite E3. cbn. split; [exact HB|exact HC3].
Qed.

(** Filling the bands overwrites every cell. *)
Definition t_bands (del : T) (dv : Z -> T) (M : Z) : tbl :=
  fun r c => if (r =? 0) || (r =? M + 1) then abcd del c else if c =? 3 then dv (r - 1) else basis c.

Lemma fill_bands_t del data dv M b :
  0 <= M -> ashape b = [M + 2; 4] -> (forall i, 0 <= i < M -> data i = Ok (dv i)) ->
  exists b', fill_bands del data M b = Ok b' /\ Bt (M + 2) b' (t_bands del dv M).
Proof.
  intros HM HS HD. unfold fill_bands.
  assert (H0 : Bt (M + 2) b (fun r c => acell b [r; c])) by (split; auto).
  set (step := fun b i => _).
  assert (E : exists b1, foldM step (zrange 4) b = Ok b1 /\ exists f, Bt (M + 2) b1 f /\
     forall c, 0 <= c < 4 -> f 0 c = abcd del c /\ f (M + 1) c = abcd del c).
  { destruct (foldM_zrange step (fun i b1 => exists f, Bt (M + 2) b1 f /\
       forall c, 0 <= c < i -> f 0 c = abcd del c /\ f (M + 1) c = abcd del c) 4 b) as [b1 [E H]].
    - lia.
    - eexists; split; [exact H0|]. intros; lia.
    - intros i s Hi [f [HB HF]]. unfold step.
      destruct (bset_t _ _ _ 0 i (abcd del i) HB) as [s1 [E1 H1]]; try lia. rewrite E1. cbn [bind].
      destruct (bset_t _ _ _ (M + 1) i (abcd del i) H1) as [s2 [E2 H2]]; try lia. rewrite E2.
      eexists; split; [reflexivity|]. eexists; split; [exact H2|].
      intros c Hc. unfold fset. rewrite !Z.eqb_refl. cbn [andb].
      destruct (Z.eqb_spec c i) as [->|N]; rewrite ?andb_true_r, ?andb_false_r.
      + destruct (0 =? M + 1); auto.
      + apply HF. lia.
    - exists b1. split; auto. }
  destruct E as [b1 [E1 [f1 [HB1 HF1]]]]. rewrite E1. cbn [bind]. clear step E1 H0 HS b.
  set (step := fun b i => _).
  destruct (foldM_zrange step (fun i b1 => exists f, Bt (M + 2) b1 f /\
     (forall c, 0 <= c < 4 -> f 0 c = abcd del c /\ f (M + 1) c = abcd del c) /\
     forall r c, 1 <= r <= i -> 0 <= c < 4 -> f r c = if c =? 3 then dv (r - 1) else basis c) M b1)
    as [b2 [E2 [f2 [HB2 [HF2 HR2]]]]].
  - lia.
  - exists f1. split; [exact HB1|]. split; [exact HF1|]. intros; lia.
  - intros i s Hi [f [HB [HF HR]]]. unfold step.
    destruct (foldM_zrange (fun b j => b0 <- bset b (i + 1) j (basis j);; v <- data i;; bset b0 (i + 1) 3 v)
      (fun k b1 => exists f', Bt (M + 2) b1 f' /\ (forall r c, r <> i + 1 -> f' r c = f r c) /\
         (forall c, 0 <= c < k -> f' (i + 1) c = basis c) /\ (0 < k -> f' (i + 1) 3 = dv i)) 3 s)
      as [s' [E [f' [HB' [HO [HN H3]]]]]].
    + lia.
    + exists f. split; [exact HB|]. split; [auto|]. split; intros; lia.
    + intros j s1 Hj [f' [HB' [HO [HN H3]]]].
      destruct (bset_t _ _ _ (i + 1) j (basis j) HB') as [s2 [E2 H2]]; try lia. rewrite E2. cbn [bind].
      rewrite HD by lia. cbn [bind].
      destruct (bset_t _ _ _ (i + 1) 3 (dv i) H2) as [s3 [E3 H4]]; try lia. rewrite E3.
      eexists; split; [reflexivity|]. eexists; split; [exact H4|].
      split; [|split].
      * intros r c Hr. unfold fset. replace (r =? i + 1) with false by lia. cbn. auto.
      * intros c Hc. unfold fset. rewrite Z.eqb_refl. cbn. replace (c =? 3) with false by lia.
        destruct (Z.eqb_spec c j) as [->|]; auto. apply HN. lia.
      * intros _. unfold fset. rewrite Z.eqb_refl. reflexivity.
    + exists s'. split; auto. exists f'. split; auto. split.
      * intros c Hc. rewrite !HO by lia. auto.
      * intros r c Hr Hc. destruct (Z.eq_dec r (i + 1)) as [->|].
        -- destruct (Z.eqb_spec c 3) as [->|]. rewrite H3 by lia. f_equal; lia. apply HN; lia.
        -- rewrite HO by auto. apply HR; lia.
  - exists b2. split; auto. split; [apply HB2|]. intros r c Hr Hc.
    destruct HB2 as [_ HB2]. rewrite HB2 by auto. unfold t_bands.
    destruct (Z.eqb_spec r 0) as [->|]; [apply HF2; auto|].
    destruct (Z.eqb_spec r (M + 1)) as [->|]; [apply HF2; auto|]. cbn. apply HR2; lia.
Qed.

(** The 1-d filter on functions: result for data [dv], independent of any memory. *)
Definition sol (M : Z) (del : T) (dv : Z -> T) : res (Z -> T) :=
  f <- t_solve M (t_bands del dv M) ;; Ok (t_back M f (fun _ => n_ofZ 0)).

(** Back substitution never reads a cell of the line it has not written. *)
Lemma t_back_garbage M f g g' i : 1 <= M -> 0 <= i <= M + 1 -> t_back M f g i = t_back M f g' i.
Proof.
  intros HM Hi. unfold t_back.
  set (st := fun g row => _).
  assert (A : forall k, 0 <= k <= M -> forall j, M + 1 - k <= j <= M + 1 ->
     fold_left st (map (fun i => M - i) (zrange k)) (zset g (M + 1) (f (M + 1) 3)) j =
     fold_left st (map (fun i => M - i) (zrange k)) (zset g' (M + 1) (f (M + 1) 3)) j).
  { intros k [Hk0 Hk]. revert Hk. pattern k. apply natlike_ind; [| |exact Hk0].
    - intros _ j Hj. replace j with (M + 1) by lia. rewrite zrange_nil by lia.
      cbn [map fold_left]. unfold zset. now rewrite Z.eqb_refl.
    - clear k Hk0. intros k Hk0 IH Hk j Hj. unfold Z.succ in *.
      rewrite zrange_S, map_app, !fold_left_app by lia. cbn. unfold st at 1 3. unfold zset.
      destruct (Z.eqb_spec j (M - k)).
      + rewrite IH by lia. reflexivity.
      + apply IH; lia. }
  unfold zrange_down. replace (M - 0) with M by lia.
  specialize (A M ltac:(lia)). revert A.
  set (G := fold_left st _ (zset g _ _)). set (G' := fold_left st _ (zset g' _ _)). intros A.
  unfold zset. destruct (Z.eqb_spec i 0).
  - now rewrite !A by lia.
  - apply A; lia.
Qed.

Lemma find_coefs_t del data dv C ln b M :
  1 <= M -> ashape b = [M + 2; 4] -> (forall i, 0 <= i < M -> data i = Ok (dv i)) ->
  line_ok (ashape C) ln (M + 2) ->
  resrel (fun bC g => ashape (fst bC) = [M + 2; 4] /\ Ln C ln (M + 2) (snd bC) g)
    (find_coefs_1d del data C ln (M + 2) b) (sol M del dv).
Proof.
  intros HM HS HD HL. unfold find_coefs_1d, adim. rewrite HS. cbn [lget Z.ltb Z.compare Z.to_nat nth_error].
  change (lget [M + 2; 4] 0) with (@Ok Z (M + 2)). cbn [bind]. cbv zeta.
  replace (M + 2 - 2) with M by lia.
  destruct (fill_bands_t del data dv M b) as [b1 [E1 H1]]; auto; try lia. rewrite E1. cbn [bind].
  unfold sol.
  assert (H : Ln C ln (M + 2) C (fun i => acell C (ln i))) by (repeat split; auto).
  pose proof (solve_1d_t M b1 _ C ln C _ HM H1 HL H) as R.
  destruct (solve_deriv_interp_1d b1 C ln (M + 2)) as [[b2 C2]|e],
    (t_solve M (t_bands del dv M)) as [f2|e']; cbn in R |- *; auto.
  destruct R as [[S _] (S2 & A & B)]. split; auto. repeat split; auto.
  intros i Hi. rewrite A by auto. apply t_back_garbage; lia.
Qed.

(** The solver can only fail by a division by zero. *)
Definition zd {A} (x : res A) : Prop := forall e, x = Err e -> e = ZeroDivErr.

Lemma zd_bind {A B} (x : res A) (f : A -> res B) : zd x -> (forall a, zd (f a)) -> zd (bind x f).
Proof. intros H K e. destruct x; cbn; [apply K|]. intros E. inversion E; subst. apply H; auto. Qed.

Lemma zd_ok {A} (a : A) : zd (Ok a).
Proof. intros e; discriminate. Qed.

Lemma zd_divE (x y : T) : zd (divE x y).
Proof. intros e. unfold divE. destruct (n_is0 y); congruence. Qed.

Lemma zd_tidiv f r c r' c' : zd (tidiv f r c r' c').
Proof. apply zd_bind. apply zd_divE. intros; apply zd_ok. Qed.

Lemma zd_foldM {S A} (f : S -> A -> res S) l s : (forall s a, zd (f s a)) -> zd (foldM f l s).
Proof.
  intros H. revert s; induction l; cbn; intros. apply zd_ok. apply zd_bind; auto.
Qed.

Lemma zd_sol M del dv : zd (sol M del dv).
Proof.
  unfold sol, t_solve, t_first, t_last.
  repeat first [ apply zd_ok | apply zd_tidiv | apply zd_foldM; intros | apply zd_bind; intros ].
Qed.

(** Only the [M] data values matter. *)
Lemma sol_ext M del dv dv' :
  1 <= M -> (forall i, 0 <= i < M -> dv i = dv' i) ->
  resrel (fun g g' => forall i, 0 <= i < M + 2 -> g i = g' i) (sol M del dv) (sol M del dv').
Proof.
  intros HM HD.
  set (C := azeros [M + 2] : arr T). set (ln := fun i : Z => [i]).
  assert (HL : line_ok (ashape C) ln (M + 2)).
  { split; [|unfold ln; congruence]. intros i Hi. apply inb_spec. repeat constructor; lia. }
  pose proof (find_coefs_t del (fun i => Ok (dv i)) dv C ln (azeros [M + 2; 4]) M HM eq_refl
                (fun _ _ => eq_refl) HL) as R1.
  assert (R2 := find_coefs_t del (fun i => Ok (dv i)) dv' C ln (azeros [M + 2; 4]) M HM eq_refl).
  specialize (R2 ltac:(intros; cbv beta; now rewrite HD) HL).
  destruct (find_coefs_1d del (fun i => Ok (dv i)) C ln (M + 2) (azeros [M + 2; 4])),
    (sol M del dv), (sol M del dv'); cbn in R1, R2 |- *; try contradiction; try congruence.
  destruct R1 as [_ (_ & A & _)], R2 as [_ (_ & B & _)]. intros i Hi.
  now rewrite <- A, <- B.
Qed.

(** ** Nested loops *)
Fixpoint all_idx (sizes : list Z) : list (list Z) :=
  match sizes with
  | [] => [[]]
  | n :: q => flat_map (fun i => map (cons i) (all_idx q)) (zrange n)
  end.

Lemma foldM_flat_map {S A B} (f : S -> B -> res S) (g : A -> list B) l s :
  foldM f (flat_map g l) s = foldM (fun s a => foldM f (g a) s) l s.
Proof.
  revert s; induction l; cbn; intros; auto. rewrite foldM_app. apply bind_ext. intros; apply IHl.
Qed.

Lemma nest_foldM {S} sizes (body : list Z -> S -> res S) s :
  nest sizes body s = foldM (fun s idx => body idx s) (all_idx sizes) s.
Proof.
  revert body s; induction sizes as [|n q IH]; cbn; intros.
  - destruct (body [] s); auto.
  - rewrite foldM_flat_map. apply foldM_ext. intros. rewrite foldM_map. apply IH.
Qed.

Lemma In_all_idx sizes idx : In idx (all_idx sizes) <-> inb sizes idx = true.
Proof.
  revert idx; induction sizes as [|n q IH]; cbn; intros idx.
  - split. intros [<-|[]]; auto. destruct idx; auto. discriminate.
  - rewrite in_flat_map. split.
    + intros (i & Hi & H). apply in_map_iff in H as (r & <- & H). apply IH in H.
      apply zrange_In in Hi. rewrite H. lia.
    + destruct idx as [|i r]; [discriminate|]. intros H. exists i. split. apply zrange_In. lia.
      apply in_map. apply IH. lia.
Qed.

Lemma NoDup_all_idx sizes : NoDup (all_idx sizes).
Proof.
  induction sizes as [|n q IH]; cbn. repeat constructor; auto.
  pose proof (zrange_NoDup n) as N. induction N as [|i l Hi N IHN]; cbn. constructor.
  assert (A : forall (l1 l2 : list (list Z)), NoDup l1 -> NoDup l2 -> (forall x, In x l1 -> ~ In x l2) -> NoDup (l1 ++ l2)).
  { clear. induction l1; cbn; intros l2 H1 H2 H; auto. inversion H1; subst. constructor.
    - rewrite in_app_iff. intros [K|K]; [auto|]. exact (H a (or_introl eq_refl) K).
    - apply IHl1; auto. }
  apply A; auto.
  - apply FinFun.Injective_map_NoDup; auto. intros a b; congruence.
  - intros x Hx Hy. apply in_map_iff in Hx as (r & <- & _). apply in_flat_map in Hy as (j & Hj & Hy).
    apply in_map_iff in Hy as (r' & E & _). inversion E; subst. auto.
Qed.

End Gen.
