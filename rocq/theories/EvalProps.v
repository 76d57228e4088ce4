(** Proofs of the data-flow properties of evaluation (C04-C07), for every arithmetic. *)
From Coq Require Import ZArith List Bool Lia ZifyBool.
From Verif Require Import Base BaseFacts SplineModel Spec EvalGeneric EvalMaster.
Import ListNotations.
Open Scope Z_scope.

Section Gen.
Context {T : Type} {NT : Num T}.
Implicit Types (grid : list (gdim T)) (C : arr T) (gps : list (@gpar T)) (pt : list T) (orders : option (list (list Z))).
Notation gdim := (gdim T).
Notation arr := (arr T).

Lemma comps_facts k grid comps (C : arr) :
  coefs_ok k grid comps C ->
  (comps = [] /\ (andim C =? zlen grid + 1) = false) \/
  (exists nx, comps = [nx] /\ 0 <= nx /\ (andim C =? zlen grid + 1) = true /\
              adim C (zlen grid) = Ok nx /\ adim C (andim C - 1) = Ok nx).
Proof.
  intros [HC [->|[nx [-> Hnx]]]]; unfold andim; rewrite HC.
  - left. split; auto. rewrite app_nil_r, zlen_map. lia.
  - right. exists nx. split; auto. split; auto.
    assert (E : lget (map (csize k) grid ++ [nx]) (zlen grid) = Ok nx).
    { rewrite (lget_ok _ _ 0). f_equal. rewrite app_nth2; rewrite map_length; unfold zlen.
      replace (Z.to_nat (Z.of_nat (length grid)) - length grid)%nat with 0%nat by lia. reflexivity.
      lia. rewrite zlen_app, zlen_map. change (zlen [nx]) with 1. pose proof (zlen_nonneg grid). lia. }
    split; [|split].
    + rewrite zlen_app, zlen_map. change (zlen [nx]) with 1. lia.
    + unfold adim. now rewrite HC.
    + unfold adim. rewrite HC, zlen_app, zlen_map. change (zlen [nx]) with 1.
      now replace (zlen grid + 1 - 1) with (zlen grid) by lia.
Qed.

Definition nvals (comps : list Z) : Z := match comps with [nx] => nx | _ => 0 end.

Lemma comps_nvals k grid comps (C : arr) orders :
  coefs_ok k grid comps C ->
  let vv := andim C =? zlen grid + 1 in
  (if vv then adim C (zlen grid) else Ok 0) = Ok (nvals comps) /\ 0 <= nvals comps /\
  rowshape vv orders (nvals comps) = result_shape comps orders /\
  vv = match comps with [] => false | _ => true end.
Proof.
  intros H vv. destruct (comps_facts _ _ _ _ H) as [[-> E]|[nx [-> [Hx [E [E2 E3]]]]]];
    unfold vv; rewrite E; cbn; repeat split; auto; lia.
Qed.

(** *** Inversions *)
Lemma eval_rows_inv k orders xm grid C points out r comps N :
  coefs_ok k grid comps C ->
  (exists p, ashape points = N :: p) ->
  eval_rows k orders xm grid C points out = Ok r ->
  compile_check k grid orders = Ok tt /\
  exists gps o o', mapM recoverN grid = Ok gps /\
    match out with Some o0 => o = o0 | None => o = azeros (N :: result_shape comps orders) end /\
    foldM (eval_row k orders xm (andim C =? zlen grid + 1) (nvals comps) (zlen grid) gps C points) (zrange N) o = Ok o' /\
    r = match out with None => (VArr o', None) | Some _ => (VNone, Some o') end.
Proof.
  intros HC [p Hp] H. unfold eval_rows in H.
  apply bind_ok in H as [[] [Hcc H]]. split; auto.
  apply bind_ok in H as [N' [HN H]]. unfold adim in HN. rewrite Hp in HN. cbn in HN. inversion HN; subst N'.
  destruct (comps_nvals k grid comps C orders HC) as [E1 [E2 [E3 E4]]].
  rewrite E1 in H; cbn [bind] in H.
  apply bind_ok in H as [o [Ho H]]. apply bind_ok in H as [gps [Hg H]]. apply bind_ok in H as [o' [Hf H]].
  exists gps, o, o'. split; auto. split; [|split].
  - destruct out; [inversion Ho; auto|]. unfold allocate_output in Ho.
    destruct (comps_facts _ _ _ _ HC) as [[-> E]|[nx [-> [Hx [E [E5 E6]]]]]]; rewrite E in Ho.
    + destruct orders; inversion Ho; reflexivity.
    + rewrite E6 in Ho. cbn [bind] in Ho. destruct orders; inversion Ho; reflexivity.
  - exact Hf.
  - destruct out; inversion H; reflexivity.
Qed.

Lemma row_value (a : arr) d N p n : ashape a = [N; p] -> 0 <= n < N -> d <= p ->
  row d a n = Ok (row_of d a n).
Proof.
  intros Ha Hn Hd. unfold row, row_of. apply mapM_all_ok. intros j Hj. apply zrange_In in Hj.
  apply aget_ok. rewrite Ha. cbn. rewrite !andb_true_iff. lia.
Qed.

(** The value of cell [suf] for brackets [pr]; zero if the model fails (never used then). *)
Definition wval k C d vv orders pr (suf : list Z) : T :=
  match valp k C pr (sel_oo d orders suf) (sel_ix vv suf) with Ok v => v | Err _ => n_ofZ 0 end.

(** Everything about a successful many-points evaluation. *)
Lemma rows_full k orders xm grid C points out r comps N p :
  coefs_ok k grid comps C -> ashape points = [N; p] -> zlen grid <= p -> 0 <= N ->
  (forall o, out = Some o -> ashape o = N :: result_shape comps orders) ->
  eval_rows k orders xm grid C points out = Ok r ->
  compile_check k grid orders = Ok tt /\
  exists gps pr, mapM recoverN grid = Ok gps /\
    (forall n, 0 <= n < N -> prep xm gps (row_of (zlen grid) points n) = Ok (pr n)) /\
    (forall n suf, 0 <= n < N -> inb (result_shape comps orders) suf = true ->
       exists v, valp k C (pr n) (sel_oo (zlen grid) orders suf)
              (sel_ix (match comps with [] => false | _ => true end) suf) = Ok v) /\
    exists o', r = match out with None => (VArr o', None) | Some _ => (VNone, Some o') end /\
      ashape o' = N :: result_shape comps orders /\
      forall n suf, 0 <= n < N -> inb (result_shape comps orders) suf = true ->
        acell o' (n :: suf) = wval k C (zlen grid) (match comps with [] => false | _ => true end) orders (pr n) suf.
Proof.
  intros HC Hp Hd HN Hout H.
  destruct (eval_rows_inv _ _ _ _ _ _ _ _ comps N HC ltac:(eauto) H) as [Hcc [gps [o [o' [Hg [Ho [Hf Hr]]]]]]].
  split; auto.
  destruct (comps_nvals k grid comps C orders HC) as [E1 [E2 [E3 E4]]].
  assert (Lg : zlen gps = zlen grid). { apply mapM_length in Hg. unfold zlen; lia. }
  assert (Sho : ashape o = N :: result_shape comps orders).
  { destruct out; subst; auto. }
  (* each row succeeded *)
  assert (Hrows : forall n, 0 <= n < N -> exists pr, prep xm gps (row_of (zlen grid) points n) = Ok pr /\
     forall suf, inb (result_shape comps orders) suf = true ->
       exists v, valp k C pr (sel_oo (zlen grid) orders suf) (sel_ix (andim C =? zlen grid + 1) suf) = Ok v).
  { intros n Hn. eapply (foldM_each _ (fun s => ashape s = N :: result_shape comps orders)) in Hf; auto.
    - destruct Hf as [_ Hf]. destruct (Hf n) as [s1 [s2 [_ E]]]. { apply zrange_In; lia. }
      apply eval_row_inv in E; auto. destruct E as [pt [pr [Hrow [Hprep Hv]]]].
      erewrite row_value in Hrow by eauto. inversion Hrow; subst pt.
      exists pr; split; auto. rewrite E3 in Hv. exact Hv.
    - intros s a s' _ Hs E. apply eval_row_shape in E. congruence. }
  set (pr := fun n => match prep xm gps (row_of (zlen grid) points n) with Ok p => p | Err _ => None end).
  exists gps, pr. rewrite <- E4.
  assert (Hpr : forall n, 0 <= n < N -> prep xm gps (row_of (zlen grid) points n) = Ok (pr n)).
  { intros n Hn. destruct (Hrows n Hn) as [q [Eq _]]. unfold pr. now rewrite Eq. }
  assert (Hv : forall n suf, 0 <= n < N -> inb (result_shape comps orders) suf = true ->
       exists v, valp k C (pr n) (sel_oo (zlen grid) orders suf) (sel_ix (andim C =? zlen grid + 1) suf) = Ok v).
  { intros n suf Hn Hsuf. destruct (Hrows n Hn) as [q [Eq Hq]]. unfold pr. rewrite Eq. auto. }
  split; auto. split; auto. split; auto.
  destruct (eval_rows_loop_ok k orders xm grid C points (nvals comps) N gps Lg o
              (fun idx => wval k C (zlen grid) (andim C =? zlen grid + 1) orders (pr (hd 0 idx)) (tl idx)) pr)
    as [o1 [F1 [S1 C1]]]; auto.
  - now rewrite E3.
  - intros n Hn. exists (row_of (zlen grid) points n). split; auto. eapply row_value; eauto.
  - intros n suf Hn Hsuf. rewrite E3 in Hsuf. destruct (Hv n suf Hn Hsuf) as [v Hv'].
    unfold wval. cbn [hd tl]. now rewrite Hv'.
  - rewrite F1 in Hf. inversion Hf; subst o1. exists o'. split; auto. split; [congruence|].
    intros n suf Hn Hsuf. rewrite C1; auto. rewrite Sho. cbn. rewrite Hsuf, andb_true_r.
    rewrite andb_true_iff; lia.
Qed.

Lemma all_uniform_existsb (grid : list gdim) : all_uniform grid -> existsb is_nonunif grid = false.
Proof.
  unfold all_uniform. intros H. apply not_true_iff_false. rewrite existsb_exists.
  intros [g [Hg E]]. rewrite Forall_forall in H. specialize (H g Hg). destruct g; cbn in *; [discriminate|tauto].
Qed.

Lemma existsb_all_uniform (grid : list gdim) : existsb is_nonunif grid = false -> all_uniform grid.
Proof.
  unfold all_uniform. intros H. apply Forall_forall. intros g Hg Ha. apply not_true_iff_false in H.
  apply H. apply existsb_exists. exists g. destruct g; cbn in *; tauto.
Qed.

(** C05 *)
Theorem rows_are_points k orders xm grid comps C points o N n :
  coefs_ok k grid comps C ->
  single_point_form xm grid comps orders ->
  ashape points = [N; zlen grid] ->
  eval_spline k orders xm grid C (P2 points) None = Ok (VArr o, None) ->
  0 <= n < N ->
  ashape o = N :: result_shape comps orders /\
  exists r, eval_spline k orders xm grid C (P1 (row_of (zlen grid) points n)) None = Ok (r, None) /\
    match comps, orders with
    | [], None => r = VNum (acell o [n])
    | [], Some os => r = VTuple (map (fun j => acell o [n; j]) (zrange (zlen os)))
    | _, _ => exists a, r = VArr a /\ ashape a = result_shape comps orders /\
                        forall suf, inb (result_shape comps orders) suf = true ->
                          acell a suf = acell o (n :: suf)
    end.
Proof.
  intros HC [Hs1 Hs2] Hp H Hn. cbn [eval_spline] in *.
  destruct (rows_full _ _ _ _ _ _ None _ comps N (zlen grid) HC Hp ltac:(lia) ltac:(lia) ltac:(discriminate) H)
    as [Hcc [gps [pr [Hg [Hpr [Hv [o' [Hr [So Co]]]]]]]]].
  inversion Hr; subst o'; clear Hr. split; auto.
  destruct (comps_nvals k grid comps C orders HC) as [E1 [E2 [E3 E4]]].
  destruct (eval_point_ok k orders xm grid C (row_of (zlen grid) points n) None gps (pr n) (nvals comps)
             (fun suf => acell o (n :: suf))) as [r [E R]]; auto.
  - split.
    + destruct Hs1 as [|Hu]; auto. right. now apply all_uniform_existsb.
    + rewrite E4. intros (X1 & X2 & X3 & _). apply Hs2. repeat split; auto.
      destruct comps; auto; discriminate.
  - discriminate.
  - intros suf Hsuf. rewrite E3 in Hsuf. rewrite Co by auto. unfold wval. rewrite E4.
    destruct (Hv n suf Hn Hsuf) as [v Hv']. now rewrite Hv'.
  - rewrite E3, E4 in R. rewrite E. unfold point_result in R.
    destruct comps as [|c cs].
    + destruct orders as [os|]; subst r; eexists; split; reflexivity.
    + destruct R as [a [-> [Sa Ca]]]. eexists; split; [reflexivity|].
      destruct orders; (exists a; split; [reflexivity|split; auto]).
Qed.

(** C06, many points *)
Theorem inplace_rows k orders xm grid comps C points o out N :
  coefs_ok k grid comps C ->
  ashape points = [N; zlen grid] -> 0 <= N ->
  ashape out = N :: result_shape comps orders ->
  eval_spline k orders xm grid C (P2 points) None = Ok (VArr o, None) ->
  exists out', eval_spline k orders xm grid C (P2 points) (Some out) = Ok (VNone, Some out') /\ aeq o out'.
Proof.
  intros HC Hp HN Ho H. cbn [eval_spline] in *.
  destruct (rows_full _ _ _ _ _ _ None _ comps N (zlen grid) HC Hp ltac:(lia) ltac:(lia) ltac:(discriminate) H)
    as [Hcc [gps [pr [Hg [Hpr [Hv [o' [Hr [So Co]]]]]]]]].
  inversion Hr; subst o'; clear Hr.
  destruct (comps_nvals k grid comps C orders HC) as [E1 [E2 [E3 E4]]].
  assert (Lg : zlen gps = zlen grid). { apply mapM_length in Hg. unfold zlen; lia. }
  destruct (eval_rows_loop_ok k orders xm grid C points (nvals comps) N gps Lg out
              (fun idx => acell o idx) pr) as [o1 [F1 [S1 C1]]]; auto.
  - now rewrite E3.
  - intros n Hn. exists (row_of (zlen grid) points n). split; auto. eapply row_value; eauto. lia.
  - intros n suf Hn Hsuf. rewrite E3 in Hsuf. rewrite Co by auto.
    rewrite E4. unfold wval. destruct (Hv n suf Hn Hsuf) as [v Hv']. now rewrite Hv'.
  - exists o1. split.
    + unfold eval_rows. rewrite Hcc; cbn [bind]. unfold adim at 1. rewrite Hp. cbn [lget].
      change (lget [N; zlen grid] 0) with (@Ok Z N). cbn [bind].
      rewrite E1; cbn [bind]. rewrite Hg; cbn [bind]. now rewrite F1.
    + split; [congruence|]. intros idx Hi. rewrite C1; auto. congruence.
Qed.

(** *** Single point: inversion of success *)
Lemma recover1_N grid g1 : grid_sizes_ok grid -> mapM recover1 grid = Ok g1 ->
  exists gN, mapM recoverN grid = Ok gN /\ g1 = map erase gN.
Proof.
  intros Hs. revert g1; induction Hs as [|g grid Hg Hs IH]; cbn; intros g1 H.
  - inv_ok. exists []; auto.
  - apply bind_ok in H as [gp [E H]]. apply bind_ok in H as [gps [E2 H]]. inversion H; subst.
    destruct (IH _ E2) as [gN [E3 ->]]. rewrite E3.
    destruct g as [a b n|gc]; cbn in *.
    + apply bind_ok in E as [del [-> E]]. inversion E; subst. cbn. eexists; split; reflexivity.
    + inversion E; subst. destruct gc as [|z0 gc]; [unfold zlen in Hg; cbn in Hg; lia|].
      rewrite !(lget_ok (z0 :: gc) _ z0) by lia. cbn. eexists; split; reflexivity.
Qed.

Lemma extract1_inv xm vv alloc gps : forall pt out co,
  extract1 xm vv alloc gps pt out = Ok co ->
  (vv = true -> exists o, out = Some o) ->
  exists xo, (extractN xm gps pt = Ok xo \/ (vv = true /\ alloc = false)) /\
  match xo with Some xs => co = Go1 xs out \/ (vv = true /\ alloc = false) | None => xm = XConstant end.
Proof.
  induction gps as [|gp gps IH]; cbn; intros pt out co H Hv.
  - inv_ok. exists (Some []). auto.
  - destruct pt as [|x pt]; [discriminate|].
    assert (G : forall y, bind (extract1 xm vv alloc gps pt out) (fun r => match r with Go1 xs out' => Ok (Go1 (y :: xs) out') | Ret1 v out' => Ok (Ret1 v out') end) = Ok co ->
      exists xo, (bind (extractN xm gps pt) (fun r => match r with Some xs => Ok (Some (y :: xs)) | None => Ok None end) = Ok xo \/ (vv = true /\ alloc = false)) /\
  match xo with Some xs => co = Go1 xs out \/ (vv = true /\ alloc = false) | None => xm = XConstant end).
    { intros y Hy. apply bind_ok in Hy as [r [Hr Hy]]. destruct (IH _ _ _ Hr Hv) as [xo [E X]].
      destruct xo as [xs|].
      - exists (Some (y :: xs)). split.
        + destruct E as [E|E]; auto. left. now rewrite E.
        + destruct X as [X|X]; auto. subst r. inversion Hy; auto.
      - exists None. split; auto. destruct E as [E|E]; auto. left. now rewrite E. }
    destruct xm.
    + apply bind_ok in H as [[a b] [Hb H]]. rewrite Hb; cbn [bind].
      destruct (outside a b x).
      * exists None. auto.
      * auto.
    + auto.
    + apply bind_ok in H as [[a b] [Hb H]]. rewrite Hb; cbn [bind]. auto.
Qed.

(** A successful allocating single-point call. *)
Lemma point_full k orders xm grid C pt r comps :
  coefs_ok k grid comps C -> grid_sizes_ok grid ->
  eval_point k orders xm grid C pt None = Ok r ->
  compile_check k grid orders = Ok tt /\
  point_supported xm grid orders (match comps with [] => false | _ => true end) true /\
  exists gps pr, mapM recoverN grid = Ok gps /\ prep xm gps pt = Ok pr /\
    forall suf, inb (result_shape comps orders) suf = true ->
       exists v, valp k C pr (sel_oo (zlen grid) orders suf)
              (sel_ix (match comps with [] => false | _ => true end) suf) = Ok v.
Proof.
  intros HC Hsz H. unfold eval_point in H.
  destruct (comps_nvals k grid comps C orders HC) as [E1 [E2 [E3 E4]]].
  rewrite <- E4. set (vv := andim C =? zlen grid + 1) in *.
  apply bind_ok in H as [[] [Hcc H]]. split; auto.
  apply bind_ok in H as [[] [Hnu H]]. apply bind_ok in H as [[] [Hty H]].
  rewrite E1 in H; cbn [bind] in H.
  apply bind_ok in H as [g1 [Hg1 H]]. apply bind_ok in H as [co [Hco H]].
  assert (Hsup1 : xm = XLinear \/ existsb is_nonunif grid = false).
  { destruct (existsb is_nonunif grid); auto. destruct xm; auto; discriminate. }
  split.
  { split; auto. intros (X1 & X2 & X3 & _). subst xm. rewrite X3 in Hty. destruct orders; try congruence.
    discriminate. }
  destruct (recover1_N _ _ Hsz Hg1) as [gN [HgN Eg1]].
  assert (Hprep_eq : forall p, prep xm g1 pt = Ok p -> prep xm gN pt = Ok p).
  { intros p Hp. destruct Hsup1 as [->|Hu].
    - subst g1. now rewrite prep_linear_erase in Hp.
    - pose proof (recover_unif _ _ Hu HgN). congruence. }
  apply extract1_inv in Hco.
  2:{ rewrite E4. destruct comps; [discriminate|]. destruct orders; eauto. }
  destruct Hco as [xo [[E|E] X]]; [|destruct E; discriminate].
  assert (Hlen : length g1 = length grid) by (eapply mapM_length; eauto).
  destruct xo as [xs|].
  - destruct X as [->|[_ X]]; [|discriminate].
    apply bind_ok in H as [brs [Hbrs H]].
    assert (Hp1 : prep xm g1 pt = Ok (Some brs)). { unfold prep. rewrite E; cbn [bind]. now rewrite Hbrs. }
    exists gN, (Some brs). split; auto. split; auto.
    assert (Lb : zlen brs = zlen grid). { apply prep_length in Hp1. unfold zlen. lia. }
    rewrite <- E3. unfold rowshape. cbn [valp]. fold vv.
    destruct vv; cbn [app].
    + destruct orders as [os|].
      * apply bind_ok in H as [o' [H _]].
        eapply (foldM_each _ (fun _ => True)) in H; [|auto|exact I]. destruct H as [_ H].
        intros suf Hs. destruct suf as [|ix [|j [|]]]; cbn in Hs; try lia.
        destruct (H ix) as [s1 [s2 [_ Ex]]]. { apply zrange_In; lia. }
        apply bind_ok in Ex as [vals [Ex _]]. apply mapM_ok in Ex. cbn [sel_oo last sel_ix hd].
        assert (HL : (Z.to_nat j < length os)%nat) by (unfold zlen in Hs; lia).
        clear -Ex HL. revert HL. generalize (Z.to_nat j). induction Ex; intros n HL; cbn in HL; [lia|].
        destruct n; cbn; eauto. apply IHEx. lia.
      * apply bind_ok in H as [o' [H _]].
        eapply (foldM_each _ (fun _ => True)) in H; [|auto|exact I]. destruct H as [_ H].
        intros suf Hs. destruct suf as [|ix [|]]; cbn in Hs; try lia.
        destruct (H ix) as [s1 [s2 [_ Ex]]]. { apply zrange_In; lia. }
        apply bind_ok in Ex as [v [Ex _]]. exists v. now rewrite <- (zeros_like_sel brs (zlen grid) [ix]).
    + destruct orders as [os|].
      * apply bind_ok in H as [vals [Ex _]]. apply mapM_ok in Ex.
        intros suf Hs. destruct suf as [|j [|]]; cbn in Hs; try lia. cbn [sel_oo last sel_ix].
        assert (HL : (Z.to_nat j < length os)%nat) by (unfold zlen in Hs; lia).
        clear -Ex HL. revert HL. generalize (Z.to_nat j). induction Ex; intros n HL; cbn in HL; [lia|].
        destruct n; cbn; eauto. apply IHEx. lia.
      * apply bind_ok in H as [v [Ex _]]. intros suf Hs. destruct suf; [|discriminate].
        exists v. now rewrite <- (zeros_like_sel brs (zlen grid) []).
  - exists gN, None. split; auto. split; [|cbn; eauto].
    apply Hprep_eq. unfold prep. now rewrite E.
Qed.

(** C06, single point: every form that takes [out] into account; CONSTANT mode is refuted
    separately (see EvalRefuted). *)
Theorem inplace_point k orders xm grid comps C pt r out :
  coefs_ok k grid comps C -> grid_sizes_ok grid ->
  xm <> XConstant -> (comps <> [] \/ orders <> None) ->
  ashape out = result_shape comps orders ->
  eval_spline k orders xm grid C (P1 pt) None = Ok (r, None) ->
  exists out', eval_spline k orders xm grid C (P1 pt) (Some out) = Ok (VNone, Some out') /\
    ashape out' = ashape out /\
    match r with
    | VArr a => aeq a out'
    | VTuple l => l = map (fun j => acell out' [j]) (zrange (zlen l))
    | _ => False
    end.
Proof.
  intros HC Hsz Hxm Hk Ho H. cbn [eval_spline] in *.
  destruct (point_full _ _ _ _ _ _ _ comps HC Hsz H) as [Hcc [Hsup [gps [pr [Hg [Hprep Hv]]]]]].
  destruct (comps_nvals k grid comps C orders HC) as [E1 [E2 [E3 E4]]].
  set (w := wval k C (zlen grid) (match comps with [] => false | _ => true end) orders pr).
  assert (Hpr : pr <> None).
  { intros ->. unfold prep in Hprep. apply bind_ok in Hprep as [co [Hco Hp]].
    destruct co as [xs|]; [apply bind_ok in Hp as [? [_ Hp]]; discriminate|].
    apply extractN_none in Hco. congruence. }
  assert (Hw : forall suf, inb (rowshape (andim C =? zlen grid + 1) orders (nvals comps)) suf = true ->
     valp k C pr (sel_oo (zlen grid) orders suf) (sel_ix (andim C =? zlen grid + 1) suf) = Ok (w suf)).
  { intros suf Hsuf. rewrite E3 in Hsuf. unfold w, wval. rewrite E4. destruct (Hv suf Hsuf) as [v ->]. reflexivity. }
  destruct (eval_point_ok k orders xm grid C pt None gps pr (nvals comps) w) as [r1 [R1 Q1]]; auto.
  { now rewrite E4. } { discriminate. }
  destruct (eval_point_ok k orders xm grid C pt (Some out) gps pr (nvals comps) w) as [r2 [R2 Q2]]; auto.
  { destruct Hsup as [S1 S2]. split; auto. intros (_&_&_&X). discriminate. }
  { intros o Eo _. inversion Eo; subst o. split; auto. congruence. }
  rewrite R1 in H. inversion H; subst r1; clear H.
  rewrite E3, E4 in Q1, Q2. unfold point_result in Q1, Q2.
  destruct comps as [|c cs].
  - destruct orders as [os|]; [|destruct Hk; congruence].
    destruct Q2 as [o' [-> [S2 C2]]]. inversion Q1; subst r. exists o'. rewrite R2.
    split; [auto|split; [congruence|]]. rewrite zlen_map, zlen_zrange by apply zlen_nonneg.
    apply map_ext_in. intros j Hj. apply zrange_In in Hj. symmetry. apply C2. cbn.
    rewrite !andb_true_iff; lia.
  - assert (Q1' : exists o', (r, None) = (VArr o', @None arr) /\ ashape o' = result_shape (c :: cs) orders /\
             (forall suf, inb (result_shape (c :: cs) orders) suf = true -> acell o' suf = w suf)).
    { destruct orders; exact Q1. }
    assert (Q2' : exists o', r2 = (VNone, Some o') /\ ashape o' = result_shape (c :: cs) orders /\
             (forall suf, inb (result_shape (c :: cs) orders) suf = true -> acell o' suf = w suf)).
    { destruct orders; exact Q2. }
    destruct Q1' as [a1 [X1 [S1 C1]]]. inversion X1; subst r. destruct Q2' as [a2 [-> [S2 C2]]].
    exists a2. rewrite R2. split; [auto|split; [congruence|]]. split; [congruence|].
    intros idx Hi. rewrite C1, C2; auto; congruence.
Qed.

(** C07 *)
Lemma get_value_component k grid C nx j brs oo :
  ashape C = map (csize k) grid ++ [nx] -> 0 <= j < nx -> Forall2 (br_fits k) grid brs ->
  get_value k brs oo (component k grid C j) [] = get_value k brs oo C [j].
Proof.
  intros HC Hj Hb.
  destruct (mapM2 (fun (br : Z * T * T) l => let '(_, lam, del) := br in blend k l lam del) brs oo)
    as [phis|e] eqn:E.
  - erewrite (get_value_ok k grid brs oo C [j] [nx]) by (eauto; cbn; rewrite !andb_true_iff; lia).
    erewrite (get_value_ok k grid brs oo (component k grid C j) [] []); eauto.
    + f_equal. unfold component. cbn [acell].
      apply tsum_ext. intros i. now rewrite app_nil_r.
    + cbn. now rewrite app_nil_r.
  - unfold get_value. now rewrite E.
Qed.

Lemma component_ok k grid C nx j : coefs_ok k grid [nx] C -> 0 <= j < nx -> coefs_ok k grid [] (component k grid C j).
Proof. intros [HC _] Hj. split; auto. cbn. now rewrite app_nil_r. Qed.

Lemma prep_fits k xm grid gps pt brs :
  grid_sizes_ok grid -> mapM recoverN grid = Ok gps -> prep xm gps pt = Ok (Some brs) ->
  Forall2 (br_fits k) grid brs.
Proof.
  intros Hs Hg Hp. unfold prep in Hp. apply bind_ok in Hp as [[xs|] [_ Hp]]; [|discriminate].
  apply bind_ok in Hp as [b [Hb Hp]]. inversion Hp; subst.
  eapply mapM2_bracket_fits; eauto. eapply Forall2_gp_mapM; eauto. apply recoverN_gp.
Qed.

Lemma valp_component k xm grid C nx j gps pt pr oo :
  ashape C = map (csize k) grid ++ [nx] -> 0 <= j < nx -> grid_sizes_ok grid ->
  mapM recoverN grid = Ok gps -> prep xm gps pt = Ok pr ->
  valp k (component k grid C j) pr oo [] = valp k C pr oo [j].
Proof.
  intros. destruct pr as [brs|]; cbn [valp]; auto.
  eapply get_value_component; eauto. eapply prep_fits; eauto.
Qed.

Lemma sel_oo_cons d orders j suf :
  inb (match orders with None => [] | Some os => [zlen os] end) suf = true ->
  sel_oo d orders (j :: suf) = sel_oo d orders suf.
Proof.
  destruct orders; cbn; auto. destruct suf as [|i [|]]; cbn; intros; try lia. reflexivity.
Qed.

Theorem vector_rows k orders xm grid nx C points o N j :
  coefs_ok k grid [nx] C -> grid_sizes_ok grid ->
  ashape points = [N; zlen grid] -> 0 <= N -> 0 <= j < nx ->
  eval_spline k orders xm grid C (P2 points) None = Ok (VArr o, None) ->
  exists oj, eval_spline k orders xm grid (component k grid C j) (P2 points) None = Ok (VArr oj, None) /\
    ashape oj = N :: result_shape [] orders /\
    forall n suf, inb (ashape oj) (n :: suf) = true -> acell oj (n :: suf) = acell o (n :: j :: suf).
Proof.
  intros HC Hsz Hp HN Hj H. cbn [eval_spline] in *.
  destruct (rows_full _ _ _ _ _ _ None _ [nx] N (zlen grid) HC Hp ltac:(lia) ltac:(lia) ltac:(discriminate) H)
    as [Hcc [gps [pr [Hg [Hpr [Hv [o' [Hr [So Co]]]]]]]]].
  inversion Hr; subst o'; clear Hr.
  pose proof (component_ok _ _ _ _ _ HC Hj) as HCj.
  set (Cj := component k grid C j) in *.
  destruct (comps_nvals k grid [] Cj orders HCj) as [E1 [E2 [E3 E4]]].
  assert (Lg : zlen gps = zlen grid). { apply mapM_length in Hg. unfold zlen; lia. }
  destruct (eval_rows_loop_ok k orders xm grid Cj points (nvals []) N gps Lg (azeros (N :: result_shape [] orders))
              (fun idx => acell o (hd 0 idx :: j :: tl idx)) pr) as [o1 [F1 [S1 C1]]]; auto.
  - now rewrite E3.
  - intros n Hn. exists (row_of (zlen grid) points n). split; auto. eapply row_value; eauto. lia.
  - intros n suf Hn Hsuf. rewrite E3 in Hsuf. rewrite E4. cbn [sel_ix hd tl].
    assert (Hs2 : inb (result_shape [nx] orders) (j :: suf) = true).
    { change (result_shape [nx] orders) with (nx :: result_shape [] orders). cbn [inb].
      rewrite Hsuf, !andb_true_iff. lia. }
    rewrite Co by auto. unfold wval.
    destruct (Hv n (j :: suf) Hn Hs2) as [v Hv']. rewrite Hv'.
    cbn [sel_ix hd] in Hv'. rewrite sel_oo_cons in Hv' by exact Hsuf.
    unfold Cj. rewrite (valp_component k xm grid C nx j gps (row_of (zlen grid) points n)); auto. apply HC.
  - exists o1. split; [|split].
    + unfold eval_rows. rewrite Hcc; cbn [bind]. unfold adim at 1. rewrite Hp.
      change (lget [N; zlen grid] 0) with (@Ok Z N). cbn [bind].
      rewrite E1; cbn [bind]. unfold allocate_output. rewrite E4.
      assert (Ea : (match orders with None => Ok (azeros [N]) | Some os => Ok (azeros [N; zlen os]) end) =
                   Ok (azeros (N :: result_shape [] orders))) by (destruct orders; reflexivity).
      rewrite Ea; cbn [bind]. rewrite Hg; cbn [bind]. rewrite E4 in F1. now rewrite F1.
    + rewrite S1. reflexivity.
    + intros n suf Hi. rewrite S1 in Hi. rewrite C1; auto.
Qed.

Theorem vector_point k orders xm grid nx C pt a j :
  coefs_ok k grid [nx] C -> grid_sizes_ok grid ->
  single_point_form xm grid [] orders -> 0 <= j < nx ->
  eval_spline k orders xm grid C (P1 pt) None = Ok (VArr a, None) ->
  exists r, eval_spline k orders xm grid (component k grid C j) (P1 pt) None = Ok (r, None) /\
    r = match orders with
        | None => VNum (acell a [j])
        | Some os => VTuple (map (fun i => acell a [j; i]) (zrange (zlen os)))
        end.
Proof.
  intros HC Hsz Hform Hj H. cbn [eval_spline] in *.
  destruct (point_full _ _ _ _ _ _ _ [nx] HC Hsz H) as [Hcc [Hsup [gps [pr [Hg [Hprep Hv]]]]]].
  destruct (comps_nvals k grid [nx] C orders HC) as [E1 [E2 [E3 E4]]].
  set (w := wval k C (zlen grid) true orders pr).
  destruct (eval_point_ok k orders xm grid C pt None gps pr (nvals [nx]) w) as [r1 [R1 Q1]]; auto.
  { now rewrite E4. } { discriminate. }
  { intros suf Hsuf. rewrite E3 in Hsuf. unfold w, wval. rewrite E4. destruct (Hv suf Hsuf) as [v ->]. reflexivity. }
  rewrite R1 in H. inversion H; subst r1; clear H. rewrite E3, E4 in Q1.
  assert (Q1' : ashape a = result_shape [nx] orders /\
             (forall suf, inb (result_shape [nx] orders) suf = true -> acell a suf = w suf)).
  { unfold point_result in Q1. destruct orders; destruct Q1 as [a' [X [S1 C1]]]; inversion X; subst; auto. }
  destruct Q1' as [S1 C1]. clear Q1.
  pose proof (component_ok _ _ _ _ _ HC Hj) as HCj.
  set (Cj := component k grid C j) in *.
  destruct (comps_nvals k grid [] Cj orders HCj) as [F1 [F2 [F3 F4]]].
  destruct (eval_point_ok k orders xm grid Cj pt None gps pr (nvals []) (fun suf => acell a (j :: suf)))
    as [r2 [R2 Q2]]; auto.
  { rewrite F4. destruct Hform as [X1 X2]. split.
    - destruct X1; auto. right. now apply all_uniform_existsb.
    - intros (Y1&Y2&Y3&_). apply X2. auto. }
  { discriminate. }
  { intros suf Hsuf. rewrite F3 in Hsuf. rewrite F4. cbn [sel_ix].
    assert (Hs2 : inb (result_shape [nx] orders) (j :: suf) = true).
    { change (result_shape [nx] orders) with (nx :: result_shape [] orders). cbn [inb].
      rewrite Hsuf, !andb_true_iff. lia. }
    rewrite C1 by auto. unfold w, wval.
    destruct (Hv (j :: suf) Hs2) as [v Hv']. rewrite Hv'.
    cbn [sel_ix hd] in Hv'. rewrite sel_oo_cons in Hv' by exact Hsuf.
    unfold Cj. rewrite (valp_component k xm grid C nx j gps pt); auto. apply HC. }
  rewrite R2. rewrite F4 in Q2. unfold point_result in Q2.
  destruct orders; subst r2; eexists; split; reflexivity.
Qed.

(** C04 *)
Lemma compile_check_safe k grid orders : orders_ok grid orders -> safe (compile_check k grid orders).
Proof.
  unfold compile_check, orders_ok. intros H.
  destruct (_ && _); [discriminate|]. destruct (negb _); [discriminate|].
  destruct orders as [os|]; [|discriminate]. destruct H as [H1 H2].
  destruct os; [congruence|].
  replace (negb _) with false.
  - destruct (_ && _); discriminate.
  - symmetry. apply negb_false_iff. apply forallb_forall. rewrite Forall_forall in H2.
    intros x Hx. apply Z.eqb_eq. auto.
Qed.

Lemma recover1_safe g : safe (recover1 g).
Proof.
  destruct g; cbn; [|discriminate]. apply safe_bind. apply divE_safe. intros; discriminate.
Qed.
Lemma recoverN_safe g : 2 <= gsize g -> safe (recoverN g).
Proof.
  destruct g as [a b n|gc]; cbn; intros H.
  - apply safe_bind. apply divE_safe. intros; discriminate.
  - destruct gc as [|z0 gc]; [unfold zlen in H; cbn in H; lia|].
    rewrite !(lget_ok (z0 :: gc) _ z0) by lia. discriminate.
Qed.

Lemma bounds_safe (gp : @gpar T) : safe (bounds gp).
Proof. destruct gp as [|? ? [|]]; discriminate. Qed.

Lemma extractN_safe xm gps : forall pt, zlen gps <= zlen pt -> safe (extractN xm gps pt).
Proof.
  induction gps as [|gp gps IH]; intros pt H; cbn; [discriminate|].
  rewrite zlen_cons in H. destruct pt as [|x pt]; [unfold zlen in H; cbn in H; lia|].
  rewrite zlen_cons in H.
  assert (G : forall y, safe (bind (extractN xm gps pt) (fun r => match r with Some xs => Ok (Some (y :: xs)) | None => Ok None end))).
  { intros y. apply safe_bind. apply IH; lia. intros [|] _; discriminate. }
  destruct xm; auto; (apply safe_bind; [apply bounds_safe|]); intros [a b] _; auto.
  destruct (outside a b x); auto. discriminate.
Qed.

Lemma extract1_safe xm vv alloc gps : forall pt out, zlen gps <= zlen pt -> safe (extract1 xm vv alloc gps pt out).
Proof.
  induction gps as [|gp gps IH]; intros pt out H; cbn; [discriminate|].
  rewrite zlen_cons in H. destruct pt as [|x pt]; [unfold zlen in H; cbn in H; lia|].
  rewrite zlen_cons in H.
  assert (G : forall y o, safe (bind (extract1 xm vv alloc gps pt o) (fun r => match r with Go1 xs out' => Ok (Go1 (y :: xs) out') | Ret1 v out' => Ok (Ret1 v out') end))).
  { intros y o. apply safe_bind. apply IH; lia. intros [|] _; discriminate. }
  destruct xm; auto; (apply safe_bind; [apply bounds_safe|]); intros [a b] _; auto.
  destruct (outside a b x); auto. destruct vv; [|discriminate]. destruct out; [|discriminate].
  destruct alloc; [discriminate|auto].
Qed.

Lemma extract1_shape xm vv alloc gps : forall pt out xs out' sh,
  extract1 xm vv alloc gps pt out = Ok (Go1 xs out') ->
  (forall o, out = Some o -> ashape o = sh) -> (forall o, out' = Some o -> ashape o = sh).
Proof.
  induction gps as [|gp gps IH]; intros pt out xs out' sh H Ho; cbn in H.
  - inversion H; subst; auto.
  - destruct pt as [|x pt]; [discriminate|].
    assert (G : forall y o, bind (extract1 xm vv alloc gps pt o) (fun r => match r with Go1 xs out' => Ok (Go1 (y :: xs) out') | Ret1 v out' => Ok (Ret1 v out') end) = Ok (Go1 xs out') ->
       (forall o1, o = Some o1 -> ashape o1 = sh) -> (forall o, out' = Some o -> ashape o = sh)).
    { intros y o Hy Ho'. apply bind_ok in Hy as [r [Hr Hy]]. destruct r; inversion Hy; subst. eauto. }
    destruct xm.
    + apply bind_ok in H as [[a b] [_ H]]. destruct (outside a b x); [|eauto].
      destruct vv; [|discriminate]. destruct out as [o|]; [|discriminate].
      destruct alloc; [discriminate|]. eapply G; eauto. intros o1 E1. inversion E1; subst. cbn. auto.
    + eauto.
    + apply bind_ok in H as [[a b] [_ H]]. eauto.
Qed.

Lemma mapM2_bracket_safe grid gps xs :
  Forall2 gp_of grid gps -> grid_sizes_ok grid -> safe (mapM2 bracket gps xs).
Proof.
  intros H Hs. apply safe_mapM2. intros gp x Hgp _.
  assert (exists g, In g grid /\ gp_of g gp).
  { clear -H Hgp. induction H; cbn in *; [tauto|]. destruct Hgp as [<-|Hgp]; eauto.
    destruct (IHForall2 Hgp) as [g [? ?]]; eauto. }
  destruct H0 as [g [Hg Hgp']]. unfold grid_sizes_ok in Hs. rewrite Forall_forall in Hs.
  eapply bracket_safe; eauto.
Qed.

Lemma aset_safe (a : arr) idx v : inb (ashape a) idx = true -> safe (aset a idx v).
Proof. intros. now rewrite aset_ok. Qed.

Lemma store_all_safe pre vals (o : arr) n :
  zlen vals = n -> (forall j, 0 <= j < n -> inb (ashape o) (pre ++ [j]) = true) ->
  safe (store_all pre vals o).
Proof.
  intros Hn Hin. unfold store_all.
  apply safe_foldM with (I := fun s => ashape s = ashape o); auto.
  intros s [j v] Hj Hs. apply enum_from_In in Hj. cbn [fst snd].
  assert (inb (ashape s) (pre ++ [j]) = true) by (rewrite Hs; apply Hin; lia).
  split. now apply aset_safe. intros s' E. rewrite aset_ok in E by auto. inversion E; subst. exact Hs.
Qed.

Theorem eval_memory_safe k orders xm grid comps C points out :
  coefs_ok k grid comps C -> grid_sizes_ok grid -> orders_ok grid orders -> points_ok grid points ->
  (forall o, out = Some o ->
     match points with
     | P1 _ => ashape o = result_shape comps orders \/ (comps = [] /\ orders = None)
     | P2 a => ashape o = hd 0 (ashape a) :: result_shape comps orders
     end) ->
  eval_spline k orders xm grid C points out <> Err IndexErr.
Proof.
  intros HC Hsz Hor Hpt Hout.
  destruct (comps_nvals k grid comps C orders HC) as [E1 [E2 [E3 E4]]].
  destruct HC as [HCs HCc].
  assert (Hcv : match comps with [] => True | _ => comps = [nvals comps] end).
  { destruct HCc as [->|[nx [-> _]]]; cbn; auto. }
  destruct points as [pt|a]; cbn [eval_spline] in *.
  - unfold eval_point. change (safe ?x) with (x <> Err IndexErr).
    apply safe_bind; [now apply compile_check_safe|]. intros [] _.
    apply safe_bind; [destruct (_ && _); discriminate|]. intros [] _.
    apply safe_bind; [destruct xm; try discriminate; destruct orders; try discriminate; destruct (_ && _); discriminate|].
    intros [] _. rewrite E1; cbn [bind]. rewrite E4.
    apply safe_bind; [apply safe_mapM; intros; apply recover1_safe|]. intros gps Hg.
    assert (Hgp : Forall2 gp_of grid gps) by (eapply Forall2_gp_mapM; eauto; apply recover1_gp).
    apply safe_bind. { apply extract1_safe. apply mapM_length in Hg. unfold points_ok, zlen in *. lia. }
    intros co Hco. destruct co as [xs out1|]; [|discriminate].
    apply safe_bind; [eapply mapM2_bracket_safe; eauto|]. intros brs Hbrs.
    assert (Hfit : Forall2 (br_fits k) grid brs) by (eapply mapM2_bracket_fits; eauto).
    assert (Hout1 : (comps <> [] \/ orders <> None) -> forall o, out1 = Some o -> ashape o = result_shape comps orders).
    { intros Hc. eapply extract1_shape; eauto. intros o Eo. destruct out as [o0|].
      - inversion Eo; subst. destruct (Hout o eq_refl) as [|[? ?]]; auto. destruct Hc; congruence.
      - destruct HCc as [->|[nx [-> _]]]; destruct orders; inversion Eo; reflexivity. }
    destruct comps as [|c cs].
    + destruct orders as [os|].
      * apply safe_bind.
        { apply safe_mapM. intros oo _. eapply get_value_safe; eauto; reflexivity. }
        intros vals Hvals. destruct out; [|discriminate]. destruct out1 as [o1|]; [|discriminate].
        apply safe_bind; [|discriminate]. apply store_all_safe with (n := zlen os).
        { apply mapM_length in Hvals. unfold zlen; lia. }
        intros j Hj. rewrite (Hout1 ltac:(right; discriminate) o1 eq_refl). cbn. rewrite !andb_true_iff; lia.
      * apply safe_bind; [eapply get_value_safe; eauto; reflexivity|]. discriminate.
    + destruct out1 as [o1|]; [|discriminate].
      specialize (Hout1 ltac:(left; discriminate) o1 eq_refl).
      rewrite Hcv in HCs, Hout1. cbn [nvals] in *.
      apply safe_bind.
      * destruct orders as [os|].
        -- apply safe_foldM with (I := fun s => ashape s = ashape o1); auto.
           intros s ix Hix Hs. apply zrange_In in Hix. split.
           ++ apply safe_bind.
              { apply safe_mapM. intros oo _. eapply get_value_safe; eauto; cbn; rewrite !andb_true_iff; lia. }
              intros vals Hvals. apply store_all_safe with (n := zlen os).
              { apply mapM_length in Hvals. unfold zlen; lia. }
              intros j Hj. rewrite Hs, Hout1. cbn. rewrite !andb_true_iff; lia.
           ++ intros s' E. apply bind_ok in E as [vals [_ E]]. apply store_all_inv in E. congruence.
        -- apply safe_foldM with (I := fun s => ashape s = ashape o1); auto.
           intros s ix Hix Hs. apply zrange_In in Hix. split.
           ++ apply safe_bind.
              { eapply get_value_safe; eauto; cbn; rewrite !andb_true_iff; lia. }
              intros v Hv. apply aset_safe. rewrite Hs, Hout1. cbn. rewrite !andb_true_iff; lia.
           ++ intros s' E. apply bind_ok in E as [v [_ E]]. apply aset_inv in E as [_ ->]. exact Hs.
      * intros o' _. destruct out; discriminate.
  - destruct Hpt as [N [p [Hp [HN Hd]]]].
    unfold eval_rows.
    apply safe_bind; [now apply compile_check_safe|]. intros [] _.
    unfold adim at 1. rewrite Hp. change (lget [N; p] 0) with (@Ok Z N). cbn [bind].
    rewrite E1; cbn [bind]. rewrite E4.
    apply safe_bind.
    { destruct out; [discriminate|]. unfold allocate_output. rewrite E4.
      destruct HCc as [->|[nx [-> Hnx]]].
      - destruct orders; discriminate.
      - assert (HC' : coefs_ok k grid [nx] C) by (split; eauto).
        destruct (comps_facts _ _ _ _ HC') as [[? _]|[nx' [X [_ [_ [_ E6]]]]]]; [discriminate|].
        rewrite E6. destruct orders; discriminate. }
    intros o Ho.
    assert (So : ashape o = N :: result_shape comps orders).
    { destruct out as [o0|].
      - inversion Ho; subst. specialize (Hout o eq_refl). now rewrite Hp in Hout.
      - unfold allocate_output in Ho. rewrite E4 in Ho.
        destruct HCc as [->|[nx [-> Hnx]]].
        + destruct orders; inversion Ho; reflexivity.
        + assert (HC' : coefs_ok k grid [nx] C) by (split; eauto).
          destruct (comps_facts _ _ _ _ HC') as [[? _]|[nx' [X [_ [_ [_ E6]]]]]]; [discriminate|].
          inversion X; subst nx'. rewrite E6 in Ho. destruct orders; inversion Ho; reflexivity. }
    apply safe_bind.
    { apply safe_mapM. intros g Hg. apply recoverN_safe. unfold grid_sizes_ok in Hsz.
      rewrite Forall_forall in Hsz. auto. }
    intros gps Hg.
    assert (Hgp : Forall2 gp_of grid gps) by (eapply Forall2_gp_mapM; eauto; apply recoverN_gp).
    apply safe_bind; [|intros o' _; destruct out; discriminate].
    apply safe_foldM with (I := fun s => ashape s = N :: result_shape comps orders); auto.
    intros s nn Hnn Hs. apply zrange_In in Hnn. split.
    2:{ intros s' E. rewrite <- E4 in E. apply eval_row_shape in E. congruence. }
    unfold eval_row. erewrite row_value by eauto. cbn [bind].
    apply safe_bind.
    { apply extractN_safe. apply mapM_length in Hg. unfold row_of. rewrite zlen_map, zlen_zrange by apply zlen_nonneg.
      unfold zlen in *; lia. }
    intros co Hco. destruct co as [xs|].
    2:{ unfold afill_row0. rewrite Hs. replace ((0 <=? nn) && (nn <? N)) with true by lia. discriminate. }
    apply safe_bind; [eapply mapM2_bracket_safe; eauto|]. intros brs Hbrs.
    assert (Hfit : Forall2 (br_fits k) grid brs) by (eapply mapM2_bracket_fits; eauto).
    destruct comps as [|c cs].
    + destruct orders as [os|].
      * apply safe_bind.
        { apply safe_mapM. intros oo _. eapply get_value_safe; eauto; reflexivity. }
        intros vals Hvals. apply store_all_safe with (n := zlen os).
        { apply mapM_length in Hvals. unfold zlen; lia. }
        intros j Hj. rewrite Hs. cbn. rewrite !andb_true_iff; lia.
      * apply safe_bind; [eapply get_value_safe; eauto; reflexivity|].
        intros v _. apply aset_safe. rewrite Hs. cbn. rewrite !andb_true_iff; lia.
    + rewrite Hcv in HCs, Hs. cbn [nvals] in *.
      destruct orders as [os|].
      * apply safe_foldM with (I := fun s0 => ashape s0 = ashape s); auto.
        intros s0 ix Hix Hs0. apply zrange_In in Hix. split.
        -- apply safe_bind.
           { apply safe_mapM. intros oo _. eapply get_value_safe; eauto; cbn; rewrite !andb_true_iff; lia. }
           intros vals Hvals. apply store_all_safe with (n := zlen os).
           { apply mapM_length in Hvals. unfold zlen; lia. }
           intros j Hj. rewrite Hs0, Hs. cbn. rewrite !andb_true_iff; lia.
        -- intros s' E. apply bind_ok in E as [vals [_ E]]. apply store_all_inv in E. congruence.
      * apply safe_foldM with (I := fun s0 => ashape s0 = ashape s); auto.
        intros s0 ix Hix Hs0. apply zrange_In in Hix. split.
        -- apply safe_bind.
           { eapply get_value_safe; eauto; cbn; rewrite !andb_true_iff; lia. }
           intros v Hv. apply aset_safe. rewrite Hs0, Hs. cbn. rewrite !andb_true_iff; lia.
        -- intros s' E. apply bind_ok in E as [v [_ E]]. apply aset_inv in E as [_ ->]. exact Hs0.
Qed.

End Gen.
