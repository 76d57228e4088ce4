(** The prefilter over the reals, in any supported dimension: result as iterated 1-d natural
    spline solves. *)
From Coq Require Import ZArith List Bool Reals Lia Lra Psatz ZifyBool.
From Verif Require Import Base BaseFacts SplineModel Spec PrefilterModel PrefilterGeneric PrefilterPass
  EvalR RSum SolverR.
Import ListNotations.
Open Scope R_scope.

(** Solve along the first direction, then along the others. *)
Fixpoint PF (ns : list Z) (D : list Z -> R) (idx : list Z) : R :=
  match ns, idx with
  | n :: rest, i :: r => PF rest (fun r' => solR n (fun j => D (j :: r')) i) r
  | _, _ => D idx
  end.

Definition big (ns : list Z) := Forall (fun m => (2 <= m)%Z) ns.

Lemma PF_ext ns : big ns -> forall D D' idx,
  (forall j, inb ns j = true -> D j = D' j) -> inb (all2 ns) idx = true -> PF ns D idx = PF ns D' idx.
Proof.
  intros H; induction H as [|n ns Hn H IH]; intros D D' [|i idx] HD Hi; try discriminate; cbn.
  - apply HD; auto.
  - cbn in Hi. apply andb_true_iff in Hi as [Hi1 Hi2]. apply IH; auto.
    intros j Hj. apply solR_ext; auto; try lia. intros k Hk. apply HD. cbn. rewrite Hj. lia.
Qed.

Lemma pass_after_R C src del M pre post suf comps C' A ip :
  (2 <= M)%Z -> del <> 0 ->
  pass_after C src del M pre post suf C' ->
  inb comps suf = true ->
  (forall ip iq, inb (all2 pre) ip = true -> inb (M :: post) iq = true -> rd src C (ip ++ iq ++ suf) = A (ip ++ iq)) ->
  inb (all2 pre) ip = true ->
  forall i iq, (0 <= i < M + 2)%Z -> inb post iq = true ->
    acell C' (ip ++ i :: iq ++ suf) = solR M (fun j => A (ip ++ j :: iq)) i.
Proof.
  intros HM Hd (HS & HA & _) Hs HAeq Hip i iq Hi Hiq.
  assert (L : length ip = length pre) by (apply inb_length in Hip; unfold all2 in Hip; now rewrite map_length in Hip).
  assert (Hidx : inb (map (fun m => m + 2)%Z pre ++ post) (ip ++ iq) = true).
  { rewrite inb_app by (rewrite map_length; auto). unfold all2 in Hip. now rewrite Hip, Hiq. }
  destruct (sol_natural M del (fun j => rd src C (line (length pre) suf (ip ++ iq) j)) HM Hd) as [g [E _]].
  specialize (HA (ip ++ iq) g i Hidx E Hi). rewrite <- L, line_app in HA. rewrite HA.
  rewrite (sol_solR M del _ g HM Hd E i Hi). apply solR_ext; auto.
  intros j Hj. rewrite <- L, line_app. rewrite <- (HAeq ip (j :: iq)); auto.
  cbn. rewrite Hiq. lia.
Qed.

Lemma pass_frame (C C' : arr R) src del M pre post suf :
  pass_after C src del M pre post suf C' -> frame (length (pre ++ M :: post)) suf C C'.
Proof. intros (_ & _ & F) j Hj. apply F. intros. eapply line_frame; eauto. Qed.

Lemma inb_split sh1 sh2 idx : inb (sh1 ++ sh2) idx = true ->
  exists a b, idx = a ++ b /\ inb sh1 a = true /\ inb sh2 b = true.
Proof.
  intros H. pose proof (inb_length _ _ H) as L. rewrite app_length in L.
  exists (firstn (length sh1) idx), (skipn (length sh1) idx). rewrite firstn_skipn. split; auto.
  rewrite <- (firstn_skipn (length sh1) idx) in H. rewrite inb_app in H by (rewrite firstn_length; lia).
  now apply andb_true_iff in H.
Qed.

Section Passes.
Variables (D : arr R) (suf comps : list Z).
Hypothesis Hs : inb comps suf = true.

(** [step del M src don rest nc C] stands for either generation of the pass. *)
Variable step : R -> Z -> option (arr R) -> list Z -> list Z -> Z -> arr R -> res (arr R).
Hypothesis step_ok : forall del M src pre post C, (2 <= M)%Z -> del <> 0 ->
  ashape C = all2 pre ++ (M + 2)%Z :: all2 post ++ comps ->
  (forall D, src = Some D -> src_ok src C (length pre) suf (all2 pre ++ post) M) ->
  exists C', step del M src pre post (M + 2)%Z C = Ok C' /\ pass_after C src del M pre post suf C'.

Variable delta : Z -> res R.
Fixpoint passes (don todo : list Z) (C : arr R) : res (arr R) :=
  match todo with
  | [] => Ok C
  | M :: rest =>
      let k := zlen don in
      del <- delta k ;;
      nc <- adim C k ;;
      C <- step del M (match don with [] => Some D | _ => None end) don rest nc C ;;
      passes (don ++ [M]) rest C
  end.

Lemma passes_R todo : big todo -> forall don C A,
  (forall k, (zlen don <= k < zlen (don ++ todo))%Z -> exists del, delta k = Ok del /\ del <> 0) ->
  ashape C = all2 (don ++ todo) ++ comps ->
  (don = [] -> ashape D = todo ++ comps) ->
  (forall ip iq, inb (all2 don) ip = true -> inb todo iq = true ->
     acell (match don with [] => D | _ => C end) (ip ++ iq ++ suf) = A (ip ++ iq)) ->
  don ++ todo <> [] ->
  exists C', passes don todo C = Ok C' /\ ashape C' = ashape C /\
    (forall ip idx, inb (all2 don) ip = true -> inb (all2 todo) idx = true ->
       acell C' (ip ++ idx ++ suf) = PF todo (fun r => A (ip ++ r)) idx) /\
    frame (length (don ++ todo)) suf C C'.
Proof.
  intros HT. induction HT as [|M rest HM HT IH]; intros don C A Hdel HS HD HA HN.
  - cbn. exists C. split; auto. split; auto. split; [|intros ? ?; auto].
    intros ip [|] H1 H2; try discriminate. rewrite app_nil_r in HN. destruct don; [congruence|].
    rewrite <- HA; auto.
  - cbn [passes].
    destruct (Hdel (zlen don)) as [del [Ed Hd0]].
    { rewrite zlen_app, zlen_cons. pose proof (Zle_0_nat (length rest)). unfold zlen. lia. }
    rewrite Ed. cbn [bind].
    assert (HS' : ashape C = all2 don ++ (M + 2)%Z :: all2 rest ++ comps).
    { rewrite HS. unfold all2. rewrite map_app, <- app_assoc. reflexivity. }
    rewrite <- (zlen_all2 don). rewrite (adim_mid C _ _ _ HS'). cbn [bind].
    destruct (step_ok del M (match don with [] => Some D | _ => None end) don rest C HM Hd0 HS') as [C1 [E1 P1]].
    { intros D0 ED. destruct don; [|discriminate]. eapply src_first; eauto. }
    rewrite E1. cbn [bind]. pose proof P1 as P1'. destruct P1 as (S1 & _).
    set (A1 := fun idx => acell C1 (idx ++ suf)).
    assert (HC1 : forall ip i iq, inb (all2 don) ip = true -> (0 <= i < M + 2)%Z -> inb rest iq = true ->
       A1 (ip ++ i :: iq) = solR M (fun j => A (ip ++ j :: iq)) i).
    { intros ip i iq H1 H2 H3. unfold A1. rewrite <- app_assoc. cbn [app].
      eapply pass_after_R; eauto.
      intros ip' iq' H4 H5. rewrite <- HA by auto. unfold rd. destruct don; auto. }
    destruct (IH (don ++ [M]) C1 A1) as [C2 (E2 & S2 & V2 & F2)].
    + intros k Hk. apply Hdel. rewrite <- app_assoc in Hk. unfold zlen in *. rewrite !app_length in *. cbn [length app] in *. lia.
    + rewrite S1, HS, <- app_assoc. reflexivity.
    + intros E; destruct don; discriminate.
    + intros ip iq _ _. unfold A1. rewrite <- app_assoc. destruct don; reflexivity.
    + destruct don; discriminate.
    + exists C2. split; auto. split; [congruence|]. split.
      * intros ip [|i idx] H1 H2; [discriminate|]. cbn in H2. apply andb_true_iff in H2 as [H2 H3].
        specialize (V2 (ip ++ [i]) idx). rewrite <- !app_assoc in V2. cbn [app] in V2 |- *.
        rewrite V2; auto.
        -- cbn [PF]. apply PF_ext; auto. intros j Hj. rewrite <- app_assoc. cbn [app].
           apply HC1; auto. lia.
        -- unfold all2. rewrite map_app. rewrite inb_app; [|symmetry; now apply inb_length].
           unfold all2 in H1. rewrite H1. cbn. lia.
      * intros j Hj. rewrite F2, (pass_frame _ _ _ _ _ _ _ _ P1' j); auto.
        intros idx Hi. apply Hj. now rewrite <- app_assoc in Hi.
Qed.
End Passes.

Lemma big1 ns : big ns -> Forall (fun m => 1 <= m)%Z ns.
Proof. apply Forall_impl. intros; lia. Qed.

Lemma filter_passes_eq d dinvs D suf don todo C :
  filter_passes d dinvs D suf don todo C =
  passes D (fun del M src pre post nc C => filter_pass del M src pre post suf nc C)
    (fun k => lget dinvs (pass_dinv d k)) don todo C.
Proof.
  revert don C; induction todo; intros; cbn; auto.
  apply bind_ext; intros. apply bind_ext; intros. apply bind_ext; intros. auto.
Qed.

Lemma filter_passes_old_eq dinvs D don todo C :
  filter_passes_old dinvs D don todo C =
  passes D filter_pass_old (fun k => lget dinvs k) don todo C.
Proof.
  revert don C; induction todo; intros; cbn; auto.
  apply bind_ext; intros. apply bind_ext; intros. apply bind_ext; intros. auto.
Qed.

Lemma step_new suf comps del M src pre post C : inb comps suf = true -> (2 <= M)%Z -> del <> 0 ->
  ashape C = all2 pre ++ (M + 2)%Z :: all2 post ++ comps ->
  (forall D, src = Some D -> src_ok src C (length pre) suf (all2 pre ++ post) M) ->
  exists C', filter_pass del M src pre post suf (M + 2)%Z C = Ok C' /\ pass_after C src del M pre post suf C'.
Proof.
  intros Hs HM Hd HS Hsrc. apply filter_pass_ok with (comps := comps); auto; try lia.
  intros idx _. destruct (sol_natural M del (fun j => rd src C (line (length pre) suf idx j)) HM Hd) as [g [E _]]. eauto.
Qed.

(** The older generation of the same pass. *)
Lemma find_old_t del data dv (C : arr R) ln M :
  (1 <= M)%Z -> (forall i, (0 <= i < M)%Z -> data i = Ok (dv i)) ->
  line_ok (ashape C) ln (M + 2) ->
  resrel (fun C' g => True /\ Ln C ln (M + 2) C' g) (find_coefs_1d_old del M data C ln (M + 2)) (sol M del dv).
Proof.
  intros HM HD HL.
  pose proof (find_coefs_t del data dv C ln (azeros [(M + 2)%Z; 4%Z]) M HM eq_refl HD HL) as H.
  unfold find_coefs_1d_old. unfold find_coefs_1d in H.
  change (adim (azeros [(M + 2)%Z; 4%Z]) 0) with (@Ok Z (M + 2)%Z) in H. cbn [bind] in H. cbv zeta in H.
  replace (M + 2 - 2)%Z with M in H by lia.
  destruct (fill_bands del data M (azeros [(M + 2)%Z; 4%Z])); cbn [bind] in H |- *.
  - destruct (solve_deriv_interp_1d a C ln (M + 2)), (sol M del dv); cbn in H |- *; auto. tauto.
  - destruct (sol M del dv); cbn in H |- *; auto.
Qed.

Lemma step_old del M src pre post C : (2 <= M)%Z -> del <> 0 ->
  ashape C = all2 pre ++ (M + 2)%Z :: all2 post ++ [] ->
  (forall D, src = Some D -> src_ok src C (length pre) [] (all2 pre ++ post) M) ->
  exists C', filter_pass_old del M src pre post (M + 2)%Z C = Ok C' /\ pass_after C src del M pre post [] C'.
Proof.
  intros HM Hd HS Hsrc. unfold filter_pass_old.
  assert (Hln : forall idx, line_ok (ashape C) (line (length pre) [] idx) (M + 2) \/
     inb (map (fun m => (m + 2)%Z) pre ++ post) idx <> true).
  { intros idx. destruct (inb (map (fun m => (m + 2)%Z) pre ++ post) idx) eqn:E; [left|right; discriminate].
    rewrite HS. apply line_ok_line with (post := post); auto. unfold all2. now rewrite map_length. }
  destruct (loop_ok (arr R) (fun C => C) (fun _ => True)
     (fun idx C =>
       let ln i := firstn (length pre) idx ++ [i] ++ skipn (length pre) idx in
       let data i := aget (match src with Some D => D | None => C end) (ln i) in
       find_coefs_1d_old del M data C ln (M + 2)%Z)
     (ashape C) (map (fun m => (m + 2)%Z) pre ++ post) [] (length pre) M del src) with (s0 := C)
     as [C' [E (_ & S' & A & F)]]; auto; try lia.
  - intros idx Cc Hi _ HSc. cbv zeta.
    set (ln' := fun i : Z => firstn (length pre) idx ++ [i] ++ skipn (length pre) idx).
    assert (El : forall i, ln' i = line (length pre) [] idx i).
    { intros i. unfold ln', line. now rewrite app_nil_r. }
    destruct (Hln idx) as [HL|]; [|contradiction].
    assert (HL' : line_ok (ashape Cc) ln' (M + 2)).
    { rewrite HSc. destruct HL as [L1 L2]. split.
      - intros i Hi2. rewrite El. auto.
      - intros i j. rewrite !El. auto. }
    eapply resrel_mono.
    + apply find_old_t; [lia| |exact HL']. intros i Hi2. fold (ln' i). rewrite El.
      eapply data_ok with (comps := []) (C := C); eauto.
    + cbv beta. intros C' g [_ (P1 & P2 & P3)]. split; auto. split; [auto|]. split.
      * intros i Hi2. rewrite <- El. auto.
      * intros j Hj. apply P3. intros i Hi2. rewrite El. auto.
  - intros idx _. unfold lres.
    destruct (sol_natural M del (fun j => rd src C (line (length pre) [] idx j)) HM Hd) as [g [E _]]. eauto.
  - cbv zeta in E. exists C'. split; [exact E|]. split; [auto|]. split.
    + intros idx g i Hi Hg Hi2. apply A; auto. now apply In_all_idx.
    + intros j Hj. apply F. intros (idx & i & H1 & H2 & ->). apply In_all_idx in H1.
      exact (Hj idx i H1 H2 eq_refl).
Qed.

(** ** Whole calls *)
Definition ok_dinv (dinvs : list R) := Forall (fun x => x <> 0) dinvs.

Lemma lget_dinv dinvs k : ok_dinv dinvs -> (0 <= k < zlen dinvs)%Z -> exists del, lget dinvs k = Ok del /\ del <> 0.
Proof.
  intros H Hk. rewrite (lget_ok dinvs k 0) by auto. eexists; split; [reflexivity|].
  unfold ok_dinv in H. rewrite Forall_forall in H. apply H. apply nth_In. unfold zlen in Hk. lia.
Qed.

Lemma mapM_dinv_R grid : valid_grid grid -> all_uniform grid ->
  exists dinvs, mapM dinv grid = Ok dinvs /\ ok_dinv dinvs /\ length dinvs = length grid.
Proof.
  intros H. induction H as [|g grid Hg H IH]; intros HU; cbn.
  - exists []. repeat split; constructor.
  - inversion HU as [|? ? U1 U2]; subst. destruct (IH U2) as (ds & E & O & L).
    destruct g as [a b n|]; [|cbn in U1; tauto].
    pose proof (gsize_IZR _ Hg) as Hn. destruct Hg as [Hn2 Hab]. cbn in Hn, Hab, Hn2.
    cbn [dinv]. change (n_ofZ n) with (IZR n). rewrite divE_R by lra. cbn [bind]. rewrite E. cbn.
    eexists; split; [reflexivity|]. split; [|cbn; congruence].
    constructor; auto. cbn. intros Z. assert (0 < (b - a) / IZR n) by (apply Rdiv_lt_0_compat; lra). lra.
Qed.

Definition supported (grid : list (gdim R)) : Prop := supported_dim grid.

Lemma filter_scalar_R grid D suf comps ns C :
  valid_grid grid -> all_uniform grid -> supported grid ->
  big ns -> length ns = length grid -> ashape D = ns ++ comps ->
  ashape C = all2 ns ++ comps -> inb comps suf = true ->
  exists C', filter_scalar grid D suf C = Ok C' /\ ashape C' = ashape C /\
    (forall idx, inb (all2 ns) idx = true ->
       acell C' (idx ++ suf) = PF ns (fun r => acell D (r ++ suf)) idx) /\
    frame (length ns) suf C C'.
Proof.
  intros Hv HU [L1 L4] HB HL HD HC Hs. unfold filter_scalar.
  replace ((zlen grid <? 1)%Z || (4 <? zlen grid)%Z) with false by (unfold zlen; lia).
  destruct (mapM_dinv_R grid Hv HU) as (ds & E & O & Ld). rewrite E. cbn [bind].
  rewrite HD, <- HL, firstn_app, firstn_all, Nat.sub_diag, firstn_O, app_nil_r.
  rewrite filter_passes_eq.
  destruct (passes_R D suf comps Hs (fun del M src pre post nc C => filter_pass del M src pre post suf nc C))
    with (delta := fun k => lget ds (pass_dinv (zlen grid) k)) (todo := ns) (don := @nil Z) (C := C)
         (A := fun r => acell D (r ++ suf)) as [C' (E' & S' & V' & F')]; auto.
  - intros. apply step_new with (comps := comps); auto.
  - intros k Hk. apply lget_dinv; auto. unfold zlen in *. unfold pass_dinv. rewrite Ld.
    destruct (_ =? 2)%Z; cbn in Hk; lia.
  - intros [|] iq H1 _; [reflexivity|discriminate].
  - cbn. intros E2. rewrite E2 in HL. cbn in HL. lia.
  - exists C'. split; auto. split; auto. split; auto. intros idx Hi. apply (V' []); auto.
Qed.

Definition comps_ok (comps : list Z) : Prop := comps = [] \/ exists nx, comps = [nx] /\ (0 <= nx)%Z.

Lemma filter_inplace_R grid D comps ns C :
  valid_grid grid -> all_uniform grid -> supported grid ->
  big ns -> length ns = length grid -> ashape D = ns ++ comps -> comps_ok comps ->
  ashape C = all2 ns ++ comps ->
  exists C', filter_inplace grid D C = Ok C' /\ ashape C' = ashape C /\
    forall idx suf, inb (all2 ns) idx = true -> inb comps suf = true ->
       acell C' (idx ++ suf) = PF ns (fun r => acell D (r ++ suf)) idx.
Proof.
  intros Hv HU HSup HB HL HD HCo HC. unfold filter_inplace, andim.
  assert (LC : zlen (ashape C) = zlen (ashape D)).
  { rewrite HC, HD. unfold zlen, all2. now rewrite !app_length, map_length. }
  rewrite LC, Z.eqb_refl.
  replace (zlen (ashape D) <? zlen grid)%Z with false.
  2: { rewrite HD. unfold zlen. rewrite app_length. lia. }
  cbn [negb orb]. rewrite HD, app_length, HL.
  replace (length grid + length comps - length grid)%nat with (length comps) by lia.
  destruct HCo as [->|[nx [-> Hnx]]]; cbn [length filter_vv].
  - destruct (filter_scalar_R grid D [] [] ns C) as [C' (E & S & V & F)]; auto.
    exists C'. split; auto. split; auto. intros idx [|] H1 H2; [|discriminate]. auto.
  - assert (EZ : zlen grid = zlen (all2 ns)) by (rewrite zlen_all2; unfold zlen; lia).
    replace (zlen grid + Z.of_nat 0)%Z with (zlen (all2 ns)) by lia.
    rewrite (adim_mid C (all2 ns) nx []) by auto. cbn [bind].
    destruct (foldM_zrange (fun C ix => filter_scalar grid D [ix] C)
       (fun n C' => ashape C' = ashape C /\
          forall idx j, inb (all2 ns) idx = true -> (0 <= j < n)%Z ->
            acell C' (idx ++ [j]) = PF ns (fun r => acell D (r ++ [j])) idx) nx C) as [C' (E & S & V)]; auto.
    + split; auto. intros; lia.
    + intros i C1 Hi (S1 & V1).
      destruct (filter_scalar_R grid D [i] [nx] ns C1) as [C2 (E2 & S2 & V2 & F2)]; auto.
      { congruence. } { cbn. lia. }
      exists C2. split; auto. split; [congruence|].
      intros idx j Hidx Hj. destruct (Z.eq_dec j i) as [->|N]; auto.
      rewrite (frame_other _ _ [j] _ _ idx F2); auto.
      * apply V1; auto. lia.
      * apply inb_length in Hidx. unfold all2 in Hidx. now rewrite map_length in Hidx.
      * congruence.
    + exists C'. split; auto. split; auto.
      intros idx suf H1 H2. destruct suf as [|j [|]]; cbn in H2; try discriminate; [|lia].
      apply V; auto. lia.
Qed.

Lemma firstn_app_len {A} (l m : list A) n : length l = n -> firstn n (l ++ m) = l.
Proof. intros <-. rewrite firstn_app, firstn_all, Nat.sub_diag, firstn_O. apply app_nil_r. Qed.
Lemma skipn_app_len {A} (l m : list A) n : length l = n -> skipn n (l ++ m) = m.
Proof. intros <-. rewrite skipn_app, skipn_all, Nat.sub_diag. reflexivity. Qed.

Lemma coef_shape_app (ns comps : list Z) n : length ns = n -> coef_shape n (ns ++ comps) = all2 ns ++ comps.
Proof. intros H. unfold coef_shape. rewrite firstn_app_len, skipn_app_len by auto. reflexivity. Qed.

Lemma filter_alloc_R grid D comps ns :
  valid_grid grid -> all_uniform grid -> supported grid ->
  big ns -> length ns = length grid -> ashape D = ns ++ comps -> comps_ok comps ->
  exists C', filter_alloc grid D = Ok C' /\ ashape C' = all2 ns ++ comps /\
    forall idx suf, inb (all2 ns) idx = true -> inb comps suf = true ->
       acell C' (idx ++ suf) = PF ns (fun r => acell D (r ++ suf)) idx.
Proof.
  intros Hv HU HSup HB HL HD HCo. pose proof HSup as [L1 L4]. unfold filter_alloc.
  replace ((zlen grid <? 1)%Z || (4 <? zlen grid)%Z) with false by (unfold zlen; lia).
  unfold andim.
  replace ((zlen (ashape D) =? zlen grid)%Z || (zlen (ashape D) =? zlen grid + 1)%Z) with true.
  2: { rewrite HD, zlen_app. unfold zlen. rewrite HL. destruct HCo as [->|[nx [-> _]]]; cbn; lia. }
  rewrite HD, coef_shape_app by auto.
  exact (filter_inplace_R grid D comps ns (azeros (all2 ns ++ comps)) Hv HU HSup HB HL HD HCo eq_refl).
Qed.

Lemma filter_data_R dinvs D :
  ok_dinv dinvs -> (1 <= length dinvs <= 4)%nat -> big (ashape D) -> length (ashape D) = length dinvs ->
  exists C', filter_data dinvs D = Ok (Some C') /\ ashape C' = all2 (ashape D) /\
    forall idx, inb (all2 (ashape D)) idx = true -> acell C' idx = PF (ashape D) (acell D) idx.
Proof.
  intros HO [L1 L4] HB HL. unfold filter_data.
  replace ((zlen dinvs <? 1)%Z || (4 <? zlen dinvs)%Z) with false by (unfold zlen; lia).
  unfold andim. replace (zlen (ashape D) =? zlen dinvs)%Z with true by (unfold zlen; lia). cbn [negb].
  rewrite filter_passes_old_eq.
  destruct (passes_R D [] [] eq_refl filter_pass_old)
    with (delta := fun k => lget dinvs k) (todo := ashape D) (don := @nil Z) (C := azeros (map (fun n => (n + 2)%Z) (ashape D)) : arr R)
         (A := fun r => acell D r) as [C' (E' & S' & V' & F')]; auto.
  - intros. apply step_old; auto.
  - intros k Hk. apply lget_dinv; auto. unfold zlen in *. cbn in Hk. lia.
  - cbn. now rewrite app_nil_r.
  - intros _. now rewrite app_nil_r.
  - intros [|] iq H1 _; [|discriminate]. cbn. now rewrite app_nil_r.
  - cbn. intros E. rewrite E in HL. cbn in HL. lia.
  - rewrite E'. cbn. exists C'. split; auto. split; auto. intros idx Hi.
    specialize (V' [] idx eq_refl Hi). cbn in V'. now rewrite app_nil_r in V'.
Qed.
