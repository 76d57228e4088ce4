(** The generated functions do what [eval_spline] of SplineModel.v says, for any number of dimensions. *)
From Coq Require Import ZArith List Bool String Lia ZifyBool.
From Verif Require Import Base BaseFacts SplineModel EvalMaster PySyntax PySem PySemFacts SpecText GenModel GenNames GenPhase GenBlocks GenReduce GenParts GenRefine GenCall SpecGen.
Import ListNotations.
Open Scope list_scope.
Open Scope Z_scope.
Open Scope num_scope.

Section Main.
Context {T : Type} {NT : Num T}.
Variable fuel : nat.
Notation G := (namespace (T := T)).
Notation call := (library (T := T)).
Notation eval := (eval G call).
Notation block := (block G call fuel).
Notation goes := (goes G call fuel).
Implicit Types (E : env T) (h : heap T).

Lemma array_reads h v (a : arr T) : holds_array h v a -> reads h v a.
Proof.
  unfold reads, array_of. destruct v; cbn; try contradiction.
  - intros [-> H]. unfold hget. now rewrite H.
  - now intros ->.
Qed.
Lemma array_new h v (a : arr T) o : holds_array h v a -> holds_array (h ++ [o]) v a /\ elsewhere (List.length h) v.
Proof.
  destruct v; cbn; auto. intros [-> H]. assert (l < List.length h)%nat by (apply nth_error_Some; congruence).
  split; [split; auto; now rewrite nth_error_app1|lia].
Qed.
Lemma array_hset h l v (a : arr T) o : holds_array h v a -> elsewhere l v -> holds_array (hset h l o) v a.
Proof. destruct v; cbn; auto. intros [-> H] N. split; auto. now rewrite nth_hset_other by auto. Qed.

Lemma dims_of h gs (grid : list (gdim T)) : Forall2 (is_dim h) gs grid -> dims_ok grid gs h.
Proof.
  unfold dims_ok. induction 1 as [|v g gs grid H H' IH]; constructor; auto. destruct g; cbn in *; auto. now apply array_reads.
Qed.
Lemma dims_new h gs (grid : list (gdim T)) o : Forall2 (is_dim h) gs grid -> Forall2 (is_dim (h ++ [o])) gs grid /\ Forall (elsewhere (List.length h)) gs.
Proof.
  induction 1 as [|v g gs grid H H' [IH1 IH2]]; [split; constructor|]. destruct g; cbn in *.
  - subst. split; constructor; auto; try reflexivity; exact I.
  - destruct (array_new h v _ o H). split; constructor; auto.
Qed.
Lemma dims_hset h l gs (grid : list (gdim T)) o : Forall2 (is_dim h) gs grid -> Forall (elsewhere l) gs -> Forall2 (is_dim (hset h l o)) gs grid.
Proof.
  intros H N. induction H as [|v g gs grid H H' IH]; constructor; inversion N; subst; auto. destruct g; cbn in *; auto. now apply array_hset.
Qed.
Lemma kinds_types (grid : list (gdim T)) : kinds grid = types grid.
Proof. unfold kinds, types. apply map_ext. now intros []. Qed.

Section Args.
Variable k : Z.
Variable orders : option (list (list Z)).
Variable xm : extrap.
Variable grid : list (gdim T).
Variable C : arr T.
Variable gs : list (val T).
Variable Cv Pv outv : val T.
Notation vv := (vectors grid C).

Definition env0 : env T :=
  upd (upd (upd (upd (upd (upd (upd empty "extrap_mode" (PStr "linear")) "diff" (PStr "None")) "k" (PInt 1)) "out" outv) "points" Pv) "C" Cv) "grid" (PTup gs).
Lemma bind_ok0 h : bind_params G call gen_params [PTup gs; Cv; Pv; outv] [] h = Ok (env0, h).
Proof. reflexivity. Qed.

Lemma compile_facts : compile_check k grid orders = Ok tt -> small_orders orders -> (k = 1 \/ k = 3) /\ orders_fit orders grid.
Proof.
  unfold compile_check, orders_fit. intros H HS. destruct (existsb is_nonunif grid && (1 <? k)); [discriminate|].
  destruct (negb ((k =? 1) || (k =? 3))) eqn:K; [discriminate|]. split; [lia|]. destruct orders as [os|]; auto.
  destruct os as [|oo os]; [discriminate|]. split; [discriminate|].
  destruct (negb (forallb (fun o => zlen o =? zlen grid) (oo :: os))) eqn:F; [discriminate|]. apply negb_false_iff in F. rewrite forallb_forall in F.
  cbn [small_orders] in HS. rewrite Forall_forall in HS |- *. intros o Ho. split; [|now apply HS]. specialize (F o Ho). unfold zlen in F. lia.
Qed.

(** The beginning: [n_vals]. *)
Lemma n_vals_run h E nv : reads h Cv C -> E "C"%string = Some Cv -> (if vv then adim C (zlen grid) else Ok 0) = Ok nv ->
  exists E', goes (n_vals_set vv (types grid)) E h E' h /\ (vv = true -> E' "n_vals"%string = Some (PInt nv)) /\ forall x, x <> "n_vals"%string -> E' x = E x.
Proof.
  intros HR HC Hn. unfold n_vals_set. destruct vv.
  - exists (upd E "n_vals" (PInt nv)). split; [|split; [intros _; apply upd_same|intros; now apply upd_other]].
    eapply goes_set; [|apply goes_nil]. eapply ev_sub; [eapply ev_shape; [apply ev_name; eassumption|apply reads_dims; eassumption]|eapply subs_cons; [apply ev_int|apply subs_nil]|].
    unfold adim in Hn. apply lget_inv in Hn as [B N]. replace (zlen (types grid)) with (Z.of_nat (Z.to_nat (zlen grid))) by (unfold types, zlen; rewrite map_length; lia).
    apply tup_sub. rewrite nth_error_map, N. reflexivity.
  - exists E. split; [apply goes_nil|]. split; [discriminate|auto].
Qed.
Lemma n_vals_pos nv : Forall (fun n => 1 <= n) (ashape C) -> (if vv then adim C (zlen grid) else Ok 0) = Ok nv -> vv = true -> 1 <= nv.
Proof.
  intros HC Hn V. rewrite V in Hn. unfold adim in Hn. apply lget_inv in Hn as [_ N]. apply nth_error_In in N. rewrite Forall_forall in HC. now apply HC.
Qed.
Lemma orders_eval E h : eval E (orders_expr orders) h = Ok (match orders with None => PNone | Some os => PTup (map (fun oo => PTup (map PInt oo)) os) end, h).
Proof.
  unfold orders_expr. destruct orders as [os|]; [|reflexivity].
  assert (X : forall oo : list Z, evals G call E (map EInt oo) h = Ok (map PInt oo, h)).
  { induction oo as [|l oo IH]; [reflexivity|]. cbn [map]. now rewrite (evals_cons G call _ _ _ _ _ _ (ev_int G call E h l)), IH. }
  assert (Y : evals G call E (map (fun oo => ETup (map EInt oo)) os) h = Ok (map (fun oo => PTup (map PInt oo)) os, h)).
  { induction os as [|oo os' IH]; [reflexivity|]. cbn [map].
    assert (Z1 : eval E (ETup (map EInt oo)) h = Ok (PTup (map PInt oo), h)).
    { change (eval E (ETup (map EInt oo)) h) with ('(vs, h) <- evals G call E (map EInt oo) h ;; Ok (PTup vs, h)). now rewrite X. }
    now rewrite (evals_cons G call _ _ _ _ _ _ Z1), IH. }
  change (eval E (ETup (map (fun oo => ETup (map EInt oo)) os)) h) with ('(vs, h) <- evals G call E (map (fun oo => ETup (map EInt oo)) os) h ;; Ok (PTup vs, h)).
  now rewrite Y.
Qed.

(** *** Many points *)
Lemma st_init h l (o : arr T) : nth_error h l = Some (OF o) -> st h l o h.
Proof. intros H. exists o. split; [symmetry; now apply hset_same|apply aeq_refl]. Qed.
Lemma allocN_run (P : arr T) N o h E : reads h Cv C -> reads h Pv P -> andim P = 2 -> adim P 0 = Ok N -> List.length gs = List.length grid ->
  E "grid"%string = Some (PTup gs) -> E "C"%string = Some Cv -> E "points"%string = Some Pv -> allocate_output (zlen grid) C N orders = Ok o ->
  eval E (ECall (EName "allocate_output") [EName "grid"; EName "C"; EName "points"; orders_expr orders] []) h = Ok (PArr (List.length h) [], h ++ [OF o]).
Proof.
  intros HC HP H2 HN HL EG EC EP Ho. rewrite eval_call by discriminate.
  rewrite (evals_cons G call _ _ _ _ _ _ (ev_name G call E "grid" h _ EG)), (evals_cons G call _ _ _ _ _ _ (ev_name G call E "C" h _ EC)),
    (evals_cons G call _ _ _ _ _ _ (ev_name G call E "points" h _ EP)), (evals_one G call _ _ _ _ (orders_eval E h)). cbn [bind].
  set (ov := match orders with None => PNone | Some os => PTup (map (fun oo => PTup (map PInt oo)) os) end : val T).
  change (allocate_call (PTup gs) Cv Pv ov h = Ok (PArr (List.length h) [], h ++ [OF o])).
  unfold allocate_call. rewrite (reads_dims _ _ _ HC), (reads_dims _ _ _ HP). cbn [bind length_of]. unfold adim in HN. rewrite HN. cbn [bind].
  unfold andim in H2. rewrite H2. change (2 =? 2) with true. cbv iota.
  unfold allocate_output, andim, adim in Ho. replace (zlen gs) with (zlen grid) by (unfold zlen; lia).
  destruct (zlen (ashape C) =? zlen grid + 1).
  - apply bind_ok in Ho as (n & Hn & Ho). rewrite Hn. cbn [bind]. unfold ov. destruct orders as [os|]; injection Ho as <-; [|reflexivity].
    cbn [length_of bind]. unfold zlen. rewrite map_length. reflexivity.
  - unfold ov. destruct orders as [os|]; injection Ho as <-; [|reflexivity]. cbn [length_of bind]. unfold zlen. rewrite map_length. reflexivity.
Qed.

Theorem rows_refine (P : arr T) out v fin h :
  eval_rows k orders xm grid C P out = Ok (v, fin) -> small_orders orders -> Forall (fun n => 1 <= n) (ashape C) ->
  Forall2 (is_dim h) gs grid -> holds_array h Cv C -> holds_array h Pv P -> andim P = 2 -> is_out h outv out (Cv :: Pv :: gs) ->
  (vv = true -> match out with Some o => 2 <= andim o | None => True end) ->
  exists w h', call_body G call fuel gen_params (generated k orders xm grid C (P2 P) out) [PTup gs; Cv; Pv; outv] [] h = Ok (w, h') /\
    outcome h outv v fin w h'.
Proof.
  intros H HS HC1 HD HC HP H2 HO HR. unfold eval_rows in H. fold (vectors grid C) in H. apply bind_ok in H as ([] & Hcc & H).
  destruct (compile_facts Hcc HS) as [Hk Hord].
  apply bind_ok in H as (N & HN & H). apply bind_ok in H as (nv & Hn & H). apply bind_ok in H as (o & Ho & H).
  apply bind_ok in H as (gps & Hg & H). apply bind_ok in H as (o' & Hf & H).
  unfold generated, call_body. rewrite bind_ok0. cbn [bind]. unfold gen_body. cbn [many]. unfold bodyN. rewrite kinds_types.
  pose proof (array_reads _ _ _ HC) as RC. pose proof (array_reads _ _ _ HP) as RP.
  assert (HL : List.length gs = List.length grid) by (eapply Forall2_length; eauto).
  (* N *)
  set (E1 := upd env0 "N" (PInt N)).
  assert (R1 : goes [doc; set "N" (ESub (EAttr (EName "points") "shape") [EInt 0])] env0 h E1 h).
  { eapply goes_cons; [reflexivity|]. eapply goes_set; [|apply goes_nil].
    eapply ev_sub; [eapply ev_shape; [apply ev_name; reflexivity|apply reads_dims; eassumption]|eapply subs_cons; [apply ev_int|apply subs_nil]|].
    unfold adim in HN. apply lget_inv in HN as [_ HN]. apply (tup_sub h _ 0). rewrite nth_error_map. change (Z.to_nat 0) with 0%nat in HN. rewrite HN. reflexivity. }
  destruct (n_vals_run h E1 nv) as (E2 & R2 & N2 & F2); auto.
  assert (FX2 : forall lo, fixed vv gs Cv Pv nv false lo E2).
  { intros lo. unfold fixed. rewrite !F2 by discriminate. repeat split; auto; discriminate. }
  (* out *)
  assert (X : exists E3 h1 lo, goes (gen_allocN (fresh out) orders) E2 h E3 h1 /\ fixed vv gs Cv Pv nv true lo E3 /\ E3 "N"%string = Some (PInt N) /\
    (lo < List.length h1)%nat /\ st h1 lo o h1 /\ (vv = true -> 2 <= andim o) /\ Forall2 (is_dim h1) gs grid /\ holds_array h1 Cv C /\ holds_array h1 Pv P /\
    Forall (elsewhere lo) (Cv :: Pv :: gs) /\
    match out with None => lo = List.length h /\ h1 = h ++ [OF o] | Some _ => outv = PArr lo [] /\ h1 = h end).
  { destruct out as [om|]; cbn [is_out fresh] in *.
    - injection Ho as ->. destruct HO as (lo & Hov & Hlo & HE). exists E2, h, lo. split; [apply goes_nil|]. split; [|split; [|split; [|split; [|split; [|auto 10]]]]].
      + destruct (FX2 lo) as (A1 & A2 & A3 & A4 & A5 & A6 & _). repeat split; auto. intros _. rewrite F2 by discriminate. change (Some outv = Some (PArr lo [])). now rewrite Hov.
      + now rewrite F2 by discriminate.
      + apply nth_error_Some. congruence.
      + now apply st_init.
      + auto.
    - assert (Ro : (vv = true -> 2 <= andim o)).
      { intros V. unfold allocate_output in Ho. fold (vectors grid C) in Ho. rewrite V in Ho. apply bind_ok in Ho as (n & _ & Ho).
        destruct orders; injection Ho as <-; unfold andim, zlen; cbn; lia. }
      set (lo := List.length h). exists (upd E2 "out" (PArr lo [])), (h ++ [OF o]), lo.
      destruct (FX2 lo) as (A1 & A2 & A3 & A4 & A5 & A6 & _).
      split; [|split; [|split; [|split; [|split; [|split; [exact Ro|]]]]]].
      + unfold gen_allocN. eapply goes_set; [|apply goes_nil]. eapply allocN_run; eauto.
      + unfold fixed. rewrite !upd_other by discriminate. repeat split; auto.
      + rewrite upd_other by discriminate. now rewrite F2 by discriminate.
      + rewrite app_length. cbn. unfold lo. lia.
      + apply st_init. unfold lo. rewrite nth_error_app2, Nat.sub_diag by lia. reflexivity.
      + destruct (dims_new h gs grid (OF o) HD), (array_new h Cv C (OF o) HC), (array_new h Pv P (OF o) HP). repeat split; auto. }
  destruct X as (E3 & h1 & lo & R3 & FX3 & N3 & Hlo & S3 & Ro & D1 & C1 & P1' & El & Hout).
  inversion El as [|? ? ElC El']; subst. inversion El' as [|? ? ElP ElG]; subst.
  destruct (tailN_run G call fuel eq_refl eq_refl k vv (fresh out) xm orders grid gs C Cv Pv nv h1 lo Hk Hord P gps Hg Hlo) with (om := o) (om' := o') (N := N) (E := E3) (h := h1)
    as (E4 & h4 & R4 & S4 & FX4); auto.
  { intros om h2 (o2 & -> & _). apply array_reads. now apply array_hset. }
  { intros om h2 (o2 & -> & _). apply array_reads. now apply array_hset. }
  { intros om h2 (o2 & -> & _). apply dims_of. now apply dims_hset. }
  { intros V _. eapply n_vals_pos; eauto. }
  assert (RA : goes ([doc; set "N" (ESub (EAttr (EName "points") "shape") [EInt 0])] ++ n_vals_set vv (types grid) ++ gen_allocN (fresh out) orders ++
     flat_map (gen_recover true (types grid)) (dims (types grid)) ++
     [SFor (EName "nn") (ECall (EName "range") [EName "N"] []) (flat_map (gen_extract true vv (fresh out) xm) (dims (types grid)) ++
        gen_cell k (types grid) orders ++ gen_reduce k true vv (fresh out) (types grid) orders)]) env0 h E4 h4).
  { eapply goes_app; [exact R1|]. eapply goes_app; [exact R2|]. eapply goes_app; [exact R3|exact R4]. }
  match type of RA with GenPhase.goes _ _ _ ?l _ _ _ _ => set (pre := l) in * end.
  assert (RB : block (pre ++ return_out (fresh out)) env0 h = Ok (match out with None => Ret (PArr lo []) | Some _ => Nxt end, E4, h4)).
  { eapply block_goes; [exact RA|]. destruct out as [om|]; cbn [fresh return_out]; [reflexivity|]. rewrite block_last. cbn [PySem.exec].
    rewrite (ev_name G call E4 "out" h4 (PArr lo [])) by (apply FX4; auto). reflexivity. }
  unfold pre in RB. rewrite <- !app_assoc in RB. rewrite RB. cbn [bind]. clear RA RB pre R1 R2 R3 R4.
  destruct out as [om|]; injection H as <- <-.
  - destruct Hout as [-> ->]. exists PNone, h4. split; [reflexivity|]. cbn [outcome]. split; auto. destruct S4 as (o4 & -> & A4). eauto.
  - destruct Hout as [-> ->]. exists (PArr (List.length h) []), h4. split; [reflexivity|]. cbn [is_out] in HO. rewrite HO. cbn [outcome].
    destruct S4 as (o4 & -> & A4). exists o4. split; auto. split; auto. apply hset_app.
Qed.

(** *** One point *)
Lemma alloc1_run E h nv : (vv = true -> E "n_vals"%string = Some (PInt nv)) ->
  exists E', goes (gen_alloc1 vv true orders) E h E' (h ++ match (if vv then match orders with None => Some (azeros [nv]) | Some os => Some (azeros [nv; zlen os]) end
      else match orders with None => None | Some os => Some (azeros [zlen os]) end) with Some o => [OF o] | None => [] end) /\
    (forall x, x <> "out"%string -> E' x = E x) /\
    (vv = true \/ orders <> None -> E' "out"%string = Some (PArr (List.length h) [])).
Proof.
  intros Hn. unfold gen_alloc1, zeros_call.
  assert (A : forall e z, eval E e h = Ok (z, h) -> forall s, shape_of z = Ok s -> eval E (ECall (EName "zeros") [e] []) h = Ok (PArr (List.length h) [], h ++ [OF (azeros s)])).
  { intros e z He s Hs. eapply ev_call1; [discriminate|exact He|]. cbn -[shape_of]. rewrite Hs. reflexivity. }
  destruct vv.
  - destruct orders as [os|].
    + eexists. split; [|split; [intros; apply upd_other; eassumption|intros _; apply upd_same]].
      eapply goes_set; [|apply goes_nil]. apply (A _ (PTup [PInt nv; PInt (zlen os)])); [|reflexivity].
      change (eval E (ETup [EName "n_vals"; EInt (zlen os)]) h) with ('(vs, h) <- evals G call E [EName "n_vals"; EInt (zlen os)] h ;; Ok (PTup vs, h)).
      rewrite (evals_two G call _ _ _ _ _ _ (ev_name G call E "n_vals" h _ (Hn eq_refl)) (ev_int G call E h (zlen os))). reflexivity.
    + eexists. split; [|split; [intros; apply upd_other; eassumption|intros _; apply upd_same]].
      eapply goes_set; [|apply goes_nil]. apply (A _ (PInt nv)); [apply ev_name; auto|reflexivity].
  - destruct orders as [os|].
    + eexists. split; [|split; [intros; apply upd_other; eassumption|intros _; apply upd_same]].
      eapply goes_set; [|apply goes_nil]. apply (A _ (PInt (zlen os))); [apply ev_int|reflexivity].
    + exists E. rewrite app_nil_r. split; [apply goes_nil|]. split; auto. intros [X|X]; congruence.
Qed.

Lemma extract1_ret al : forall gps pt oc v o, extract1 xm vv al gps pt oc = Ok (Ret1 v o) ->
  xm = XConstant /\ (if vv then al = true /\ exists a, v = VArr a else v = VNum (n_ofZ 0)).
Proof.
  induction gps as [|gp gps IH]; intros [|x pt] oc v o H; try discriminate. cbn [extract1] in H.
  assert (Q : forall y oc, (r <- extract1 xm vv al gps pt oc ;; match r with Go1 xs out' => Ok (Go1 (y :: xs) out') | Ret1 v out' => Ok (Ret1 v out') end) = Ok (Ret1 v o) ->
    xm = XConstant /\ (if vv then al = true /\ exists a, v = VArr a else v = VNum (n_ofZ 0))).
  { intros y oc1 H1. apply bind_ok in H1 as (c & Hc & H1). destruct c; [discriminate|]. injection H1 as -> ->. eauto. }
  destruct xm; eauto.
  - apply bind_ok in H as ([a b] & _ & H). destruct (outside a b x); eauto. destruct vv.
    + destruct oc as [om|]; [|discriminate]. destruct al; eauto. injection H as <- <-. eauto.
    + injection H as <- <-. auto.
  - apply bind_ok in H as ([a b] & _ & H). eauto.
Qed.
Lemma rest_kind al gps pt nv oc v fin : point_rest k vv al xm orders C nv pt gps oc = Ok (v, fin) ->
  match v with
  | VArr _ => vv = true /\ al = true
  | VNum _ => vv = false /\ (orders = None \/ xm = XConstant)
  | VTuple _ => vv = false /\ al = true /\ orders <> None
  | VNone => al = false
  end.
Proof.
  unfold point_rest. intros H. apply bind_ok in H as (co & Hco & H). destruct co as [xs out1|v0 o0].
  - apply bind_ok in H as (brs & Hb & H). destruct vv.
    + destruct out1 as [om|]; [|discriminate]. apply bind_ok in H as (om' & _ & H). destruct al; injection H as <- <-; auto.
    + destruct orders as [os|].
      * apply bind_ok in H as (vals & _ & H). destruct al; [injection H as <- <-; repeat split; auto; discriminate|].
        destruct out1 as [om|]; [|discriminate]. apply bind_ok in H as (om' & _ & H). injection H as <- <-. reflexivity.
      * apply bind_ok in H as (v0 & _ & H). injection H as <- <-. auto.
  - injection H as <- <-. destruct (extract1_ret _ _ _ _ _ _ Hco) as [Hx Hv]. destruct vv.
    + destruct Hv as [A [a ->]]. auto.
    + subst v0. auto.
Qed.

Theorem point_refine (x : list T) out v fin h :
  eval_point k orders xm grid C x out = Ok (v, fin) -> small_orders orders -> Forall (fun n => 1 <= n) (ashape C) ->
  Forall2 (is_dim h) gs grid -> holds_array h Cv C -> (Pv = PTup (map PFlt x) \/ holds_array h Pv (vecT x)) -> is_out h outv out (Cv :: Pv :: gs) ->
  exists w h', call_body G call fuel gen_params (generated k orders xm grid C (P1 x) out) [PTup gs; Cv; Pv; outv] [] h = Ok (w, h') /\
    outcome h outv v fin w h'.
Proof.
  intros H HS HC1 HD HC HP HO. unfold eval_point in H. fold (vectors grid C) in H. fold (fresh out) in H. apply bind_ok in H as ([] & Hcc & H).
  destruct (compile_facts Hcc HS) as [Hk Hord].
  apply bind_ok in H as ([] & _ & H). apply bind_ok in H as ([] & Hty & H). apply bind_ok in H as (nv & Hn & H). apply bind_ok in H as (gps & Hg & H).
  set (oc := if fresh out then if vv then match orders with None => Some (azeros [nv]) | Some os => Some (azeros [nv; zlen os]) end
             else match orders with None => None | Some os => Some (azeros [zlen os]) end else out) in *.
  unfold generated, call_body. rewrite bind_ok0. cbn [bind]. unfold gen_body. cbn [many]. unfold body1. rewrite kinds_types.
  pose proof (array_reads _ _ _ HC) as RC.
  destruct (n_vals_run h env0 nv) as (E2 & R2 & N2 & F2); auto.
  assert (FX2 : forall lo, fixed vv gs Cv Pv nv false lo E2).
  { intros lo. unfold fixed. rewrite !F2 by discriminate. repeat split; auto; discriminate. }
  set (outp := match oc with Some _ => true | None => false end).
  assert (X : exists E3 h1 lo, goes (gen_alloc1 vv (fresh out) orders) E2 h E3 h1 /\ fixed vv gs Cv Pv nv outp lo E3 /\
    (outp = true -> (lo < List.length h1)%nat) /\ hr h1 lo outp oc h1 /\ Forall2 (is_dim h1) gs grid /\ holds_array h1 Cv C /\
    (Pv = PTup (map PFlt x) \/ holds_array h1 Pv (vecT x)) /\
    (outp = true -> Forall (elsewhere lo) (Cv :: Pv :: gs)) /\
    match out with None => lo = List.length h /\ h1 = h ++ match oc with Some o => [OF o] | None => [] end | Some _ => outv = PArr lo [] /\ h1 = h end).
  { destruct out as [om|]; cbn [is_out fresh] in *.
    - destruct HO as (lo & Hov & Hlo & HE). exists E2, h, lo. unfold oc in outp. cbn in outp. unfold outp.
      split; [apply goes_nil|]. split; [|split; [|split; [|auto 10]]].
      + destruct (FX2 lo) as (A1 & A2 & A3 & A4 & A5 & A6 & _). repeat split; auto. intros _. rewrite F2 by discriminate. change (Some outv = Some (PArr lo [])). now rewrite Hov.
      + intros _. apply nth_error_Some. congruence.
      + split; auto. now apply st_init.
    - destruct (alloc1_run E2 h nv N2) as (E3 & R3 & F3 & O3). fold oc in R3. set (lo := List.length h).
      destruct (FX2 lo) as (A1 & A2 & A3 & A4 & A5 & A6 & _).
      assert (FX3 : fixed vv gs Cv Pv nv outp lo E3).
      { unfold fixed. rewrite !F3 by discriminate. repeat split; auto. intros Hp. apply O3. unfold outp, oc in Hp. clear -Hp.
        destruct vv; auto. destruct orders; [right; discriminate|discriminate]. }
      exists E3. eexists. exists lo. split; [exact R3|]. split; [exact FX3|]. unfold outp. destruct oc as [o|].
      + split; [|split; [|]].
        * intros _. rewrite app_length. cbn. unfold lo. lia.
        * split; auto. apply st_init. unfold lo. rewrite nth_error_app2, Nat.sub_diag by lia. reflexivity.
        * destruct (dims_new h gs grid (OF o) HD) as [Q1 Q2], (array_new h Cv C (OF o) HC) as [Q3 Q4].
          assert (Q : (Pv = PTup (map PFlt x) \/ holds_array (h ++ [OF o]) Pv (vecT x)) /\ elsewhere lo Pv).
          { destruct HP as [-> |HP]; [split; [now left|exact I]|]. destruct (array_new h Pv _ (OF o) HP). split; auto. }
          destruct Q as [Q5 Q6]. repeat split; auto.
      + rewrite app_nil_r. split; [discriminate|]. split; [split; auto|]. repeat split; auto. discriminate. }
  destruct X as (E3 & h1 & lo & R3 & FX3 & Hlo & S3 & D1 & C1 & P1' & El & Hout).
  destruct (point_run G call fuel eq_refl eq_refl k vv (fresh out) xm orders grid gs C Cv Pv nv h1 lo Hk Hord outp x gps Hg Hlo) with (oc := oc) (v := v) (fin := fin) (E := E3) (h := h1)
    as (g & w & E4 & h4 & oc4 & R4 & Hgw & W4 & S4 & A4); auto.
  { intros oc1 h2 Hr. unfold pt_val. destruct P1' as [->|P1']; [now left|right]. apply array_reads. destruct oc1 as [o1|]; cbn in Hr.
    - destruct Hr as (Hp & o2 & -> & _). apply array_hset; auto. specialize (El Hp). inversion El as [|? ? _ El']; subst. now inversion El'.
    - destruct Hr as [_ ->]. exact P1'. }
  { intros oc1 h2 Hr. apply array_reads. destruct oc1 as [o1|]; cbn in Hr.
    - destruct Hr as (Hp & o2 & -> & _). apply array_hset; auto. specialize (El Hp). now inversion El.
    - destruct Hr as [_ ->]. exact C1. }
  { intros oc1 h2 Hr. apply dims_of. destruct oc1 as [o1|]; cbn in Hr.
    - destruct Hr as (Hp & o2 & -> & _). apply dims_hset; auto. specialize (El Hp). inversion El as [|? ? _ El']; subst. now inversion El'.
    - destruct Hr as [_ ->]. exact D1. }
  { intros V _. eapply n_vals_pos; eauto. }
  assert (RB : block ([doc] ++ n_vals_set vv (types grid) ++ gen_alloc1 vv (fresh out) orders ++ point_body k vv (fresh out) xm orders grid) env0 h = Ok (g, E4, h4)).
  { eapply block_goes; [reflexivity|]. eapply block_goes; [exact R2|]. eapply block_goes; [exact R3|exact R4]. }
  unfold point_body in RB. rewrite RB. cbn [bind]. pose proof (rest_kind _ _ _ _ _ _ _ H) as Kd.
  exists w, h4. split; [destruct Hgw as [-> |[-> ->]]; reflexivity|].
  destruct out as [om|].
  - destruct Hout as [-> ->]. cbn [outcome]. cbn [fresh] in *. specialize (A4 eq_refl). subst oc4. split.
    + destruct fin as [of|]; cbn in S4; [destruct S4 as (_ & o2 & -> & Q); eauto|]. destruct S4 as [Q _]. unfold outp, oc in Q. discriminate.
    + destruct v as [|x0|l|a]; cbn in W4; auto; exfalso.
      * destruct Kd as (_ & Kd & _). discriminate Kd.
      * destruct Kd as [_ Kd]. discriminate Kd.
  - destruct Hout as [-> ->]. cbn [is_out] in HO. rewrite HO. cbn [outcome fresh] in *.
    destruct v as [|x0|l|a].
    + discriminate Kd.
    + split; [exact W4|]. assert (oc = None) as Hoc.
      { destruct Kd as [V Kd]. unfold oc. rewrite V. destruct orders as [os|]; auto. destruct Kd as [Kd| ->]; [discriminate|].
        rewrite V in Hty. discriminate. }
      unfold outp in S4. rewrite Hoc in S4. destruct oc4 as [o4|]; cbn in S4; [destruct S4; discriminate|]. destruct S4 as [_ ->]. rewrite ?Hoc. apply app_nil_r.
    + split; [exact W4|]. destruct Kd as (V & _ & Ko).
      assert (Q : exists o, oc = Some o) by (unfold oc; rewrite V; clear -Ko; destruct orders; [eauto|congruence]). destruct Q as [o Hoc].
      unfold outp in S4. rewrite Hoc in S4. destruct oc4 as [o4|]; [|destruct S4 as [S4 _]; discriminate S4]. destruct S4 as (_ & o2 & -> & _). exists o2. apply hset_app.
    + destruct W4 as (_ & -> & W4). destruct W4 as (Hp & o2 & -> & Q). exists o2. split; auto. split; auto.
      destruct oc as [o|]; [apply hset_app|]. discriminate Hp.
Qed.

(** ** All calls *)
Theorem spline_refine p out v fin h :
  eval_spline k orders xm grid C p out = Ok (v, fin) -> small_orders orders -> Forall (fun n => 1 <= n) (ashape C) ->
  Forall2 (is_dim h) gs grid -> holds_array h Cv C -> are_points h Pv p -> is_out h outv out (Cv :: Pv :: gs) ->
  (many p = true -> vv = true -> match out with Some o => 2 <= andim o | None => True end) ->
  exists w h', call_body G call fuel gen_params (generated k orders xm grid C p out) [PTup gs; Cv; Pv; outv] [] h = Ok (w, h') /\
    outcome h outv v fin w h'.
Proof.
  intros H HS HC1 HD HC HP HO HR. destruct p as [x|P]; cbn [eval_spline are_points many] in *.
  - exact (point_refine x out v fin h H HS HC1 HD HC HP HO).
  - destruct HP as [HP H2]. exact (rows_refine P out v fin h H HS HC1 HD HC HP H2 HO (HR eq_refl)).
Qed.
End Args.
End Main.
