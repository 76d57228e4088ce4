(** Running [_filter_cubic(grid, D, C)] of prefilter_cubic.py, for any number of components. *)
From Coq Require Import ZArith List Bool String Lia.
From Verif Require Import Base BaseFacts SplineModel BasisModel PrefilterModel PySyntax PySem SpecText PySemFacts BasisText PyArr SrcPrefilterCubic PrefCore PrefPass PrefText PrefBody.
Import ListNotations.
Open Scope list_scope.
Open Scope Z_scope.
Open Scope num_scope.

Section Run.
Context {T : Type} {NT : Num T}.
Hypothesis H6 : n_is0 (n_ofZ (T := T) 6) = false.
Hypothesis H3 : n_is0 (n_ofZ (T := T) 3) = false.
Definition GP : env T := globals pf_program.

Lemma toplevel_skip s p (E : env T) h e : is_def s = false -> exec empty (fun _ _ _ _ => Err NameErr) 0 s E h = Err e ->
  toplevel (s :: p) E h = toplevel p E h.
Proof. intros H1 H2. cbn [toplevel]. now rewrite H1, H2. Qed.
Lemma toplevel_step s p (E : env T) h E' h' g : is_def s = false -> exec empty (fun _ _ _ _ => Err NameErr) 0 s E h = Ok (g, E', h') ->
  toplevel (s :: p) E h = toplevel p E' h'.
Proof. intros H1 H2. cbn [toplevel]. now rewrite H1, H2. Qed.
Lemma toplevel_def s p (E : env T) h : is_def s = true -> toplevel (s :: p) E h = toplevel p E h.
Proof. intros H1. cbn [toplevel]. now rewrite H1. Qed.

Lemma GP_basis : GP "basis"%string = Some basis_val.
Proof.
  unfold GP, globals, pf_program.
  do 5 (erewrite toplevel_step by reflexivity). erewrite toplevel_skip by reflexivity.
  erewrite (toplevel_step (SAssign [EName "basis"] _)) with (g := Nxt) (E' := upd empty "basis" basis_val) (h' := []).
  2: reflexivity.
  2:{ cbn -[literal]. unfold divE. change (literal 60 1) with (n_ofZ (T := T) 6). change (literal 30 1) with (n_ofZ (T := T) 3). rewrite H6, H3. reflexivity. }
  do 6 (rewrite toplevel_def by reflexivity). erewrite toplevel_skip by reflexivity. rewrite toplevel_def by reflexivity.
  erewrite toplevel_step by reflexivity. erewrite toplevel_skip by reflexivity. do 2 (rewrite toplevel_def by reflexivity). reflexivity.
Qed.

Lemma run_find n : find_ok (run GP pf_program (S (S n))).
Proof.
  intros M del h kb kc kd wd wc D C b m HM H1 H2 ND NC NB Vd Vc Sb.
  rewrite (run_def GP pf_program (S n) "find_coefs_1d" (fst (pdef "find_coefs_1d")) (snd (pdef "find_coefs_1d"))) by reflexivity.
  assert (Lb : (kb < List.length h)%nat) by (apply nth_error_Some; congruence).
  assert (Lc : (kc < List.length h)%nat) by (apply nth_error_Some; congruence).
  apply (text_find GP (run GP pf_program (S n)) (S n) h kb kc kd wc wd M del D GP_basis); eauto.
  intros h' b' NB' NC' Sb'.
  rewrite (run_def GP pf_program n "solve_deriv_interp_1d" (fst (pdef "solve_deriv_interp_1d")) (snd (pdef "solve_deriv_interp_1d"))) by reflexivity.
  assert (Lb' : (kb < List.length h')%nat) by (apply nth_error_Some; congruence).
  assert (Lc' : (kc < List.length h')%nat) by (apply nth_error_Some; congruence).
  apply (text_solve GP (run GP pf_program n) n h' kb kc wc (M + 2) M); auto; [lia|split; auto].
Qed.

(** ** The in-place overload *)
Definition vv_body : list stmt := Eval vm_compute in match nth 1 (snd inplace_def) SPass with SIf _ (SDef _ _ b :: _) _ => b | _ => [] end.
Lemma run_inplace n us (h : heap T) : List.length us = 3%nat ->
  run GP pf_program (S n) "_filter_cubic" us [] h =
  ('(v, _) <- call_body GP (run GP pf_program n) n (fst inplace_def) (snd inplace_def) us [] h ;;
   match v with PFun qs c => call_body GP (run GP pf_program n) n qs c us [] h | _ => Err TypeErr end).
Proof. intros H. destruct us as [|a [|b [|c [|? ?]]]]; try discriminate H. reflexivity. Qed.

Section Over.
Variable call : string -> list (val T) -> list (string * val T) -> heap T -> res (val T * heap T).
Variable fuel : nat.
Variable h : heap T.
Variables (kd : nat) (wd : list (option Z)) (vs : list (val T)) (vc : val T) (sh : list Z).
Hypothesis HD : vdims h (PArr kd wd) = Ok sh.
Lemma over_vv : zlen vs < zlen sh ->
  call_body GP call fuel (fst inplace_def) (snd inplace_def) [PTup vs; PArr kd wd; vc] [] h = Ok (PFun p3 vv_body, h).
Proof.
  intros H. unfold inplace_def. cbn [fst snd]. unfold call_body.
  cbn -[vdims Z.gtb zlen]. rewrite HD. cbn -[vdims Z.gtb zlen]. replace (zlen sh >? zlen vs) with true by (symmetry; apply Z.gtb_lt; lia). reflexivity.
Qed.
Lemma over_scalar d : zlen sh <= zlen vs -> zlen vs = Z.of_nat d -> (1 <= d <= 4)%nat ->
  call_body GP call fuel (fst inplace_def) (snd inplace_def) [PTup vs; PArr kd wd; vc] [] h = Ok (PFun p3 (under d), h).
Proof.
  intros H1 H2 H4. unfold inplace_def. cbn [fst snd]. unfold call_body.
  cbn -[vdims Z.gtb zlen Z.eqb]. rewrite HD. cbn -[vdims Z.gtb zlen Z.eqb].
  replace (zlen sh >? zlen vs) with false by (symmetry; rewrite Z.gtb_ltb; apply Z.ltb_ge; lia). rewrite H2.
  destruct d as [|[|[|[|[|d]]]]]; try lia; reflexivity.
Qed.
End Over.

Lemma text_scalar n h0 kd kc wd wc D C0 dims comps suf grid vs : ready h0 kd kc wd wc D C0 dims comps suf grid vs -> (1 <= List.length dims <= 4)%nat ->
  writes h0 kc C0 (filter_scalar grid D suf C0) (run GP pf_program (S (S (S n))) "_filter_cubic" [PTup vs; PArr kd wd; PArr kc wc] [] h0).
Proof.
  intros HR Hd. pose proof HR as (Hne & HD & HC & SD & SC & Hsuf & Hwd & Hwc & Hpos & Hgrid & Hlen).
  assert (Lv : List.length vs = List.length dims) by (rewrite <- Hlen; eapply Forall2_length; eauto).
  rewrite run_inplace by reflexivity.
  assert (VD : vdims h0 (PArr kd wd) = Ok dims).
  { rewrite (vdims_arr _ _ _ _ HD). f_equal. rewrite SD. apply (view_shape wd suf); auto. symmetry. now apply inb_length. }
  rewrite (over_scalar _ _ _ _ _ _ _ dims VD (List.length dims)); unfold zlen; try lia. cbn [bind].
  pose proof (run_find n) as HF. 
  assert (List.length dims = 1 \/ List.length dims = 2 \/ List.length dims = 3 \/ List.length dims = 4)%nat as [L|[L|[L|L]]] by lia; rewrite L.
  - eapply scalar_1; eauto.
  - eapply scalar_2; eauto.
  - eapply scalar_3; eauto.
  - eapply scalar_4; eauto.
Qed.

Lemma text_vv : forall e n h0 kd kc wd wc D C0 dims front comps suf grid vs,
  List.length front = e -> kd <> kc -> nth_error h0 kd = Some (OF D) -> nth_error h0 kc = Some (OF C0) ->
  ashape D = (dims ++ front) ++ comps -> ashape C0 = (map (fun m => m + 2) dims ++ front) ++ comps -> inb comps suf = true ->
  is_view wd (List.length (dims ++ front)) suf -> is_view wc (List.length (dims ++ front)) suf ->
  Forall (fun m => 1 <= m) dims -> Forall2 (is_dim h0 kc) vs grid -> List.length grid = List.length dims -> (1 <= List.length dims <= 4)%nat ->
  (e + 3 <= n)%nat ->
  writes h0 kc C0 (filter_vv e grid D suf C0) (run GP pf_program n "_filter_cubic" [PTup vs; PArr kd wd; PArr kc wc] [] h0).
Proof.
  induction e as [|e IH]; intros n h0 kd kc wd wc D C0 dims front comps suf grid vs Lf Hne HD HC SD SC Hsuf Hwd Hwc Hpos Hgrid Hlen Hd Hn.
  - destruct front; [|discriminate Lf]. rewrite app_nil_r in *. do 3 (destruct n as [|n]; [lia|]). cbn [filter_vv].
    eapply text_scalar; eauto. repeat (split; eauto).
  - destruct (exists_last (l := front)) as (fr & nx & ->); [intros ->; discriminate|]. rewrite app_length in Lf. cbn in Lf.
    destruct n as [|n]; [lia|]. rewrite run_inplace by reflexivity.
    assert (Lv : List.length vs = List.length dims) by (rewrite <- Hlen; eapply Forall2_length; eauto).
    assert (Ls : List.length comps = List.length suf) by (symmetry; now apply inb_length).
    assert (VD : vdims h0 (PArr kd wd) = Ok (dims ++ fr ++ [nx])).
    { rewrite (vdims_arr _ _ _ _ HD). f_equal. rewrite SD. apply (view_shape wd suf); auto. }
    assert (LC : List.length (map (fun m => m + 2) dims ++ fr ++ [nx]) = List.length (dims ++ fr ++ [nx])) by (rewrite !app_length, map_length; auto).
    assert (VC : vdims h0 (PArr kc wc) = Ok (map (fun m => m + 2) dims ++ fr ++ [nx])).
    { rewrite (vdims_arr _ _ _ _ HC). f_equal. rewrite SC. apply (view_shape wc suf); auto. now rewrite LC. }
    rewrite (over_vv _ _ _ _ _ _ _ _ VD) by (unfold zlen; rewrite !app_length; cbn; lia). cbn [bind filter_vv].
    assert (AC : adim C0 (zlen grid + Z.of_nat e) = Ok nx).
    { unfold adim, zlen. rewrite SC. unfold lget. destruct (Z.ltb_spec (Z.of_nat (List.length grid) + Z.of_nat e) 0); [lia|].
      rewrite <- !app_assoc, app_assoc. rewrite nth_error_app2 by (rewrite app_length, map_length; lia).
      rewrite app_length, map_length. replace (Z.to_nat _ - _)%nat with 0%nat by lia. reflexivity. }
    rewrite AC. cbn [bind].
    set (call := run GP pf_program n).
    eapply writes_sim; [reflexivity|]. unfold vv_body. rewrite (block_set _ _ _ _ _ _ _ _ (PInt nx)).
    2:{ cbn -[vdims]. rewrite VC. cbn -[wrap zlen lget]. unfold zlen. rewrite map_length.
        replace (wrap (Z.of_nat (List.length (map (fun m => m + 2) dims ++ fr ++ [nx]))) (-1))
          with (Z.of_nat (List.length (map (fun m => m + 2) dims ++ fr))) by (unfold wrap; change (-1 <? 0) with true; cbv iota; rewrite !app_length; cbn [List.length]; lia).
        unfold lget. destruct (Z.ltb_spec (Z.of_nat (List.length (map (fun m => m + 2) dims ++ fr))) 0); [lia|]. rewrite Nat2Z.id.
        rewrite app_assoc, map_app. rewrite nth_error_app2 by (rewrite map_length; auto). rewrite map_length, Nat.sub_diag. reflexivity. }
    match goal with |- sim _ (block _ _ _ _ ?E _) _ => set (E0 := E) end.
    apply sim_one. eapply sim_weak with (R := fun C E h => agree ["i_x"%string] E0 E /\ stored h0 kc C0 C E h); [|intros ? ? ? [_ H]; exact H].
    apply (sim_for _ _ _ _ PInt).
    + reflexivity.
    + intros C ix E h Hix (HA & SC1 & junk & ->). apply zrange_In in Hix. apply sim_one.
      assert (Lc : (kc < List.length h0)%nat) by (apply nth_error_Some; congruence).
      assert (Lkd : (kd < List.length h0)%nat) by (apply nth_error_Some; congruence).
      set (h1 := hset h0 kc (OF C) ++ junk).
      assert (NC : nth_error h1 kc = Some (OF C)) by (unfold h1; rewrite nth_error_app1 by (rewrite hset_length; auto); now apply nth_hset_same).
      assert (ND : nth_error h1 kd = Some (OF D)) by (unfold h1; rewrite nth_error_app1 by (rewrite hset_length; auto); rewrite nth_hset_other; auto).
      set (E1 := upd E "i_x" (PInt ix)).
      assert (EG : E1 "grid"%string = Some (PTup vs)) by (unfold E1; rewrite upd_other by discriminate; rewrite HA by (cbn; intuition discriminate); reflexivity).
      assert (ED : E1 "D"%string = Some (PArr kd wd)) by (unfold E1; rewrite upd_other by discriminate; rewrite HA by (cbn; intuition discriminate); reflexivity).
      assert (EC : E1 "C"%string = Some (PArr kc wc)) by (unfold E1; rewrite upd_other by discriminate; rewrite HA by (cbn; intuition discriminate); reflexivity).
      assert (HA1 : agree ["i_x"%string] E0 E1) by (eapply agree_trans; [exact HA|]; apply agree_upd; now left).
      assert (SB : subs GP call E1 [EEllipsis; EName "i_x"] h1 = Ok ([SDots; SIx ix], h1)) by reflexivity.
      assert (XD : eval GP call E1 (ESub (EName "D") [EEllipsis; EName "i_x"]) h1 = Ok (PArr kd (vsuf (List.length (dims ++ fr)) (ix :: suf)), h1)).
      { rewrite (eval_sub _ _ _ _ _ _ _ _ ED SB). rewrite (subscript_dots h1 kd wd D suf (dims ++ fr) nx comps ix); auto.
        - now rewrite <- app_assoc.
        - rewrite SD, <- !app_assoc; reflexivity. }
      assert (XC : eval GP call E1 (ESub (EName "C") [EEllipsis; EName "i_x"]) h1 = Ok (PArr kc (vsuf (List.length (dims ++ fr)) (ix :: suf)), h1)).
      { rewrite (eval_sub _ _ _ _ _ _ _ _ EC SB). rewrite (subscript_dots h1 kc wc C suf (map (fun m => m + 2) dims ++ fr) nx comps ix); auto.
        - rewrite !app_length, map_length. reflexivity.
        - rewrite <- app_assoc, LC. auto.
        - rewrite SC1, SC. rewrite <- !app_assoc; reflexivity. }
      assert (W : writes h1 kc C (filter_vv e grid D (ix :: suf) C)
         (call "_filter_cubic"%string [PTup vs; PArr kd (vsuf (List.length (dims ++ fr)) (ix :: suf)); PArr kc (vsuf (List.length (dims ++ fr)) (ix :: suf))] [] h1)).
      { unfold call. eapply (IH n h1 kd kc _ _ D C dims fr (nx :: comps) (ix :: suf) grid vs); auto; try lia.
        - rewrite SD, <- !app_assoc. reflexivity.
        - rewrite SC1, SC, <- !app_assoc. reflexivity.
        - cbn [inb]. rewrite Hsuf. lia.
        - now left.
        - now left.
        - eapply Forall2_imp; [|exact Hgrid]. intros v g Hv. unfold h1. apply is_dim_heap; auto. }
      assert (XX : exec GP call n (SExpr (ECall (EName "_filter_cubic") [EName "grid"; ESub (EName "D") [EEllipsis; EName "i_x"]; ESub (EName "C") [EEllipsis; EName "i_x"]] [])) E1 h1
        = ('(_, h) <- eval GP call E1 (ECall (EName "_filter_cubic") [EName "grid"; ESub (EName "D") [EEllipsis; EName "i_x"]; ESub (EName "C") [EEllipsis; EName "i_x"]] []) h1 ;; Ok (Nxt, E1, h))) by reflexivity.
      rewrite XX, eval_call by discriminate.
      rewrite (evals_cons _ _ _ _ _ _ (PTup vs) h1) by (cbn; rewrite (lookup_in GP _ _ _ EG); reflexivity).
      rewrite (evals_cons _ _ _ _ _ _ _ _ XD), (evals_cons _ _ _ _ _ _ _ _ XC). cbn [evals bind].
      match goal with |- context [builtin ?a ?b ?c] => change (builtin a b c) with (@None (res (val T * heap T))) end. cbv iota.
      destruct (filter_vv e grid D (ix :: suf) C) as [C'|er]; cbn [writes] in W.
      * destruct W as (S' & junk' & ->). cbn. eexists _, _. split; [reflexivity|]. split; auto. split; [congruence|].
        exists (junk ++ junk'). unfold h1. rewrite hset_app1 by (rewrite hset_length; auto). rewrite hset_hset. now rewrite <- app_assoc.
      * rewrite W. reflexivity.
    + split; [apply agree_refl|]. split; auto. exists []. rewrite app_nil_r. symmetry. now apply hset_same.
Qed.
End Run.
