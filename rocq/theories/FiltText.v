(** The text of filter_cubic.py computes what PrefilterModel.v computes. *)
From Coq Require Import ZArith List Bool String Lia.
From Verif Require Import Base BaseFacts SplineModel BasisModel PrefilterModel PySyntax PySem SpecText PySemFacts BasisText PyArr SrcFilterCubic PrefCore PrefPass PrefText PrefBody PrefRun SpecPref FiltCore.
Import ListNotations.
Open Scope list_scope.
Open Scope Z_scope.
Open Scope num_scope.

Section Filt.
Context {T : Type} {NT : Num T}.
Lemma old_is_new del M data (C : arr T) ln nc :
  find_coefs_1d_old del M data C ln nc = (r <- find_coefs_1d del data C ln nc (azeros [M + 2; 4]) ;; Ok (snd r)).
Proof.
  unfold find_coefs_1d_old, find_coefs_1d. change (adim (azeros (T := T) [M + 2; 4]) 0) with (Ok (M + 2)). cbn [bind].
  replace (M + 2 - 2) with M by lia. rewrite bind_assoc. reflexivity.
Qed.
Lemma old_ext del M (data data' : Z -> res T) (C : arr T) ln ln' nc : (forall i, ln i = ln' i) -> (forall i, data i = data' i) ->
  find_coefs_1d_old del M data C ln nc = find_coefs_1d_old del M data' C ln' nc.
Proof. intros H1 H2. rewrite !old_is_new. now rewrite (find_ext del data data' C ln ln' nc _ H1 H2). Qed.
Lemma old_shape del M data (C C' : arr T) ln nc : find_coefs_1d_old del M data C ln nc = Ok C' -> ashape C' = ashape C.
Proof.
  rewrite old_is_new. intros H. apply bind_ok in H as (p & H1 & H2). apply find_shape in H1 as [_ H1]. injection H2 as <-. exact H1.
Qed.

Variable G : env T.
Variable call : string -> list (val T) -> list (string * val T) -> heap T -> res (val T * heap T).
Variable fuel : nat.
Notation eval := (eval G call).
Notation exec := (exec G call fuel).
Notation block := (block G call fuel).
Hypothesis Hold : old_ok call.

Definition names : list string := ["ix"; "iy"; "iz"; "iz4"]%string.
Section Passes.
Variable h : heap T.
Variables kv kd : nat.
Variable D : arr T.
Variable dinvs : list T.
Variable dims : list Z.
Let kc := List.length h.
Let C0 : arr T := azeros (map (fun m => m + 2) dims).
Let h0 : heap T := h ++ [OF C0].
Hypothesis HV : nth_error h kv = Some (OF (vecT dinvs)).
Hypothesis HD : nth_error h kd = Some (OF D).
Hypothesis SD : ashape D = dims.

Definition oinv (E0 : env T) (C : arr T) (E : env T) (h' : heap T) : Prop :=
  agree names E0 E /\ ashape C = ashape C0 /\ exists junk, h' = h ++ OF C :: junk.

Lemma eval_dinv_k E h' k del : E "dinv"%string = Some (PArr kv []) -> nth_error h' kv = Some (OF (vecT dinvs)) -> 0 <= k -> lget dinvs k = Ok del ->
  eval E (ESub (EName "dinv") [EInt k]) h' = Ok (PFlt del, h').
Proof.
  intros HE Hv Hk Hl. rewrite (eval_elem G call E h' "dinv" [EInt k] [k] kv [] (vecT dinvs)); [|split; auto| |reflexivity].
  2:{ split; [reflexivity|repeat constructor; auto]. }
  cbn [vmerge]. unfold aget, vecT. cbn [ashape acell inb hd]. unfold lget in Hl. destruct (Z.ltb_spec k 0); [lia|].
  destruct (nth_error dinvs (Z.to_nat k)) as [x|] eqn:E1; [|discriminate]. injection Hl as ->.
  assert (Z.to_nat k < List.length dinvs)%nat by (apply nth_error_Some; congruence).
  unfold zlen. replace ((0 <=? k) && (k <? Z.of_nat (List.length dinvs)) && true) with true by (symmetry; rewrite !andb_true_r; apply andb_true_intro; split; [apply Z.leb_le|apply Z.ltb_lt]; lia).
  cbn [bind]. rewrite (nth_error_nth _ _ _ E1). reflexivity.
Qed.

Lemma old_pass (E0 : env T) mname k vsp vsq eS eC del M pre post own :
  let xp := map fst (vsp : list (string * string)) in let xq := map fst (vsq : list (string * string)) in let xs := xp ++ xq in
  1 <= M -> dims = pre ++ M :: post -> List.length vsp = List.length pre -> (own = false -> pre = []) ->
  incl xs names -> NoDup xs -> 0 <= k -> lget dinvs k = Ok del ->
  E0 "dinv"%string = Some (PArr kv []) -> E0 "data"%string = Some (PArr kd []) -> E0 "coefs"%string = Some (PArr kc []) ->
  E0 mname = Some (PInt M) -> ~ In mname names ->
  Forall2 (fun v n => E0 (snd v) = Some (PInt n) /\ ~ In (snd v) names) (vsp ++ vsq) (map (fun m => m + 2) pre ++ post) ->
  line_expr (if own : bool then "coefs" else "data")%string xp xq eS -> line_expr "coefs" xp xq eC ->
  forall C E h', oinv E0 C E h' ->
  sim (filter_pass_old del M (if own then None else Some D) pre post (M + 2) C)
      (block (loops (vsp ++ vsq) [SExpr (ECall (EName "find_coefs_1d") [ESub (EName "dinv") [EInt k]; EName mname; eS; eC] [])]) E h')
      (oinv E0).
Proof.
  intros xp xq xs HM Hdims Hlp Hown Hincl Hnd Hk Hdel EV ED EC EM Hm1 HF HeS HeC C E h' (HA & SC & junk & Hh).
  assert (Lv : (kv < List.length h)%nat) by (apply nth_error_Some; congruence).
  assert (Ld : (kd < List.length h)%nat) by (apply nth_error_Some; congruence).
  assert (Xvs : map fst (vsp ++ vsq) = xs) by apply map_app.
  unfold filter_pass_old.
  eapply sim_weak with (R := fun C E h' => agree names E0 E /\ True /\ (ashape C = ashape C0 /\ exists junk, h' = h ++ OF C :: junk)); [|intros ? ? ? (A1 & _ & A2); split; auto].
  apply (sim_nest G call fuel names _ E0 (fun C h' => ashape C = ashape C0 /\ exists junk, h' = h ++ OF C :: junk) (vsp ++ vsq) _ _ (fun _ => True)); auto.
  - now rewrite Xvs.
  - now rewrite Xvs.
  - rewrite Xvs. intros idx C1 E1 h1 Hidx HA1 _ HB (SC1 & junk1 & ->). apply sim_one.
    pose proof (bound_app call E1 xp xq idx HB) as HB'. assert (Lxp : List.length xp = List.length pre) by (unfold xp; rewrite map_length; auto). rewrite Lxp in HB'. destruct HB' as [B1 B2].
    pose proof (inb_firstn _ _ _ Hidx) as HI. rewrite map_length in HI. destruct HI as [I1 I2].
    assert (NI : forall x, In x ["dinv"; "data"; "coefs"]%string -> ~ In x names).
    { intros x Hx Hy. cbn in Hx, Hy. intuition; subst; discriminate. }
    assert (E1V : E1 "dinv"%string = Some (PArr kv [])) by (rewrite HA1; auto; apply NI; cbn; tauto).
    assert (E1D : E1 "data"%string = Some (PArr kd [])) by (rewrite HA1; auto; apply NI; cbn; tauto).
    assert (E1C : E1 "coefs"%string = Some (PArr kc [])) by (rewrite HA1; auto; apply NI; cbn; tauto).
    assert (E1M : E1 mname = Some (PInt M)) by (rewrite HA1; auto).
    set (h1 := h ++ OF C1 :: junk1).
    assert (NC1 : nth_error h1 kc = Some (OF C1)) by apply nth_new.
    assert (ND1 : nth_error h1 kd = Some (OF D)) by (unfold h1; rewrite nth_error_app1; auto).
    assert (NV1 : nth_error h1 kv = Some (OF (vecT dinvs))) by (unfold h1; rewrite nth_error_app1; auto).
    assert (SC2 : ashape C1 = (map (fun m => m + 2) pre ++ (M + 2) :: map (fun m => m + 2) post) ++ []).
    { rewrite SC1. unfold C0. cbn [azeros ashape]. rewrite Hdims, map_app, app_nil_r. reflexivity. }
    destruct (eval_line G call E1 h1 eC "coefs" xp xq kc [] C1 (map (fun m => m + 2) pre) (M + 2) (map (fun m => m + 2) post) [] [] _ _ HeC E1C B1 B2 NC1)
      as (w & V1 & V2 & V3); auto using inb_plus2; [now right|].
    assert (VS : exists ks wsrc m, eval E1 eS h1 = Ok (PArr ks wsrc, h1) /\ nth_error h1 ks = Some (OF (if own then C1 else D)) /\
      (forall i, vmerge wsrc [i] = firstn (List.length pre) idx ++ [i] ++ skipn (List.length pre) idx ++ []) /\ vshape wsrc (ashape (if own then C1 else D)) = [m]).
    { destruct own.
      - destruct (eval_line G call E1 h1 eS "coefs" xp xq kc [] C1 (map (fun m => m + 2) pre) (M + 2) (map (fun m => m + 2) post) [] [] _ _ HeS E1C B1 B2 NC1)
          as (w' & V4 & V5 & V6); auto using inb_plus2; [now right|]. exists kc, w', (M + 2). auto.
      - specialize (Hown eq_refl). subst pre. cbn [app map List.length] in *.
        destruct (eval_line G call E1 h1 eS "data" xp xq kd [] D [] M post [] [] [] idx HeS E1D) as (w' & V4 & V5 & V6); auto.
        + now right.
        + rewrite SD, Hdims, app_nil_r. reflexivity.
        + exists kd, w', M. auto. }
    destruct VS as (ks & wsrc & m & V4 & NS & V5 & V6).
    assert (XX : exec (SExpr (ECall (EName "find_coefs_1d") [ESub (EName "dinv") [EInt k]; EName mname; eS; eC] [])) E1 h1
      = ('(_, h) <- eval E1 (ECall (EName "find_coefs_1d") [ESub (EName "dinv") [EInt k]; EName mname; eS; eC] []) h1 ;; Ok (Nxt, E1, h))) by reflexivity.
    rewrite XX, eval_call by discriminate.
    rewrite (evals_cons _ _ _ _ _ _ _ _ (eval_dinv_k E1 h1 k del E1V NV1 Hk Hdel)).
    rewrite (evals_cons _ _ _ _ _ _ (PInt M) h1) by (cbn; unfold lookup; now rewrite E1M).
    rewrite (evals_cons _ _ _ _ _ _ _ _ V4), (evals_cons _ _ _ _ _ _ _ _ V1). cbn [evals bind].
    match goal with |- context [builtin ?a ?b ?c] => change (builtin a b c) with (@None (res (val T * heap T))) end. cbv iota.
    pose proof (Hold h1 kc ks w wsrc M del (if own then C1 else D) C1 m HM NS NC1 V6 V3) as W.
    cbv zeta. rewrite (old_ext del M _ (fun i => aget (if own then C1 else D) (vmerge wsrc [i])) C1 _ (fun i => vmerge w [i]) (M + 2)).
    2:{ intros i. rewrite V2, app_nil_r. reflexivity. }
    2:{ intros i. rewrite V5, app_nil_r. destruct own; reflexivity. }
    destruct (find_coefs_1d_old del M _ C1 _ (M + 2)) as [C2|e] eqn:EF; cbn [wrote] in W.
    + destruct W as (junk2 & ->). cbn. eexists _, _. split; [reflexivity|]. split; [reflexivity|]. apply old_shape in EF. split; [exact (eq_trans EF SC1)|].
      exists (junk1 ++ junk2). unfold h1, kc. rewrite hset_app. rewrite <- app_assoc. reflexivity.
    + rewrite W. reflexivity.
  - split; auto. exists junk. auto.
Qed.
End Passes.

(** ** The functions for d = 1, ..., 4 dimensions *)
Lemma ret_sim h r ps b us E h1 : bind_params G call ps us [] h = Ok (E, h) -> 
  sim r (block b E h) (fun C E' h' => E' "coefs"%string = Some (PArr (List.length h) []) /\ exists junk, h' = h ++ OF C :: junk) -> h1 = h ->
  returns_new h r (call_body G call fuel ps (b ++ [SRet (Some (EName "coefs"))]) us [] h1).
Proof.
  intros H1 H2 ->. unfold call_body. rewrite H1. cbn [bind]. rewrite block_app. destruct r as [C|e]; cbn [sim returns_new] in *.
  - destruct H2 as (E' & h' & -> & HE & junk & ->). exists junk. cbn. unfold lookup. rewrite HE. reflexivity.
  - now rewrite H2.
Qed.
Definition fready (h : heap T) (kv kd : nat) (dinvs : list T) (D : arr T) (dims : list Z) : Prop :=
  nth_error h kv = Some (OF (vecT dinvs)) /\ nth_error h kd = Some (OF D) /\ ashape D = dims /\
  Forall (fun m => 1 <= m) dims /\ List.length dinvs = List.length dims.
Lemma oinv_adim h E0 dims C E h' k : oinv h dims E0 C E h' -> (k < List.length dims)%nat -> adim C (Z.of_nat k) = Ok (nth k dims 0 + 2).
Proof.
  intros (_ & S' & _) Hk. unfold adim. rewrite S'. cbn [azeros ashape]. unfold lget. destruct (Z.ltb_spec (Z.of_nat k) 0); [lia|]. rewrite Nat2Z.id.
  rewrite nth_error_map. rewrite (nth_error_nth' dims 0 Hk). reflexivity.
Qed.
Definition fbody (f : string) : list stmt := removelast (snd (fdef f)).
Definition fps : list (string * option expr) := [("dinv", None); ("data", None)]%string.

Ltac fdim HD VD := erewrite block_set by (eapply (eval_dim _ _ _ _ "data"); [reflexivity|exact HD|exact VD|lia|reflexivity]).
Ltac fnext := erewrite block_set by (apply eval_plus2; reflexivity).
Ltac notin := let H := fresh in cbn; intros H; repeat destruct H as [H|H]; try discriminate; auto.
Ltac fpass h kv kd D dinvs dims e0 kk mn vp vq pr po ow HV HD SD Hi :=
  cbn [filter_passes_old]; cbn [app];
  lazymatch goal with |- sim (bind (lget ?l ?z) ?f) _ _ => let v := eval cbv in (lget l z) in change (lget l z) with v; cbn [bind] end;
  lazymatch goal with |- sim (bind (adim ?C ?z) ?f) _ _ =>
    change z with (Z.of_nat kk); rewrite (oinv_adim _ _ _ _ _ _ kk Hi) by (cbn; lia); cbn [bind nth] end;
  lazymatch goal with |- sim _ (PySem.block _ _ _ ?l _ _) _ => let l1 := eval vm_compute in (firstn 1 l) in let l2 := eval vm_compute in (skipn 1 l) in change l with (l1 ++ l2) end;
  eapply (sim_app G call fuel) with (R := oinv h dims e0);
  [ eapply (old_pass h kv kd D dinvs dims HV HD SD) with (E0 := e0) (mname := mn) (k := Z.of_nat kk) (vsp := vp) (vsq := vq) (own := ow);
    [ lia | reflexivity | reflexivity | (intros _; reflexivity) || discriminate
    | intros x Hx; cbn in Hx |- *; tauto
    | cbn; repeat constructor; notin
    | lia | reflexivity | reflexivity | reflexivity | reflexivity | reflexivity | notin
    | cbn; repeat constructor; cbn; notin
    | (left; reflexivity) || (right; repeat split) | (left; reflexivity) || (right; repeat split) | exact Hi ]
  | clear Hi; intros ? ? ? Hi ].
Ltac start h dims HD :=
  eapply ret_sim; [reflexivity| |reflexivity];
  match goal with |- sim _ (PySem.block _ _ _ ?l _ _) _ => let l1 := eval vm_compute in l in change l with l1 end.
Ltac alloc_step := erewrite block_set by (cbn; reflexivity).

Lemma old_1 h kv kd dinvs D dims : fready h kv kd dinvs D dims -> List.length dims = 1%nat ->
  returns_new h (filter_passes_old dinvs D [] (ashape D) (azeros (map (fun n => n + 2) (ashape D))))
    (call_body G call fuel fps (fbody "filter_coeffs_1d" ++ [SRet (Some (EName "coefs"))]) [PArr kv []; PArr kd []] [] h).
Proof.
  intros (HV & HD & SD & Hpos & Hlen) Ld. rewrite SD.
  destruct dims as [|m0 [|? ?]]; try discriminate Ld. destruct dinvs as [|d0 [|? ?]]; try discriminate Hlen. clear Ld Hlen.
  repeat match goal with H : Forall _ (_ :: _) |- _ => inversion H; clear H; subst end.
  assert (VD : vshape [] (ashape D) = [m0]) by (rewrite vshape_nil; auto).
  cbn [map]. start h dims HD. fdim HD VD. fnext.
  rewrite block_cons, exec_set. 
  match goal with |- context [eval ?E (ECall (EAttr (EName "np") "zeros") ?a []) h] =>
    assert (X : eval E (ECall (EAttr (EName "np") "zeros") a []) h = Ok (PArr (List.length h) [], h ++ [OF (azeros [m0 + 2])])) by reflexivity end.
  rewrite X. clear X. cbn [bind].
  match goal with |- sim _ (PySem.block _ _ _ _ ?E _) _ => set (E0 := E) end.
  eapply sim_weak with (R := oinv h [m0] E0).
  2:{ intros C E h' (HA & _ & junk & ->). split; [|eauto]. rewrite HA; [reflexivity|notin]. }
  assert (Hi : oinv h [m0] E0 (azeros [m0 + 2]) E0 (h ++ [OF (azeros [m0 + 2])])).
  { split; [apply agree_refl|]. split; [reflexivity|]. exists []. reflexivity. }
  fpass h kv kd D [d0] [m0] E0 0%nat "M"%string (@nil (string * string)) (@nil (string * string)) (@nil Z) (@nil Z) false HV HD SD Hi.
  now apply sim_end.
Qed.
Lemma old_2 h kv kd dinvs D dims : fready h kv kd dinvs D dims -> List.length dims = 2%nat ->
  returns_new h (filter_passes_old dinvs D [] (ashape D) (azeros (map (fun n => n + 2) (ashape D))))
    (call_body G call fuel fps (fbody "filter_coeffs_2d" ++ [SRet (Some (EName "coefs"))]) [PArr kv []; PArr kd []] [] h).
Proof.
  intros (HV & HD & SD & Hpos & Hlen) Ld. rewrite SD.
  destruct dims as [|m0 [|m1 [|? ?]]]; try discriminate Ld. destruct dinvs as [|d0 [|d1 [|? ?]]]; try discriminate Hlen. clear Ld Hlen.
  repeat match goal with H : Forall _ (_ :: _) |- _ => inversion H; clear H; subst end.
  assert (VD : vshape [] (ashape D) = [m0; m1]) by (rewrite vshape_nil; auto).
  cbn [map]. start h dims HD. do 2 fdim HD VD. do 2 fnext.
  rewrite block_cons, exec_set.
  match goal with |- context [eval ?E (ECall (EAttr (EName "np") "zeros") ?a []) h] =>
    assert (X : eval E (ECall (EAttr (EName "np") "zeros") a []) h = Ok (PArr (List.length h) [], h ++ [OF (azeros [m0 + 2; m1 + 2])])) by reflexivity end.
  rewrite X. clear X. cbn [bind].
  match goal with |- sim _ (PySem.block _ _ _ _ ?E _) _ => set (E0 := E) end.
  eapply sim_weak with (R := oinv h [m0; m1] E0).
  2:{ intros C E h' (HA & _ & junk & ->). split; [|eauto]. rewrite HA; [reflexivity|notin]. }
  assert (Hi : oinv h [m0; m1] E0 (azeros [m0 + 2; m1 + 2]) E0 (h ++ [OF (azeros [m0 + 2; m1 + 2])])).
  { split; [apply agree_refl|]. split; [reflexivity|]. exists []. reflexivity. }
  fpass h kv kd D [d0; d1] [m0; m1] E0 0%nat "Mx"%string (@nil (string * string)) [("iy", "My")%string] (@nil Z) [m1] false HV HD SD Hi.
  fpass h kv kd D [d0; d1] [m0; m1] E0 1%nat "My"%string [("ix", "Nx")%string] (@nil (string * string)) [m0] (@nil Z) true HV HD SD Hi.
  now apply sim_end.
Qed.
Lemma old_3 h kv kd dinvs D dims : fready h kv kd dinvs D dims -> List.length dims = 3%nat ->
  returns_new h (filter_passes_old dinvs D [] (ashape D) (azeros (map (fun n => n + 2) (ashape D))))
    (call_body G call fuel fps (fbody "filter_coeffs_3d" ++ [SRet (Some (EName "coefs"))]) [PArr kv []; PArr kd []] [] h).
Proof.
  intros (HV & HD & SD & Hpos & Hlen) Ld. rewrite SD.
  destruct dims as [|m0 [|m1 [|m2 [|? ?]]]]; try discriminate Ld. destruct dinvs as [|d0 [|d1 [|d2 [|? ?]]]]; try discriminate Hlen. clear Ld Hlen.
  repeat match goal with H : Forall _ (_ :: _) |- _ => inversion H; clear H; subst end.
  assert (VD : vshape [] (ashape D) = [m0; m1; m2]) by (rewrite vshape_nil; auto).
  cbn [map]. start h dims HD. do 3 fdim HD VD. do 3 fnext.
  rewrite block_cons, exec_set.
  match goal with |- context [eval ?E (ECall (EAttr (EName "np") "zeros") ?a []) h] =>
    assert (X : eval E (ECall (EAttr (EName "np") "zeros") a []) h = Ok (PArr (List.length h) [], h ++ [OF (azeros [m0 + 2; m1 + 2; m2 + 2])])) by reflexivity end.
  rewrite X. clear X. cbn [bind].
  match goal with |- sim _ (PySem.block _ _ _ _ ?E _) _ => set (E0 := E) end.
  eapply sim_weak with (R := oinv h [m0; m1; m2] E0).
  2:{ intros C E h' (HA & _ & junk & ->). split; [|eauto]. rewrite HA; [reflexivity|notin]. }
  assert (Hi : oinv h [m0; m1; m2] E0 (azeros [m0 + 2; m1 + 2; m2 + 2]) E0 (h ++ [OF (azeros [m0 + 2; m1 + 2; m2 + 2])])).
  { split; [apply agree_refl|]. split; [reflexivity|]. exists []. reflexivity. }
  fpass h kv kd D [d0; d1; d2] [m0; m1; m2] E0 0%nat "Mx"%string (@nil (string * string)) [("iy", "My")%string; ("iz", "Mz")%string] (@nil Z) [m1; m2] false HV HD SD Hi.
  fpass h kv kd D [d0; d1; d2] [m0; m1; m2] E0 1%nat "My"%string [("ix", "Nx")%string] [("iz", "Mz")%string] [m0] [m2] true HV HD SD Hi.
  fpass h kv kd D [d0; d1; d2] [m0; m1; m2] E0 2%nat "Mz"%string [("ix", "Nx")%string; ("iy", "Ny")%string] (@nil (string * string)) [m0; m1] (@nil Z) true HV HD SD Hi.
  now apply sim_end.
Qed.
Lemma old_4 h kv kd dinvs D dims : fready h kv kd dinvs D dims -> List.length dims = 4%nat ->
  returns_new h (filter_passes_old dinvs D [] (ashape D) (azeros (map (fun n => n + 2) (ashape D))))
    (call_body G call fuel fps (fbody "filter_coeffs_4d" ++ [SRet (Some (EName "coefs"))]) [PArr kv []; PArr kd []] [] h).
Proof.
  intros (HV & HD & SD & Hpos & Hlen) Ld. rewrite SD.
  destruct dims as [|m0 [|m1 [|m2 [|m3 [|? ?]]]]]; try discriminate Ld. destruct dinvs as [|d0 [|d1 [|d2 [|d3 [|? ?]]]]]; try discriminate Hlen. clear Ld Hlen.
  repeat match goal with H : Forall _ (_ :: _) |- _ => inversion H; clear H; subst end.
  assert (VD : vshape [] (ashape D) = [m0; m1; m2; m3]) by (rewrite vshape_nil; auto).
  cbn [map]. start h dims HD. do 4 fdim HD VD. do 4 fnext.
  rewrite block_cons, exec_set.
  match goal with |- context [eval ?E (ECall (EAttr (EName "np") "zeros") ?a []) h] =>
    assert (X : eval E (ECall (EAttr (EName "np") "zeros") a []) h = Ok (PArr (List.length h) [], h ++ [OF (azeros [m0 + 2; m1 + 2; m2 + 2; m3 + 2])])) by reflexivity end.
  rewrite X. clear X. cbn [bind].
  match goal with |- sim _ (PySem.block _ _ _ _ ?E _) _ => set (E0 := E) end.
  eapply sim_weak with (R := oinv h [m0; m1; m2; m3] E0).
  2:{ intros C E h' (HA & _ & junk & ->). split; [|eauto]. rewrite HA; [reflexivity|notin]. }
  assert (Hi : oinv h [m0; m1; m2; m3] E0 (azeros [m0 + 2; m1 + 2; m2 + 2; m3 + 2]) E0 (h ++ [OF (azeros [m0 + 2; m1 + 2; m2 + 2; m3 + 2])])).
  { split; [apply agree_refl|]. split; [reflexivity|]. exists []. reflexivity. }
  fpass h kv kd D [d0; d1; d2; d3] [m0; m1; m2; m3] E0 0%nat "Mx"%string (@nil (string * string)) [("iy", "My")%string; ("iz", "Mz")%string; ("iz4", "Mz4")%string] (@nil Z) [m1; m2; m3] false HV HD SD Hi.
  fpass h kv kd D [d0; d1; d2; d3] [m0; m1; m2; m3] E0 1%nat "My"%string [("ix", "Nx")%string] [("iz", "Mz")%string; ("iz4", "Mz4")%string] [m0] [m2; m3] true HV HD SD Hi.
  fpass h kv kd D [d0; d1; d2; d3] [m0; m1; m2; m3] E0 2%nat "Mz"%string [("ix", "Nx")%string; ("iy", "Ny")%string] [("iz4", "Mz4")%string] [m0; m1] [m3] true HV HD SD Hi.
  fpass h kv kd D [d0; d1; d2; d3] [m0; m1; m2; m3] E0 3%nat "Mz4"%string [("ix", "Nx")%string; ("iy", "Ny")%string; ("iz", "Nz")%string] (@nil (string * string)) [m0; m1; m2] (@nil Z) true HV HD SD Hi.
  now apply sim_end.
Qed.
End Filt.
