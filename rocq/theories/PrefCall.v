(** Calls of prefilter_cubic.py: in place, allocating, [prefilter_cubic] and [prefilter]. *)
From Coq Require Import ZArith List Bool String Lia.
From Verif Require Import Base BaseFacts SplineModel BasisModel PrefilterModel PySyntax PySem SpecText PySemFacts BasisText PyArr SrcPrefilterCubic PrefCore PrefPass PrefText PrefBody PrefRun.
Import ListNotations.
Open Scope list_scope.
Open Scope Z_scope.
Open Scope num_scope.

Section Calls.
Context {T : Type} {NT : Num T}.
Hypothesis H6 : n_is0 (n_ofZ (T := T) 6) = false.
Hypothesis H3 : n_is0 (n_ofZ (T := T) 3) = false.
Notation runp := (run GP pf_program).

Lemma inplace_vv grid (D C : arr T) dims comps : ashape D = dims ++ comps -> ashape C = map (fun m => m + 2) dims ++ comps -> List.length grid = List.length dims ->
  filter_inplace grid D C = filter_vv (List.length comps) grid D [] C.
Proof.
  intros SD SC Hl. unfold filter_inplace, andim, zlen. rewrite SD, SC, !app_length, map_length.
  destruct (Z.eqb_spec (Z.of_nat (List.length dims + List.length comps)) (Z.of_nat (List.length dims + List.length comps))); [|lia].
  destruct (Z.ltb_spec (Z.of_nat (List.length dims + List.length comps)) (Z.of_nat (List.length grid))); [lia|]. cbn [negb orb].
  f_equal. lia.
Qed.

Lemma ints_map zs : ints (map (@PInt T) zs) = Some zs.
Proof. induction zs; cbn; auto. now rewrite IHzs. Qed.
Section Inplace.
Variable h : heap T.
Variables kd kc : nat.
Variables D C0 : arr T.
Variables dims comps : list Z.
Variable grid : list (gdim T).
Variable vs : list (val T).
Hypothesis HD : nth_error h kd = Some (OF D).
Hypothesis SD : ashape D = dims ++ comps.
Hypothesis Hpos : Forall (fun m => 1 <= m) dims.
Hypothesis Hlen : List.length grid = List.length dims.
Hypothesis Hd : (1 <= List.length dims <= 4)%nat.

Lemma call_inplace n : kd <> kc -> nth_error h kc = Some (OF C0) -> ashape C0 = map (fun m => m + 2) dims ++ comps -> Forall2 (is_dim h kc) vs grid ->
  (List.length comps + 3 <= n)%nat ->
  writes h kc C0 (filter_inplace grid D C0) (runp n "_filter_cubic" [PTup vs; PArr kd []; PArr kc []] [] h).
Proof.
  intros Hne HC SC Hg Hn. rewrite (inplace_vv grid D C0 dims comps) by auto.
  eapply (text_vv H6 H3 (List.length comps) n h kd kc [] [] D C0 dims comps [] [] grid vs); auto.
  - now rewrite app_nil_r.
  - now rewrite app_nil_r.
  - now right.
  - now right.
Qed.

Lemma run_star n us : runp (S n) "prefilter_cubic" us [] h = runp n "_filter_cubic" us [] h.
Proof.
  rewrite (run_def GP pf_program n "prefilter_cubic" (fst (pdef "prefilter_cubic")) (snd (pdef "prefilter_cubic"))) by reflexivity.
  set (call := runp n). cbn. rewrite app_nil_r. destruct (call "_filter_cubic"%string us [] h) as [[v h']|]; reflexivity.
Qed.

(** The result of an allocating call: a new array, first after the old heap. *)
Definition returns (r : res (arr T)) (x : res (val T * heap T)) : Prop :=
  match r with
  | Ok C => exists junk, x = Ok (PArr (List.length h) [], h ++ OF C :: junk)
  | Err e => x = Err e
  end.
Definition p2 : list (string * option expr) := [("grid", None); ("D", None)]%string.
Lemma run_alloc n us : List.length us = 2%nat ->
  runp (S n) "_filter_cubic" us [] h =
  ('(v, _) <- call_body GP (runp n) n (fst alloc_def) (snd alloc_def) us [] h ;;
   match v with PFun qs c => call_body GP (runp n) n qs c us [] h | _ => Err TypeErr end).
Proof. intros H. destruct us as [|a [|b [|? ?]]]; try discriminate H. reflexivity. Qed.

Lemma alloc_tail call fuel E e sh r : eval GP call E e h = Ok (PArr (List.length h) [], h ++ [OF (azeros sh)]) ->
  E "grid"%string = Some (PTup vs) -> E "D"%string = Some (PArr kd []) ->
  writes (h ++ [OF (azeros sh)]) (List.length h) (azeros sh) r (call "_filter_cubic"%string [PTup vs; PArr kd []; PArr (List.length h) []] [] (h ++ [OF (azeros sh)])) ->
  returns r ('(s, _, h) <- block GP call fuel [SAssign [EName "C"] e; SExpr (ECall (EName "_filter_cubic") [EName "grid"; EName "D"; EName "C"] []); SRet (Some (EName "C"))] E h ;;
     match s with Ret v => Ok (v, h) | Nxt => Ok (PNone, h) | _ => Err TypeErr end).
Proof.
  intros He EG ED W. rewrite block_cons, exec_set, He. cbn [bind].
  set (E1 := upd E "C" (PArr (List.length h) [])).
  assert (XX : forall h1, eval GP call E1 (ECall (EName "_filter_cubic") [EName "grid"; EName "D"; EName "C"] []) h1
     = call "_filter_cubic"%string [PTup vs; PArr kd []; PArr (List.length h) []] [] h1).
  { intros h1. rewrite eval_call by discriminate.
    rewrite (evals_cons _ _ _ _ _ _ (PTup vs) h1) by (cbn; rewrite (lookup_in GP E1 _ (PTup vs)); [reflexivity|unfold E1; rewrite upd_other by discriminate; auto]).
    rewrite (evals_cons _ _ _ _ _ _ (PArr kd []) h1) by (cbn; rewrite (lookup_in GP E1 _ (PArr kd [])); [reflexivity|unfold E1; rewrite upd_other by discriminate; auto]).
    rewrite (evals_cons _ _ _ _ _ _ (PArr (List.length h) []) h1) by reflexivity. reflexivity. }
  rewrite block_cons. 
  assert (X1 : forall h1, exec GP call fuel (SExpr (ECall (EName "_filter_cubic") [EName "grid"; EName "D"; EName "C"] [])) E1 h1
     = ('(_, h) <- call "_filter_cubic"%string [PTup vs; PArr kd []; PArr (List.length h) []] [] h1 ;; Ok (Nxt, E1, h))).
  { intros h1. rewrite <- XX. reflexivity. }
  rewrite X1. destruct r as [C|er]; cbn [writes] in W.
  - destruct W as (_ & junk & ->). cbn. exists junk. now rewrite hset_app, <- app_assoc.
  - rewrite W. reflexivity.
Qed.

Definition zeros_expr (e : expr) := ECall (EAttr (EName "np") "zeros") [e] [].
Definition alloc_body (e : expr) : list stmt :=
  [SAssign [EName "C"] (zeros_expr e); SExpr (ECall (EName "_filter_cubic") [EName "grid"; EName "D"; EName "C"] []); SRet (Some (EName "C"))].
Lemma zeros_tup call E l zs : evals GP call E l h = Ok (map PInt zs, h) ->
  eval GP call E (zeros_expr (ETup l)) h = Ok (PArr (List.length h) [], h ++ [OF (azeros zs)]).
Proof.
  intros H. assert (X : eval GP call E (ETup l) h = Ok (PTup (map PInt zs), h)) by (rewrite eval_tup, H; reflexivity).
  change (eval GP call E (zeros_expr (ETup l)) h) with
    ('(vs, h) <- evals GP call E [ETup l] h ;; match builtin "zeros" vs h with Some r => r | None => call "zeros"%string vs [] h end).
  rewrite (evals_cons _ _ _ _ _ _ _ _ X). cbn -[azeros]. rewrite ints_map. reflexivity.
Qed.
Lemma eval_dim2 call E sh i m : E "D"%string = Some (PArr kd []) -> ashape D = sh -> 0 <= i -> lget sh i = Ok m ->
  eval GP call E (EBin "+" (ESub (EAttr (EName "D") "shape") [EInt i]) (EInt 2)) h = Ok (PInt (m + 2), h).
Proof.
  intros HE Hs Hi Hm.
  change (eval GP call E (EBin "+" (ESub (EAttr (EName "D") "shape") [EInt i]) (EInt 2)) h)
    with ('(x, h) <- eval GP call E (ESub (EAttr (EName "D") "shape") [EInt i]) h ;; v <- binop h "+" x (PInt 2) ;; Ok (v, h)).
  rewrite (eval_dim GP call E h "D" kd [] D sh i m); auto.
Qed.
Lemma over_alloc call n : List.length vs = List.length dims -> (List.length comps <= 1)%nat ->
  exists e, call_body GP call n (fst alloc_def) (snd alloc_def) [PTup vs; PArr kd []] [] h = Ok (PFun p2 (alloc_body e), h) /\
    forall E, E "D"%string = Some (PArr kd []) ->
      eval GP call E (zeros_expr e) h = Ok (PArr (List.length h) [], h ++ [OF (azeros (map (fun m => m + 2) dims ++ comps))]).
Proof.
  intros Lv Hc.
  assert (VD : vdims h (PArr kd []) = Ok (dims ++ comps)) by (rewrite (vdims_arr _ _ _ _ HD), vshape_nil; congruence).
  destruct dims as [|m0 [|m1 [|m2 [|m3 [|? ?]]]]]; cbn [List.length] in Hd; try lia;
  (destruct vs as [|v0 [|v1 [|v2 [|v3 [|v4 vs']]]]]; cbn [List.length] in Lv; try lia);
  (destruct comps as [|c0 [|? ?]]; cbn [List.length] in Hc; [| |lia]);
  (eexists; split; [unfold alloc_def; cbn [fst snd]; unfold call_body; cbn [bind_params star_name Ascii.eqb Bool.eqb bind];
     do 6 (unfold zlen; cbn -[vdims]; rewrite ?VD); cbn -[alloc_body]; unfold alloc_body, zeros_expr; reflexivity
   |intros E ED; first
      [ apply zeros_tup; cbn [map app];
        repeat (erewrite evals_cons by first [eapply eval_dim2; [exact ED|exact SD|lia|reflexivity] | eapply eval_dim; [exact ED|exact HD|rewrite vshape_nil; exact SD|lia|reflexivity]]);
        reflexivity
      | unfold zeros_expr; cbn -[vdims]; rewrite (lookup_in GP _ _ _ ED); cbn -[vdims]; rewrite VD; reflexivity ] ]).
Qed.
Lemma call_alloc n : Forall2 (is_dim h (List.length h)) vs grid -> (List.length comps <= 1)%nat -> (List.length comps + 4 <= n)%nat ->
  returns (filter_alloc grid D) (runp n "_filter_cubic" [PTup vs; PArr kd []] [] h).
Proof.
  intros Hg Hc Hn. destruct n as [|n]; [lia|]. rewrite run_alloc by reflexivity.
  assert (Lkd : (kd < List.length h)%nat) by (apply nth_error_Some; congruence).
  assert (Lv : List.length vs = List.length dims) by (rewrite <- Hlen; eapply Forall2_length; eauto).
  assert (VD : vdims h (PArr kd []) = Ok (dims ++ comps)) by (rewrite (vdims_arr _ _ _ _ HD), vshape_nil; congruence).
  set (sh := map (fun m => m + 2) dims ++ comps).
  assert (FA : filter_alloc grid D = filter_inplace grid D (azeros sh)).
  { unfold filter_alloc, andim, zlen. rewrite SD, app_length.
    replace ((Z.of_nat (List.length grid) <? 1) || (4 <? Z.of_nat (List.length grid))) with false by (symmetry; apply orb_false_intro; apply Z.ltb_ge; lia).
    replace ((Z.of_nat (List.length dims + List.length comps) =? Z.of_nat (List.length grid)) || (Z.of_nat (List.length dims + List.length comps) =? Z.of_nat (List.length grid) + 1))
      with true by (symmetry; apply orb_true_intro; rewrite !Z.eqb_eq; lia).
    unfold coef_shape. rewrite Hlen, firstn_app, firstn_all, Nat.sub_diag, skipn_app, skipn_all, Nat.sub_diag. cbn [firstn skipn app]. now rewrite app_nil_r. }
  rewrite FA.
  assert (W : writes (h ++ [OF (azeros sh)]) (List.length h) (azeros sh) (filter_inplace grid D (azeros sh))
     (runp n "_filter_cubic"%string [PTup vs; PArr kd []; PArr (List.length h) []] [] (h ++ [OF (azeros sh)]))).
  { rewrite (inplace_vv grid D (azeros sh) dims comps) by auto.
    eapply (text_vv H6 H3 (List.length comps) n _ kd (List.length h) [] [] D (azeros sh) dims comps [] [] grid vs); auto.
    - lia.
    - rewrite nth_error_app1; auto.
    - apply nth_new.
    - now rewrite app_nil_r.
    - cbn [azeros ashape]. now rewrite app_nil_r.
    - now right.
    - now right.
    - eapply Forall2_imp; [|exact Hg]. intros v g. destruct g; cbn; auto. intros (k & -> & Hk & Nk). exists k. repeat split; auto.
      rewrite nth_error_app1; auto. apply nth_error_Some. congruence.
    - lia. }
  set (call := runp n) in *. clearbody call. subst sh. clear FA.
  destruct (over_alloc call n Lv Hc) as (e & X & Xe). rewrite X. cbn [bind]. unfold call_body.
  cbn [p2 bind_params star_name Ascii.eqb Bool.eqb bind].
  eapply alloc_tail; [apply Xe; reflexivity|reflexivity|reflexivity|exact W].
Qed.
End Inplace.
End Calls.
