(** [filter_data] of filter_cubic.py: its text computes what PrefilterModel.v computes. *)
From Coq Require Import ZArith List Bool String Lia.
From Verif Require Import Base BaseFacts SplineModel BasisModel PrefilterModel PySyntax PySem SpecText PySemFacts BasisText PyArr SrcFilterCubic PrefCore PrefPass PrefText PrefBody PrefRun SpecPref SpecFilt FiltCore FiltText.
Import ListNotations.
Open Scope list_scope.
Open Scope Z_scope.
Open Scope num_scope.

Section Module.
Context {T : Type} {NT : Num T}.
Hypothesis H6 : n_is0 (n_ofZ (T := T) 6) = false.
Hypothesis H3 : n_is0 (n_ofZ (T := T) 3) = false.

Lemma run_text_fc n f vs ks (h : heap T) : run_text filter_cubic_py n f vs ks h = run GF fc_program n f vs ks h.
Proof. unfold run_text, GF. rewrite fc_text. reflexivity. Qed.

Definition fname (d : nat) : string := nth d [""; "filter_coeffs_1d"; "filter_coeffs_2d"; "filter_coeffs_3d"; "filter_coeffs_4d"]%string ""%string.
Lemma run_coeffs n d (h : heap T) kv kd dinvs D dims : fready h kv kd dinvs D dims -> List.length dims = d -> (1 <= d <= 4)%nat ->
  returns_new h (filter_passes_old dinvs D [] (ashape D) (azeros (map (fun n => n + 2) (ashape D))))
    (run GF fc_program (S (S (S n))) (fname d) [PArr kv []; PArr kd []] [] h).
Proof.
  intros HR Ld Hd. pose proof (run_old H6 H3 n) as HO.
  assert (d = 1 \/ d = 2 \/ d = 3 \/ d = 4)%nat as [-> | [-> | [-> | ->]]] by lia; cbn [fname nth].
  - rewrite (run_def GF fc_program (S (S n)) _ fps (fbody "filter_coeffs_1d" ++ [SRet (Some (EName "coefs"))])) by reflexivity. eapply old_1; eauto.
  - rewrite (run_def GF fc_program (S (S n)) _ fps (fbody "filter_coeffs_2d" ++ [SRet (Some (EName "coefs"))])) by reflexivity. eapply old_2; eauto.
  - rewrite (run_def GF fc_program (S (S n)) _ fps (fbody "filter_coeffs_3d" ++ [SRet (Some (EName "coefs"))])) by reflexivity. eapply old_3; eauto.
  - rewrite (run_def GF fc_program (S (S n)) _ fps (fbody "filter_coeffs_4d" ++ [SRet (Some (EName "coefs"))])) by reflexivity. eapply old_4; eauto.
Qed.

Lemma text_filter_data n (h : heap T) kv kd dinvs D :
  nth_error h kv = Some (OF (vecT dinvs)) -> nth_error h kd = Some (OF D) -> 
  ((1 <= List.length dinvs <= 4)%nat -> Forall (fun m => 1 <= m) (ashape D) /\ List.length (ashape D) = List.length dinvs) ->
  returns_opt h (filter_data dinvs D) (run_text filter_cubic_py (S (S (S (S n)))) "filter_data" [PArr kv []; PArr kd []] [] h).
Proof.
  intros HV HD HR. rewrite run_text_fc.
  rewrite (run_def GF fc_program (S (S (S n))) _ fps (snd (fdef "filter_data"))) by reflexivity.
  set (call := run GF fc_program (S (S (S n)))).
  set (E := upd (T := T) (upd empty "data" (PArr kd [])) "dinv" (PArr kv [])).
  assert (XL : eval GF call E (ECall (EName "len") [EName "dinv"] []) h = Ok (PInt (zlen dinvs), h)).
  { unfold E. cbn -[nth_error vdims lget]. rewrite (vdims_arr _ _ _ _ HV). reflexivity. }
  assert (XC : forall f, builtin f [PArr kv []; PArr kd []] h = None -> f <> "isinstance"%string -> eval GF call E (ECall (EName f) [EName "dinv"; EName "data"] []) h = call f [PArr kv []; PArr kd []] [] h).
  { intros f Hf Hi. rewrite eval_call by auto. unfold E. cbn. rewrite Hf. reflexivity. }
  assert (XI : forall k b1 b2, exec GF call (S (S (S n))) (SIf (ECmp (ECall (EName "len") [EName "dinv"] []) [("=="%string, EInt k)]) b1 b2) E h
    = if zlen dinvs =? k then block GF call (S (S (S n))) b1 E h else block GF call (S (S (S n))) b2 E h).
  { intros k b1 b2.
    change (exec GF call (S (S (S n))) (SIf (ECmp (ECall (EName "len") [EName "dinv"] []) [("=="%string, EInt k)]) b1 b2) E h) with
      ('(x, h) <- ('(x, h) <- eval GF call E (ECall (EName "len") [EName "dinv"] []) h ;; '(b, h) <- ('(w, h) <- Ok (PInt (T := T) k, h) ;; b <- compare "==" x w ;; if b : bool then Ok (true, h) else Ok (false, h)) ;; Ok (PBool (T := T) b, h)) ;; t <- truth (T := T) x ;;
        if t : bool then block GF call (S (S (S n))) b1 E h else block GF call (S (S (S n))) b2 E h).
    rewrite XL. cbn -[Z.eqb zlen]. destruct (zlen dinvs =? k); reflexivity. }
  assert (XR : forall f, builtin f [PArr kv []; PArr kd []] h = None -> f <> "isinstance"%string -> block GF call (S (S (S n))) [SRet (Some (ECall (EName f) [EName "dinv"; EName "data"] []))] E h
    = ('(v, h) <- call f [PArr kv []; PArr kd []] [] h ;; Ok (Ret v, E, h))).
  { intros f H1 H2. rewrite block_cons.
    change (exec GF call (S (S (S n))) (SRet (Some (ECall (EName f) [EName "dinv"; EName "data"] []))) E h) with
      ('(v, h) <- eval GF call E (ECall (EName f) [EName "dinv"; EName "data"] []) h ;; Ok (Ret v, E, h)).
    rewrite XC by auto. destruct (call f _ [] h) as [[v h']|]; reflexivity. }
  unfold call_body. change (bind_params GF call fps [PArr kv []; PArr kd []] [] h) with (Ok (E, h)). cbn [bind].
  let l := eval vm_compute in (snd (fdef "filter_data")) in change (snd (fdef "filter_data")) with l.
  rewrite block_cons, XI. unfold filter_data.
  assert (CS : forall d, (1 <= d <= 4)%nat -> List.length dinvs = d ->
    returns_opt h (if negb (andim D =? zlen dinvs) then Err TypeErr else C <- filter_passes_old dinvs D [] (ashape D) (azeros (map (fun n => n + 2) (ashape D))) ;; Ok (Some C))
      (call (fname d) [PArr kv []; PArr kd []] [] h)).
  { intros d Hd Ld. destruct (HR ltac:(lia)) as [Hp Hl].
    assert (negb (andim D =? zlen dinvs) = false) as ->. { unfold andim, zlen. rewrite Hl, Z.eqb_refl. reflexivity. }
    pose proof (run_coeffs n d h kv kd dinvs D (ashape D)) as W. specialize (W ltac:(repeat split; auto) ltac:(lia) Hd).
    destruct (filter_passes_old dinvs D [] _ _) as [C|e]; cbn [bind returns_new returns_opt] in *.
    - destruct W as (junk & W). exists junk. exact W.
    - exact W. }
  assert (Zl : zlen dinvs = Z.of_nat (List.length dinvs)) by reflexivity.
  destruct (Z.eqb_spec (zlen dinvs) 1) as [E1|E1].
  { rewrite XR by (reflexivity || discriminate). rewrite E1 at 1 2. cbn [Z.ltb Z.compare Pos.compare Pos.compare_cont orb]. 
    pose proof (CS 1%nat ltac:(lia) ltac:(lia)) as W. cbn [fname nth] in W. destruct (call _ _ _ _) as [[v h']|]; exact W. }
  rewrite !block_cons, XI.
  destruct (Z.eqb_spec (zlen dinvs) 2) as [E2|E2].
  { rewrite XR by (reflexivity || discriminate). rewrite E2 at 1 2. cbn [Z.ltb Z.compare Pos.compare Pos.compare_cont orb].
    pose proof (CS 2%nat ltac:(lia) ltac:(lia)) as W. cbn [fname nth] in W. destruct (call _ _ _ _) as [[v h']|]; exact W. }
  rewrite !block_cons, XI.
  destruct (Z.eqb_spec (zlen dinvs) 3) as [E3|E3].
  { rewrite XR by (reflexivity || discriminate). rewrite E3 at 1 2. cbn [Z.ltb Z.compare Pos.compare Pos.compare_cont orb].
    pose proof (CS 3%nat ltac:(lia) ltac:(lia)) as W. cbn [fname nth] in W. destruct (call _ _ _ _) as [[v h']|]; exact W. }
  rewrite !block_cons, XI.
  destruct (Z.eqb_spec (zlen dinvs) 4) as [E4|E4].
  { rewrite XR by (reflexivity || discriminate). rewrite E4 at 1 2. cbn [Z.ltb Z.compare Pos.compare Pos.compare_cont orb].
    pose proof (CS 4%nat ltac:(lia) ltac:(lia)) as W. cbn [fname nth] in W. destruct (call _ _ _ _) as [[v h']|]; exact W. }
  replace ((zlen dinvs <? 1) || (4 <? zlen dinvs)) with true by (symmetry; apply orb_true_iff; rewrite !Z.ltb_lt; lia).
  reflexivity.
Qed.
Lemma text_no_result n (h : heap T) kv kd dinvs D :
  nth_error h kv = Some (OF (vecT dinvs)) -> nth_error h kd = Some (OF D) -> (List.length dinvs = 0 \/ 5 <= List.length dinvs)%nat ->
  run_text filter_cubic_py (S (S (S (S n)))) "filter_data" [PArr kv []; PArr kd []] [] h = Ok (PNone, h).
Proof.
  intros HV HD HL. pose proof (text_filter_data n h kv kd dinvs D HV HD ltac:(lia)) as X. unfold filter_data in X.
  replace ((zlen dinvs <? 1) || (4 <? zlen dinvs)) with true in X by (symmetry; apply orb_true_iff; rewrite !Z.ltb_lt; unfold zlen; lia).
  exact X.
Qed.
End Module.
