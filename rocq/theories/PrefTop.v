(** [prefilter] of prefilter_cubic.py, and the statements about its text. *)
From Coq Require Import ZArith List Bool String Lia Reals.
From Verif Require Import Base BaseFacts SplineModel BasisModel PrefilterModel PySyntax PySem SpecText SpecPref PySemFacts BasisText PyArr SrcPrefilterCubic PrefCore PrefPass PrefText PrefBody PrefRun PrefCall.
Import ListNotations.
Open Scope list_scope.
Open Scope Z_scope.

Section Top.
Context {T : Type} {NT : Num T}.
Hypothesis H6 : n_is0 (n_ofZ (T := T) 6) = false.
Hypothesis H3 : n_is0 (n_ofZ (T := T) 3) = false.
Notation runp := (run GP pf_program).

Lemma run_text_pf n f vs ks (h : heap T) : run_text prefilter_cubic_py n f vs ks h = runp n f vs ks h.
Proof. unfold run_text, GP. rewrite pf_text. reflexivity. Qed.

Lemma is_dims h kc vs grid : grid_arg h kc vs grid -> Forall2 (is_dim h kc) vs grid.
Proof.
  intros [H Hi]. induction H as [|v g vs grid Hv Hr IH]; constructor.
  - destruct g; cbn in *; auto. destruct Hv as (k & -> & Hk). exists k. repeat split; auto. intros ->. apply Hi. now left.
  - apply IH. intros X. apply Hi. now right.
Qed.
Lemma fresh_dims h vs grid : Forall2 (dim_arg h) vs grid -> Forall2 (is_dim h (List.length h)) vs grid.
Proof.
  intros H. induction H as [|v g vs grid Hv Hr IH]; constructor; auto.
  destruct g; cbn in *; auto. destruct Hv as (k & -> & Hk). exists k. repeat split; auto.
  assert ((k < List.length h)%nat) by (apply nth_error_Some; congruence). lia.
Qed.
Lemma writes_over h kc (C0 : arr T) r x : nth_error h kc = Some (OF C0) -> writes h kc C0 r x -> overwrites h kc r x.
Proof.
  intros Hk. destruct r as [C|e]; cbn; auto. intros (_ & junk & ->). exists (hset h kc (OF C)), junk.
  assert ((kc < List.length h)%nat) by (apply nth_error_Some; congruence).
  split; [auto|]. split; [apply hset_length|]. split; [now apply nth_hset_same|]. intros k Hn. apply nth_hset_other; auto.
Qed.

Definition pover := match overloads pf_program "_prefilter" with o :: _ => o | [] => ([], []) end.
Lemma prefilter_outer n us ks g V out k h : prefilter_call us ks g V out k ->
  runp (S n) "prefilter" us ks h = runp n "_prefilter" [g; V; PInt k] [("out"%string, out)] h.
Proof.
  intros H. rewrite (run_def GP pf_program n "prefilter" (fst (pdef "prefilter")) (snd (pdef "prefilter"))) by reflexivity.
  set (call := runp n). 
  destruct H as [H|[[-> H]|[[-> H]|(-> & -> & H)]]]; cbn [In] in H;
   repeat (destruct H as [H|H]; try contradiction H); try contradiction H; injection H as ? ?; subst us ks;
   cbn; destruct (call "_prefilter"%string _ _ h) as [[? ?]|]; reflexivity.
Qed.
Lemma prefilter_over n g V out k h :
  runp (S n) "_prefilter" [g; V; PInt k] [("out"%string, out)] h =
  if k =? 1 then Ok (V, h)
  else if k =? 3 then match out with PNone => runp n "prefilter_cubic" [g; V] [] h | _ => runp n "prefilter_cubic" [g; V; out] [] h end
  else Err TypeErr.
Proof.
  assert (X : runp (S n) "_prefilter" [g; V; PInt k] [("out"%string, out)] h =
   ('(v, _) <- call_body GP (runp n) n (fst pover) (snd pover) [g; V; PInt k] [("out"%string, out)] h ;;
    match v with PFun qs c => call_body GP (runp n) n qs c [g; V; PInt k] [("out"%string, out)] h | _ => Err TypeErr end)) by reflexivity.
  rewrite X. clear X. set (call := runp n). cbn.
  destruct (k =? 1) eqn:E1; cbn; [reflexivity|].
  destruct (k =? 3) eqn:E3; cbn; [|reflexivity].
  destruct out; cbn; try (destruct (call "prefilter_cubic"%string _ _ h) as [[? ?]|]; reflexivity).
Qed.

Section Data.
Variable h : heap T.
Variable kd : nat.
Variable grid : list (gdim T).
Variables dims comps : list Z.
Variable D : arr T.
Hypothesis HD : data_arg h kd grid dims comps D.

Lemma top_alloc n us ks vs : (List.length comps + 7 <= n)%nat -> (List.length comps <= 1)%nat -> Forall2 (dim_arg h) vs grid ->
  prefilter_call us ks (PTup vs) (PArr kd []) PNone 3 ->
  returns_new h (filter_alloc grid D) (run_text prefilter_cubic_py n "prefilter" us ks h).
Proof.
  intros Hn Hc Hg Hcall. rewrite run_text_pf. destruct HD as (H1 & H2 & Hp & Hl & Hd).
  destruct n as [|[|[|n]]]; try lia. rewrite (prefilter_outer _ us ks _ _ _ _ h Hcall), prefilter_over. cbn [Z.eqb Pos.eqb].
  rewrite run_star. apply (call_alloc H6 H3 h kd D dims comps grid vs); auto; [|lia]. now apply fresh_dims.
Qed.
Lemma top_inplace n us ks vs kc C0 : (List.length comps + 6 <= n)%nat -> kd <> kc -> nth_error h kc = Some (OF C0) ->
  ashape C0 = map (fun m => m + 2) dims ++ comps -> grid_arg h kc vs grid ->
  prefilter_call us ks (PTup vs) (PArr kd []) (PArr kc []) 3 ->
  overwrites h kc (filter_inplace grid D C0) (run_text prefilter_cubic_py n "prefilter" us ks h).
Proof.
  intros Hn Hne HC SC Hg Hcall. rewrite run_text_pf. destruct HD as (H1 & H2 & Hp & Hl & Hd).
  destruct n as [|[|[|n]]]; try lia. rewrite (prefilter_outer _ us ks _ _ _ _ h Hcall), prefilter_over. cbn [Z.eqb Pos.eqb].
  rewrite run_star. apply (writes_over h kc C0); auto. apply (call_inplace H6 H3 h kd kc D C0 dims comps grid vs); auto; [|lia]. now apply is_dims.
Qed.
End Data.
Lemma top_linear n us ks g V out h : prefilter_call us ks g V out 1 ->
  run_text prefilter_cubic_py (S (S n)) "prefilter" us ks h = Ok (V, h).
Proof. intros H. now rewrite run_text_pf, (prefilter_outer _ us ks _ _ _ _ h H), prefilter_over. Qed.
Lemma top_rejects n us ks g V out k h : prefilter_call us ks g V out k -> k <> 1 -> k <> 3 ->
  run_text prefilter_cubic_py (S (S n)) "prefilter" us ks h = Err TypeErr.
Proof.
  intros H X Y. rewrite run_text_pf, (prefilter_outer _ us ks _ _ _ _ h H), prefilter_over.
  destruct (Z.eqb_spec k 1); [easy|]. destruct (Z.eqb_spec k 3); easy.
Qed.
End Top.
