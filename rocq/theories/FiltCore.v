(** The 1-d solver of filter_cubic.py: its text computes what PrefilterModel.v computes. *)
From Coq Require Import ZArith List Bool String Lia.
From Verif Require Import Base BaseFacts SplineModel PrefilterModel PySyntax PySem SpecText PySemFacts PyArr SrcFilterCubic PrefCore PrefPass PrefRun.
Import ListNotations.
Open Scope list_scope.
Open Scope Z_scope.
Open Scope num_scope.

Definition fc_program : list stmt := Eval vm_compute in match parse_text filter_cubic_py with Some p => p | None => [] end.
Lemma fc_text : parse_text filter_cubic_py = Some fc_program.
Proof. vm_cast_no_check (eq_refl (Some fc_program)). Qed.
Definition fdef (f : string) := match find_def fc_program f with Some d => d | None => ([], []) end.
(** The solver is the same text as in prefilter_cubic.py. *)
Lemma same_solver : fdef "solve_deriv_interp_1d" = pdef "solve_deriv_interp_1d".
Proof. reflexivity. Qed.
Definition ofind_text : list stmt := Eval vm_compute in snd (fdef "find_coefs_1d").
Definition t_abcd (x : string) : list stmt :=
  [SAssign [ESub (EName x) [EInt 0]] (EBin "*" (EBin "*" (EFlt 10 1) (EName "delta_inv")) (EName "delta_inv"));
   SAssign [ESub (EName x) [EInt 1]] (EBin "*" (EBin "*" (ENeg (EFlt 20 1)) (EName "delta_inv")) (EName "delta_inv"));
   SAssign [ESub (EName x) [EInt 2]] (EBin "*" (EBin "*" (EFlt 10 1) (EName "delta_inv")) (EName "delta_inv"));
   SAssign [ESub (EName x) [EInt 3]] (EInt 0)].
Lemma ofind_cut : ofind_text = firstn 3 ofind_text ++ t_abcd "abcd_left" ++ t_abcd "abcd_right" ++
  [SFor (EName "i") (ECall (EName "range") [EInt 4] []) t_fill4; SFor (EName "i") (ECall (EName "range") [EName "M"] []) t_fillM;
   SExpr (ECall (EName "solve_deriv_interp_1d") [EName "bands"; EName "coefs"] [])].
Proof. reflexivity. Qed.

Section Find.
Context {T : Type} {NT : Num T}.
Variable G : env T.
Variable call : string -> list (val T) -> list (string * val T) -> heap T -> res (val T * heap T).
Variable fuel : nat.
Notation eval := (eval G call).
Notation exec := (exec G call fuel).
Notation block := (block G call fuel).
Notation index := (index G call).

Definition is_abcd (del : T) (A : arr T) : Prop := ashape A = [4] /\ forall i, 0 <= i < 4 -> aget A [i] = Ok (abcd del i).
Lemma text_abcd x k del E h : E x = Some (PArr k []) -> E "delta_inv"%string = Some (PFlt del) -> nth_error h k = Some (OF (azeros [4])) ->
  exists A, is_abcd del A /\ block (t_abcd x) E h = Ok (Nxt, E, hset h k (OF A)).
Proof.
  intros Hx Hd Hk. assert (L : (k < List.length h)%nat) by (apply nth_error_Some; congruence).
  assert (ST : forall i e v (A : arr T), 0 <= i < 4 -> ashape A = [4] -> (forall h', eval E e h' = Ok (PFlt v, h')) ->
    exec (SAssign [ESub (EName x) [EInt i]] e) E (hset h k (OF A))
    = Ok (Nxt, E, hset h k (OF (mkArr [4] (fun idx => if idx_eqb idx [i] then v else acell A idx))))).
  { intros i e v A Hi SA He. rewrite (exec_elem G call fuel E _ x [EInt i] [i] k [] A e (Ok v)).
    - cbn [bind vmerge]. unfold aset. rewrite SA. cbn [inb]. replace ((0 <=? i) && (i <? 4) && true) with true by lia.
      cbn [bind]. now rewrite hset_hset.
    - split; auto. now apply nth_hset_same.
    - split; [reflexivity|repeat constructor; lia].
    - now rewrite SA.
    - apply He. }
  assert (SZ : forall i (A : arr T), 0 <= i < 4 -> ashape A = [4] ->
    exec (SAssign [ESub (EName x) [EInt i]] (EInt 0)) E (hset h k (OF A))
    = Ok (Nxt, E, hset h k (OF (mkArr [4] (fun idx => if idx_eqb idx [i] then n_ofZ 0 else acell A idx))))).
  { intros i A Hi SA. cbn -[nth_error aset]. unfold lookup. rewrite Hx. cbn -[nth_error aset]. unfold hget. rewrite nth_hset_same by auto.
    cbn -[nth_error aset]. rewrite SA. cbn -[nth_error aset]. rewrite wrap_pos by lia. unfold aset. rewrite SA. cbn [inb].
    replace ((0 <=? i) && (i <? 4) && true) with true by lia. cbn [bind]. now rewrite hset_hset. }
  eexists. split; cycle 1.
  - rewrite <- (hset_same h k (OF (azeros [4]))) at 1 by auto. unfold t_abcd.
    do 3 (rewrite block_cons; erewrite ST; [cbn [bind]|lia|reflexivity|intros h'; cbn -[literal]; unfold lookup; rewrite Hd; reflexivity]).
    rewrite block_cons. rewrite SZ by (lia || reflexivity). reflexivity.
  - split; [reflexivity|]. intros i Hi. assert (i = 0 \/ i = 1 \/ i = 2 \/ i = 3) as [-> | [-> | [-> | ->]]] by lia; reflexivity.
Qed.

Definition basis_arr : arr T := mkArr [4] (fun idx => match idx with [i] => nth (Z.to_nat i) (map basis [0; 1; 2; 3]) (n_ofZ 0) | _ => n_ofZ 0 end).
Section Old.
Variable h : heap T.
Variables kb kc kd kl kr : nat.
Variables wc wd : list (option Z).
Variables M : Z.
Variable del : T.
Variables D A B : arr T.
Hypothesis HG : G "basis"%string = Some (PLit (OF basis_arr)).
Hypothesis Hne : kb <> kc.
Hypothesis Hned : kb <> kd.
Hypothesis Hnel : kb <> kl.
Hypothesis Hner : kb <> kr.
Hypothesis Hkb : (kb < List.length h)%nat.
Hypothesis HM : 1 <= M.
Hypothesis Hkd : nth_error h kd = Some (OF D).
Hypothesis Hkl : nth_error h kl = Some (OF A).
Hypothesis Hkr : nth_error h kr = Some (OF B).
Hypothesis HA : is_abcd del A.
Hypothesis HB : is_abcd del B.
Hypothesis Hwd : exists m, vshape wd (ashape D) = [m].
Let ln (i : Z) := vmerge wc [i].
Let data (i : Z) := aget D (vmerge wd [i]).
Definition ofillE (E : env T) : Prop :=
  E "bands"%string = Some (PArr kb []) /\ E "coefs"%string = Some (PArr kc wc) /\ E "data"%string = Some (PArr kd wd) /\
  E "M"%string = Some (PInt M) /\ E "abcd_left"%string = Some (PArr kl []) /\ E "abcd_right"%string = Some (PArr kr []) /\ E "basis"%string = None.
Definition ofillP (b : arr T) (E : env T) (h' : heap T) : Prop := ofillE E /\ h' = hset h kb (OF b) /\ ashape b = [M + 2; 4].

Lemma ofillE_upd E x v : ofillE E -> ~ In x ["bands"; "coefs"; "data"; "M"; "abcd_left"; "abcd_right"; "basis"]%string -> ofillE (upd E x v).
Proof.
  intros (A1 & A2 & A3 & A4 & A5 & A6 & A7) H. cbn [In] in H.
  repeat split; rewrite upd_other; auto; intros <-; tauto.
Qed.

Lemma otext_fill4 E b i : ofillE E -> E "i"%string = Some (PInt i) -> ashape b = [M + 2; 4] -> 0 <= i < 4 ->
  sim (b <- bset b 0 i (abcd del i) ;; bset b (M + 1) i (abcd del i)) (block t_fill4 E (hset h kb (OF b))) ofillP.
Proof.
  intros HE Hi Sb H4. pose proof HE as (A1 & A2 & A3 & A4 & A5 & A6 & A7).
  assert (X : forall x k C h', E x = Some (PArr k []) -> nth_error h' k = Some (OF C) -> is_abcd del C ->
    eval E (ESub (EName x) [EName "i"]) h' = Ok (PFlt (abcd del i), h')).
  { intros x k C h' Hx Hk [SC HC]. rewrite (eval_elem G call E h' x [EName "i"] [i] k [] C); [|split; auto|idx|now rewrite SC].
    cbn [vmerge]. rewrite HC by auto. reflexivity. }
  unfold t_fill4.
  eapply sim_cons. { eapply exec_bset with (nb := M + 2); [auto|eassumption|eassumption|idx|eapply X; [eassumption|rewrite nth_hset_other by auto; eassumption|auto]]. }
  intros b' E' h' (-> & -> & S1). apply sim_one. eapply sim_weak.
  - eapply exec_bset with (nb := M + 2); [auto|eassumption|eassumption|idx|eapply X; [eassumption|rewrite nth_hset_other by auto; eassumption|auto]].
  - intros b2 E' h' (-> & -> & S2). repeat split; auto.
Qed.
Lemma otext_fillM E b i : ofillE E -> E "i"%string = Some (PInt i) -> ashape b = [M + 2; 4] -> 0 <= i < M ->
  sim (foldM (fun b j => b <- bset b (i + 1) j (basis j) ;; v <- data i ;; bset b (i + 1) 3 v) (zrange 3) b)
      (block t_fillM E (hset h kb (OF b))) ofillP.
Proof.
  intros HE Hi Sb HM'. unfold t_fillM. apply sim_one. eapply sim_weak.
  - apply (sim_for G call fuel (fun b j => b <- bset b (i + 1) j (basis j) ;; v <- data i ;; bset b (i + 1) 3 v) PInt
            (fun b E h' => (ofillE E /\ E "i"%string = Some (PInt i)) /\ h' = hset h kb (OF b) /\ ashape b = [M + 2; 4])).
    + reflexivity.
    + intros b1 j E1 h1 Hj ((F1 & I1) & -> & S1). apply zrange_In in Hj.
      assert (FE : ofillE (upd E1 "j" (PInt j))). { apply ofillE_upd; auto. cbn. intuition discriminate. }
      assert (FI : upd E1 "j" (PInt j) "i"%string = Some (PInt i)) by (apply upd_keep; [discriminate|auto]).
      assert (FJ : upd E1 "j" (PInt j) "j"%string = Some (PInt j)) by reflexivity.
      set (E2 := upd E1 "j" (PInt j)) in *. clearbody E2. pose proof FE as (A1 & A2 & A3 & A4 & A5 & A6 & A7).
      eapply sim_cons.
      { eapply exec_bset with (nb := M + 2); [auto|eassumption|eassumption|idx|].
        assert (XX : eval E2 (ESub (EName "basis") [EName "j"]) (hset h kb (OF b1))
          = (r <- subscript (hset h kb (OF b1)) (PLit (OF basis_arr)) [SIx j] ;; Ok (r, hset h kb (OF b1)))).
        { cbn -[subscript basis_arr]. unfold lookup. rewrite A7, HG, FJ. reflexivity. }
        rewrite XX. assert (j = 0 \/ j = 1 \/ j = 2) as [-> | [-> | ->]] by lia; reflexivity. }
      intros b2 E' h' (-> & -> & S2).
      assert (XD : eval E2 (ESub (EName "data") [EName "i"]) (hset h kb (OF b2)) = (v <- data i ;; Ok (PFlt v, hset h kb (OF b2)))).
      { destruct Hwd as [m Hm]. apply (eval_elem G call E2 _ "data" [EName "i"] [i] kd wd D); [split; auto; now rewrite nth_hset_other|idx|now rewrite Hm]. }
      apply sim_one.
      rewrite (exec_elem G call fuel E2 _ "bands" _ [i + 1; 3] kb [] b2 _ (data i)); auto; [|split; auto; now apply nth_hset_same|idx|now rewrite S2].
      destruct (data i) as [v|]; [|reflexivity]. cbn [bind vmerge]. unfold bset. destruct (aset b2 [i + 1; 3] v) as [b3|] eqn:E3; [|reflexivity].
      cbn. eexists _, _. split; [reflexivity|]. rewrite hset_hset. apply aset_inv in E3 as [_ ->]. auto.
    + auto.
  - intros b1 E1 h1 ((F1 & _) & -> & S1). repeat split; auto; apply F1.
Qed.
End Old.

(** The result of a call that writes the array at [kc]; new arrays may follow. *)
Definition wrote (h : heap T) (kc : nat) (r : res (arr T)) (x : res (val T * heap T)) : Prop :=
  match r with
  | Ok C => exists junk, x = Ok (PNone, hset h kc (OF C) ++ junk)
  | Err e => x = Err e
  end.

Lemma text_find_old h kc kd wc wd M del D C m : G "basis"%string = Some (PLit (OF basis_arr)) -> 1 <= M ->
  nth_error h kd = Some (OF D) -> nth_error h kc = Some (OF C) -> vshape wd (ashape D) = [m] -> vshape wc (ashape C) = [M + 2] ->
  (forall h' b, nth_error h' (List.length h) = Some (OF b) -> nth_error h' kc = Some (OF C) -> ashape b = [M + 2; 4] ->
    call "solve_deriv_interp_1d"%string [PArr (List.length h) []; PArr kc wc] [] h'
    = (p <- solve_deriv_interp_1d b C (fun i => vmerge wc [i]) (M + 2) ;; Ok (PNone, hset (hset h' (List.length h) (OF (fst p))) kc (OF (snd p))))) ->
  wrote h kc (find_coefs_1d_old del M (fun i => aget D (vmerge wd [i])) C (fun i => vmerge wc [i]) (M + 2))
    (call_body G call fuel (fst (fdef "find_coefs_1d")) (snd (fdef "find_coefs_1d")) [PFlt del; PInt M; PArr kd wd; PArr kc wc] [] h).
Proof.
  intros HG HM HD HC Vd Vc Hcall. set (kb := List.length h) in *.
  assert (Lc : (kc < kb)%nat) by (apply nth_error_Some; congruence).
  assert (Ld : (kd < kb)%nat) by (apply nth_error_Some; congruence).
  assert (W : forall (r : res (arr T)) E h0, bind_params G call (fst (fdef "find_coefs_1d")) [PFlt del; PInt M; PArr kd wd; PArr kc wc] [] h = Ok (E, h0) ->
    sim r (block (snd (fdef "find_coefs_1d")) E h0) (fun C _ h' => exists junk, h' = hset h kc (OF C) ++ junk) ->
    wrote h kc r (call_body G call fuel (fst (fdef "find_coefs_1d")) (snd (fdef "find_coefs_1d")) [PFlt del; PInt M; PArr kd wd; PArr kc wc] [] h)).
  { intros r E h0 H1 H2. unfold call_body. rewrite H1. cbn [bind]. destruct r as [C'|e]; cbn [sim wrote] in *.
    - destruct H2 as (E' & h' & -> & junk & ->). exists junk. reflexivity.
    - now rewrite H2. }
  eapply W; [reflexivity|]. clear W. change (snd (fdef "find_coefs_1d")) with ofind_text. rewrite ofind_cut.
  match goal with |- sim _ (block _ ?E _) _ => set (E0 := E) end.
  set (h1 := h ++ [OF (azeros [M + 2; 4]); OF (azeros [4]); OF (azeros [4])]).
  assert (X : exists E, block (firstn 3 ofind_text) E0 h = Ok (Nxt, E, h1) /\ ofillE kb kc kd (S kb) (S (S kb)) wc wd M E /\ E "delta_inv"%string = Some (PFlt del)).
  { eexists. split.
    - unfold E0. cbn. unfold alloc. rewrite !app_length. cbn [List.length]. replace (List.length h + 1)%nat with (S kb) by (unfold kb; lia).
      replace (S kb + 1)%nat with (S (S kb)) by lia. rewrite <- !app_assoc. reflexivity.
    - repeat split. }
  destruct X as (E1 & X & HE1 & Hdel). rewrite block_app, X. cbn [bind]. clearbody E0. clear X E0.
  assert (N : forall k (o : obj T), nth_error h k = Some o -> nth_error h1 k = Some o).
  { intros k o H. unfold h1. rewrite nth_error_app1; auto. apply nth_error_Some. congruence. }
  pose proof HE1 as (A1 & A2 & A3 & A4 & A5 & A6 & A7).
  assert (Lh1 : List.length h1 = (kb + 3)%nat) by (unfold h1; rewrite app_length; reflexivity).
  assert (Nb : nth_error h1 kb = Some (OF (azeros [M + 2; 4]))) by apply nth_new.
  assert (Nl : nth_error h1 (S kb) = Some (OF (azeros [4]))).
  { unfold h1. rewrite nth_error_app2 by (unfold kb; lia). replace (S kb - List.length h)%nat with 1%nat by (unfold kb; lia). reflexivity. }
  assert (Nr : nth_error h1 (S (S kb)) = Some (OF (azeros [4]))).
  { unfold h1. rewrite nth_error_app2 by (unfold kb; lia). replace (S (S kb) - List.length h)%nat with 2%nat by (unfold kb; lia). reflexivity. }
  destruct (text_abcd "abcd_left" (S kb) del E1 h1 A5 Hdel Nl) as (A & HA & XA). rewrite block_app, XA. cbn [bind].
  destruct (text_abcd "abcd_right" (S (S kb)) del E1 (hset h1 (S kb) (OF A)) A6 Hdel) as (B & HB & XB).
  { rewrite nth_hset_other by lia. exact Nr. }
  rewrite block_app, XB. cbn [bind]. set (h2 := hset (hset h1 (S kb) (OF A)) (S (S kb)) (OF B)).
  assert (N2 : forall k, (k <= kb)%nat -> nth_error h2 k = nth_error h1 k).
  { intros k Hk. unfold h2. rewrite !nth_hset_other by lia. reflexivity. }
  assert (N2l : nth_error h2 (S kb) = Some (OF A)).
  { unfold h2. rewrite nth_hset_other by lia. apply nth_hset_same. lia. }
  assert (N2r : nth_error h2 (S (S kb)) = Some (OF B)).
  { unfold h2. apply nth_hset_same. rewrite hset_length. lia. }
  assert (L2 : List.length h2 = (kb + 3)%nat) by (unfold h2; rewrite !hset_length; auto).
  assert (N2d : nth_error h2 kd = Some (OF D)) by (rewrite N2 by lia; auto).
  assert (N2c : nth_error h2 kc = Some (OF C)) by (rewrite N2 by lia; auto).
  assert (H2 : exists r2, h2 = h ++ r2).
  { exists [OF (azeros [M + 2; 4]); OF A; OF B]. unfold h2, h1. clear. unfold kb. induction h as [|a l IH]; [reflexivity|]. cbn [List.length hset app]. f_equal. exact IH. }
  assert (NB : nth_error h2 kb = Some (OF (azeros [M + 2; 4]))) by (rewrite N2 by lia; auto).
  clearbody h2. clear XA XB N h1 Lh1 Nb Nl Nr N2.
  unfold find_coefs_1d_old, fill_bands. rewrite bind_assoc.
  rewrite <- (hset_same h2 kb (OF (azeros [M + 2; 4]))) by auto.
  eapply sim_cons with (R := ofillP h2 kb kc kd (S kb) (S (S kb)) wc wd M).
  { apply (sim_for G call fuel _ PInt).
    - reflexivity.
    - intros b1 i E h' Hi (F & -> & S1). apply zrange_In in Hi. eapply otext_fill4 with (A := A) (B := B); auto; try lia; apply ofillE_upd; auto; cbn; intuition discriminate.
    - repeat split; auto; apply HE1. }
  intros b1 E h' (F1 & -> & S1).
  eapply sim_cons with (R := ofillP h2 kb kc kd (S kb) (S (S kb)) wc wd M).
  { apply (sim_for G call fuel _ PInt).
    - cbn -[zrange map]. unfold lookup. destruct F1 as (_ & _ & _ & Q & _). rewrite Q. reflexivity.
    - intros b2 i E' h' Hi (F & -> & S2). apply zrange_In in Hi. eapply otext_fillM; eauto; try lia; apply ofillE_upd; auto; cbn; intuition discriminate.
    - repeat split; auto; apply F1. }
  intros b2 E2 h' (F2 & -> & S2). apply sim_one. destruct F2 as (Q1 & Q2 & _).
  cbn -[nth_error]. unfold lookup. rewrite Q1, Q2. cbn -[nth_error].
  rewrite (Hcall _ b2); [|apply nth_hset_same; lia|rewrite nth_hset_other by lia; auto|auto].
  destruct (solve_deriv_interp_1d b2 C _ (M + 2)) as [[b3 C3]|]; cbn; [|reflexivity].
  eexists _, _. split; [reflexivity|]. rewrite hset_hset. rewrite hset_comm by lia.
  destruct H2 as (r2 & ->). rewrite hset_app1 by auto. destruct r2 as [|o r2].
  - rewrite app_nil_r in *. fold kb in L2. lia.
  - exists (OF b3 :: r2). unfold kb. rewrite <- (hset_length h kc (OF C3)). apply hset_app.
Qed.
End Find.

(** The same inside of the module. *)
Section Module.
Context {T : Type} {NT : Num T}.
Hypothesis H6 : n_is0 (n_ofZ (T := T) 6) = false.
Hypothesis H3 : n_is0 (n_ofZ (T := T) 3) = false.
Definition GF : env T := globals fc_program.

Lemma GF_basis : GF "basis"%string = Some (PLit (OF basis_arr)).
Proof.
  unfold GF, globals.
  assert (X : toplevel (T := T) fc_program empty [] = (upd empty "basis" (PArr 0 []), [OF basis_arr])).
  { unfold fc_program. do 4 (erewrite toplevel_step by reflexivity).
    erewrite (toplevel_step (SAssign [EName "basis"] _)) with (g := Nxt) (E' := upd empty "basis" (PArr 0 [])) (h' := [OF basis_arr]).
    2: reflexivity.
    2:{ cbn -[literal]. unfold divE. change (literal 60 1) with (n_ofZ (T := T) 6). change (literal 30 1) with (n_ofZ (T := T) 3). rewrite H6, H3. reflexivity. }
    do 9 (rewrite toplevel_def by reflexivity). erewrite toplevel_skip by reflexivity. reflexivity. }
  rewrite X. reflexivity.
Qed.

Definition old_ok (call : string -> list (val T) -> list (string * val T) -> heap T -> res (val T * heap T)) : Prop :=
  forall h kc kd wc wd M del D C m, 1 <= M ->
  nth_error h kd = Some (OF D) -> nth_error h kc = Some (OF C) -> vshape wd (ashape D) = [m] -> vshape wc (ashape C) = [M + 2] ->
  wrote h kc (find_coefs_1d_old del M (fun i => aget D (vmerge wd [i])) C (fun i => vmerge wc [i]) (M + 2))
    (call "find_coefs_1d"%string [PFlt del; PInt M; PArr kd wd; PArr kc wc] [] h).
Lemma run_old n : old_ok (run GF fc_program (S (S n))).
Proof.
  intros h kc kd wc wd M del D C m HM HD HC Vd Vc.
  rewrite (run_def GF fc_program (S n) "find_coefs_1d" (fst (fdef "find_coefs_1d")) (snd (fdef "find_coefs_1d"))) by reflexivity.
  apply (text_find_old GF (run GF fc_program (S n)) (S n) h kc kd wc wd M del D C m GF_basis); auto.
  intros h' b' NB' NC' Sb'.
  rewrite (run_def GF fc_program n "solve_deriv_interp_1d" (fst (fdef "solve_deriv_interp_1d")) (snd (fdef "solve_deriv_interp_1d"))) by reflexivity.
  rewrite same_solver.
  assert (Lb' : (List.length h < List.length h')%nat) by (apply nth_error_Some; congruence).
  assert (Lc : (kc < List.length h)%nat) by (apply nth_error_Some; congruence).
  apply (text_solve GF (run GF fc_program n) n h' (List.length h) kc wc (M + 2) M); auto; try lia. split; auto.
Qed.
End Module.
