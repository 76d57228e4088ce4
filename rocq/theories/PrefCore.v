(** The 1-d solver of prefilter_cubic.py and filter_cubic.py: its text computes what PrefilterModel.v computes. *)
From Coq Require Import ZArith List Bool String Lia.
From Verif Require Import Base BaseFacts SplineModel PrefilterModel PySyntax PySem SpecText PySemFacts PyArr SrcPrefilterCubic.
Import ListNotations.
Open Scope Z_scope.
Open Scope num_scope.

Definition pf_program : list stmt := Eval vm_compute in match parse_text prefilter_cubic_py with Some p => p | None => [] end.
Lemma pf_text : parse_text prefilter_cubic_py = Some pf_program.
Proof. vm_cast_no_check (eq_refl (Some pf_program)). Qed.
Definition pdef (f : string) := match find_def pf_program f with Some d => d | None => ([], []) end.
(** The statements of [solve_deriv_interp_1d], cut as in the model. *)
Definition solve_text : list stmt := Eval vm_compute in snd (pdef "solve_deriv_interp_1d").
Definition t_first : list stmt := Eval vm_compute in firstn 11 (skipn 1 solve_text).
Definition t_row : list stmt := Eval vm_compute in match nth 12 solve_text SPass with SFor _ _ b => b | _ => [] end.
Definition t_last : list stmt := Eval vm_compute in firstn 6 (skipn 13 solve_text).
Definition t_back : list stmt := Eval vm_compute in match nth 20 solve_text SPass with SFor _ _ b => b | _ => [] end.

Ltac idx := split; [cbn; unfold lookup; repeat match goal with H : ?E _ = Some _ |- _ => rewrite H end; reflexivity
                   |repeat (constructor; [cbn; lia|]); constructor].
Section Solve.
Context {T : Type} {NT : Num T}.
Variable G : env T.
Variable call : string -> list (val T) -> list (string * val T) -> heap T -> res (val T * heap T).
Variable fuel : nat.
Notation eval := (eval G call).
Notation exec := (exec G call fuel).
Notation block := (block G call fuel).
Notation index := (index G call).

(** ** The statements on the bands *)
Section Bands.
Variable h : heap T.
Variable kb : nat.
Variable nb : Z.
Definition bandsP (E : env T) (b : arr T) (E' : env T) (h' : heap T) : Prop := E' = E /\ h' = hset h kb (OF b) /\ ashape b = [nb; 4].
Hypothesis Hkb : (kb < List.length h)%nat.

Lemma bands_holds E b : E "bands"%string = Some (PArr kb []) -> holds E (hset h kb (OF b)) "bands" kb [] b.
Proof. intros H. split; auto. now apply nth_hset_same. Qed.
Lemma eval_band E b es r c : E "bands"%string = Some (PArr kb []) -> ashape b = [nb; 4] -> index E (hset h kb (OF b)) es [r; c] ->
  eval E (ESub (EName "bands") es) (hset h kb (OF b)) = (v <- bget b r c ;; Ok (PFlt v, hset h kb (OF b))).
Proof. intros HE Hb Hi. apply (eval_elem G call E _ "bands" es [r; c] kb [] b); auto using bands_holds. now rewrite Hb. Qed.
Lemma exec_idiv E b es es' r c r' c' : E "bands"%string = Some (PArr kb []) -> ashape b = [nb; 4] ->
  index E (hset h kb (OF b)) es [r; c] -> index E (hset h kb (OF b)) es' [r'; c'] ->
  sim (bidiv b r c r' c') (exec (SAug "/" (ESub (EName "bands") es) (ESub (EName "bands") es')) E (hset h kb (OF b))) (bandsP E).
Proof.
  intros HE Hb H1 H2.
  rewrite (exec_aug G call fuel E _ "/" "bands" es [r; c] kb [] b _ (bget b r' c') divE); auto using bands_holds, eval_band, arith_div; [|now rewrite Hb].
  unfold bidiv, bget, bset. cbn [vmerge]. destruct (aget b [r; c]) as [x|]; [|reflexivity]. destruct (aget b [r'; c']) as [y|]; [|reflexivity].
  cbn [bind]. destruct (divE x y) as [q|]; [|reflexivity]. cbn [bind]. destruct (aset b [r; c] q) as [b'|] eqn:Eb; [|reflexivity].
  cbn. eexists _, _. split; [reflexivity|]. unfold bandsP. rewrite hset_hset. repeat split; auto. now apply aset_inv in Eb as [_ ->].
Qed.
Lemma exec_isubmul E b es es1 es2 r c r1 c1 r2 c2 : E "bands"%string = Some (PArr kb []) -> ashape b = [nb; 4] ->
  index E (hset h kb (OF b)) es [r; c] -> index E (hset h kb (OF b)) es1 [r1; c1] -> index E (hset h kb (OF b)) es2 [r2; c2] ->
  sim (bisubmul b r c r1 c1 r2 c2)
    (exec (SAug "-" (ESub (EName "bands") es) (EBin "*" (ESub (EName "bands") es1) (ESub (EName "bands") es2))) E (hset h kb (OF b))) (bandsP E).
Proof.
  intros HE Hb H1 H2 H3.
  rewrite (exec_aug G call fuel E _ "-" "bands" es [r; c] kb [] b _ (p <- bget b r1 c1 ;; q <- bget b r2 c2 ;; Ok (p *! q)) (fun p q => Ok (p -! q)));
    auto using bands_holds, arith_sub; [|now rewrite Hb|].
  2:{ apply (eval_bin_flt G call E _ "*" _ _ _ _ (fun p q => Ok (p *! q))); auto using eval_band, arith_mul. }
  unfold bisubmul, bget, bset. cbn [vmerge]. destruct (aget b [r; c]) as [x|]; [|reflexivity].
  destruct (aget b [r1; c1]) as [y|]; [|reflexivity]. destruct (aget b [r2; c2]) as [z|]; [|reflexivity].
  cbn [bind]. destruct (aset b [r; c] _) as [b'|] eqn:Eb; [|reflexivity].
  cbn. eexists _, _. split; [reflexivity|]. unfold bandsP. rewrite hset_hset. repeat split; auto. now apply aset_inv in Eb as [_ ->].
Qed.
Lemma exec_bset E b es e (x : T) r c : E "bands"%string = Some (PArr kb []) -> ashape b = [nb; 4] ->
  index E (hset h kb (OF b)) es [r; c] -> eval E e (hset h kb (OF b)) = Ok (PFlt x, hset h kb (OF b)) ->
  sim (bset b r c x) (exec (SAssign [ESub (EName "bands") es] e) E (hset h kb (OF b))) (bandsP E).
Proof.
  intros HE Hb H1 H2. rewrite (exec_elem G call fuel E _ "bands" es [r; c] kb [] b _ (Ok x)); auto using bands_holds; [|now rewrite Hb].
  cbn [bind vmerge]. unfold bset. destruct (aset b [r; c] x) as [b'|] eqn:Eb; [|reflexivity].
  cbn. eexists _, _. split; [reflexivity|]. unfold bandsP. rewrite hset_hset. repeat split; auto. now apply aset_inv in Eb as [_ ->].
Qed.

Ltac stp := first
  [ eapply exec_idiv; [eassumption|eassumption|idx|idx]
  | eapply exec_isubmul; [eassumption|eassumption|idx|idx|idx]
  | eapply exec_bset; [eassumption|eassumption|idx|reflexivity] ].
Ltac one := first [ eapply sim_cons; [stp|intros ? ? ? (-> & -> & ?)] | apply sim_one; stp ].

Lemma text_first E b : E "bands"%string = Some (PArr kb []) -> ashape b = [nb; 4] ->
  sim (solve_first b) (block t_first E (hset h kb (OF b))) (bandsP E).
Proof. intros HE Hb. unfold solve_first, t_first. repeat one. Qed.
Lemma text_row E b row : E "bands"%string = Some (PArr kb []) -> E "row"%string = Some (PInt row) -> ashape b = [nb; 4] -> 1 <= row ->
  sim (solve_row b row) (block t_row E (hset h kb (OF b))) (bandsP E).
Proof. intros HE HR Hb H1. unfold solve_row, t_row. repeat one. Qed.
Lemma text_last E b M : E "bands"%string = Some (PArr kb []) -> E "M"%string = Some (PInt M) -> ashape b = [nb; 4] -> 1 <= M ->
  sim (solve_last M b) (block t_last E (hset h kb (OF b))) (bandsP E).
Proof. intros HE HM Hb H1. unfold solve_last, t_last. repeat one. Qed.
End Bands.

(** ** The whole solver, writing through a 1-d view of an array *)
Lemma call_sim {S} (r : res S) ps b vs ks h E h0 (F : S -> heap T) (R : S -> env T -> heap T -> Prop) :
  bind_params G call ps vs ks h = Ok (E, h0) -> sim r (block b E h0) R -> (forall s E' h', R s E' h' -> h' = F s) ->
  call_body G call fuel ps b vs ks h = (s <- r ;; Ok (PNone, F s)).
Proof.
  intros H1 H2 H3. unfold call_body. rewrite H1. cbn [bind]. destruct r as [s|e]; cbn [sim] in H2.
  - destruct H2 as (E' & h' & -> & HR). cbn. now rewrite (H3 _ _ _ HR).
  - now rewrite H2.
Qed.
Lemma sim_for {S A} (f : S -> A -> res S) (inj : A -> val T) (R : S -> env T -> heap T -> Prop) x it b l E h s :
  eval E it h = Ok (PTup (map inj l), h) ->
  (forall s a E h, In a l -> R s E h -> sim (f s a) (block b (upd E x (inj a)) h) R) ->
  R s E h -> sim (foldM f l s) (exec (SFor (EName x) it b) E h) R.
Proof.
  intros H1 H2 H3.
  change (exec (SFor (EName x) it b) E h) with
    ('(v, h) <- eval E it h ;; match v with
      | PTup l => iterate (fun v E h => '(E, h) <- assign G call E h (EName x) v ;; block b E h) l E h
      | _ => Err TypeErr end).
  rewrite H1. cbn [bind]. apply sim_iterate; auto.
Qed.
Lemma upd_keep (E : env T) x v y w : y <> x -> E y = Some w -> upd E x v y = Some w.
Proof. intros. now rewrite upd_other. Qed.
Lemma zrange2_In lo hi i : In i (zrange2 lo hi) -> lo <= i < hi.
Proof. unfold zrange2. intros H. apply in_map_iff in H as (j & <- & Hj). apply zrange_In in Hj. lia. Qed.
Lemma zrange_down_In hi lo i : In i (zrange_down hi lo) -> lo < i <= hi.
Proof. unfold zrange_down. intros H. apply in_map_iff in H as (j & <- & Hj). apply zrange_In in Hj. lia. Qed.

Section Line.
Variable h : heap T.
Variables kb kc : nat.
Variable wc : list (option Z).
Variables nb M : Z.
Hypothesis Hne : kb <> kc.
Hypothesis Hkb : (kb < List.length h)%nat.
Hypothesis Hkc : (kc < List.length h)%nat.
Hypothesis HM : 1 <= M.
Hypothesis Hnb : 1 <= nb.
Let ln (i : Z) := vmerge wc [i].
Let hp (b C : arr T) : heap T := hset (hset h kb (OF b)) kc (OF C).
Definition lineE (E : env T) : Prop :=
  E "bands"%string = Some (PArr kb []) /\ E "coefs"%string = Some (PArr kc wc) /\ E "M"%string = Some (PInt M).
Definition shapes (b C : arr T) : Prop := ashape b = [nb; 4] /\ vshape wc (ashape C) = [M + 2].

Lemma hp_bands E b C : lineE E -> holds E (hp b C) "bands" kb [] b.
Proof. intros (H & _). split; auto. unfold hp. rewrite nth_hset_other by auto. now apply nth_hset_same. Qed.
Lemma hp_coefs E b C : lineE E -> holds E (hp b C) "coefs" kc wc C.
Proof. intros (_ & H & _). split; auto. unfold hp. apply nth_hset_same. now rewrite hset_length. Qed.
Lemma hp_eval_b E b C es r c : lineE E -> shapes b C -> index E (hp b C) es [r; c] ->
  eval E (ESub (EName "bands") es) (hp b C) = (v <- bget b r c ;; Ok (PFlt v, hp b C)).
Proof. intros HE [Hb _] Hi. apply (eval_elem G call E _ "bands" es [r; c] kb [] b); auto using hp_bands. now rewrite Hb. Qed.
Lemma hp_eval_c E b C es r : lineE E -> shapes b C -> index E (hp b C) es [r] ->
  eval E (ESub (EName "coefs") es) (hp b C) = (v <- aget C (ln r) ;; Ok (PFlt v, hp b C)).
Proof. intros HE [_ Hc] Hi. apply (eval_elem G call E _ "coefs" es [r] kc wc C); auto using hp_coefs. now rewrite Hc. Qed.
Lemma hp_set E b C es e r (x : res T) : lineE E -> shapes b C -> index E (hp b C) es [r] ->
  eval E e (hp b C) = (v <- x ;; Ok (PFlt v, hp b C)) ->
  sim (v <- x ;; aset C (ln r) v) (exec (SAssign [ESub (EName "coefs") es] e) E (hp b C))
      (fun C' E' h' => E' = E /\ h' = hp b C' /\ shapes b C' /\ ashape C' = ashape C).
Proof.
  intros HE Hs Hi He. rewrite (exec_elem G call fuel E _ "coefs" es [r] kc wc C _ x); auto using hp_coefs; [|now rewrite (proj2 Hs)].
  destruct x as [v|]; [|reflexivity]. cbn [bind]. fold (ln r). destruct (aset C (ln r) v) as [C'|] eqn:EC; [|reflexivity].
  cbn. eexists _, _. split; [reflexivity|]. apply aset_inv in EC as [_ ->]. destruct Hs. unfold hp. rewrite hset_hset. repeat split; auto.
Qed.

Lemma text_back E b C row : lineE E -> E "row"%string = Some (PInt row) -> shapes b C -> 1 <= row ->
  sim (back_row b ln C row) (block t_back E (hp b C)) (fun C' E' h' => lineE E' /\ h' = hp b C' /\ shapes b C' /\ ashape C' = ashape C).
Proof.
  intros HE HR Hs Hr. destruct HE as (HE1 & HE2 & HE3). unfold t_back. apply sim_one.
  eapply sim_weak.
  - assert (X : back_row b ln C row = (v <- (p <- bget b row 3 ;; q <- (y <- bget b row 2 ;; c <- aget C (ln (row + 1)) ;; Ok (y *! c)) ;; Ok (p -! q)) ;; aset C (ln row) v)).
    { unfold back_row. destruct (bget b row 3); [|reflexivity]. cbn [bind]. destruct (bget b row 2); [|reflexivity]. cbn [bind].
      destruct (aget C (ln (row + 1))); reflexivity. }
    rewrite X. apply hp_set; [repeat split; auto|auto|idx|].
    apply (eval_bin_flt G call E _ "-" _ _ _ _ (fun p q => Ok (p -! q))); auto using arith_sub.
    + apply hp_eval_b; [repeat split; auto|auto|idx].
    + apply (eval_bin_flt G call E _ "*" _ _ _ _ (fun p q => Ok (p *! q))); auto using arith_mul.
      * apply hp_eval_b; [repeat split; auto|auto|idx].
      * apply hp_eval_c; [repeat split; auto|auto|idx].
  - intros C' E' h' (-> & -> & H1 & H2). repeat split; auto; apply H1.
Qed.

Definition solved (p : arr T * arr T) (h' : heap T) : Prop := h' = hp (fst p) (snd p).
Lemma text_solve b C : nth_error h kb = Some (OF b) -> nth_error h kc = Some (OF C) -> shapes b C ->
  call_body G call fuel (fst (pdef "solve_deriv_interp_1d")) (snd (pdef "solve_deriv_interp_1d")) [PArr kb []; PArr kc wc] [] h
  = (p <- solve_deriv_interp_1d b C ln (M + 2) ;; Ok (PNone, hp (fst p) (snd p))).
Proof.
  intros Hb HC [Sb Sc]. eapply call_sim with (R := fun p _ h' => solved p h'); [reflexivity| |auto].
  change (snd (pdef "solve_deriv_interp_1d")) with
    (SAssign [EName "M"] (EBin "-" (ESub (EAttr (EName "coefs") "shape") [EInt 0]) (EInt 2)) ::
     t_first ++ SFor (EName "row") (ECall (EName "range") [EInt 2; EBin "+" (EName "M") (EInt 1)] []) t_row ::
     t_last ++ skipn 19 solve_text).
  set (E0 := upd (upd empty "coefs" (PArr kc wc)) "bands" (PArr kb [])).
  rewrite block_cons, exec_set.
  assert (X : eval E0 (EBin "-" (ESub (EAttr (EName "coefs") "shape") [EInt 0]) (EInt 2)) h = Ok (PInt M, h)).
  { unfold E0. cbn. rewrite (vdims_arr _ _ _ _ HC). rewrite Sc. cbn -[Z.sub Z.add]. do 3 f_equal. lia. }
  rewrite X. cbn [bind]. unfold solve_deriv_interp_1d. replace (M + 2 - 2) with M by lia.
  set (E1 := upd E0 "M" (PInt M)).
  assert (HE1 : lineE E1) by (repeat split).
  rewrite <- (hset_same h kb (OF b)) by auto.
  eapply sim_app. { apply text_first with (nb := nb); auto. }
  intros b1 E' h' (-> & -> & S1).
  eapply sim_cons with (R := fun b E h' => lineE E /\ h' = hset h kb (OF b) /\ ashape b = [nb; 4]).
  { apply (sim_for solve_row PInt).
    - cbn -[Z.add zrange2 map]. reflexivity.
    - intros b2 row E h' Hrow (HE & -> & S2). apply zrange2_In in Hrow. eapply sim_weak.
      + apply text_row with (nb := nb); auto; [|lia]. apply upd_keep; [discriminate|apply HE].
      + intros b3 E' h' (-> & -> & S3). repeat split; auto; apply HE.
    - auto. }
  clear HE1. intros b2 E h' (HE & -> & S2).
  eapply sim_app. { apply text_last with (nb := nb) (M := M); auto; apply HE. }
  intros b3 E' h' (-> & -> & S3).
  change (skipn 19 solve_text) with
    [SAssign [ESub (EName "coefs") [EBin "+" (EName "M") (EInt 1)]] (ESub (EName "bands") [EBin "+" (EName "M") (EInt 1); EInt 3]);
     SFor (EName "row") (ECall (EName "range") [EName "M"; EInt 0; ENeg (EInt 1)] []) t_back;
     nth 21 solve_text SPass].
  rewrite <- (hset_same (hset h kb (OF b3)) kc (OF C)) by (rewrite nth_hset_other; auto). fold (hp b3 C).
  assert (SH : shapes b3 C) by (split; auto). destruct HE as (HE1 & HE2 & HE3).
  rewrite <- bind_assoc.
  eapply sim_cons. { apply (hp_set E b3 C _ _ (M + 1) (bget b3 (M + 1) 3)); [repeat split; auto|auto|idx|]. apply hp_eval_b; [repeat split; auto|auto|idx]. }
  intros C1 E' h' (-> & -> & SH1 & A1).
  eapply sim_cons with (R := fun C' E h' => lineE E /\ h' = hp b3 C' /\ shapes b3 C').
  { apply (sim_for (back_row b3 ln) PInt).
    - cbn -[zrange_down map]. unfold lookup. rewrite HE3. reflexivity.
    - intros C2 row E2 h' Hrow (HL & -> & S4). apply zrange_down_In in Hrow. eapply sim_weak.
      + apply text_back; [destruct HL as (L1 & L2 & L3); repeat split; apply upd_keep; auto; discriminate|reflexivity|auto|lia].
      + intros C3 E' h' (L & -> & S5 & _). auto.
    - repeat split; auto; apply SH1. }
  intros C2 E2 h' (HL & -> & S4). apply sim_one. change (nth 21 solve_text SPass) with
    (SAssign [ESub (EName "coefs") [EInt 0]]
      (EBin "-" (EBin "-" (ESub (EName "bands") [EInt 0; EInt 3]) (EBin "*" (ESub (EName "bands") [EInt 0; EInt 1]) (ESub (EName "coefs") [EInt 1])))
        (EBin "*" (ESub (EName "bands") [EInt 0; EInt 2]) (ESub (EName "coefs") [EInt 2])))).
  set (x := p <- (p <- bget b3 0 3 ;; q <- (p <- bget b3 0 1 ;; q <- aget C2 (ln 1) ;; Ok (p *! q)) ;; Ok (p -! q)) ;;
            q <- (p <- bget b3 0 2 ;; q <- aget C2 (ln 2) ;; Ok (p *! q)) ;; Ok (p -! q)).
  assert (XX : sim (v <- x ;; aset C2 (ln 0) v) (exec (SAssign [ESub (EName "coefs") [EInt 0]]
      (EBin "-" (EBin "-" (ESub (EName "bands") [EInt 0; EInt 3]) (EBin "*" (ESub (EName "bands") [EInt 0; EInt 1]) (ESub (EName "coefs") [EInt 1])))
        (EBin "*" (ESub (EName "bands") [EInt 0; EInt 2]) (ESub (EName "coefs") [EInt 2])))) E2 (hp b3 C2))
      (fun C' E' h' => E' = E2 /\ h' = hp b3 C' /\ shapes b3 C' /\ ashape C' = ashape C2)).
  { apply hp_set; auto; [idx|]. unfold x. destruct HL as (L1 & L2 & L3).
    repeat first [ apply (eval_bin_flt G call E2 _ "-" _ _ _ _ (fun p q => Ok (p -! q))); [| |apply arith_sub]
                 | apply (eval_bin_flt G call E2 _ "*" _ _ _ _ (fun p q => Ok (p *! q))); [| |apply arith_mul]
                 | apply hp_eval_b; [repeat split; auto|auto|idx] | apply hp_eval_c; [repeat split; auto|auto|idx] ]. }
  match goal with |- sim ?r _ _ => assert (Y : r = (C' <- (v <- x ;; aset C2 (ln 0) v) ;; Ok (b3, C'))) end.
  { unfold x, bget.
    destruct (aget b3 [0; 3]) eqn:Q1; cbn [bind]; [|reflexivity].
    destruct (aget b3 [0; 1]) eqn:Q2; cbn [bind]; [|reflexivity].
    assert (Q3 : aget b3 [0; 2] = Ok (acell b3 [0; 2])).
    { unfold aget. rewrite S3. cbn [inb]. destruct (Z.ltb_spec 0 nb); [reflexivity|lia]. }
    rewrite Q3. cbn [bind].
    destruct (aget C2 (ln 1)) eqn:Q4; cbn [bind]; [|reflexivity]. destruct (aget C2 (ln 2)) eqn:Q5; cbn [bind]; [|reflexivity].
    reflexivity. }
  rewrite Y. destruct (v <- x ;; aset C2 (ln 0) v) as [C3|]; cbn [bind sim] in *; [|exact XX].
  destruct XX as (E3 & h3 & -> & (-> & -> & _)). eexists _, _. split; [reflexivity|]. reflexivity.
Qed.
End Line.

(** ** [find_coefs_1d]: fill the bands, then solve *)
Definition find_text : list stmt := Eval vm_compute in snd (pdef "find_coefs_1d").
Definition t_fill4 : list stmt := Eval vm_compute in match nth 3 find_text SPass with SFor _ _ b => b | _ => [] end.
Definition t_fillM : list stmt := Eval vm_compute in match nth 4 find_text SPass with SFor _ _ b => b | _ => [] end.
Definition basis_val : val T := PTup (map (fun j => PFlt (basis j)) [0; 1; 2; 3]).

Section Find.
Variable h : heap T.
Variables kb kc kd : nat.
Variables wc wd : list (option Z).
Variables M : Z.
Variable del : T.
Variable D : arr T.
Hypothesis HG : G "basis"%string = Some basis_val.
Hypothesis Hne : kb <> kc.
Hypothesis Hned : kb <> kd.
Hypothesis Hkb : (kb < List.length h)%nat.
Hypothesis Hkc : (kc < List.length h)%nat.
Hypothesis HM : 1 <= M.
Hypothesis Hkd : nth_error h kd = Some (OF D).
Hypothesis Hwd : exists m, vshape wd (ashape D) = [m].
Let ln (i : Z) := vmerge wc [i].
Let data (i : Z) := aget D (vmerge wd [i]).
Definition abcd_val : val T := PTup (map (fun j => PFlt (abcd del j)) [0; 1; 2; 3]).
Definition fillE (E : env T) : Prop :=
  E "bands"%string = Some (PArr kb []) /\ E "coefs"%string = Some (PArr kc wc) /\ E "data"%string = Some (PArr kd wd) /\
  E "M"%string = Some (PInt M) /\ E "abcd_left"%string = Some abcd_val /\ E "abcd_right"%string = Some abcd_val /\ E "basis"%string = None.
Definition fillP (b : arr T) (E : env T) (h' : heap T) : Prop := fillE E /\ h' = hset h kb (OF b) /\ ashape b = [M + 2; 4].

Lemma fillE_upd E x v : fillE E -> ~ In x ["bands"; "coefs"; "data"; "M"; "abcd_left"; "abcd_right"; "basis"]%string -> fillE (upd E x v).
Proof.
  intros (A1 & A2 & A3 & A4 & A5 & A6 & A7) H. cbn [In] in H.
  repeat split; rewrite upd_other; auto; intros <-; tauto.
Qed.

Lemma text_fill4 E b i : fillE E -> E "i"%string = Some (PInt i) -> ashape b = [M + 2; 4] -> 0 <= i < 4 ->
  sim (b <- bset b 0 i (abcd del i) ;; bset b (M + 1) i (abcd del i)) (block t_fill4 E (hset h kb (OF b))) fillP.
Proof.
  intros HE Hi Sb H4. pose proof HE as (A1 & A2 & A3 & A4 & A5 & A6 & A7).
  assert (X : forall x h', E x = Some abcd_val -> eval E (ESub (EName x) [EName "i"]) h' = Ok (PFlt (abcd del i), h')).
  { intros x h' Hx. erewrite eval_sub by (eauto; cbn; unfold lookup; rewrite Hi; reflexivity).
    assert (i = 0 \/ i = 1 \/ i = 2 \/ i = 3) as [-> | [-> | [-> | ->]]] by lia; reflexivity. }
  unfold t_fill4.
  eapply sim_cons. { eapply exec_bset with (nb := M + 2); [auto|eassumption|eassumption|idx|apply X; auto]. }
  intros b' E' h' (-> & -> & S1). apply sim_one. eapply sim_weak.
  - eapply exec_bset with (nb := M + 2); [auto|eassumption|eassumption|idx|apply X; auto].
  - intros b2 E' h' (-> & -> & S2). repeat split; auto.
Qed.
Lemma text_fillM E b i : fillE E -> E "i"%string = Some (PInt i) -> ashape b = [M + 2; 4] -> 0 <= i < M ->
  sim (foldM (fun b j => b <- bset b (i + 1) j (basis j) ;; v <- data i ;; bset b (i + 1) 3 v) (zrange 3) b)
      (block t_fillM E (hset h kb (OF b))) fillP.
Proof.
  intros HE Hi Sb HM'. unfold t_fillM. apply sim_one. eapply sim_weak.
  - apply (sim_for (fun b j => b <- bset b (i + 1) j (basis j) ;; v <- data i ;; bset b (i + 1) 3 v) PInt
            (fun b E h' => (fillE E /\ E "i"%string = Some (PInt i)) /\ h' = hset h kb (OF b) /\ ashape b = [M + 2; 4])).
    + reflexivity.
    + intros b1 j E1 h1 Hj ((F1 & I1) & -> & S1). apply zrange_In in Hj.
      assert (FE : fillE (upd E1 "j" (PInt j))). { apply fillE_upd; auto. cbn. intuition discriminate. }
      assert (FI : upd E1 "j" (PInt j) "i"%string = Some (PInt i)) by (apply upd_keep; [discriminate|auto]).
      assert (FJ : upd E1 "j" (PInt j) "j"%string = Some (PInt j)) by reflexivity.
      set (E2 := upd E1 "j" (PInt j)) in *. clearbody E2. pose proof FE as (A1 & A2 & A3 & A4 & A5 & A6 & A7).
      eapply sim_cons.
      { eapply exec_bset with (nb := M + 2); [auto|eassumption|eassumption|idx|].
        assert (XX : eval E2 (ESub (EName "basis") [EName "j"]) (hset h kb (OF b1))
          = (r <- subscript (hset h kb (OF b1)) basis_val [SIx j] ;; Ok (r, hset h kb (OF b1)))).
        { cbn -[subscript basis_val]. unfold lookup. rewrite A7, HG, FJ. reflexivity. }
        rewrite XX. assert (j = 0 \/ j = 1 \/ j = 2) as [-> | [-> | ->]] by lia; reflexivity. }
      intros b2 E' h' (-> & -> & S2).
      assert (XD : eval E2 (ESub (EName "data") [EName "i"]) (hset h kb (OF b2)) = (v <- data i ;; Ok (PFlt v, hset h kb (OF b2)))).
      { destruct Hwd as [m Hm]. apply (eval_elem G call E2 _ "data" [EName "i"] [i] kd wd D); [split; auto; now rewrite nth_hset_other|idx|now rewrite Hm]. }
      apply sim_one.
      rewrite (exec_elem G call fuel E2 _ "bands" _ [i + 1; 3] kb [] b2 _ (data i)); auto; [|split; auto; now apply nth_hset_same|idx|now rewrite S2].
      destruct (data i) as [v|]; [|reflexivity]. cbn [bind vmerge]. unfold bset. destruct (aset b2 [i + 1; 3] v) as [b3|] eqn:E3; [|reflexivity].
      cbn. eexists _, _. split; [reflexivity|]. rewrite hset_hset. apply aset_inv in E3 as [_ ->]. auto.
    + auto.
  - intros b1 E1 h1 ((F1 & _) & -> & S1). repeat split; auto; apply F1.
Qed.

Lemma text_find b C : nth_error h kb = Some (OF b) -> nth_error h kc = Some (OF C) -> ashape b = [M + 2; 4] -> vshape wc (ashape C) = [M + 2] ->
  (forall h' b, nth_error h' kb = Some (OF b) -> nth_error h' kc = Some (OF C) -> ashape b = [M + 2; 4] ->
    call "solve_deriv_interp_1d"%string [PArr kb []; PArr kc wc] [] h'
    = (p <- solve_deriv_interp_1d b C ln (M + 2) ;; Ok (PNone, hset (hset h' kb (OF (fst p))) kc (OF (snd p))))) ->
  call_body G call fuel (fst (pdef "find_coefs_1d")) (snd (pdef "find_coefs_1d")) [PFlt del; PArr kd wd; PArr kc wc; PArr kb []] [] h
  = (p <- find_coefs_1d del data C ln (M + 2) b ;; Ok (PNone, hset (hset h kb (OF (fst p))) kc (OF (snd p)))).
Proof.
  intros Hb HC Sb Sc Hcall.
  eapply call_sim with (R := fun p _ h' => h' = hset (hset h kb (OF (fst p))) kc (OF (snd p))); [reflexivity| |auto].
  change (snd (pdef "find_coefs_1d")) with
    (firstn 3 find_text ++
     [SFor (EName "i") (ECall (EName "range") [EInt 4] []) t_fill4; SFor (EName "i") (ECall (EName "range") [EName "M"] []) t_fillM;
      SExpr (ECall (EName "solve_deriv_interp_1d") [EName "bands"; EName "coefs"] [])]).
  match goal with |- sim _ (block _ ?E _) _ => set (E0 := E) end.
  assert (X : exists E, block (firstn 3 find_text) E0 h = Ok (Nxt, E, h) /\ fillE E).
  { eexists. split.
    - unfold E0. cbn -[vdims literal binop Z.sub]. rewrite (vdims_arr _ _ _ _ Hb). rewrite vshape_nil, Sb. cbn -[literal Z.sub Z.add]. reflexivity.
    - replace (M + 2 - 2) with M by lia. repeat split. }
  destruct X as (E1 & X & HE1). rewrite block_app, X. cbn [bind]. clearbody E0. clear X E0.
  unfold find_coefs_1d. assert (AD : adim b 0 = Ok (M + 2)) by (unfold adim; rewrite Sb; reflexivity). rewrite AD. cbn [bind].
  replace (M + 2 - 2) with M by lia. unfold fill_bands. rewrite bind_assoc.
  rewrite <- (hset_same h kb (OF b)) at 1 by auto.
  eapply sim_cons with (R := fillP).
  { apply (sim_for _ PInt).
    - reflexivity.
    - intros b1 i E h' Hi (F & -> & S1). apply zrange_In in Hi. apply text_fill4; auto; apply fillE_upd; auto; cbn; intuition discriminate.
    - repeat split; auto; apply HE1. }
  intros b1 E h' (F1 & -> & S1).
  eapply sim_cons with (R := fillP).
  { apply (sim_for _ PInt).
    - cbn -[zrange map]. unfold lookup. destruct F1 as (_ & _ & _ & A & _). rewrite A. reflexivity.
    - intros b2 i E' h' Hi (F & -> & S2). apply zrange_In in Hi. apply text_fillM; auto; apply fillE_upd; auto; cbn; intuition discriminate.
    - repeat split; auto; apply F1. }
  intros b2 E2 h' (F2 & -> & S2). apply sim_one. destruct F2 as (A1 & A2 & _).
  cbn -[nth_error]. unfold lookup. rewrite A1, A2. cbn -[nth_error].
  rewrite (Hcall _ b2); [|now apply nth_hset_same|now rewrite nth_hset_other|auto].
  destruct (solve_deriv_interp_1d b2 C ln (M + 2)) as [[b3 C3]|]; cbn; [|reflexivity].
  eexists _, _. split; [reflexivity|]. now rewrite hset_hset.
Qed.
End Find.
End Solve.
