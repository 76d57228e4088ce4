(** The texts of smolyak/grid.py: m_i, cheby2n, phi_chain, s_n, a_chain. *)
From Coq Require Import ZArith List Bool String Lia Reals Lra.
From Flocq Require Import Core.Raux.
From Verif Require Import Base BaseFacts CompleteModel SmolyakModel PySyntax NpSem NpFacts SmolText.
Import ListNotations.
Open Scope Z_scope.

Definition b_m_i := Eval vm_compute in nodoc (snd (sm_def "m_i")).
Definition b_cheby2n := Eval vm_compute in nodoc (snd (sm_def "cheby2n")).
Definition b_s_n := Eval vm_compute in nodoc (snd (sm_def "s_n")).
Definition b_a_chain := Eval vm_compute in nodoc (snd (sm_def "a_chain")).
Definition b_phi_chain := Eval vm_compute in nodoc (snd (sm_def "phi_chain")).

Ltac enter := erewrite run_def;
  [| vm_compute; reflexivity | vm_compute; reflexivity | vm_compute; reflexivity | cbv [nodoc]; reflexivity
   | cbn [bind_params find fst snd String.eqb Ascii.eqb Bool.eqb bind]; reflexivity].

Section A.
Variable X : externals R.
Notation run := (run X sm_program).

Lemma run_m_i k i : run (S k) "m_i" [VInt i] [] = match m_i i with Ok z => Ok (VInt z) | Err e => Err e end.
Proof.
  enter. fold b_m_i. unfold b_m_i, m_i. rewrite block_cons. erewrite exec_if by eve.
  destruct (i <? 0) eqn:E0; [reflexivity|]. rewrite block_cons. erewrite exec_if by eve.
  destruct (i =? 0) eqn:E1; [reflexivity|]. rewrite block_cons. erewrite exec_if by eve.
  destruct (i =? 1) eqn:E2; [reflexivity|]. apply Z.ltb_ge in E0. apply Z.eqb_neq in E1, E2.
  erewrite block_ret; [reflexivity|]. eapply exec_ret. eve. cbn. destruct (Z.ltb_spec (i - 1) 0); [lia|]. reflexivity. ops.
Qed.

Lemma zrange2_In a b i : In i (zrange2 a b) <-> a <= i < b.
Proof.
  unfold zrange2. rewrite in_map_iff. split.
  - intros (j & <- & Hj). apply zrange_In in Hj. lia.
  - intros H. exists (i - a). split; [lia|]. apply zrange_In. lia.
Qed.

(** ** cheby2n *)
Lemma azeros_canon sh : farr sh (fun _ => n_ofZ 0) = VArr (canon (T := R) (azeros sh)).
Proof. reflexivity. Qed.
Lemma set_row n m sh (a : arr R) i h f r : ashape a = n :: m :: sh -> aset_row a i f = Ok r -> (forall idx, inb (m :: sh) idx = true -> h idx = f idx) ->
  store (VArr (canon a)) [SI i; SDots] (farr (m :: sh) h) = Ok (VArr (canon r)) /\ ashape r = n :: m :: sh /\ 0 <= i < n.
Proof.
  intros Ha H Hh. unfold aset_row in H. rewrite Ha in H. destruct ((0 <=? i) && (i <? n)) eqn:Ei; [|discriminate]. apply in_bool_inv in Ei.
  injection H as <-. split; [|auto]. rewrite !farr_canon. rewrite Ha. rewrite set_first by auto. f_equal. cbn [ashape acell]. apply farr_ext.
  intros [|j idx] Hi; [discriminate|]. cbn [hd tl]. destruct (j =? i); auto. apply Hh. cbn [inb] in *. now apply andb_true_iff in Hi.
Qed.
Lemma run_cheby2n k m sh (x : arr R) n kind r vs ks : ashape x = m :: sh -> cheby2n x n kind = Ok r ->
  (vs = [VFlt kind] /\ ks = [] \/ vs = [] /\ ks = [("kind"%string, VFlt kind)] \/ vs = [] /\ ks = [] /\ kind = n_ofZ 1) ->
  run (S k) "cheby2n" (VArr (canon x) :: VInt n :: vs) ks = Ok (VArr (canon r)) /\ ashape r = (n + 1) :: m :: sh.
Proof.
  intros Hx H Hk.
  assert (G : run (S k) "cheby2n" (VArr (canon x) :: VInt n :: vs) ks =
     ends (block X (run k) (inv X sm_program k) k b_cheby2n (upd (upd (upd empty "kind" (VFlt kind)) "n" (VInt n)) "x" (VArr (canon x))))).
  { destruct Hk as [[-> ->] | [[-> ->] | (-> & -> & ->)]]; enter; reflexivity. }
  rewrite G. clear G Hk. unfold b_cheby2n. unfold cheby2n in H. rewrite Hx in H.
  destruct (aset_row _ 0 _) as [r0|] eqn:E0; [|discriminate]. cbn [bind] in H.
  destruct (aset_row r0 1 _) as [r1|] eqn:E1; [|discriminate]. cbn [bind] in H.
  destruct (set_row (n + 1) m sh (azeros (n + 1 :: m :: sh)) 0 (fun _ => n_ofZ 1) _ _ eq_refl E0 ltac:(reflexivity)) as (S0 & Hr0 & _).
  destruct (set_row (n + 1) m sh _ 1 (fun idx => acell x idx *! kind) _ _ Hr0 E1 ltac:(reflexivity)) as (S1 & Hr1 & _).
  rewrite (farr_canon x), Hx.
  step. step. step.
  erewrite block_next; [| eapply exec_set_; [eve | eapply assign_sub; [evsub | look | exact S0]]].
  erewrite block_next; [| eapply exec_set_; [eve | eapply assign_sub; [evsub | look | exact S1]]].
  set (E2 := upd _ "results"%string (VArr (canon r1))).
  set (I := fun (s : arr R) E => ashape s = n + 1 :: m :: sh /\ K [("x"%string, farr (m :: sh) (acell x)); ("n"%string, VInt n); ("results"%string, VArr (canon s))] E).
  assert (HI : I r1 E2). { split; auto. unfold E2. kk. }
  clearbody E2. pose proof HI as [_ HK2].
  rewrite block_cons. erewrite exec_for; [| eve | reflexivity].
  loop I H HI.
  { intros s i E s' Hi [Hs HK] Es. apply zrange2_In in Hi. cbv beta in Es.
    cbn [bind_target bind].
    destruct (set_row (n + 1) m sh _ i (fun idx => n_ofZ 2 *! acell x idx *! acell s (i - 1 :: idx) -! acell s (i - 2 :: idx)) _ _ Hs Es ltac:(reflexivity)) as (S2 & Hs' & Hi').
      eexists. split; [|split; [exact Hs'|]].
      + assert (A1 : subscript (VArr (canon s)) [SI (i - 1); SDots] = Ok (farr (m :: sh) (fun idx => acell s (i - 1 :: idx)))).
        { rewrite (farr_canon s), Hs. apply subscript_first. lia. }
        assert (A2 : subscript (VArr (canon s)) [SI (i - 2); SDots] = Ok (farr (m :: sh) (fun idx => acell s (i - 2 :: idx)))).
        { rewrite (farr_canon s), Hs. apply subscript_first. lia. }
        erewrite block_next; [reflexivity |]. eapply exec_set_; [eve | eapply assign_sub; [evsub | look | exact S2]].
      + kk.
  }
  destruct HI0 as [Hs3 HK3]. split; [|exact Hs3]. rewrite HE. cbn [bind].
  eapply ends_ret. eapply block_ret. eapply exec_ret. eve.
Qed.

(** ** phi_chain *)
Definition zdict (d : dict (list Z)) : list (Z * val R) := map (fun p => (fst p, VList (map VInt (snd p)))) d.
Lemma run_phi_chain k n : run (S k) "phi_chain" [VInt n] [] = Ok (VDict (zdict (phi_chain n))).
Proof.
  enter. fold b_phi_chain. unfold b_phi_chain. step.
  erewrite block_next; [| eapply exec_set_; [eve | eapply assign_sub; [evsub | look | reflexivity]]].
  erewrite block_next; [| eapply exec_set_; [eve | eapply assign_sub; [evsub | look | reflexivity]]].
  step. set (E2 := upd _ "curr_val"%string (VInt 4)).
  set (I := fun (s : dict (list Z) * Z) E => K [("n"%string, VInt n); ("aphi_chain"%string, VDict (zdict (fst s))); ("curr_val"%string, VInt (snd s))] E).
  assert (HI : I ([(2, [2; 3]); (1, [1])], 4) E2). { unfold E2. kk. }
  clearbody E2. pose proof HI as HK. unfold I in HK.
  rewrite block_cons. erewrite exec_for; [| eve | reflexivity]. unfold phi_chain.
  lazymatch goal with |- context [fold_left ?g _ _] => set (f := g) end.
  lazymatch goal with |- context [iterate ?b _ _] => edestruct (fun HB => iterate_pure b VInt f I (zrange2 3 (n + 1)) HB _ E2 HI) as (E & HE & HI') end.
  2:{ rewrite HE. cbn [bind]. set (r := fold_left f _ _) in *. destruct r as [chain c]. cbn [fst]. unfold I in HI'. cbn [fst snd] in HI'.
      eapply ends_ret. eapply block_ret. eapply exec_ret. eve. }
  intros [chain c] i E Hi HKs. apply zrange2_In in Hi. unfold I in HKs. cbn [fst snd] in HKs. cbn [bind_target bind]. eexists. split.
  - erewrite block_next. 2:{ eapply exec_set. eve. cbn. destruct (Z.ltb_spec (i - 1) 0); [lia|reflexivity]. ops. }
    step. erewrite block_next; [| eapply exec_set_; [eve | eapply assign_sub; [evsub | look | reflexivity]]].
    step. reflexivity.
  - unfold f, I. cbn [fst snd]. kk.
Qed.

(** ** s_n *)
Definition tiny14 : R := (1 / 100000000000000)%R.
Lemma zrange2_shift a n : zrange2 a (a + n) = map (fun i => a + i) (zrange n).
Proof. unfold zrange2. do 2 f_equal. lia. Qed.
Lemma run_s_n k n : 1 <= n -> run (S k) "s_n" [VInt n] [] = Ok (fvec (s_n (x_pi X) (x_cos X) tiny14 n)).
Proof.
  intros Hn. enter. fold b_s_n. unfold b_s_n, s_n. rewrite block_cons. erewrite exec_if by eve.
  destruct (Z.eqb_spec n 1) as [->|Hn1].
  { erewrite block_ret; [|eapply exec_ret; eve]. cbn [bind]. reflexivity. }
  rewrite block_nil. cbn [bind].
  erewrite block_next. 2:{ eapply exec_set. eve. cbn. destruct (Z.ltb_spec (n - 1) 0); [lia|reflexivity]. ops. }
  set (m := 2 ^ (n - 1) + 1). assert (Hm : 0 < m). { unfold m. assert (0 < 2 ^ (n - 1)) by (apply Z.pow_pos_nonneg; lia). lia. }
  erewrite block_next; [| eapply exec_set; eve]. change (literal 10 1) with (n_ofZ (Num := NumR) 1).
  replace (Z.max 0 (ceil (n_ofZ (Num := NumR) m +! n_ofZ 1 -! n_ofZ 1))) with m.
  2:{ unfold ceil. cbn. replace (0 - (IZR m + 1 - 1))%R with (IZR (- m)) by (rewrite opp_IZR; ring). rewrite Zfloor_IZR. lia. }
  step. change (literal (-(10)) 1) with (n_ofZ (Num := NumR) (-1)). change (literal 10 1) with (n_ofZ (Num := NumR) 1).
  erewrite block_next.
  2:{ eapply exec_set_; [eve | eapply assign_sub; [evsub | look |]]. apply store_fancy. intros z Hz. apply filter_In in Hz as [Hz _]. now apply zrange_In in Hz. }
  eapply ends_ret. eapply block_ret. eapply exec_ret. eapply ev_name. rewrite upd_same. do 2 f_equal.
  rewrite make_farr by lia. f_equal. rewrite (Z.add_comm m 1), zrange2_shift, map_map. apply map_ext_in. intros i Hi. apply zrange_In in Hi. cbn [hd].
  rewrite existsb_filter by auto. cbn [hd].
  change (literal 0 1) with 0%R. change (literal 1 14) with tiny14. cbn [n_ofZ n_mul n_sub n_div n_add n_ltb NumR]. rewrite plus_IZR. reflexivity.
Qed.

(** ** a_chain *)
Lemma evens_odds {A} (d : A) n : forall l, List.length l = n ->
  evens l = map (fun i => nth (2 * i) l d) (seq 0 (Nat.div2 (S n))) /\ odds l = map (fun i => nth (2 * i + 1) l d) (seq 0 (Nat.div2 n)).
Proof.
  induction n as [n IH] using lt_wf_ind. intros [|x [|y l]] <-; auto. cbn [List.length Nat.div2 seq map].
  destruct (IH (List.length l) ltac:(cbn; lia) l eq_refl) as [H1 H2]. split.
  - change (evens (x :: y :: l)) with (x :: evens l). rewrite H1. f_equal. rewrite <- seq_shift, map_map. apply map_ext. intros i.
    replace (2 * S i)%nat with (S (S (2 * i))) by lia. reflexivity.
  - change (odds (x :: y :: l)) with (y :: odds l). rewrite H2. f_equal. rewrite <- seq_shift, map_map. apply map_ext. intros i.
    replace (2 * S i + 1)%nat with (S (S (2 * i + 1))) by lia. reflexivity.
Qed.
Lemma zdiv2 n : Z.of_nat n / 2 = Z.of_nat (Nat.div2 n).
Proof. rewrite Nat.div2_div. now rewrite Nat2Z.inj_div. Qed.
Lemma sub_odds (l : list R) : subscript (fvec l) [SFancy (range_step 1 (zlen l * 1) 2)] = Ok (fvec (odds l)).
Proof.
  unfold range_step. replace (zlen l * 1 - 1 + 2 - 1) with (Z.of_nat (List.length l)) by (unfold zlen; lia). rewrite zdiv2.
  pose proof (Nat.div2_odd (List.length l)) as Hd.
  rewrite subscript_fancy.
  - do 2 f_equal. rewrite map_map. destruct (evens_odds 0%R _ l eq_refl) as [_ ->]. unfold zrange. rewrite Nat2Z.id, map_map. apply map_ext. intros i. f_equal. lia.
  - intros z Hz. apply in_map_iff in Hz as (i & <- & Hi). apply zrange_In in Hi. unfold zlen. lia.
Qed.
Lemma sub_evens (l : list R) : subscript (fvec l) [SFancy (range_step 0 (zlen l * 1) 2)] = Ok (fvec (evens l)).
Proof.
  unfold range_step. replace (zlen l * 1 - 0 + 2 - 1) with (Z.of_nat (S (List.length l))) by (unfold zlen; lia). rewrite zdiv2.
  pose proof (Nat.div2_odd (S (List.length l))) as Hd.
  rewrite subscript_fancy.
  - do 2 f_equal. rewrite map_map. destruct (evens_odds 0%R _ l eq_refl) as [-> _]. unfold zrange. rewrite Nat2Z.id, map_map. apply map_ext. intros i. f_equal. lia.
  - intros z Hz. apply in_map_iff in Hz as (i & <- & Hi). apply zrange_In in Hi. unfold zlen.
    destruct (Nat.odd (S (List.length l))) eqn:Eo; cbn [Nat.b2n] in Hd; lia.
Qed.
(** A dict of lists of floats: its values are lists or tuples. *)
Definition fdict (v : list (Z * val R)) (d : dict (list R)) : Prop :=
  Forall2 (fun p q => fst p = fst q /\ items (snd p) = Ok (map VFlt (snd q))) v d.
Lemma run_a_chain k n : 1 <= n -> exists v, run (S (S k)) "a_chain" [VInt n] [] = Ok (VDict v) /\ fdict v (a_chain (s_n (x_pi X) (x_cos X) tiny14 n) n).
Proof.
  intros Hn. pose proof (run_s_n k n Hn) as HS. set (Sn := s_n _ _ _ n) in *. enter. fold b_a_chain. unfold b_a_chain. step. step.
  erewrite block_next; [| eapply exec_set_; [eve | eapply assign_sub; [evsub | look | reflexivity]]].
  erewrite block_next; [| eapply exec_set_; [eve | eapply assign_sub; [evsub | look | reflexivity]]].
  set (E2 := upd _ _ _).
  set (I := fun (s : dict (list R) * list R) E => exists v, fdict v (fst s) /\ K [("n"%string, VInt n); ("A_chain"%string, VDict v); ("Sn"%string, fvec (snd s))] E).
  assert (HI : I ([(2, [n_ofZ (-1); n_ofZ 1]); (1, [n_ofZ 0])], Sn) E2).
  { eexists. split; [|unfold E2; kk]. repeat constructor. }
  clearbody E2. pose proof HI as (v0 & _ & HK).
  rewrite block_cons. erewrite exec_for; [| eve | reflexivity]. unfold a_chain.
  lazymatch goal with |- context [fold_left ?g _ _] => set (f := g) end.
  lazymatch goal with |- context [iterate ?b _ _] => edestruct (fun HB => iterate_pure b VInt f I (zrange_down n 2) HB _ E2 HI) as (E & HE & v & Hv & HK') end.
  2:{ exists v. split; [|exact Hv]. rewrite HE. cbn [bind]. eapply ends_ret. eapply block_ret. eapply exec_ret. eve. }
  clear. intros [chain l] i E Hi (v & Hv & HK). cbn [fst snd] in Hv, HK. cbn [bind_target bind]. eexists. split.
  - step. pose proof (sub_odds l) as So. pose proof (sub_evens l) as Se.
    erewrite block_next.
    2:{ eapply exec_set_; [eve | eapply assign_sub; [evsub | look | reflexivity]]. }
    step. reflexivity.
  - unfold f, I. cbn [fst snd]. eexists. split; [|kk]. constructor; auto.
Qed.
End A.
