(** The text of complete_poly.py computes what CompleteModel.v computes. *)
From Coq Require Import ZArith List Bool String Lia.
From Verif Require Import Base BaseFacts CompleteModel CompleteGeneric PySyntax PySem SpecText PySemFacts PyArr SrcCompletePoly.
Import ListNotations.
Open Scope Z_scope.
Open Scope num_scope.

Definition cp_program : list stmt := Eval vm_compute in match parse_text complete_poly_py with Some p => p | None => [] end.
Lemma cp_text : parse_text complete_poly_py = Some cp_program.
Proof. vm_cast_no_check (eq_refl (Some cp_program)). Qed.
Definition cdef (f : string) := match find_def cp_program f with Some d => d | None => ([], []) end.

Definition plain (e : expr) : bool := match e with ESlice _ _ _ | EEllipsis | EStar _ => false | _ => true end.

Section Text.
Context {T : Type} {NT : Num T}.
Variable G : env T.
Variable call : string -> list (val T) -> list (string * val T) -> heap T -> res (val T * heap T).
Variable fuel : nat.
Notation eval := (eval G call).
Notation exec := (exec G call fuel).
Notation block := (block G call fuel).
Notation subs := (subs G call).

(** ** Known variables *)
Definition vars := list (string * val T).
Definition K (L : vars) (E : env T) : Prop := Forall (fun p => E (fst p) = Some (snd p)) L.
Fixpoint at_ (L : vars) (x : string) : option (val T) :=
  match L with [] => None | (y, v) :: L => if String.eqb x y then Some v else at_ L x end.
Definition free (x : string) (L : vars) : bool := forallb (fun p => negb (String.eqb (fst p) x)) L.
Lemma K_at L E x v : K L E -> at_ L x = Some v -> E x = Some v.
Proof.
  induction 1 as [|[y w] L H HL IH]; cbn; [discriminate|]. destruct (String.eqb_spec x y); auto. cbn in H. congruence.
Qed.
Lemma K_upd L E x v : K L E -> free x L = true -> K ((x, v) :: L) (upd E x v).
Proof.
  intros H F. constructor; [apply upd_same|]. unfold K in *. rewrite Forall_forall in *. intros [y w] Hy.
  unfold free in F. rewrite forallb_forall in F. specialize (F _ Hy). cbn in *. rewrite upd_other; [now apply (H (y, w))|].
  destruct (String.eqb_spec y x); [discriminate|auto].
Qed.
Lemma K_tail p L E : K (p :: L) E -> K L E.
Proof. now inversion 1. Qed.

(** Expressions whose value depends on known variables only. *)
Definition ev (L : vars) (h : heap T) (e : expr) (v : val T) : Prop := forall E, K L E -> eval E e h = Ok (v, h).
Lemma ev_name L h x v : at_ L x = Some v -> ev L h (EName x) v.
Proof. intros H E HK. cbn [PySem.eval]. now rewrite (lookup_in G _ _ _ (K_at _ _ _ _ HK H)). Qed.
Lemma ev_int L h z : ev L h (EInt z) (PInt z).
Proof. intros E _. reflexivity. Qed.
Lemma ev_flt L h m e : ev L h (EFlt m e) (PFlt (literal m e)).
Proof. intros E _. reflexivity. Qed.
Lemma ev_bin L h o a b x y v : ev L h a x -> ev L h b y -> binop h o x y = Ok v -> ev L h (EBin o a b) v.
Proof. intros H1 H2 H3 E HK. cbn [PySem.eval]. rewrite H1 by auto. cbn [bind]. rewrite H2 by auto. cbn [bind]. now rewrite H3. Qed.
Lemma ev_cmp L h o a b x y t : ev L h a x -> ev L h b y -> compare o x y = Ok t -> ev L h (ECmp a [(o, b)]) (PBool t).
Proof.
  intros H1 H2 H3 E HK. cbn [PySem.eval]. rewrite H1 by auto. cbn [bind]. rewrite H2 by auto. cbn [bind]. rewrite H3. cbn [bind].
  now destruct t.
Qed.
Lemma ev_ife L h c a b (t : bool) v : ev L h c (PBool t) -> (if t then ev L h a v else ev L h b v) -> ev L h (EIfE c a b) v.
Proof. intros H1 H2 E HK. cbn [PySem.eval]. rewrite H1 by auto. cbn [bind truth]. destruct t; auto. Qed.
Lemma ev_tup2 L h a b x y : ev L h a x -> ev L h b y -> ev L h (ETup [a; b]) (PTup [x; y]).
Proof.
  intros H1 H2 E HK. rewrite eval_tup. rewrite (evals_cons G call _ _ _ _ _ _ (H1 E HK)), (evals_cons G call _ _ _ _ _ _ (H2 E HK)).
  reflexivity.
Qed.
Lemma ev_range1 L h a n : ev L h a (PInt n) -> ev L h (ECall (EName "range") [a] []) (PTup (map PInt (zrange2 0 n))).
Proof.
  intros H E HK. rewrite eval_call by discriminate. rewrite (evals_cons G call _ _ _ _ _ _ (H E HK)). cbn [bind evals].
  cbn [builtin String.eqb Ascii.eqb Bool.eqb range_of bind]. do 3 f_equal. unfold zrange2. rewrite Z.sub_0_r.
  rewrite map_map. reflexivity.
Qed.
Lemma ev_range2 L h a b m n : ev L h a (PInt m) -> ev L h b (PInt n) -> ev L h (ECall (EName "range") [a; b] []) (PTup (map PInt (zrange2 m n))).
Proof.
  intros H1 H2 E HK. rewrite eval_call by discriminate.
  rewrite (evals_cons G call _ _ _ _ _ _ (H1 E HK)), (evals_cons G call _ _ _ _ _ _ (H2 E HK)). reflexivity.
Qed.

(** [for x in range(lo, hi)] *)
Lemma sim_for2 {S} (f : Z -> S -> res S) (R : S -> env T -> heap T -> Prop) x it lo hi b E h s :
  eval E it h = Ok (PTup (map PInt (zrange2 lo hi)), h) ->
  (forall s i E h, lo <= i < hi -> R s E h -> sim (f i s) (block b (upd E x (PInt i)) h) R) ->
  R s E h -> sim (for_ lo hi f s) (exec (SFor (EName x) it b) E h) R.
Proof.
  intros Hit HB H.
  change (exec (SFor (EName x) it b) E h) with
    ('(v, h) <- eval E it h ;; match v with
      | PTup l => iterate (fun v E h => '(E, h) <- assign G call E h (EName x) v ;; block b E h) l E h
      | _ => Err TypeErr end).
  rewrite Hit. cbn [bind]. unfold for_. apply sim_iterate; auto.
  intros s' i E' h' Hi H'. unfold zrange2 in Hi. apply in_map_iff in Hi as (j & <- & Hj). apply zrange_In in Hj.
  cbn [assign bind]. apply HB; auto. lia.
Qed.

(** ** The arrays: [z] is read, [out] is written *)
Variable h0 : heap T.
Variables kz ko : nat.
Variable z : arr T.
Hypothesis Hz : nth_error h0 kz = Some (OF z).
Hypothesis Hne : kz <> ko.
Hypothesis Hko : (ko < List.length h0)%nat.
Variable sh : list Z.
Definition hp (out : arr T) : heap T := hset h0 ko (OF out).
Definition RK (L : vars) (out : arr T) (E : env T) (h : heap T) : Prop := K L E /\ h = hp out /\ ashape out = sh.
Definition St (L : vars) (s : cstate) (E : env T) (h : heap T) : Prop := 0 <= snd s /\ RK (("ix"%string, PInt (snd s)) :: L) (fst s) E h.

Lemma hp_z out : nth_error (hp out) kz = Some (OF z).
Proof. unfold hp. rewrite nth_hset_other; auto. Qed.
Lemma hp_out out : nth_error (hp out) ko = Some (OF out).
Proof. unfold hp. now apply nth_hset_same. Qed.
Lemma hp_hp a b : hset (hp a) ko (OF b) = hp b.
Proof. apply hset_hset. Qed.

Lemma subs1 E h a i : eval E a h = Ok (PInt i, h) -> plain a = true -> subs E [a] h = Ok ([SIx i], h).
Proof. intros H S. destruct a; try discriminate S; cbn [PySem.subs]; rewrite H; reflexivity. Qed.
Lemma subs2 E h a b i j : eval E a h = Ok (PInt i, h) -> eval E b h = Ok (PInt j, h) -> plain a = true -> plain b = true ->
  subs E [a; b] h = Ok ([SIx i; SIx j], h).
Proof.
  intros H1 H2 S1 S2. pose proof (subs1 _ _ _ _ H2 S2) as Hb.
  assert (X : subs E [a; b] h = ('(s, h) <- ('(v, h) <- eval E a h ;; s <- to_sidx v ;; Ok (s, h)) ;; '(q, h) <- subs E [b] h ;; Ok (s :: q, h))).
  { destruct a; try discriminate S1; reflexivity. }
  rewrite X, H1. cbn [bind to_sidx]. now rewrite Hb.
Qed.
Lemma ev_sub1 L out a i n : at_ L "z" = Some (PArr kz []) -> ashape z = [n] -> 0 <= i < n -> ev L (hp out) a (PInt i) -> plain a = true ->
  ev L (hp out) (ESub (EName "z") [a]) (PFlt (acell z [i])).
Proof.
  intros HL Hs Hi Ha S E HK.
  rewrite (eval_elem G call E _ "z" [a] [i] kz [] z); [|split; [now apply (K_at L)|apply hp_z]|split; [apply subs1; auto|repeat constructor; lia]|now rewrite Hs].
  cbn [vmerge]. unfold aget. rewrite Hs. cbn [inb]. replace (0 <=? i) with true by (symmetry; apply Z.leb_le; lia).
  replace (i <? n) with true by (symmetry; apply Z.ltb_lt; lia). reflexivity.
Qed.
Lemma ev_sub2 L out a b i j n m : at_ L "z" = Some (PArr kz []) -> ashape z = [n; m] -> 0 <= i < n -> 0 <= j < m ->
  ev L (hp out) a (PInt i) -> ev L (hp out) b (PInt j) -> plain a = true -> plain b = true ->
  ev L (hp out) (ESub (EName "z") [a; b]) (PFlt (acell z [i; j])).
Proof.
  intros HL Hs Hi Hj Ha Hb S1 S2 E HK.
  rewrite (eval_elem G call E _ "z" [a; b] [i; j] kz [] z); [|split; [now apply (K_at L)|apply hp_z]|split; [apply subs2; auto|repeat constructor; lia]|now rewrite Hs].
  cbn [vmerge]. unfold aget. rewrite Hs. cbn [inb]. replace (0 <=? i) with true by (symmetry; apply Z.leb_le; lia).
  replace (i <? n) with true by (symmetry; apply Z.ltb_lt; lia). replace (0 <=? j) with true by (symmetry; apply Z.leb_le; lia).
  replace (j <? m) with true by (symmetry; apply Z.ltb_lt; lia). reflexivity.
Qed.

(** ** Statements *)
Lemma sim_store1 L out E a i e x n : sh = [n] -> RK L out E (hp out) -> at_ L "out" = Some (PArr ko []) -> 0 <= i -> ev L (hp out) a (PInt i) -> plain a = true ->
  ev L (hp out) e (PFlt x) ->
  sim (aset out [i] x) (exec (SAssign [ESub (EName "out") [a]] e) E (hp out)) (RK L).
Proof.
  intros Hn (HK & _ & Hs) HL Hi Ha S He.
  rewrite (exec_elem G call fuel E _ "out" [a] [i] ko [] out e (Ok x)).
  - cbn [bind vmerge]. destruct (aset out [i] x) as [o|] eqn:Eo; [|reflexivity]. cbn. eexists _, _. split; [reflexivity|].
    rewrite hp_hp. apply aset_inv in Eo as [_ ->]. repeat split; auto.
  - split; [now apply (K_at L)|apply hp_out].
  - split; [apply subs1; auto|repeat constructor; lia].
  - now rewrite Hs, Hn.
  - now rewrite He.
Qed.
Lemma sim_store2 L out E a b i j e x n m : sh = [n; m] -> RK L out E (hp out) -> at_ L "out" = Some (PArr ko []) -> 0 <= i -> 0 <= j ->
  ev L (hp out) a (PInt i) -> ev L (hp out) b (PInt j) -> plain a = true -> plain b = true -> ev L (hp out) e (PFlt x) ->
  sim (aset out [i; j] x) (exec (SAssign [ESub (EName "out") [a; b]] e) E (hp out)) (RK L).
Proof.
  intros Hn (HK & _ & Hs) HL Hi Hj Ha Hb S1 S2 He.
  rewrite (exec_elem G call fuel E _ "out" [a; b] [i; j] ko [] out e (Ok x)).
  - cbn [bind vmerge]. destruct (aset out [i; j] x) as [o|] eqn:Eo; [|reflexivity]. cbn. eexists _, _. split; [reflexivity|].
    rewrite hp_hp. apply aset_inv in Eo as [_ ->]. repeat split; auto.
  - split; [now apply (K_at L)|apply hp_out].
  - split; [apply subs2; auto|repeat constructor; lia].
  - now rewrite Hs, Hn.
  - now rewrite He.
Qed.
(** Loops over a range, whose state is [out], or [out] and [ix]. *)
Lemma RK_drop p L out E h : RK (p :: L) out E h -> RK L out E h.
Proof. intros (H1 & H2 & H3). split; [now apply K_tail in H1|auto]. Qed.
Lemma St_drop p L s E h : St (p :: L) s E h -> St L s E h.
Proof.
  intros (H0 & H1 & H2 & H3). split; [auto|]. split; [|auto]. inversion H1 as [|? ? A B]; subst. inversion B; subst. now constructor.
Qed.
Lemma loop_out L (f : Z -> arr T -> res (arr T)) x it lo hi b E out :
  ev L (hp out) it (PTup (map PInt (zrange2 lo hi))) -> free x L = true ->
  (forall out i E, lo <= i < hi -> RK ((x, PInt i) :: L) out E (hp out) -> sim (f i out) (block b E (hp out)) (RK ((x, PInt i) :: L))) ->
  RK L out E (hp out) -> sim (for_ lo hi f out) (exec (SFor (EName x) it b) E (hp out)) (RK L).
Proof.
  intros Hit Hx HB H. apply sim_for2; auto. { apply Hit, H. }
  intros s i E' h' Hi (HK & -> & Hs). eapply sim_weak; [apply HB; auto|].
  - split; [apply K_upd; auto|auto].
  - intros ? ? ? X. now apply RK_drop in X.
Qed.
Lemma loop_st L (f : Z -> cstate -> res cstate) x it lo hi b E s :
  ev L (hp (fst s)) it (PTup (map PInt (zrange2 lo hi))) -> free x (("ix"%string, PNone) :: L) = true ->
  (forall s i E, lo <= i < hi -> St ((x, PInt i) :: L) s E (hp (fst s)) -> sim (f i s) (block b E (hp (fst s))) (St ((x, PInt i) :: L))) ->
  St L s E (hp (fst s)) -> sim (for_ lo hi f s) (exec (SFor (EName x) it b) E (hp (fst s))) (St L).
Proof.
  intros Hit Hx HB H. apply sim_for2; auto. { apply Hit. apply (K_tail _ _ _ (proj1 (proj2 H))). }
  intros s' i E' h' Hi (H0 & HK & -> & Hs). eapply sim_weak; [apply HB; auto|].
  - split; [auto|]. split; [|auto]. assert (X : K ((x, PInt i) :: ("ix"%string, PInt (snd s')) :: L) (upd E' x (PInt i))) by (apply K_upd; auto).
    inversion X as [|? ? A B]; subst. inversion B; subst. repeat (constructor; auto).
  - intros ? ? ? X. now apply St_drop in X.
Qed.
(** [ix += 1] *)
Lemma sim_next {S} L s E (f : res S) l R : free "ix" L = true -> St L s E (hp (fst s)) ->
  (forall E', 0 <= snd s -> RK (("ix"%string, PInt (snd s + 1)) :: L) (fst s) E' (hp (fst s)) -> sim f (block l E' (hp (fst s))) R) ->
  sim f (block (SAug "+" (EName "ix") (EInt 1) :: l) E (hp (fst s))) R.
Proof.
  intros HL (H0 & HK & _ & Hs) H. rewrite block_cons. cbn [PySem.exec PySem.eval]. inversion HK as [|? ? A B]; subst. cbn in A.
  rewrite (lookup_in G _ _ _ A). cbn [bind binop is_array arith String.eqb Ascii.eqb Bool.eqb assign]. apply H; auto. split; [apply K_upd; auto|auto].
Qed.
Lemma put_then {S} L s E x e (f : cstate -> res S) l R n : sh = [n] -> at_ L "out" = Some (PArr ko []) -> free "ix" L = true ->
  St L s E (hp (fst s)) -> (forall i, ev (("ix"%string, PInt i) :: L) (hp (fst s)) e (PFlt x)) ->
  (forall s' E', St L s' E' (hp (fst s')) -> sim (f s') (block l E' (hp (fst s'))) R) ->
  sim (s' <- put (Ok x) s ;; f s')
    (block (SAug "+" (EName "ix") (EInt 1) :: SAssign [ESub (EName "out") [EName "ix"]] e :: l) E (hp (fst s))) R.
Proof.
  intros Hn Ho HL H He HF. apply sim_next with (L := L); auto. intros E' H0 H'. destruct s as [out ix]. cbn [fst snd] in *.
  assert (X : (s' <- put (Ok x) (out, ix) ;; f s') = (out0 <- aset out [ix + 1] x ;; f (out0, ix + 1))).
  { cbn. destruct (aset out [ix + 1] x); reflexivity. }
  rewrite X. eapply sim_cons.
  - eapply sim_store1; eauto; try lia. + intros E1 HK. cbn. now rewrite (lookup_in G _ _ _ (K_at _ _ "ix"%string _ HK eq_refl)).
  - intros o E1 h1 HR. pose proof HR as (_ & -> & _). apply (HF (o, ix + 1)). split; [cbn; lia|exact HR].
Qed.
Lemma bind_ret {A} (r : res A) : (s <- r ;; Ok s) = r.
Proof. now destruct r. Qed.
Lemma put_last L s E x e n : sh = [n] -> at_ L "out" = Some (PArr ko []) -> free "ix" L = true ->
  St L s E (hp (fst s)) -> (forall i, ev (("ix"%string, PInt i) :: L) (hp (fst s)) e (PFlt x)) ->
  sim (put (Ok x) s) (block [SAug "+" (EName "ix") (EInt 1); SAssign [ESub (EName "out") [EName "ix"]] e] E (hp (fst s))) (St L).
Proof.
  intros Hn Ho HL H He. rewrite <- (bind_ret (put _ _)). eapply put_then; eauto. intros s' E' H'. apply sim_end. exact H'.
Qed.
Lemma row_then {S} L s E (v : Z -> res T) nobs it b (f : cstate -> res S) l R : free "ix" L = true -> free "k" L = true ->
  St L s E (hp (fst s)) -> (forall i out, ev (("ix"%string, PInt i) :: L) (hp out) it (PTup (map PInt (zrange2 0 nobs)))) ->
  (forall out i k E, 0 <= i -> 0 <= k < nobs -> RK (("k"%string, PInt k) :: ("ix"%string, PInt i) :: L) out E (hp out) ->
    sim (w <- v k ;; aset out [i; k] w) (block b E (hp out)) (RK (("k"%string, PInt k) :: ("ix"%string, PInt i) :: L))) ->
  (forall s' E', St L s' E' (hp (fst s')) -> sim (f s') (block l E' (hp (fst s'))) R) ->
  sim (s' <- put_row nobs v s ;; f s')
    (block (SAug "+" (EName "ix") (EInt 1) :: SFor (EName "k") it b :: l) E (hp (fst s))) R.
Proof.
  intros HL Hk H Hit HB HF. apply sim_next with (L := L); auto. intros E' H0 H'. destruct s as [out ix]. cbn [fst snd put_row] in *.
  assert (X : forall r : res (arr T), (s' <- (out0 <- r ;; Ok (out0, ix + 1)) ;; f s') = (out0 <- r ;; f (out0, ix + 1))) by (now intros []).
  rewrite X. eapply sim_cons.
  - eapply loop_out with (L := ("ix"%string, PInt (ix + 1)) :: L); eauto. intros out' k E1 Hk1 HR1. apply HB; auto. lia.
  - intros o E1 h1 HR. pose proof HR as (_ & -> & _). apply (HF (o, ix + 1)). split; [cbn; lia|exact HR].
Qed.
Lemma row_last L s E (v : Z -> res T) nobs it b : free "ix" L = true -> free "k" L = true ->
  St L s E (hp (fst s)) -> (forall i out, ev (("ix"%string, PInt i) :: L) (hp out) it (PTup (map PInt (zrange2 0 nobs)))) ->
  (forall out i k E, 0 <= i -> 0 <= k < nobs -> RK (("k"%string, PInt k) :: ("ix"%string, PInt i) :: L) out E (hp out) ->
    sim (w <- v k ;; aset out [i; k] w) (block b E (hp out)) (RK (("k"%string, PInt k) :: ("ix"%string, PInt i) :: L))) ->
  sim (put_row nobs v s) (block [SAug "+" (EName "ix") (EInt 1); SFor (EName "k") it b] E (hp (fst s))) (St L).
Proof. intros. rewrite <- (bind_ret (put_row _ _ _)). eapply row_then; eauto. intros s' E' H'. apply sim_end. exact H'. Qed.
(** [(c, t) = e] *)
Lemma sim_pair_st {S} L s E c t e cv tv (f : res S) l R : St L s E (hp (fst s)) -> ev L (hp (fst s)) e (PTup [PInt cv; PFlt tv]) ->
  free c (("ix"%string, PNone) :: L) = true -> free t ((c, PNone) :: ("ix"%string, PNone) :: L) = true ->
  (forall E', St ((t, PFlt tv) :: (c, PInt cv) :: L) s E' (hp (fst s)) -> sim f (block l E' (hp (fst s))) R) ->
  sim f (block (SAssign [ETup [EName c; EName t]] e :: l) E (hp (fst s))) R.
Proof.
  intros (H0 & HK & _ & Hs) He Fc Ft HF. rewrite block_cons. cbn [PySem.exec]. rewrite He by (now apply K_tail in HK).
  cbn [bind assign_all assign assign_names]. apply HF. split; [auto|]. split; [|auto].
  assert (X : K ((t, PFlt tv) :: (c, PInt cv) :: ("ix"%string, PInt (snd s)) :: L) (upd (upd E c (PInt cv)) t (PFlt tv))).
  { apply K_upd; auto. apply K_upd; auto. }
  inversion X as [|? ? A B]; subst. inversion B as [|? ? A1 B1]; subst. inversion B1; subst. repeat (constructor; auto).
Qed.
Lemma sim_pair_out {S} L out E c t e cv tv (f : res S) l R : RK L out E (hp out) -> ev L (hp out) e (PTup [PInt cv; PFlt tv]) ->
  free c L = true -> free t ((c, PNone) :: L) = true ->
  (forall E', RK ((t, PFlt tv) :: (c, PInt cv) :: L) out E' (hp out) -> sim f (block l E' (hp out)) R) ->
  sim f (block (SAssign [ETup [EName c; EName t]] e :: l) E (hp out)) R.
Proof.
  intros (HK & _ & Hs) He Fc Ft HF. rewrite block_cons. cbn [PySem.exec]. rewrite He by auto.
  cbn [bind assign_all assign assign_names]. apply HF. split; [|auto]. apply K_upd; auto. apply K_upd; auto.
Qed.

(** ** Functions that may [return] in the middle *)
Definition simr {S} (r : res S) (x : res (state T)) (R : S -> heap T -> Prop) : Prop :=
  match r with
  | Ok s => exists g E h, x = Ok (g, E, h) /\ (g = Nxt \/ g = Ret PNone) /\ R s h
  | Err e => x = Err e
  end.
Lemma simr_sim {S} (r : res S) x R (R' : S -> heap T -> Prop) : sim r x R -> (forall s E h, R s E h -> R' s h) -> simr r x R'.
Proof. destruct r; cbn; auto. intros (E & h & -> & H) W. eexists _, _, _. eauto. Qed.
Lemma simr_bind {S S'} (r : res S) (f : S -> res S') s l E h R R' :
  sim r (exec s E h) R -> (forall s E h, R s E h -> simr (f s) (block l E h) R') -> simr (s <- r ;; f s) (block (s :: l) E h) R'.
Proof. intros H1 H2. rewrite block_cons. destruct r as [a|e]; cbn in *; [|now rewrite H1]. destruct H1 as (E' & h' & -> & H). cbn. auto. Qed.
Lemma simr_skip {S} (f : res S) L h c b l E R : ev L h c (PBool false) -> K L E -> simr f (block l E h) R -> simr f (block (SIf c b [] :: l) E h) R.
Proof. intros He HK H. rewrite block_cons. cbn [PySem.exec]. rewrite He by auto. cbn [bind truth]. exact H. Qed.
Lemma simr_ret {S} (r : res S) L h c st l E R : ev L h c (PBool true) -> K L E -> simr r (exec st E h) R ->
  simr r (block (SIf c [st; SRet None] [] :: l) E h) R.
Proof.
  intros He HK H. rewrite block_cons. cbn [PySem.exec]. rewrite He by auto. cbn [bind truth].
  destruct r as [s|e]; cbn in *; [|now rewrite H]. destruct H as (g & E' & h' & -> & Hg & HR). cbn [bind].
  destruct Hg as [-> | ->]; cbn; eexists _, _, _; eauto.
Qed.
Lemma simr_ret0 {S} (s : S) L h c l E (R : S -> heap T -> Prop) : ev L h c (PBool true) -> K L E -> R s h -> simr (Ok s) (block (SIf c [SRet None] [] :: l) E h) R.
Proof.
  intros He HK H. rewrite block_cons. cbn [PySem.exec]. rewrite He by auto. cbn. eexists _, _, _. eauto.
Qed.
Lemma simr_call {S} (r : res S) ps b vs ks h E h1 (F : S -> heap T) (R : S -> heap T -> Prop) :
  bind_params G call ps vs ks h = Ok (E, h1) -> simr r (block b E h1) R -> (forall s h', R s h' -> h' = F s) ->
  call_body G call fuel ps b vs ks h = (s <- r ;; Ok (PNone, F s)).
Proof.
  intros H1 H2 H3. unfold call_body. rewrite H1. cbn [bind]. destruct r as [s|e]; cbn [simr] in H2.
  - destruct H2 as (g & E' & h' & -> & Hg & HR). cbn [bind]. rewrite (H3 _ _ HR). now destruct Hg as [-> | ->].
  - now rewrite H2.
Qed.
(** ** Small steps *)
Lemma simr_set {S} (r : res S) L h x e v l E R : ev L h e v -> K L E -> simr r (block l (upd E x v) h) R -> simr r (block (SAssign [EName x] e :: l) E h) R.
Proof. intros He HK H. rewrite block_cons, exec_set. rewrite He by auto. exact H. Qed.
Lemma sim_if {S} (r : res S) (s : S) L h c (t : bool) b E R : ev L h c (PBool t) -> K L E -> (t = true -> sim r (block b E h) R) -> (t = false -> R s E h) ->
  sim (if t then r else Ok s) (exec (SIf c b []) E h) R.
Proof. intros He HK H1 H2. cbn [PySem.exec]. rewrite He by auto. cbn [bind truth]. destruct t; auto. eexists _, _. split; [reflexivity|auto]. Qed.
Lemma sim_block1 {S} (r : res S) st E h R : sim r (exec st E h) R -> sim r (block [st] E h) R.
Proof. intros H. rewrite <- (bind_ret r). eapply sim_cons; eauto. intros. now apply sim_end. Qed.
Lemma ev_shape1 L out n : at_ L "z" = Some (PArr kz []) -> ashape z = [n] -> ev L (hp out) (ESub (EAttr (EName "z") "shape") [EInt 0]) (PInt n).
Proof.
  intros HL H E HK. cbn. rewrite (lookup_in G _ _ _ (K_at _ _ _ _ HK HL)). cbn. rewrite (vdims_arr _ _ _ _ (hp_z out)), H. reflexivity.
Qed.
Lemma ev_shape2 L out n m (i : bool) : at_ L "z" = Some (PArr kz []) -> ashape z = [n; m] ->
  ev L (hp out) (ESub (EAttr (EName "z") "shape") [EInt (if i then 1 else 0)]) (PInt (if i then m else n)).
Proof.
  intros HL H E HK. destruct i; cbn; rewrite (lookup_in G _ _ _ (K_at _ _ _ _ HK HL)); cbn; rewrite (vdims_arr _ _ _ _ (hp_z out)), H; reflexivity.
Qed.
Lemma ev_z1 L out a i n : at_ L "z" = Some (PArr kz []) -> ashape z = [n] -> ev L (hp out) a (PInt i) -> plain a = true -> 0 <= i < n ->
  ev L (hp out) (ESub (EName "z") [a]) (PFlt (acell z [i])).
Proof. intros. eapply ev_sub1; eauto. Qed.
Lemma ev_z2 L out a b i j n m : at_ L "z" = Some (PArr kz []) -> ashape z = [n; m] ->
  ev L (hp out) a (PInt i) -> ev L (hp out) b (PInt j) -> plain a = true -> plain b = true -> 0 <= i < n -> 0 <= j < m ->
  ev L (hp out) (ESub (EName "z") [a; b]) (PFlt (acell z [i; j])).
Proof. intros. eapply ev_sub2; eauto. Qed.
Lemma z_at1 i n : ashape z = [n] -> 0 <= i < n -> aget z [i] = Ok (acell z [i]).
Proof.
  intros H Hi. unfold aget. rewrite H. cbn [inb]. replace (0 <=? i) with true by (symmetry; apply Z.leb_le; lia).
  now replace (i <? n) with true by (symmetry; apply Z.ltb_lt; lia).
Qed.
Lemma z_at2 i j n m : ashape z = [n; m] -> 0 <= i < n -> 0 <= j < m -> aget z [i; j] = Ok (acell z [i; j]).
Proof.
  intros H Hi Hj. unfold aget. rewrite H. cbn [inb]. replace (0 <=? i) with true by (symmetry; apply Z.leb_le; lia).
  replace (i <? n) with true by (symmetry; apply Z.ltb_lt; lia). replace (0 <=? j) with true by (symmetry; apply Z.leb_le; lia).
  now replace (j <? m) with true by (symmetry; apply Z.ltb_lt; lia).
Qed.

Lemma ev_one L h : ev L h (EFlt 10 1) (PFlt (n_ofZ 1)).
Proof. apply ev_flt. Qed.
Lemma ev_nil L h : ev L h (EFlt 0 1) (PFlt (n_ofZ 0)).
Proof. apply ev_flt. Qed.
(** [(a1, b1) if c else (a2, b2)] *)
Lemma ev_choice L h c (t : bool) a1 b1 a2 b2 x1 y1 x2 y2 : ev L h c (PBool t) -> ev L h a1 (PInt x1) -> ev L h b1 (PFlt y1) ->
  ev L h a2 (PInt x2) -> ev L h b2 (PFlt y2) ->
  ev L h (EIfE c (ETup [a1; b1]) (ETup [a2; b2])) (PTup [PInt (if t then x1 else x2); PFlt (if t then y1 else y2)]).
Proof. intros. eapply ev_ife; [eassumption|]. destruct t; apply ev_tup2; auto. Qed.
(** [c * t1 * t2 * z[der] ** (c - 1) if c > 0 else 0.0] *)
Hypothesis one_mul : forall x : T, n_ofZ 1 *! x = x.
Lemma pow_npow w k : 0 <= k -> (if k =? 0 then n_ofZ 1 else pow_pos w k) = npow w k.
Proof.
  intros Hk. unfold pow_pos, npow. destruct (Z.eqb_spec k 0) as [->|Hk0]; [reflexivity|].
  replace (Z.to_nat k) with (S (Z.to_nat (k - 1))) by lia. generalize (Z.to_nat (k - 1)) as j. intros j.
  assert (X : forall a, Nat.iter (S j) (fun a => a *! w) a = Nat.iter j (fun a => a *! w) (a *! w)).
  { induction j as [|j IH]; intros a; [reflexivity|]. cbn [Nat.iter nat_rect] in *. change (Nat.iter (S j) (fun a => a *! w) a *! w = Nat.iter j (fun a => a *! w) (a *! w) *! w).
    f_equal. apply IH. }
  rewrite X, one_mul. reflexivity.
Qed.
Lemma ev_term L h ec c ep p ez w : ev L h ec (PInt c) -> ev L h ep (PFlt p) -> ev L h ez (PFlt w) ->
  ev L h (EIfE (ECmp ec [(">"%string, EInt 0)]) (EBin "*" ep (EBin "**" ez (EBin "-" ec (EInt 1)))) (EFlt 0 1))
    (PFlt (if 0 <? c then p *! npow w (c - 1) else n_ofZ 0)).
Proof.
  intros Hc Hp Hw. eapply ev_ife. { eapply ev_cmp; [eassumption|apply ev_int|reflexivity]. }
  rewrite Z.gtb_ltb. destruct (Z.ltb_spec 0 c) as [H|H]; [|apply ev_flt].
  eapply (ev_bin _ _ _ _ _ _ (PFlt (npow w (c - 1)))); [eassumption| |reflexivity]. eapply ev_bin; [eassumption|eapply ev_bin; [eassumption|apply ev_int|reflexivity]|].
  cbn. destruct (Z.ltb_spec (c - 1) 0); [lia|]. now rewrite pow_npow by lia.
Qed.
Lemma der_step_ok v i der c : der_step (Ok v) i der c = Ok (if i =? der then c + 1 else c, if i =? der then n_ofZ 1 else v).
Proof. unfold der_step. now destruct (i =? der). Qed.
Lemma der_term_ok w c t : der_term (Ok w) c t = Ok (if 0 <? c then t (n_ofZ c) *! npow w (c - 1) else n_ofZ 0).
Proof. unfold der_term. now destruct (0 <? c). Qed.
Ltac evt :=
  lazymatch goal with
  | |- ev _ _ (EName _) _ => apply ev_name; reflexivity
  | |- ev _ _ (EInt _) _ => apply ev_int
  | |- ev _ _ (EFlt _ _) _ => first [apply ev_one | apply ev_nil]
  | |- ev _ _ (ESub _ [_]) _ => eapply ev_z1; [reflexivity|eassumption|evt|reflexivity|lia]
  | |- ev _ _ (ESub _ [_; _]) _ => eapply ev_z2; [reflexivity|eassumption|evt|evt|reflexivity|reflexivity|lia|lia]
  | |- ev _ _ (EBin _ _ _) _ => eapply ev_bin; [evt|evt|reflexivity]
  | |- ev _ _ (ECmp _ _) _ => eapply ev_cmp; [evt|evt|reflexivity]
  | |- ev _ _ (EIfE _ (ETup _) (ETup _)) _ => eapply ev_choice; evt
  | |- ev _ _ (EIfE _ _ _) _ => eapply ev_term; evt
  | |- ev _ _ (ECall _ [_] _) _ => eapply ev_range1; evt
  | |- ev _ _ (ECall _ [_; _] _) _ => eapply ev_range2; evt
  end.

Lemma ev_is L h c t b : ev L h c (PBool t) -> t = b -> ev L h c (PBool b).
Proof. now intros ? <-. Qed.
Lemma simr_out L (r : res cstate) x : sim r x (St L) -> simr (out_of r) x (fun o h => h = hp o /\ ashape o = sh).
Proof.
  unfold out_of. destruct r as [s|e]; cbn; auto. intros (E & h & -> & _ & _ & H & H'). eexists _, _, _. eauto.
Qed.
Variables n d : Z.
Hypothesis Hn : 0 <= n.
Ltac weak := let HX := fresh in intros ? ? ? HX; repeat (first [exact HX | apply St_drop in HX | apply RK_drop in HX]).
Ltac here tac := lazymatch goal with H : St ?LL _ ?E _ |- sim _ (block _ ?E _) _ => tac LL | H : RK ?LL _ ?E _ |- sim _ (block _ ?E _) _ => tac LL end.
Ltac loop := here ltac:(fun LL => eapply sim_weak; [apply sim_block1; eapply (loop_st LL); [evt|reflexivity|intros|eassumption]|weak]).
Ltac loopo := here ltac:(fun LL => eapply sim_weak; [apply sim_block1; eapply (loop_out LL); [evt|reflexivity|intros|eassumption]|weak]).
Ltac one := here ltac:(fun LL => eapply sim_weak; [eapply (put_last LL); [eassumption|reflexivity|reflexivity|eassumption|intros; evt]|weak]).
Ltac more := here ltac:(fun LL => eapply (put_then LL); [eassumption|reflexivity|reflexivity|eassumption|intros; evt|intros]).
Ltac row tac := here ltac:(fun LL => eapply sim_weak; [eapply (row_last LL); [reflexivity|reflexivity|eassumption|intros; evt|intros; tac]|weak]).
Ltac rows tac := here ltac:(fun LL => eapply (row_then LL); [reflexivity|reflexivity|eassumption|intros; evt|intros; tac|intros]).
Ltac store1 := here ltac:(fun LL => eapply sim_weak; [apply sim_block1; eapply (sim_store1 LL); [eassumption|eassumption|reflexivity|lia|evt|reflexivity|evt]|weak]).
Ltac store2 := here ltac:(fun LL => eapply sim_weak; [apply sim_block1; eapply (sim_store2 LL); [eassumption|eassumption|reflexivity|lia|lia|evt|evt|reflexivity|reflexivity|evt]|weak]).
Ltac pair := first [here ltac:(fun LL => eapply (sim_pair_st LL); [eassumption|evt|reflexivity|reflexivity|intros])
                   |here ltac:(fun LL => eapply (sim_pair_out LL); [eassumption|evt|reflexivity|reflexivity|intros])].
Ltac reads1 := rewrite ?(z_at1 _ n) by (assumption || lia); cbn [bind];
  repeat (rewrite der_step_ok; cbn [bind]); rewrite ?der_term_ok; cbn [bind].
Ltac reads2 nobs := rewrite ?(z_at2 _ _ n nobs) by (assumption || lia); rewrite ?der_step_ok; cbn [bind];
  repeat (rewrite der_step_ok; cbn [bind]); rewrite ?der_term_ok; cbn [bind].
Ltac nextd LL D := eapply simr_skip with (L := LL); [eapply ev_is; [evt|exact D]|eassumption|].
Ltac thisd LL D out := eapply simr_ret with (L := LL); [eapply ev_is; [evt|exact D]|eassumption|]; eapply simr_out with (L := LL);
  change (hp out) with (hp (fst (out, n))); eapply loop_st; [evt|reflexivity|intros|eassumption].
Ltac body f := let t := eval vm_compute in f in change f with t.
(** After the first-order terms: [if d == 1: return], [ix = nvar]. *)
Ltac second LL E := clear E; intros out E h H; pose proof H as (HK & -> & _);
  destruct (d =? 1) eqn:D1;
  [eapply simr_ret0 with (L := LL); [eapply ev_is; [evt|exact D1]|eassumption|]; split; [auto|apply H]|];
  nextd LL D1; eapply simr_set with (L := LL); [evt|eassumption|];
  assert (H2 : St LL (out, n) (upd E "ix" (PInt n)) (hp out)) by (split; [exact Hn|split; [now apply K_upd|split; [auto|apply H]]]);
  clear H HK; revert H2; generalize (upd E "ix" (PInt n)); clear E; intros E H; pose proof (K_tail _ _ _ (proj1 (proj2 H))) as HK;
  cbv zeta.

Definition post (o : arr T) (h : heap T) : Prop := h = hp o /\ ashape o = sh.
Definition L1 : vars := [("nvar", PInt n); ("out", PArr ko []); ("d", PInt d); ("z", PArr kz [])]%string.
Lemma vec_text m out E : ashape z = [n] -> sh = [m] -> RK L1 out E (hp out) ->
  simr (complete_poly_impl_vec z d out) (block (skipn 2 (snd (cdef "_complete_poly_impl_vec"))) E (hp out)) post.
Proof.
  intros Sz So H. unfold complete_poly_impl_vec. replace (adim z 0) with (Ok n) by (unfold adim; rewrite Sz; reflexivity). cbn [bind].
  body (skipn 2 (snd (cdef "_complete_poly_impl_vec"))).
  eapply simr_bind. { eapply sim_store1; [eassumption|eassumption|reflexivity|lia|evt|reflexivity|evt]. }
  clear H out E. intros out E h H. pose proof H as (HK & -> & _).
  rewrite <- Z.geb_leb. eapply simr_bind with (R := RK L1).
  { eapply sim_if with (L := L1); [evt|eassumption| |auto]. intros _. loopo. reads1. store1. }
  clear HK H out. second L1 E.
  destruct (d =? 2) eqn:D2. { thisd L1 D2 out. loop. reads1. one. }
  nextd L1 D2. destruct (d =? 3) eqn:D3. { thisd L1 D3 out. loop. reads1. more. loop. reads1. one. }
  nextd L1 D3. destruct (d =? 4) eqn:D4. { thisd L1 D4 out. loop. reads1. more. loop. reads1. more. loop. reads1. one. }
  nextd L1 D4. destruct (d =? 5) eqn:D5. { thisd L1 D5 out. loop. reads1. more. loop. reads1. more. loop. reads1. more. loop. reads1. one. }
  nextd L1 D5. eexists _, _, _. split; [reflexivity|]. split; [auto|]. split; [auto|apply H].
Qed.
Variable nobs : Z.
Definition L2 : vars := [("nobs", PInt nobs); ("nvar", PInt n); ("out", PArr ko []); ("d", PInt d); ("z", PArr kz [])]%string.
Lemma mat_text m m' out E : ashape z = [n; nobs] -> sh = [m; m'] -> RK L2 out E (hp out) ->
  simr (complete_poly_impl z d out) (block (skipn 2 (snd (cdef "_complete_poly_impl"))) E (hp out)) post.
Proof.
  intros Sz So H. unfold complete_poly_impl. replace (adim z 0) with (Ok n) by (unfold adim; rewrite Sz; reflexivity).
  replace (adim z 1) with (Ok nobs) by (unfold adim; rewrite Sz; reflexivity). cbn [bind].
  body (skipn 2 (snd (cdef "_complete_poly_impl"))).
  eapply simr_bind. { eapply (loop_out L2); [evt|reflexivity|intros|eassumption]. store2. }
  clear H out E. intros out E h H. pose proof H as (HK & -> & _).
  rewrite <- Z.geb_leb. eapply simr_bind with (R := RK L2).
  { eapply sim_if with (L := L2); [evt|eassumption| |auto]. intros _. loopo. loopo. reads2 nobs. store2. }
  clear HK H out. second L2 E.
  destruct (d =? 2) eqn:D2. { thisd L2 D2 out. loop. row ltac:(reads2 nobs; store2). }
  nextd L2 D2. destruct (d =? 3) eqn:D3. { thisd L2 D3 out. loop. rows ltac:(reads2 nobs; store2). loop. row ltac:(reads2 nobs; store2). }
  nextd L2 D3. destruct (d =? 4) eqn:D4.
  { thisd L2 D4 out. loop. rows ltac:(reads2 nobs; store2). loop. rows ltac:(reads2 nobs; store2). loop. row ltac:(reads2 nobs; store2). }
  nextd L2 D4. destruct (d =? 5) eqn:D5.
  { thisd L2 D5 out. loop. rows ltac:(reads2 nobs; store2). loop. rows ltac:(reads2 nobs; store2). loop. rows ltac:(reads2 nobs; store2).
    loop. row ltac:(reads2 nobs; store2). }
  nextd L2 D5. eexists _, _, _. split; [reflexivity|]. split; [auto|]. split; [auto|apply H].
Qed.
Variable der : Z.
Hypothesis Hder : 0 <= der < n.
Definition L3 : vars := [("nvar", PInt n); ("out", PArr ko []); ("der", PInt der); ("d", PInt d); ("z", PArr kz [])]%string.
Lemma dvec_text m out E : ashape z = [n] -> sh = [m] -> RK L3 out E (hp out) ->
  simr (complete_poly_der_impl_vec z d der out) (block (skipn 2 (snd (cdef "_complete_poly_der_impl_vec"))) E (hp out)) post.
Proof.
  intros Sz So H. unfold complete_poly_der_impl_vec. replace (adim z 0) with (Ok n) by (unfold adim; rewrite Sz; reflexivity). cbn [bind].
  body (skipn 2 (snd (cdef "_complete_poly_der_impl_vec"))).
  eapply simr_bind. { eapply sim_store1; [eassumption|eassumption|reflexivity|lia|evt|reflexivity|evt]. }
  clear H out E. intros out E h H. pose proof H as (HK & -> & _).
  rewrite <- Z.geb_leb. eapply simr_bind with (R := RK L3).
  { eapply sim_if with (L := L3); [evt|eassumption| |auto]. intros _. eapply sim_cons with (R := RK L3).
    - eapply loop_out; [evt|reflexivity|intros|eassumption]. store1.
    - intros o E' h' H'. pose proof H' as (_ & -> & _). store1. }
  clear HK H out. second L3 E.
  destruct (d =? 2) eqn:D2. { thisd L3 D2 out. reads1. pair. loop. reads1. pair. one. }
  nextd L3 D2. destruct (d =? 3) eqn:D3. { thisd L3 D3 out. reads1. pair. loop. reads1. pair. more. loop. reads1. pair. one. }
  nextd L3 D3. destruct (d =? 4) eqn:D4.
  { thisd L3 D4 out. reads1. pair. loop. reads1. pair. more. loop. reads1. pair. more. loop. reads1. pair. one. }
  nextd L3 D4. destruct (d =? 5) eqn:D5.
  { thisd L3 D5 out. reads1. pair. loop. reads1. pair. more. loop. reads1. pair. more. loop. reads1. pair. more. loop. reads1. pair. one. }
  nextd L3 D5. eexists _, _, _. split; [reflexivity|]. split; [auto|]. split; [auto|apply H].
Qed.
Definition L4 : vars := [("nobs", PInt nobs); ("nvar", PInt n); ("out", PArr ko []); ("der", PInt der); ("d", PInt d); ("z", PArr kz [])]%string.
Ltac dstore2 := reads2 nobs; repeat pair; store2.
Lemma dmat_text m m' out E : ashape z = [n; nobs] -> sh = [m; m'] -> RK L4 out E (hp out) ->
  simr (complete_poly_der_impl z d der out) (block (skipn 2 (snd (cdef "_complete_poly_der_impl"))) E (hp out)) post.
Proof.
  intros Sz So H. unfold complete_poly_der_impl. replace (adim z 0) with (Ok n) by (unfold adim; rewrite Sz; reflexivity).
  replace (adim z 1) with (Ok nobs) by (unfold adim; rewrite Sz; reflexivity). cbn [bind].
  body (skipn 2 (snd (cdef "_complete_poly_der_impl"))).
  eapply simr_bind. { eapply (loop_out L4); [evt|reflexivity|intros|eassumption]. store2. }
  clear H out E. intros out E h H. pose proof H as (HK & -> & _).
  rewrite <- Z.geb_leb. eapply simr_bind with (R := RK L4).
  { eapply sim_if with (L := L4); [evt|eassumption| |auto]. intros _. eapply sim_cons with (R := RK L4).
    - eapply loop_out; [evt|reflexivity|intros|eassumption]. loopo. store2.
    - intros o E' h' H'. pose proof H' as (_ & -> & _). loopo. store2. }
  clear HK H out. second L4 E.
  destruct (d =? 2) eqn:D2. { thisd L4 D2 out. loop. row dstore2. }
  nextd L4 D2. destruct (d =? 3) eqn:D3. { thisd L4 D3 out. loop. rows dstore2. loop. row dstore2. }
  nextd L4 D3. destruct (d =? 4) eqn:D4. { thisd L4 D4 out. loop. rows dstore2. loop. rows dstore2. loop. row dstore2. }
  nextd L4 D4. destruct (d =? 5) eqn:D5. { thisd L4 D5 out. loop. rows dstore2. loop. rows dstore2. loop. rows dstore2. loop. row dstore2. }
  nextd L4 D5. eexists _, _, _. split; [reflexivity|]. split; [auto|]. split; [auto|apply H].
Qed.
End Text.
