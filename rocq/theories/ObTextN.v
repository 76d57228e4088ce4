(** Two objects in one heap: what one of them does leaves the other as it is. *)
From Coq Require Import ZArith List Bool String Lia.
From Verif Require Import Base SplineModel PrefilterModel ArrayModel CartesianModel GradModel ObjectModel SpecObject PySyntax ObSem SpecObText SpecObGrid SpecObTwo ObText ObTextA ObTextB ObTextC ObTextD ObTextE ObTextF ObTextG ObTextH ObTextI ObTextJ ObTextK ObTextL ObTextM.
Import ListNotations.
Open Scope Z_scope.
Open Scope string_scope.
Local Opaque run cubic_program linear_program.
Section Any.
Context {T : Type} {NT : Num T}.
(** ** The heap grows *)
Lemma cs_set_grow (h : heap T) a b n c tl l : grows h (fst (fst (cs_set_result h a b n c tl l))).
Proof.
  unfold cs_set_result. destruct (negb _); [apply grows_alloc|]. destruct (areshape _ _); [|apply grows_alloc].
  destruct (filter_coeffs _ _ _ _) as [[z|]|e]; cbn [fst]; try apply grows_alloc. eapply grows_trans; apply grows_alloc.
Qed.
Lemma ls_set_grow multi (h : heap T) a b n v l : grows h (fst (fst (ls_set_result multi h a b n v l))).
Proof.
  unfold ls_set_result. destruct (if multi then _ else _); [|apply grows_refl]. destruct (areshape _ _); [|apply grows_refl].
  destruct (nd_plain _); cbn [fst]; [apply grows_refl|]. eapply grows_trans; apply grows_alloc.
Qed.
Lemma mcs_set_grow junk (nan : T) k (m : memory T) s h c tl id fu : fu = 86%nat \/ fu = 74%nat -> mrel k m s (h, matt (mcs_a s) (mcs_b s) (mcs_orders s) c tl) -> mtail_ok tl -> (id < k)%nat ->
  grows h (fst (fst (mcs_set_result fu (loops (np_ops junk) PC cm 3) h (mcs_a s) (mcs_b s) (mcs_orders s) c tl id))).
Proof.
  intros Hf R Tl L. unfold mcs_set_result, last_dim.
  pose proof R as (K & M & D & _). cbn [fst snd] in K, M.
  rewrite (M id L). set (v := nd_arr (m id)).
  destruct (lget _ _) as [ns|e]; cbn [bind]; [|apply grows_alloc].
  destruct (areshape v _) as [x|e] eqn:Ex; cbn [bind]; [|apply grows_alloc].
  destruct (all_finite x); cbn [negb bind]; [|apply grows_alloc].
  destruct (lget (ashape x) _) as [q|e]; cbn [bind]; [|apply grows_alloc].
  match goal with |- context [azeros ?z] => set (co := azeros z) end. set (h2 := h_alloc (h_alloc h true v) true co).
  set (sh := (mcs_orders s ++ [ns])%list) in *.
  rewrite (loops_S _ _ _ 2).
  destruct (loop_ok junk fu nan 2 (mcs_a s) (mcs_b s) (mcs_orders s) (h_next h) sh q (S (h_next h)) (matt (mcs_a s) (mcs_b s) (mcs_orders s) c tl)
              (ret_loop (h_next h) sh) (after_loop (h_next h) sh) (zrange q) Hf D
              (loop_env (mcs_a s) (mcs_b s) (mcs_orders s) (h_next h) sh q (S (h_next h))) h2 x co) as (h' & Fr & P).
  - left. reflexivity.
  - cbn. lia.
  - cbn. lia.
  - lia.
  - rewrite h_read1. cbn. rewrite put_other by (cbn; lia). cbn. rewrite put_same. exact Ex.
  - cbn. rewrite put_same. reflexivity.
  - assert (Gr : grows h h').
    { destruct Fr as [F1 F2]. cbn in F1. split; [lia|]. intros i Hi. rewrite F2 by (cbn; lia). cbn. rewrite put_other by (cbn; lia). cbn. apply put_other. lia. }
    cbn zeta in P.
    match type of P with match ?X with _ => _ end => destruct X as [z|e] end.
    + destruct P as (E' & HE & Pr & Pz). cbv beta in Pr |- *. rewrite Pr.
      assert (Lk : look E' "coefs" = Some (ORef (S (h_next h)) [])) by (destruct HE as [->|[j ->]]; reflexivity).
      unfold after_loop. rewrite Lk. cbn [fst snd okret]. exact Gr.
    + destruct P as [e' Pr]. cbv beta in Pr |- *. rewrite Pr. exact Gr.
Qed.
Lemma ls_interp_grow multi (h : heap T) a b n v p : grows h (fst (fst (ls_interp_result multi h a b n v p))).
Proof.
  unfold ls_interp_result. destruct v as [[l vs]|]; [|apply grows_refl]. destruct (h_read h l vs); [|apply grows_refl].
  destruct (eval_linear _ _ _ _ _) as [[y o]|]; [|apply grows_refl]. exact (proj1 (ret_grows (h, _) y)).
Qed.
Lemma first_val_grow (h : heap T) r : grows h (fst (fst r)) -> grows h (fst (fst (first_val r))).
Proof.
  destruct r as [w [v|e]]; cbn [fst]; intros G; [|exact G]. unfold first_val. destruct v; try exact G.
  - destruct (nth_error _ 0); exact G.
  - destruct (first_row _) as [v|]; [|exact G]. exact (grows_trans _ _ _ G (proj1 (ret_grows w v))).
Qed.
Lemma ravel_val_grow (h : heap T) r : grows h (fst (fst r)) -> grows h (fst (fst (ravel_val' r))).
Proof.
  destruct r as [w [v|e]]; cbn [fst]; intros G; [|exact G]. unfold ravel_val'. destruct v; try exact G.
  cbv zeta. destruct (areshape _ _) as [v|]; [|exact G]. exact (grows_trans _ _ _ G (proj1 (ret_grows w (VArr v)))).
Qed.
(** ** The four classes at once *)
Definition st (c : kind) : Type := match c with KCubic => cubic T | KCubics => cubics T | KLinear _ => linear T end.
Definition krel (k : nat) (c : kind) : memory T -> st c -> state T -> Prop :=
  match c return memory T -> st c -> state T -> Prop with
  | KCubic => fun m s w => crel k m s w
  | KCubics => fun m s w => mrel k m s w
  | KLinear multi => fun m s w => lrel k m s w /\ ls_multi s = multi
  end.
Definition kset (c : kind) : memory T -> st c -> nat -> st c :=
  match c return memory T -> st c -> nat -> st c with
  | KCubic => fun m s id => fst (cs_step m s id)
  | KCubics => fun m s id => fst (mcs_step (n_ofZ 0) m s id)
  | KLinear _ => fun m s id => fst (ls_set m s id)
  end.
Definition klook junk (c : kind) : memory T -> st c -> pts T -> res (pyval T) :=
  match c return memory T -> st c -> pts T -> res (pyval T) with
  | KCubic => fun m s p => cs_call junk s p
  | KCubics => fun m s p => mcs_call junk s p
  | KLinear _ => fun m s p => ls_call m s p
  end.
Lemma krel_mem k c m s w i : krel k c m s w -> (i < k)%nat -> h_mem (fst w) i = m i.
Proof. destruct c; [intros (_ & M & _)|intros (_ & M & _)|intros ((_ & M & _) & _)]; apply M. Qed.
Lemma krel_grows k c m s h h' att : krel k c m s (h, att) -> grows h h' -> krel k c m s (h', att).
Proof. destruct c; [apply crel_grows|apply mrel_grows|]. intros [R E] G. exact (conj (lrel_grows _ _ _ _ _ _ R G) E). Qed.
Lemma krel_write k c m s w id idx x : krel k c m s w -> (id < k)%nat -> krel k c (written m id idx x) s (mkHeap (h_next (fst w)) (written (h_mem (fst w)) id idx x), snd w).
Proof. destruct c; [apply crel_write|apply mrel_write|]. intros [R E] L. exact (conj (lrel_write _ _ _ _ _ _ _ R L) E). Qed.
Lemma krel_set junk k c m s w id : krel k c m s w -> (id < k)%nat ->
  let r := meth junk c "set_values" (ORef id []) w in krel k c m (kset c m s id) (fst r) /\ grows (fst w) (fst (fst r)).
Proof.
  intros R L. unfold meth. destruct c as [| |multi]; cbn [krel kset text_of name_of st] in *; cbv zeta.
  - split; [exact (proj1 (cs_set_ok junk k m s w id R L))|]. destruct w as [h att]. destruct (crel_parts _ _ _ _ _ R) as (c & tl & -> & D & _ & Tl & _).
    pose proof (cs_set_tree junk h _ _ _ c tl id D Tl) as Q. revert Q. generalize (run junk cubic_program "CubicSpline" "set_values" [ORef id []] [] (h, catt (cs_a s) (cs_b s) (cs_orders s) c tl)).
    intros r ->. apply cs_set_grow.
  - split; [exact (proj1 (mcs_set_ok junk (n_ofZ 0) k m s w id R L))|]. destruct w as [h att]. pose proof R as (_ & _ & D & c & tl & E & Tl & _). cbn [fst snd] in E. subst att.
    rewrite run_mcs, mcs_set_tree by assumption. apply (mcs_set_grow junk (n_ofZ 0) k m); auto.
  - destruct R as [R <-]. split; [exact (conj (proj1 (ls_set_ok junk k m s w id R L)) (ls_set_multi m s id))|].
    destruct w as [h att]. pose proof R as (_ & _ & D & v & E & _). cbn [fst snd] in E. subst att.
    rewrite ls_set_tree by assumption. apply ls_set_grow.
Qed.
Lemma krel_call junk k c m s w p : krel k c m s w -> rows p ->
  let r := meth junk c "__call__" (pval p) w in same (seen r) (klook junk c m s p) /\ krel k c m s (fst r) /\ grows (fst w) (fst (fst r)).
Proof.
  intros R Hp. unfold meth. destruct c as [| |multi]; cbn [krel klook text_of name_of st] in *; cbv zeta.
  - destruct (cs_call_ok junk k m s w p R Hp) as [S1 R1]. split; [exact S1|]. split; [exact R1|].
    destruct w as [h att]. destruct (crel_parts _ _ _ _ _ R) as (c & tl & -> & D & Cr & _). exact (proj2 (cs_call_put junk h _ _ _ c tl tl p D Cr Hp)).
  - destruct (mcs_call_ok junk k m s w p R Hp) as [S1 R1]. split; [exact S1|]. split; [exact R1|].
    destruct w as [h att]. pose proof R as (_ & _ & D & c & tl & E & _). cbn [fst snd] in E. subst att. destruct (mrel_coef_ref _ _ _ _ _ _ R) as [Cr _].
    exact (proj2 (mcs_call_put junk h _ _ _ c tl tl p D Cr Hp)).
  - destruct R as [R <-]. destruct (ls_call_ok junk k m s w p R Hp) as [S1 R1]. split; [exact S1|]. split; [exact (conj R1 eq_refl)|].
    destruct w as [h att]. pose proof R as (_ & _ & D & v & E & _). cbn [fst snd] in E. subst att.
    destruct p as [x|q]; cbn [pval].
    + rewrite ls_call_point_tree by assumption. destruct (ls_multi s); [apply ravel_val_grow|apply first_val_grow]; apply ls_interp_grow.
    + destruct Hp as (N & Dm & Hq). destruct q as [sh f]. cbn in Hq. subst sh. rewrite ls_call_rows_tree by assumption. apply ls_interp_grow.
Qed.
Lemma knew junk (c : kind) a b n (h : heap T) : dims a b n ->
  let r := make junk (text_of c) (name_of c) a b n None h in fst (fst r) = h /\ exists s, krel (h_next h) c (h_mem h) s (fst r).
Proof.
  intros D. destruct c as [| |multi]; cbn [krel text_of name_of st]; unfold make; cbv zeta.
  - rewrite cs_new_tree by exact D. split; [reflexivity|]. exists (mkCS a b n None None). apply crel_new; auto.
  - rewrite run_mcs, mcs_new_tree by exact D. split; [reflexivity|]. exists (mkMCS a b n None None). apply mrel_new; auto.
  - rewrite ls_new_tree by exact D. split; [reflexivity|]. exists (mkLS multi a b n None). split; [|reflexivity].
    split; [apply le_n|]. split; [reflexivity|]. split; [exact D|]. exists None. split; reflexivity.
Qed.
(** ** Histories *)
Lemma both_ok junk k c d hist : forall m sa sb h A B wa wb la lb, Forall (deed_ok k) (map snd hist) ->
  krel k c m sa (h, A) -> krel k d m sb (h, B) -> krel k c m sa wa -> krel k d m sb wb ->
  let r := both junk c d hist h A B in
  exists sa' sb', krel k c (writes (map snd hist) m) sa' (fst (fst r), snd (fst r)) /\ krel k d (writes (map snd hist) m) sb' (fst (fst r), snd r) /\
    krel k c (writes (map snd hist) m) sa' (fst (history junk (text_of c) (name_of c) (part true hist) wa la)) /\
    krel k d (writes (map snd hist) m) sb' (fst (history junk (text_of d) (name_of d) (part false hist) wb lb)).
Proof.
  induction hist as [|[o e] hist IH]; intros m sa sb h A B wa wb la lb F Ra Rb Rwa Rwb; [exists sa, sb; auto|].
  cbn [map snd] in F. inversion F as [|? ? Fe F']; subst. unfold part. cbn [filter fst snd].
  destruct e as [id|id idx x|p]; cbn [deed_ok] in Fe.
  - destruct o; cbn [Bool.eqb map snd both writes history].
    + destruct (krel_set junk k c m sa (h, A) id Ra Fe) as [R1 G1]. destruct (krel_set junk k c m sa wa id Rwa Fe) as [R2 _]. cbn [fst] in G1. unfold meth in R2.
      destruct (fst (meth junk c "set_values" (ORef id []) (h, A))) as [h' A']. cbn [fst snd] in *.
      exact (IH _ _ _ _ _ _ _ _ _ _ F' R1 (krel_grows _ _ _ _ _ _ _ Rb G1) R2 Rwb).
    + destruct (krel_set junk k d m sb (h, B) id Rb Fe) as [R1 G1]. destruct (krel_set junk k d m sb wb id Rwb Fe) as [R2 _]. cbn [fst] in G1. unfold meth in R2.
      destruct (fst (meth junk d "set_values" (ORef id []) (h, B))) as [h' B']. cbn [fst snd] in *.
      exact (IH _ _ _ _ _ _ _ _ _ _ F' (krel_grows _ _ _ _ _ _ _ Ra G1) R1 Rwa R2).
  - replace (both junk c d ((o, DWrite id idx x) :: hist) h A B) with (both junk c d hist (mkHeap (h_next h) (written (h_mem h) id idx x)) A B) by (destruct o; reflexivity).
    cbn [map snd writes history].
    exact (IH _ _ _ _ _ _ _ _ _ _ F' (krel_write _ _ _ _ (h, A) id idx x Ra Fe) (krel_write _ _ _ _ (h, B) id idx x Rb Fe) (krel_write _ _ _ _ wa id idx x Rwa Fe) (krel_write _ _ _ _ wb id idx x Rwb Fe)).
  - destruct o; cbn [Bool.eqb map snd both writes history].
    + destruct (krel_call junk k c m sa (h, A) p Ra Fe) as (_ & R1 & G1). destruct (krel_call junk k c m sa wa p Rwa Fe) as (_ & R2 & _). cbn [fst] in G1. unfold meth in R2.
      destruct (fst (meth junk c "__call__" (pval p) (h, A))) as [h' A']. cbn [fst snd] in *.
      exact (IH _ _ _ _ _ _ _ _ _ _ F' R1 (krel_grows _ _ _ _ _ _ _ Rb G1) R2 Rwb).
    + destruct (krel_call junk k d m sb (h, B) p Rb Fe) as (_ & R1 & G1). destruct (krel_call junk k d m sb wb p Rwb Fe) as (_ & R2 & _). cbn [fst] in G1. unfold meth in R2.
      destruct (fst (meth junk d "__call__" (pval p) (h, B))) as [h' B']. cbn [fst snd] in *.
      exact (IH _ _ _ _ _ _ _ _ _ _ F' (krel_grows _ _ _ _ _ _ _ Ra G1) R1 Rwa R2).
Qed.
End Any.
