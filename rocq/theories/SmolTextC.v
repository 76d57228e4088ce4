(** The texts of smolyak/grid.py: smol_inds, poly_inds, build_grid. *)
From Coq Require Import ZArith List Bool String Lia Reals Permutation.
From Verif Require Import SpecSmolText Base BaseFacts CompleteModel SmolyakModel PySyntax NpSem NpFacts SmolText SmolTextA SmolTextB SmolyakPermute SmolyakInds.
Import ListNotations.
Open Scope Z_scope.

Definition b_smol_inds := Eval vm_compute in nodoc (snd (sm_def "smol_inds")).
Definition b_poly_inds := Eval vm_compute in nodoc (snd (sm_def "poly_inds")).
Definition b_build_grid := Eval vm_compute in nodoc (snd (sm_def "build_grid")).

(** The argument [mu]: an int or an array of ints. *)

(** ** Comprehensions *)
Section Pick.
Variable X : externals R.
Variable call : string -> list (val R) -> list (string * val R) -> res (val R).
Variable invoke : val R -> string -> list (val R) -> list (string * val R) -> res (val R).
Notation eval := (eval X call invoke).
Notation pick := (pick X call invoke).
Lemma pick_mapM {A B} (g : A -> val R) (h : B -> val R) (f : A -> res B) E e x l rs : mapM f l = Ok rs ->
  (forall a b, In a l -> f a = Ok b -> eval (upd E x (g a)) e = Ok (h b)) -> pick E e (EName x) None (map g l) = Ok (map h rs).
Proof.
  revert rs. induction l as [|a l IH]; intros rs H He; cbn [mapM] in H; [injection H as <-; reflexivity|].
  destruct (f a) as [b|] eqn:Eb; [|discriminate]. cbn [bind] in H. destruct (mapM f l) as [rs'|]; [|discriminate]. injection H as <-.
  specialize (IH rs' eq_refl). unfold NpFacts.pick in *. cbn [map pick_ bind_target bind]. rewrite (He a b (or_introl eq_refl) Eb). cbn [bind].
  rewrite IH; [reflexivity|]. intros. apply He; auto. now right.
Qed.
Lemma pick_map {A} (g : A -> val R) (h : A -> val R) E e x l :
  (forall a, In a l -> eval (upd E x (g a)) e = Ok (h a)) -> pick E e (EName x) None (map g l) = Ok (map h l).
Proof.
  intros He. apply (pick_mapM g h (fun a => Ok a)). { rewrite (mapM_map (fun a => a)), map_id; auto. } intros a b Ha [= <-]. auto.
Qed.
Lemma pick_filter {A} (g h : A -> val R) (p : A -> bool) E e x c l :
  (forall a, In a l -> eval (upd E x (g a)) c = Ok (VBool (p a))) -> (forall a, In a l -> eval (upd E x (g a)) e = Ok (h a)) ->
  pick E e (EName x) (Some c) (map g l) = Ok (map h (filter p l)).
Proof.
  induction l as [|a l IH]; intros Hc He; [reflexivity|]. unfold NpFacts.pick in *. cbn [map pick_ bind_target bind filter].
  rewrite (Hc a (or_introl eq_refl)). cbn [bind truth]. specialize (IH (fun a Ha => Hc a (or_intror Ha)) (fun a Ha => He a (or_intror Ha))).
  destruct (p a); [|exact IH]. rewrite (He a (or_introl eq_refl)). cbn [bind]. rewrite IH. reflexivity.
Qed.
Lemma lib_cwr l d : 0 <= d -> library X "combinations_with_replacement" [VList (map VInt l); VInt d] = Some (Ok (VList (map (fun c => VTup (map VInt c)) (cwr (Z.to_nat d) l)))).
Proof.
  intros H. cbv [library String.eqb Ascii.eqb Bool.eqb orb]. destruct (Z.ltb_spec d 0); [lia|]. cbn [items bind]. rewrite ints_map. reflexivity.
Qed.
Lemma lib_all n g : library X "all" [barr [n] g] = Some (Ok (VBool (forallb (fun i => g [i]) (zrange n)))).
Proof.
  cbv [library String.eqb Ascii.eqb Bool.eqb orb barr]. unfold bools. rewrite tab_shape. cbn [bind]. do 3 f_equal.
  rewrite <- (map_ext_in (fun i => g [i])). { now induction (zrange n) as [|i l IH]; cbn; [|rewrite IH]. }
  intros i Hi. apply zrange_In in Hi. symmetry. apply tab_cell. now apply inb1_.
Qed.
Lemma lib_any n g : library X "any" [barr [n] g] = Some (Ok (VBool (existsb (fun i => g [i]) (zrange n)))).
Proof.
  cbv [library String.eqb Ascii.eqb Bool.eqb orb barr]. unfold bools. rewrite tab_shape. cbn [bind]. do 3 f_equal.
  rewrite <- (map_ext_in (fun i => g [i])). { now induction (zrange n) as [|i l IH]; cbn; [|rewrite IH]. }
  intros i Hi. apply zrange_In in Hi. symmetry. apply tab_cell. now apply inb1_.
Qed.
Lemma itemss_map {A} (g : A -> list (val R)) l : itemss (map (fun a => VList (g a)) l) = Ok (map g l).
Proof. induction l as [|a l IH]; auto. cbn. now rewrite IH. Qed.
Lemma lib_chain {A} (g : A -> list (val R)) l : library X "chain.from_iterable" [VList (map (fun a => VList (g a)) l)] = Some (Ok (VList (List.concat (map g l)))).
Proof. cbv [library String.eqb Ascii.eqb Bool.eqb orb]. cbn [items bind]. now rewrite itemss_map. Qed.
End Pick.
Lemma bin_iz l z : binop "+" (ivec (T := R) l) (VInt z) = Ok (ivec (map (fun x => x + z) l)).
Proof.
  cbv [binop String.eqb Ascii.eqb Bool.eqb ivec iarr arith is_arr orb arith_arr as_ints]. rewrite zipa_r. cbn [bind]. rewrite tab_shape, zlen_map. do 2 f_equal.
  apply tab_ext. intros idx Hi. rewrite tab_cell by auto. apply inb1 in Hi as (p & -> & Hp). unfold vec. cbn [hd].
  rewrite (nth_indep (map _ l) 0 (0 + z)) by (rewrite map_length; unfold zlen in Hp; lia). now rewrite (map_nth (fun x => x + z)).
Qed.
Lemma cmp_le el l : zlen el = zlen l -> compare "<=" (zl el) (ivec l) = Ok (barr [zlen l] (fun idx => vec 0 el idx <=? vec 0 l idx)).
Proof.
  intros H. cbv [compare String.eqb Ascii.eqb Bool.eqb ivec iarr zl order_ is_arr orb cmp_arr as_ints]. rewrite ints_map.
  rewrite (zipa_same _ _ _ _ [zlen l]) by (cbn [ashape tab]; congruence). cbn [bind]. f_equal. unfold barr. f_equal. apply tab_ext. intros idx Hi.
  cbn [acell]. now rewrite tab_cell.
Qed.
Lemma forallb_map {A B} (f : B -> bool) (g : A -> B) l : forallb f (map g l) = forallb (fun a => f (g a)) l.
Proof. induction l as [|a l IH]; auto. cbn. now rewrite IH. Qed.
Lemma forallb_ext {A} (f g : A -> bool) l : (forall a, In a l -> f a = g a) -> forallb f l = forallb g l.
Proof. induction l as [|a l IH]; intros H; auto. cbn. rewrite (H a (or_introl eq_refl)), IH; auto. intros. apply H. now right. Qed.
Lemma zrange_S n : 0 <= n -> zrange (1 + n) = 0 :: map (fun i => 1 + i) (zrange n).
Proof.
  intros H. unfold zrange. replace (Z.to_nat (1 + n)) with (S (Z.to_nat n)) by lia. cbn [seq map]. f_equal.
  rewrite <- seq_shift, !map_map. apply map_ext. intros. lia.
Qed.
Lemma fits_map2 el : forall l, zlen el = zlen l ->
  forallb (fun i => vec 0 el [i] <=? vec 0 (map (fun x => x + 1) l) [i]) (zrange (zlen (map (fun x => x + 1) l))) = forallb (fun b => b) (map2 (fun e m => e <=? m + 1) el l).
Proof.
  induction el as [|e el IH]; intros [|m l] H; try (unfold zlen in H; cbn [List.length] in H; lia); [reflexivity|].
  assert (H' : zlen el = zlen l) by (unfold zlen in *; cbn [List.length] in H; lia). specialize (IH l H').
  cbn [map map2]. rewrite zlen_cons, (Z.add_comm (zlen _) 1), zrange_S by apply zlen_nonneg. cbn [forallb]. f_equal. rewrite forallb_map. rewrite <- IH.
  apply forallb_ext. intros i Hi. apply zrange_In in Hi. unfold vec. cbn [hd]. replace (Z.to_nat (1 + i)) with (S (Z.to_nat i)) by lia. reflexivity.
Qed.
Lemma repeat_concat n : List.concat (repeat [VInt (T := R) 1] n) = map VInt (repeat 1 n).
Proof. induction n as [|n IH]; auto. cbn. now rewrite IH. Qed.

Lemma permute_length a r p : permute a = Ok r -> In p r -> List.length p = List.length a.
Proof.
  intros H Hp. destruct (Nat.leb_spec 2 (List.length a)) as [Hl|Hl].
  - destruct (permute_spec a Hl) as (L & HL & _ & _ & HI). rewrite HL in H. injection H as ->. apply HI in Hp. now apply Permutation_length in Hp.
  - unfold permute in H. rewrite sort_length in H. destruct (Nat.ltb_spec (List.length a) 2); [discriminate|lia].
Qed.
Lemma mapM_In {A B} (f : A -> res B) l rs b : mapM f l = Ok rs -> In b rs -> exists a, In a l /\ f a = Ok b.
Proof.
  revert rs. induction l as [|a l IH]; intros rs H Hb; cbn [mapM] in H; [injection H as <-; destruct Hb|].
  destruct (f a) as [b'|] eqn:Eb; [|discriminate]. cbn [bind] in H. destruct (mapM f l) as [rs'|]; [|discriminate]. injection H as <-.
  destruct Hb as [->|Hb]; [exists a; split; [now left|auto]|]. destruct (IH rs' eq_refl Hb) as (a' & H1 & H2). exists a'. split; [now right|auto].
Qed.

Section C.
Variable X : externals R.
Notation run := (run X sm_program).

Definition b_si1 := Eval vm_compute in match nth 0 b_smol_inds SPass with SIf c a b => [SIf c a b] | _ => [] end.
Definition b_si3 := Eval vm_compute in match nth 3 b_smol_inds SPass with SIf c a b => [SIf c a b] | _ => [] end.

Lemma cwr_length d pool c : In c (cwr d pool) -> List.length c = d.
Proof.
  revert pool c. induction d as [|d IH]; intros pool c H; cbn [cwr] in H; [destruct H as [<-|[]]; reflexivity|].
  assert (G : forall pool', In c ((fix go (pool : list Z) : list (list Z) := match pool with [] => [] | x :: r => map (cons x) (cwr d pool) ++ go r end) pool') -> List.length c = S d).
  { induction pool' as [|x r IHr]; cbn; [tauto|]. intros G. apply in_app_or in G as [G|G]; [|auto]. apply in_map_iff in G as (c' & <- & Hc'). cbn. f_equal. eapply IH; eauto. }
  eapply G; eauto.
Qed.

Lemma run_smol_inds k d mu r : smol_inds d mu = Ok r -> 0 <= d -> (fact (Z.to_nat d) + Z.to_nat d <= k)%nat ->
  run (S (S k)) "smol_inds" [VInt d; vmu mu] [] = Ok (VList (map zl r)).
Proof.
  intros H Hd Hk. enter. fold b_smol_inds. unfold b_smol_inds. unfold smol_inds in H.
  set (mmr := match mu with MuInt m => Ok m | MuArr l => _ end) in H. destruct mmr as [mm|] eqn:Emm; [|discriminate]. unfold mmr in Emm. clear mmr. cbn [bind] in H. cbv zeta in H.
  set (E0 := upd _ _ _). assert (HK0 : K [("d"%string, VInt d); ("mu"%string, vmu mu)] E0) by (unfold E0; kk). clearbody E0.
  set (vals := zrange2 1 (mm + 2)) in *.
  set (poss := filter _ _) in H.
  set (ti := match mu with MuInt _ => _ | MuArr _ => _ end) in H. destruct ti as [true_inds|] eqn:Eti; [|discriminate]. unfold ti in Eti. clear ti. injection H as <-.
  assert (Hposs : forall c, In c poss -> List.length c = Z.to_nat d). { intros c Hc. apply filter_In in Hc as [Hc _]. now apply cwr_length in Hc. }
  assert (G1 : exists E1, exec X (run (S k)) (inv X sm_program (S k)) (S k) (nth 0 b_smol_inds SPass) E0 = Ok (Nxt, E1) /\ K [("d"%string, VInt d); ("mu"%string, vmu mu); ("max_mu"%string, VInt mm)] E1).
  { cbn [nth b_smol_inds]. destruct mu as [m|l]; cbn [vmu] in HK0.
    - injection Emm as ->. erewrite exec_if by eve. cbv iota. step. rewrite block_nil. eexists. split; [reflexivity|]. cbn [vmu]. kk.
    - destruct (negb (zlen l =? d)) eqn:El; [discriminate|]. erewrite exec_if by eve. unfold ivec at 1, iarr at 1. cbv iota.
      assert (Hsz : attribute (ivec (T := R) l) "size" = Ok (VInt (zlen l))). { unfold ivec, iarr. cbn [attribute String.eqb Ascii.eqb Bool.eqb]. rewrite tab_shape. cbn [fold_right]. now rewrite Z.mul_1_r. }
      rewrite block_cons. erewrite exec_if. 2:{ eapply eq_trans; [eapply ev_cmp; [eapply eq_trans; [eapply ev_attr; [reflexivity | eve] | exact Hsz] | eve] | cmps]. }
      rewrite El. rewrite block_nil. cbn [bind].
      assert (Hmax : library X "np.max" [ivec l] = Some (Ok (VInt mm))). { rewrite lib_npmax, Emm. reflexivity. }
      erewrite block_next. 2:{ eapply exec_set. eapply ev_lib; [reflexivity | reflexivity | eapply evs_cons; [reflexivity | eapply ev_lib; [reflexivity | reflexivity | evs | evk | reflexivity | exact Hmax] | apply evs_nil] | evk | reflexivity | lib]. }
      rewrite block_nil. eexists. split; [reflexivity|]. cbn [vmu]. kk. }
  destruct G1 as (E1 & G1 & HK1). cbn [nth b_smol_inds] in G1. rewrite (block_next _ _ _ _ _ _ _ _ G1). clear G1 E0 HK0.
  step. fold vals.
  erewrite block_next.
  2:{ eapply exec_set. eapply ev_comp; [eapply ev_lib; [reflexivity | reflexivity | evs | evk | reflexivity | apply lib_cwr; exact Hd] | reflexivity |].
      - eapply (pick_filter X _ _ (fun c => VTup (map VInt c)) (fun c => VTup (map VInt c)) (fun el => (d <? zsum_list el) && (zsum_list el <=? d + mm))).
        + intros c Hc. eapply ev_cmp2; [eve | eve | eve | cmps | cmps].
        + intros c Hc. eve. }
  fold poss. set (E2 := upd _ "poss_inds"%string _).
  assert (HK2 : K [("d"%string, VInt d); ("mu"%string, vmu mu); ("poss_inds"%string, VList (map (fun c => VTup (map VInt c)) poss))] E2). { unfold E2. kk. }
  clearbody E2. clear HK1 E1.
  assert (G3 : exists E3, exec X (run (S k)) (inv X sm_program (S k)) (S k) (nth 3 b_smol_inds SPass) E2 = Ok (Nxt, E3) /\ K [("d"%string, VInt d); ("true_inds"%string, VList (map (fun ps => VList (map zl ps)) true_inds))] E3).
  { cbn [nth b_smol_inds]. destruct mu as [m|l]; cbn [vmu] in HK2; (erewrite exec_if by eve); try (unfold ivec at 1, iarr at 1); cbv iota.
    - erewrite block_next.
      2:{ eapply exec_set. eapply ev_comp; [eve | reflexivity |]. eapply (pick_mapM X _ _ _ (fun ps => VList (map zl ps)) permute); [exact Eti|].
          intros c ps Hc Hps. cbv beta. assert (Hr : run (S k) "permute" [VList (map VInt c)] [] = Ok (VList (map zl ps))). { apply run_permute; auto. now rewrite Hposs. }
          eapply ev_comp; [eve | reflexivity |]. apply (pick_map X _ _ zl zl). intros el Hel. eve. }
      rewrite block_nil. eexists. split; [reflexivity|]. kk.
    - erewrite block_next.
      2:{ eapply exec_set. eapply ev_comp; [eve | reflexivity |]. eapply (pick_mapM X _ _ _ (fun ps => VList (map zl ps))); [exact Eti|].
          intros c ps' Hc Hps'. cbv beta in Hps' |- *. destruct (permute c) as [ps|] eqn:Hps; [|discriminate]. cbn [bind] in Hps'. injection Hps' as <-.
          assert (Hr : run (S k) "permute" [VList (map VInt c)] [] = Ok (VList (map zl ps))). { apply run_permute; auto. now rewrite Hposs. }
          assert (Hlen : zlen l = d). { destruct (zlen l =? d) eqn:El; [now apply Z.eqb_eq in El|discriminate]. }
          eapply ev_comp; [eve | reflexivity |].
          apply (pick_filter X _ _ zl zl); intros el Hel; [|eve].
          assert (Hel' : zlen el = zlen l). { apply permute_length with (1 := Hps) in Hel. unfold zlen in *. rewrite Hel, Hposs by auto. lia. }
          
          eapply eq_trans. { eapply ev_lib; [reflexivity | reflexivity | eapply evs_cons; [reflexivity | | apply evs_nil] | evk | reflexivity | apply lib_all].
            eapply eq_trans; [eapply ev_cmp; [eve | eapply eq_trans; [eapply ev_bin; [eve | eve] | apply bin_iz]] |]. apply cmp_le. rewrite zlen_map. exact Hel'. }
          exact (f_equal (fun b => Ok (VBool b)) (fits_map2 el l Hel')). }
      rewrite block_nil. eexists. split; [reflexivity|]. kk. }
  destruct G3 as (E3 & G3 & HK3). cbn [nth b_smol_inds] in G3. rewrite (block_next _ _ _ _ _ _ _ _ G3). clear G3 E2 HK2.
  erewrite block_next. 2:{ eapply exec_mut; [reflexivity | look | evs | reflexivity]. }
  rewrite repeat_concat. set (ones := repeat 1 (Z.to_nat d)).
  set (tv := map _ true_inds ++ _). assert (Htv : tv = map (fun ps => VList (map zl ps)) (true_inds ++ [[ones]])). { unfold tv. rewrite map_app. reflexivity. }
  rewrite Htv. clear tv Htv.
  erewrite block_next.
  2:{ eapply exec_set. eapply ev_lib; [reflexivity | reflexivity | eapply evs_cons; [reflexivity | eapply ev_lib; [reflexivity | reflexivity | evs | evk | reflexivity | apply lib_chain] | apply evs_nil] | evk | reflexivity | lib]. }
  eapply ends_ret. eapply block_ret. eapply exec_ret. eapply eq_trans; [eve|]. now rewrite <- concat_map.
Qed.

(** ** The products of poly_inds and build_grid *)
Definition vdict {A} (g : A -> val R) (v : list (Z * val R)) (d : dict (list A)) : Prop :=
  Forall2 (fun p q => fst p = fst q /\ items (snd p) = Ok (map g (snd q))) v d.
Lemma vdict_get {A} (g : A -> val R) v d k l : vdict g v d -> dget d k = Ok l -> exists w, dget v k = Ok w /\ items w = Ok (map g l).
Proof.
  induction 1 as [|[i w] [j q] v d [H1 H2] HF IH]; cbn [dget]; [discriminate|]. cbn [fst snd] in *. subst j. destruct (i =? k); [|auto]. intros [= <-]. eauto.
Qed.
Lemma vdict_gets {A} (g : A -> val R) v d el : vdict g v d -> forall ls, mapM (dget d) el = Ok ls ->
  exists ws, mapM (dget v) el = Ok ws /\ itemss ws = Ok (map (map g) ls).
Proof.
  intros Hv. induction el as [|i el IH]; intros ls H; cbn [mapM] in *; [injection H as <-; exists []; auto|].
  destruct (dget d i) as [l|] eqn:Ei; [|discriminate]. cbn [bind] in H. destruct (mapM (dget d) el) as [ls'|]; [|discriminate]. injection H as <-.
  destruct (vdict_get g v d i l Hv Ei) as (w & -> & Hw). destruct (IH ls' eq_refl) as (ws & -> & Hws). exists (w :: ws). split; [reflexivity|].
  cbn [itemss]. rewrite Hw, Hws. reflexivity.
Qed.
Lemma iproduct_map {A B} (g : A -> B) ls : iproduct (map (map g) ls) = map (map g) (iproduct ls).
Proof.
  induction ls as [|l ls IH]; auto. cbn [map iproduct]. rewrite IH. induction l as [|a l IHl]; auto. cbn [map flat_map]. rewrite IHl, map_app. f_equal.
  rewrite !map_map. apply map_ext. reflexivity.
Qed.
Definition b_each (D L : string) : list stmt :=
  [SAssign [EName "temp"] (EComp (ESub (EName D) [EName "i"]) (EName "i") (EName "el") None);
   SExpr (ECall (EAttr (EName L) "extend") [ECall (EName "list") [ECall (EName "product") [EStar (EName "temp")] []] []] [])].
Lemma each_loop {A} (g : A -> val R) call invoke fuel D L v d inds : existsb (String.eqb D) ["temp"; "el"; "i"; L]%string = false -> existsb (String.eqb L) ["temp"; "el"; "i"]%string = false ->
  vdict g v d -> forall rs acc E, mapM (fun el => temp <- mapM (dget d) el ;; Ok (iproduct temp)) inds = Ok rs ->
  K [(D, VDict v); (L, VList acc)] E ->
  exists E', iterate (fun w E => E <- bind_target E (EName "el") w ;; block X call invoke fuel (b_each D L) E) (map zl inds) E = Ok (Nxt, E') /\
    K [(D, VDict v); (L, VList (acc ++ map (fun b => VTup (map g b)) (List.concat rs)))] E'.
Proof.
  intros HD HL Hv. cbn [existsb] in HD, HL. 
  apply orb_false_iff in HD as [D1 HD]. apply orb_false_iff in HD as [D2 HD]. apply orb_false_iff in HD as [D3 HD]. apply orb_false_iff in HD as [D4 _].
  apply orb_false_iff in HL as [L1 HL]. apply orb_false_iff in HL as [L2 HL]. apply orb_false_iff in HL as [L3 _].
  apply String.eqb_neq in D1, D2, D3, D4, L1, L2, L3.
  induction inds as [|el inds IH]; intros rs acc E H HK; cbn [mapM] in H.
  { injection H as <-. exists E. cbn. rewrite app_nil_r. auto. }
  destruct (mapM (dget d) el) as [ls|] eqn:Els; [|discriminate]. cbn [bind] in H.
  set (tl := mapM _ inds) in H. destruct tl as [rs'|] eqn:Ers; [|discriminate]. unfold tl in Ers. clear tl. injection H as <-.
  inversion HK as [|? ? HKD HK']; subst. inversion HK' as [|? ? HKL _]; subst. cbn [fst snd] in HKD, HKL. clear HK HK'.
  destruct (vdict_gets g v d el Hv ls Els) as (ws & Hws & Hits).
  cbn [map iterate]. unfold b_each at 1. cbn [bind_target bind].
  erewrite block_next.
  2:{ eapply exec_set. eapply ev_comp; [eve | reflexivity |]. eapply (pick_mapM X _ _ VInt (fun w => w) (dget v)); [exact Hws|].
      intros i w Hi Hw. eapply eq_trans; [eapply ev_sub; [eapply ev_name; rewrite !upd_other by congruence; exact HKD | evsub]|]. exact Hw. }
  rewrite map_id.
  erewrite block_next.
  2:{ assert (Hp : library X "product" ws = Some (Ok (VList (map VTup (iproduct (map (map g) ls)))))).
      { cbv [library String.eqb Ascii.eqb Bool.eqb orb]. rewrite Hits. reflexivity. }
      eapply exec_mut; [reflexivity | rewrite !upd_other by congruence; exact HKL | eapply evs_cons; [reflexivity | eapply ev_lib; [reflexivity | reflexivity | eapply evs_cons; [reflexivity | eapply ev_lib; [reflexivity | reflexivity | eapply evs_star; [eve | reflexivity] | evk | reflexivity | exact Hp] | apply evs_nil] | evk | reflexivity | lib] | apply evs_nil] | reflexivity]. }
  rewrite block_nil. cbn [bind]. set (E1 := upd _ L _).
  destruct (IH rs' (acc ++ map (fun b => VTup (map g b)) (iproduct ls)) E1 Ers) as (E' & HE & HK').
  { constructor; [|constructor; [|constructor]]; cbn [fst snd]; unfold E1.
    - rewrite !upd_other by congruence. exact HKD.
    - rewrite upd_same. do 3 f_equal. now rewrite iproduct_map, map_map. }
  exists E'. split; [exact HE|]. cbn [List.concat]. rewrite map_app, app_assoc. exact HK'.
Qed.

Lemma max_mu_text call invoke fuel E E' mu mm x : max_mu mu = Ok mm -> E "mu"%string = Some (vmu mu) -> E' = upd E x (VInt mm) ->
  exec X call invoke fuel (SIf (ECall (EName "isinstance") [EName "mu"; EName "int"] []) [SAssign [EName x] (EName "mu")] [SAssign [EName x] (ECall (EName "max") [EName "mu"] [])]) E = Ok (Nxt, E').
Proof.
  intros H HE ->. destruct mu as [m|l]; cbn [vmu max_mu] in *.
  - injection H as ->. erewrite exec_if by eve. cbv iota. step. reflexivity.
  - erewrite exec_if by eve. unfold ivec at 1, iarr at 1. cbv iota. erewrite block_next. 2:{ eapply exec_set. eapply ev_lib; [reflexivity | reflexivity | evs | evk | reflexivity |]. rewrite lib_max, H. reflexivity. }
    reflexivity.
Qed.

Lemma zdict_v d : vdict VInt (zdict d) d.
Proof. induction d as [|[k l] d IH]; constructor; auto. Qed.

Lemma run_poly_inds k d mu inds P : poly_inds_of mu inds = Ok P ->
  run (S (S k)) "poly_inds" [VInt d; vmu mu] [("inds"%string, VList (map zl inds))] = Ok (VList (map (fun b => VTup (map VInt b)) P)).
Proof.
  intros H. unfold poly_inds_of in H. destruct (max_mu mu) as [mm|] eqn:Emm; [|discriminate]. cbn [bind] in H. cbv zeta in H.
  set (rsr := mapM _ inds) in H. destruct rsr as [rs|] eqn:Ers; [|discriminate]. injection H as <-. unfold rsr in Ers. clear rsr.
  enter. fold b_poly_inds. unfold b_poly_inds. rewrite block_cons. erewrite exec_if by eve. cbv iota. rewrite block_nil. cbn [bind].
  erewrite block_next; [| eapply max_mu_text; [exact Emm | look | reflexivity]].
  pose proof (run_phi_chain X k (mm + 1)) as Hphi. step. step.
  set (E2 := upd _ "base_polys"%string _). rewrite block_cons.
  assert (HK : K [("aphi"%string, VDict (zdict (phi_chain (mm + 1)))); ("base_polys"%string, VList [])] E2) by (unfold E2; kk).
  assert (Hin : E2 "inds"%string = Some (VList (map zl inds))) by (unfold E2; look). clearbody E2.
  erewrite exec_for; [| eve | reflexivity].
  destruct (each_loop VInt (run (S k)) (inv X sm_program (S k)) (S k) "aphi" "base_polys" _ _ inds eq_refl eq_refl (zdict_v _) rs [] E2 Ers HK) as (E' & HE & HK').
  unfold b_each in HE. rewrite HE. cbn [bind]. eapply ends_ret. eapply block_ret. eapply exec_ret. eve.
Qed.

Lemma float_rows_map (l : list (list R)) : float_rows (map (fun b => VTup (map VFlt b)) l) = Ok l.
Proof. induction l as [|b l IH]; auto. cbn. now rewrite floats_map, IH. Qed.
Lemma run_build_grid k d mu inds g : build_grid_of (s_n (x_pi X) (x_cos X) tiny14) mu inds = Ok g -> (forall mm, max_mu mu = Ok mm -> 0 <= mm) -> 0 < hd 0 (ashape g) ->
  run (S (S (S k))) "build_grid" [VInt d; vmu mu; VList (map zl inds)] [] = Ok (VArr (canon g)).
Proof.
  intros H Hmu Hg. unfold build_grid_of, build_points in H. destruct (max_mu mu) as [mm|] eqn:Emm; [|discriminate]. cbn [bind] in H. cbv zeta in H. specialize (Hmu mm eq_refl).
  set (rsr := mapM _ inds) in H. destruct rsr as [rs|] eqn:Ers; [|discriminate]. injection H as <-. unfold rsr in Ers. clear rsr.
  destruct (run_a_chain X k (mm + 1) ltac:(lia)) as (An & HAn & Hfd).
  enter. fold b_build_grid. unfold b_build_grid. rewrite block_cons. erewrite exec_if by eve. cbv iota. rewrite block_nil. cbn [bind].
  set (E0 := upd _ _ _). assert (HK0 : K [("mu"%string, vmu mu); ("inds"%string, VList (map zl inds))] E0) by (unfold E0; kk). clearbody E0.
  assert (G1 : exec X (run (S (S k))) (inv X sm_program (S (S k))) (S (S k)) (nth 1 b_build_grid SPass) E0 = Ok (Nxt, upd E0 "An"%string (VDict An))).
  { cbn [nth b_build_grid]. destruct mu as [m|l]; cbn [vmu max_mu] in *.
    - injection Emm as ->. erewrite exec_if by eve. cbv iota. step. reflexivity.
    - erewrite exec_if by eve. unfold ivec at 1, iarr at 1. cbv iota.
      assert (Hmax : library X "max" [ivec l] = Some (Ok (VInt mm))). { rewrite lib_max, Emm. reflexivity. }
      erewrite block_next; [reflexivity|]. eapply exec_set. eapply eq_trans; [eapply ev_fun; [reflexivity | eapply evs_cons; [reflexivity | | apply evs_nil] | evk | reflexivity] | exact HAn].
      eapply eq_trans; [eapply ev_bin; [eapply ev_lib; [reflexivity | reflexivity | evs | evk | reflexivity | exact Hmax] | eve] | ops]. }
  cbn [nth b_build_grid] in G1. rewrite (block_next _ _ _ _ _ _ _ _ G1). clear G1.
  step. set (E2 := upd _ "points"%string _). rewrite block_cons.
  assert (HK : K [("An"%string, VDict An); ("points"%string, VList [])] E2) by (unfold E2; kk).
  assert (Hin : E2 "inds"%string = Some (VList (map zl inds))) by (unfold E2; look). clearbody E2.
  erewrite exec_for; [| eve | reflexivity].
  destruct (each_loop VFlt (run (S (S k))) (inv X sm_program (S (S k))) (S (S k)) "An" "points" _ _ inds eq_refl eq_refl Hfd rs [] E2 Ers HK) as (E' & HE & HK').
  unfold b_each in HE. rewrite HE. cbn [bind]. cbn [List.app] in HK'.
  cbn [ashape of_rows hd] in Hg. destruct (List.concat rs) as [|p ps]; [unfold zlen in Hg; cbn in Hg; lia|].
  erewrite block_next.
  2:{ eapply exec_set. eapply ev_lib; [reflexivity | reflexivity | evs | evk | reflexivity |].
      cbv [library String.eqb Ascii.eqb Bool.eqb orb]. cbn [map make_array].
      change (VTup (map VFlt p) :: map (fun b => VTup (map VFlt b)) ps) with (map (fun b => VTup (map VFlt b)) (p :: ps)).
      rewrite float_rows_map. reflexivity. }
  eapply ends_ret. eapply block_ret. eapply exec_ret. eve.
Qed.
End C.
