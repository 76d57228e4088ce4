(** The text of smolyak/util.py: permute. *)
From Coq Require Import ZArith List Bool String Lia Reals.
From Verif Require Import Base BaseFacts CompleteModel SmolyakModel PySyntax NpSem NpFacts SmolText SmolTextA.
Import ListNotations.
Open Scope Z_scope.

Definition b_permute := Eval vm_compute in nodoc (snd (sm_def "permute")).
Definition b_outer := Eval vm_compute in match last b_permute SPass with SWhile _ b => b | _ => [] end.
Definition b_inner := Eval vm_compute in match last b_outer SPass with SWhile _ b => b | _ => [] end.
Definition b_found := Eval vm_compute in match b_inner with [_; SIf _ b _; _] => b | _ => [] end.

(** Lists of ints *)
Definition zl (a : list Z) : val R := VList (map VInt a).
Lemma lset_map {A B} (f : A -> B) l i v : lset (map f l) i (f v) = map f (lset l i v).
Proof. revert i. induction l as [|x l IH]; intros [|i]; cbn; auto. now rewrite IH. Qed.
Lemma lset_length {A} (l : list A) i v : List.length (lset l i v) = List.length l.
Proof. revert i. induction l as [|x l IH]; intros [|i]; cbn; auto. Qed.
Lemma sub_zl a z : 0 <= z < zlen a -> subscript (zl a) [SI z] = Ok (VInt (nth (Z.to_nat z) a 0)).
Proof.
  intros H. unfold zl, subscript. rewrite zlen_map, wrap_in by auto. unfold lget. destruct (Z.ltb_spec z 0); [lia|].
  rewrite nth_error_map. erewrite nth_error_nth' by (unfold zlen in H; lia). reflexivity.
Qed.
Lemma sub_zl_range a i : 0 <= i <= zlen a -> subscript (zl a) [SRange i (zlen a)] = Ok (zl (skipn (Z.to_nat i) a)).
Proof.
  intros H. unfold zl, subscript. rewrite zlen_map. unfold clip, wrap.
  destruct (Z.ltb_spec i 0); [lia|]. destruct (Z.ltb_spec (zlen a) 0); [lia|]. rewrite (Z.min_r _ i), Z.min_id, !Z.max_r by lia.
  rewrite skipn_map, firstn_map. do 3 f_equal. apply firstn_all2. rewrite skipn_length. unfold zlen. lia.
Qed.
Lemma store_zl a z v : 0 <= z < zlen a -> store (zl a) [SI z] (VInt v) = Ok (zl (lset a (Z.to_nat z) v)).
Proof.
  intros H. unfold zl, store. rewrite zlen_map, wrap_in by auto. cbn zeta. rewrite in_bool by auto. now rewrite lset_map.
Qed.
Lemma store_zl_range a i t : 0 <= i <= zlen a -> store (zl a) [SRange i (zlen a)] (zl t) = Ok (zl (firstn (Z.to_nat i) a ++ t)).
Proof.
  intros H. unfold zl at 1 2. unfold store. rewrite zlen_map. cbn zeta. cbn [items bind]. unfold clip, wrap.
  destruct (Z.ltb_spec i 0); [lia|]. destruct (Z.ltb_spec (zlen a) 0); [lia|]. rewrite (Z.min_r _ i), Z.min_id, !Z.max_r by lia.
  rewrite Nat.max_r by lia. rewrite skipn_map, firstn_map. unfold zl. do 2 f_equal. rewrite map_app. f_equal. rewrite skipn_all2; [now rewrite app_nil_r|].
  unfold zlen. lia.
Qed.

Section B.
Variable X : externals R.
Variable call : string -> list (val R) -> list (string * val R) -> res (val R).
Variable invoke : val R -> string -> list (val R) -> list (string * val R) -> res (val R).
Variable fuel : nat.
Notation eval := (eval X call invoke).
Notation block := (block X call invoke fuel).

Definition KP (a : list Z) (ys : list (val R)) (L : list (string * val R)) : env R -> Prop :=
  K ([("a"%string, zl a); ("first"%string, VInt 0); ("alen"%string, VInt (zlen a)); (yielded, VList ys)] ++ L).

(** [while not (a[i] < a[j]): j -= 1] *)
Definition j_test := ENot (ECmp (ESub (EName "a") [EName "i"]) [("<"%string, ESub (EName "a") [EName "j"])]).
Lemma loop_j a ys i : 0 <= i < zlen a -> forall j m j' E, find_j a (nth (Z.to_nat i) a 0) j = Ok j' -> (j < m)%nat -> Z.of_nat j < zlen a ->
  KP a ys [("i"%string, VInt i); ("j"%string, VInt (Z.of_nat j))] E ->
  (j' <= j)%nat /\ exists E', repeat_while m (fun E => x <- eval E j_test ;; truth x) (block [SAug "-" (EName "j") (EInt 1)]) E = Ok (Nxt, E') /\
    KP a ys [("i"%string, VInt i); ("j"%string, VInt (Z.of_nat j'))] E'.
Proof.
  intros Hi. induction j as [|j IH]; intros m j' E H Hm Hj HK; (destruct m as [|m]; [lia|]).
  - cbn [find_j] in H. unfold KP in HK. cbn [List.app] in HK.
    pose proof (sub_zl a i Hi) as A1. pose proof (sub_zl a (Z.of_nat 0) ltac:(lia)) as A2.
    cbn [repeat_while]. unfold j_test. erewrite (ev_not X call invoke E) by eve. cbn [bind truth].
    change (Z.to_nat (Z.of_nat 0)) with 0%nat. destruct (_ <? _); [|discriminate]. injection H as <-. cbn [negb]. split; [lia|]. eauto.
  - cbn [find_j] in H. pose proof HK as HK'. unfold KP in HK. cbn [List.app] in HK.
    pose proof (sub_zl a i Hi) as A1. pose proof (sub_zl a (Z.of_nat (S j)) ltac:(lia)) as A2.
    cbn [repeat_while]. unfold j_test. erewrite (ev_not X call invoke E) by eve. cbn [bind truth].
    rewrite Nat2Z.id. destruct (_ <? _).
    + injection H as <-. cbn [negb]. split; [lia|]. eauto.
    + cbn [negb]. erewrite block_next; [| eapply exec_aug; [eve | eve | ops | reflexivity]]. rewrite block_nil. cbn [bind].
      edestruct (IH m j') as (Hle & E' & HE & HK2); [exact H | lia | lia | | split; [lia|]; exists E'; split; [exact HE | exact HK2]].
      unfold KP. cbn [List.app]. replace (Z.of_nat j) with (Z.of_nat (S j) - 1) by lia. kk.
Qed.

Lemma assign_pair E t1 t2 v1 v2 E1 E2 : set_target X call invoke E t1 v1 = Ok E1 -> set_target X call invoke E1 t2 v2 = Ok E2 ->
  assign X call invoke E (ETup [t1; t2]) (VTup [v1; v2]) = Ok E2.
Proof. intros H1 H2. cbn [assign items bind set_targets]. rewrite H1. cbn [bind]. now rewrite H2. Qed.
Lemma found a ys i j E : 0 <= i -> i + 1 < zlen a -> find_j a (nth (Z.to_nat i) a 0) (List.length a - 1) = Ok j -> (List.length a <= fuel)%nat ->
  KP a ys [("i"%string, VInt i)] E ->
  let a1 := lset (lset a (Z.to_nat i) (nth j a 0)) j (nth (Z.to_nat i) a 0) in
  let a' := firstn (S (Z.to_nat i)) a1 ++ rev (skipn (S (Z.to_nat i)) a1) in
  exists E', block b_found E = Ok (Brk, E') /\ List.length a' = List.length a /\ KP a' (ys ++ [zl a']) [] E'.
Proof.
  intros Hi Hi1 Hj Hf HK a1 a'.
  assert (L1 : List.length a1 = List.length a) by (unfold a1; now rewrite !lset_length).
  assert (La : List.length a' = List.length a).
  { unfold a'. rewrite app_length, rev_length, <- app_length, firstn_skipn. exact L1. }
  unfold b_found. unfold KP in HK. cbn [List.app] in HK.
  step. rewrite block_cons, exec_while.
  set (E0 := upd E "j"%string _). edestruct (loop_j a ys i ltac:(lia) (List.length a - 1) fuel j E0 Hj) as (Hle & E1 & HE & HK1).
  { unfold zlen in Hi1. lia. } { unfold zlen. unfold zlen in Hi1. lia. }
  { unfold KP, E0. cbn [List.app]. replace (Z.of_nat (List.length a - 1)) with (zlen a - 1) by (unfold zlen in *; lia). kk. }
  unfold j_test in HE. rewrite HE. cbn [bind]. clear HE HK E0. unfold KP in HK1. cbn [List.app] in HK1.
  pose proof (sub_zl a i ltac:(lia)) as A1. pose proof (sub_zl a (Z.of_nat j) ltac:(unfold zlen in *; lia)) as A2.
  rewrite Nat2Z.id in A2.
  erewrite block_next.
  2:{ eapply exec_set_; [eve|]. eapply assign_pair.
      - eapply assign_sub; [evsub | look | apply store_zl; lia].
      - eapply assign_sub; [evsub | look |]. apply store_zl. unfold zlen in *. rewrite lset_length. lia. }
  rewrite Nat2Z.id. fold a1. assert (Z1 : zlen a = zlen a1) by (unfold zlen; lia).
  pose proof (sub_zl_range a1 (i + 1) ltac:(lia)) as A3. rewrite <- Z1 in A3.
  step. erewrite block_next; [| eapply exec_mut; [reflexivity | look | evs | reflexivity]]. rewrite <- map_rev. fold (zl (rev (skipn (Z.to_nat (i + 1)) a1))).
  erewrite block_next; [| eapply exec_set_; [eve | eapply assign_sub; [evsub | look |]]]. 2:{ rewrite Z1. apply store_zl_range. lia. }
  replace (Z.to_nat (i + 1)) with (S (Z.to_nat i)) by lia. fold a'.
  erewrite block_next; [| eapply exec_yield; [eve | look]]. fold (zl a').
  rewrite block_cons. cbn [exec bind]. eexists. split; [reflexivity|]. split; [exact La|].
  unfold KP. cbn [List.app]. assert (Z2 : zlen a' = zlen a) by (unfold zlen; lia). rewrite Z2. kk.
Qed.

Lemma scan_eq a i : scan a i =
  if nth i a 0 <? nth (S i) a 0 then
    j <- find_j a (nth i a 0) (List.length a - 1) ;;
    Ok (Some (firstn (S i) (lset (lset a i (nth j a 0)) j (nth i a 0)) ++ rev (skipn (S i) (lset (lset a i (nth j a 0)) j (nth i a 0)))))
  else match i with O => Ok None | S i' => scan a i' end.
Proof. destruct i; reflexivity. Qed.
Notation forever := (fun E => x <- eval E ETrue ;; truth x).
Lemma rw_true m b E : repeat_while (S m) forever (block b) E =
  ('(s, E) <- block b E ;; match s with Nxt | Cnt => repeat_while m forever (block b) E | Brk => Ok (Nxt, E) | Ret _ => Ok (s, E) end).
Proof. reflexivity. Qed.
Lemma loop_i a ys : (List.length a <= fuel)%nat -> forall i m E r, (S i < List.length a)%nat -> (i < m)%nat -> scan a i = Ok r ->
  KP a ys [("i"%string, VInt (Z.of_nat i + 1))] E ->
  match r with
  | Some a' => List.length a' = List.length a /\
      exists E', repeat_while m forever (block b_inner) E = Ok (Nxt, E') /\ KP a' (ys ++ [zl a']) [] E'
  | None => exists E', repeat_while m forever (block b_inner) E = Ok (Ret VNone, E') /\ E' yielded = Some (VList ys)
  end.
Proof.
  intros Hf. induction i as [|i IH]; intros m E r Hi Hm Hs HK; (destruct m as [|m]; [lia|]); rewrite scan_eq in Hs.
  - rewrite rw_true. remember (repeat_while m forever (block b_inner)) as loop eqn:El. unfold b_inner. unfold KP in HK. cbn [List.app] in HK.
    erewrite block_next; [| eapply exec_aug; [eve | eve | ops | reflexivity]]. change (Z.of_nat 0 + 1 - 1) with 0.
    pose proof (sub_zl a 0 ltac:(unfold zlen in *; lia)) as A1. pose proof (sub_zl a (0 + 1) ltac:(unfold zlen in *; lia)) as A2.
    rewrite block_cons. erewrite exec_if by eve. change (Z.to_nat 0) with 0%nat. change (Z.to_nat (0 + 1)) with 1%nat.
    destruct (_ <? _).
    + fold b_found. destruct (find_j _ _ _) as [j|] eqn:Ej; [|discriminate]. injection Hs as <-.
      edestruct (found a ys 0 j (upd E "i"%string (VInt 0))) as (E' & -> & HL & HK'); [lia | unfold zlen; lia | exact Ej | exact Hf | |].
      { unfold KP. cbn [List.app]. kk. }
      split; [exact HL|]. exists E'. split; [reflexivity | exact HK'].
    + injection Hs as <-. rewrite block_nil. cbn [bind]. rewrite block_cons. erewrite exec_if by eve. cbn [Z.eqb].
      erewrite block_next; [| eapply exec_mut; [reflexivity | look | evs | reflexivity]]. cbn [NpSem.block exec bind]. eexists. split; [reflexivity|]. look.
  - rewrite rw_true. remember (repeat_while m forever (block b_inner)) as loop eqn:El. unfold b_inner. pose proof HK as HK0. unfold KP in HK. cbn [List.app] in HK.
    erewrite block_next; [| eapply exec_aug; [eve | eve | ops | reflexivity]]. replace (Z.of_nat (S i) + 1 - 1) with (Z.of_nat (S i)) by lia.
    pose proof (sub_zl a (Z.of_nat (S i)) ltac:(unfold zlen in *; lia)) as A1. pose proof (sub_zl a (Z.of_nat (S i) + 1) ltac:(unfold zlen in *; lia)) as A2.
    rewrite block_cons. erewrite exec_if by eve. replace (Z.to_nat (Z.of_nat (S i) + 1)) with (S (S i)) by lia. rewrite Nat2Z.id.
    destruct (_ <? _).
    + fold b_found. destruct (find_j _ _ _) as [j|] eqn:Ej; [|discriminate]. injection Hs as <-.
      edestruct (found a ys (Z.of_nat (S i)) j (upd E "i"%string (VInt (Z.of_nat (S i))))) as (E' & HE' & HL & HK'); [lia | unfold zlen; lia | now rewrite Nat2Z.id | exact Hf | |].
      { unfold KP. cbn [List.app]. kk. }
      rewrite Nat2Z.id in HL, HK'. rewrite HE'. split; [exact HL|]. exists E'. split; [reflexivity | exact HK'].
    + rewrite block_nil. cbn [bind]. rewrite block_cons. erewrite exec_if by eve.
      destruct (Z.eqb_spec (Z.of_nat (S i)) 0); [lia|]. rewrite !block_nil. cbn [bind]. subst loop.
      apply (IH m _ r); [lia | lia | exact Hs |]. unfold KP. cbn [List.app]. replace (Z.of_nat i + 1) with (Z.of_nat (S i)) by lia. kk.
Qed.
Lemma loop_out : forall f a ys m E rest, (2 <= List.length a <= fuel)%nat -> (f <= m)%nat -> permute_loop f a = Ok rest -> KP a ys [] E ->
  exists E', repeat_while m forever (block b_outer) E = Ok (Ret VNone, E') /\ E' yielded = Some (VList (ys ++ map zl rest)).
Proof.
  induction f as [|f IH]; intros a ys m E rest Hl Hm H HK; [discriminate|]. destruct m as [|m]; [lia|]. cbn [permute_loop] in H.
  destruct (scan a (List.length a - 2)) as [r|] eqn:Es; [|discriminate]. cbn [bind] in H.
  rewrite rw_true. remember (repeat_while m forever (block b_outer)) as loop eqn:El0. unfold b_outer. unfold KP in HK. cbn [List.app] in HK.
  step. rewrite block_cons, exec_while. fold b_inner.
  set (E0 := upd E "i"%string _).
  assert (HK0 : KP a ys [("i"%string, VInt (Z.of_nat (List.length a - 2) + 1))] E0).
  { unfold KP, E0. cbn [List.app]. replace (Z.of_nat (List.length a - 2) + 1) with (zlen a - 1) by (unfold zlen; lia). kk. }
  pose proof (loop_i a ys ltac:(lia) (List.length a - 2) fuel E0 r ltac:(lia) ltac:(lia) Es HK0) as G. destruct r as [a'|].
  - destruct G as (HL & E' & -> & HK'). cbn [bind]. rewrite block_nil. cbn [bind]. subst loop.
    destruct (permute_loop f a') as [rest'|] eqn:Er; [|discriminate]. injection H as <-.
    destruct (IH a' (ys ++ [zl a']) m E' rest' ltac:(lia) ltac:(lia) Er HK') as (E2 & HE2 & HY). exists E2. split; [exact HE2|].
    rewrite HY. cbn [map]. now rewrite <- app_assoc.
  - destruct G as (E' & -> & HY). injection H as <-. cbn [bind]. exists E'. split; [reflexivity|]. now rewrite HY, app_nil_r.
Qed.
End B.

Lemma sort_length l : List.length (sort l) = List.length l.
Proof.
  induction l as [|x l IH]; auto. cbn [sort List.length]. rewrite <- IH. generalize (sort l). clear. intros l. induction l as [|y l IH]; auto. cbn. destruct (x <=? y); auto. cbn. now rewrite IH.
Qed.
Section C.
Variable X : externals R.
Lemma run_permute k a r : permute a = Ok r -> (fact (List.length a) + List.length a <= k)%nat ->
  run X sm_program (S k) "permute" [zl a] [] = Ok (VList (map zl r)).
Proof.
  intros H Hk. unfold permute in H. destruct (_ <? _)%nat eqn:E2; [discriminate|]. apply Nat.ltb_ge in E2. rewrite sort_length in E2, H.
  destruct (permute_loop _ _) as [rest|] eqn:El; [|discriminate]. injection H as <-.
  erewrite run_fun; [| vm_compute; reflexivity | vm_compute; reflexivity].
  unfold call_body. cbn [bind_params bind]. set (hy := existsb has_yield _). replace hy with true by (symmetry; vm_compute; reflexivity). clear hy.
  rewrite block_nodoc. cbv [nodoc]. fold b_permute. unfold b_permute.
  erewrite block_next; [| eapply exec_mut; [reflexivity | look | evs |]]. 2:{ cbv [change String.eqb Ascii.eqb Bool.eqb]. rewrite ints_map. reflexivity. }
  fold (zl (sort a)).
  erewrite block_next; [| eapply exec_yield; [eve | look]]. fold (zl (sort a)).
  step. step. step. rewrite zlen_map. rewrite block_cons, exec_while. fold b_outer.
  set (E0 := upd _ "alen"%string _).
  destruct (loop_out X (run X sm_program k) (inv X sm_program k) k (fact (List.length a)) (sort a) [zl (sort a)] k E0 rest) as (E' & -> & HY).
  { rewrite sort_length. lia. } { lia. } { exact El. } { unfold KP, E0. cbn [List.app]. kk. }
  cbn [bind]. rewrite HY. reflexivity.
Qed.
End C.
