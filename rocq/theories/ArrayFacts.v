(** Facts about [ravel], [unravel], [areshape]. *)
From Coq Require Import ZArith List Bool Lia.
From Verif Require Import Base BaseFacts ArrayModel.
Import ListNotations.
Open Scope Z_scope.

Lemma zprod_cons n sh : zprod (n :: sh) = n * zprod sh. Proof. reflexivity. Qed.
Lemma zprod_app a b : zprod (a ++ b) = zprod a * zprod b.
Proof. induction a as [|x a IH]; cbn [app]; [cbn; destruct (zprod b); reflexivity|]. rewrite !zprod_cons, IH. ring. Qed.
Lemma zprod_pos sh : Forall (fun n => 0 < n) sh -> 0 < zprod sh.
Proof. induction 1; [reflexivity|]. rewrite zprod_cons. nia. Qed.
Lemma zprod_nonneg sh : Forall (fun n => 0 <= n) sh -> 0 <= zprod sh.
Proof. induction 1; [cbn; lia|]. rewrite zprod_cons. nia. Qed.
Lemma zprod_rev sh : zprod (rev sh) = zprod sh.
Proof. induction sh as [|n sh IH]; [reflexivity|]. cbn [rev]. rewrite zprod_app, IH, !zprod_cons. cbn [zprod fold_right]. ring. Qed.
Lemma inb_pos sh idx : inb sh idx = true -> Forall (fun n => 0 < n) sh.
Proof. intros H. apply inb_spec in H. induction H; constructor; auto. lia. Qed.
Lemma ravel_range sh idx : inb sh idx = true -> 0 <= ravel sh idx < zprod sh.
Proof.
  revert idx; induction sh as [|n sh IH]; intros [|i idx] H; try discriminate; [cbn; lia|].
  cbn [inb] in H. apply andb_true_iff in H as [H1 H2]. pose proof (IH _ H2). cbn [ravel]. rewrite zprod_cons.
  apply andb_true_iff in H1 as [H1 H3]. nia.
Qed.
Lemma unravel_ravel sh idx : inb sh idx = true -> unravel sh (ravel sh idx) = idx.
Proof.
  revert idx; induction sh as [|n sh IH]; intros [|i idx] H; try discriminate; [reflexivity|].
  cbn [inb] in H. apply andb_true_iff in H as [H1 H2]. pose proof (ravel_range _ _ H2) as Hr. cbn [ravel unravel].
  rewrite Z.div_add_l by lia. rewrite (Z.div_small (ravel sh idx)) by lia. rewrite (Z.add_comm (i * zprod sh)), Z_mod_plus_full, Z.mod_small by lia. rewrite Z.add_0_r. rewrite IH; auto.
Qed.
Lemma unravel_inb sh r : Forall (fun n => 0 < n) sh -> 0 <= r < zprod sh -> inb sh (unravel sh r) = true.
Proof.
  intros H; revert r; induction H as [|n sh Hn Hs IH]; intros r Hr; [reflexivity|]. pose proof (zprod_pos _ Hs) as P. rewrite zprod_cons in Hr.
  cbn [unravel inb]. apply andb_true_iff; split; [|apply IH; apply Z.mod_pos_bound; lia].
  apply andb_true_iff; split; [apply Z.leb_le; apply Z.div_pos; lia|apply Z.ltb_lt; apply Z.div_lt_upper_bound; nia].
Qed.
Lemma ravel_unravel sh r : Forall (fun n => 0 < n) sh -> 0 <= r < zprod sh -> ravel sh (unravel sh r) = r.
Proof.
  intros H; revert r; induction H as [|n sh Hn Hs IH]; intros r Hr; [cbn in *; lia|]. pose proof (zprod_pos _ Hs) as P. rewrite zprod_cons in Hr.
  cbn [unravel ravel]. rewrite IH by (apply Z.mod_pos_bound; lia). rewrite Z.mul_comm. symmetry. apply Z.div_mod. lia.
Qed.
Lemma ravel_inj sh i j : inb sh i = true -> inb sh j = true -> ravel sh i = ravel sh j -> i = j.
Proof. intros Hi Hj H. rewrite <- (unravel_ravel sh i Hi), <- (unravel_ravel sh j Hj). now rewrite H. Qed.
Lemma areshape_ok {T} (a : arr T) sh : zprod (ashape a) = zprod sh ->
  areshape a sh = Ok (mkArr sh (fun idx => acell a (unravel (ashape a) (ravel sh idx)))).
Proof. intros H. unfold areshape. now rewrite (proj2 (Z.eqb_eq _ _) H). Qed.
Lemma zprod_pos_inv sh : Forall (fun n => 0 <= n) sh -> 0 < zprod sh -> Forall (fun n => 0 < n) sh.
Proof.
  induction 1 as [|n sh Hn Hs IH]; [constructor|]. rewrite zprod_cons. intros H. pose proof (zprod_nonneg _ Hs).
  constructor; [nia|]. apply IH. nia.
Qed.
