(** Concrete cases for the Smolyak theorems, and the collapse of very fine grids. *)
From Coq Require Import ZArith List Bool Lia ZifyBool Reals Lra Psatz.
From Verif Require Import Base BaseFacts CompleteModel SmolyakModel SpecSmolyak SmolyakInds SmolyakChains SmolyakNodes SmolyakGridR SmolyakInterpR SmolyakProps.
Import ListNotations.
Open Scope Z_scope.

Lemma tiny_code_collapse n : 50 <= n -> In 0%R (@a_of R NumR PI cos tiny_code n n).
Proof.
  intros Hn. unfold a_of. destruct (n =? 1) eqn:E1; [lia|]. destruct (n =? 2) eqn:E2; [lia|].
  pose proof (pow2_pos (n - 3) ltac:(lia)) as HP. apply in_map_iff. exists (2 ^ (n - 3)).
  assert (P1 : 2 ^ (n - 2) = 2 * 2 ^ (n - 3)) by (rewrite <- pow2_S by lia; f_equal; lia).
  assert (P2 : 2 ^ (n - 1) = 4 * 2 ^ (n - 3)) by (replace (n - 1) with (n - 2 + 1) by lia; rewrite pow2_S by lia; lia).
  split; [|rewrite zrange_In; lia].
  replace (n - n) with 0 by lia. change (2 ^ 0) with 1. unfold snode. cbn [n_mul n_div n_sub n_ofZ NumR n_ltb].
  set (P := 2 ^ (n - 3)) in *. assert (HPR : (1 <= IZR P)%R) by (apply IZR_le; lia).
  assert (Harg : (PI * (IZR (1 + 1 * (2 * P + 1)) - 1) / (IZR (2 ^ (n - 1) + 1) - 1) = PI / 2 + PI / IZR (4 * P))%R).
  { rewrite P2. rewrite !plus_IZR, !mult_IZR, !plus_IZR, !mult_IZR. field. lra. }
  rewrite Harg. replace (PI / 2 + PI / IZR (4 * P))%R with (PI / 2 - - (PI / IZR (4 * P)))%R by ring. rewrite cos_shift, sin_neg.
  assert (Hbig : (4 * 10 ^ 14 <= 4 * P)).
  { assert (2 ^ 47 <= P) by (apply Z.pow_le_mono_r; lia). assert (10 ^ 14 <= 2 ^ 47) by (vm_compute; discriminate). lia. }
  set (y := (PI / IZR (4 * P))%R). pose proof PI_4 as H4. pose proof PI_RGT_0 as H0.
  assert (HP4 : (0 < IZR (4 * P))%R) by (apply IZR_lt; lia).
  assert (Hy : (0 < y)%R) by (apply Rdiv_lt_0_compat; auto).
  assert (Hyt : (y <= tiny_code)%R).
  { unfold y, tiny_code. apply (Rmult_le_reg_r (IZR (4 * P))); auto. replace (PI / IZR (4 * P) * IZR (4 * P))%R with PI by (field; lra).
    apply IZR_le in Hbig. rewrite mult_IZR in Hbig. assert (Ht : (0 < IZR (10 ^ 14))%R) by (apply IZR_lt; reflexivity).
    apply (Rmult_le_reg_l (IZR (10 ^ 14))); auto. replace (IZR (10 ^ 14) * (/ IZR (10 ^ 14) * IZR (4 * P)))%R with (IZR (4 * P)) by (field; lra). nra. }
  assert (Hs : (sin y < y)%R) by now apply sin_lt_x.
  assert (Hs0 : (0 <= sin y)%R) by (apply sin_ge_0; [lra|]; assert (tiny_code <= 1)%R; [unfold tiny_code; rewrite <- Rinv_1; apply Rinv_le_contravar; [lra|apply IZR_le; vm_compute; discriminate]|]; pose proof PI2_1; lra).
  unfold nabs. cbn [n_ltb n_sub n_ofZ NumR]. replace (-1 * - sin y)%R with (sin y) by ring.
  destruct (Raux.Rlt_bool_spec (sin y) 0); [lra|]. destruct (Raux.Rlt_bool_spec (sin y) tiny_code); [reflexivity|lra].
Qed.
Theorem nodes_collapse n : 50 <= n -> exists A1 An, dget (a_chain (s_n PI cos tiny_code n) n) 1 = Ok A1 /\ dget (a_chain (s_n PI cos tiny_code n) n) n = Ok An /\ In 0%R A1 /\ In 0%R An.
Proof.
  intros Hn. exists (a_of PI cos tiny_code n 1), (a_of PI cos tiny_code n n). rewrite !a_chain_get by lia. split; auto. split; auto. split; [now left|now apply tiny_code_collapse].
Qed.
Theorem grid_collapse d m : 2 <= d -> 49 <= m -> exists g p q n, build_grid (s_n PI cos tiny_code) d (MuInt m) = Ok g /\ ashape g = [n; d] /\
  0 <= p < n /\ 0 <= q < n /\ p <> q /\ mrow d g p = mrow d g q.
Proof.
  intros Hd Hm. assert (Hok : density_ok d (MuInt m) m) by (cbn; lia).
  destruct (smol_inds_all d (MuInt m) m Hd Hok) as (L & E & HN & HL). pose proof (L_good d (MuInt m) m Hok L HL) as G.
  unfold build_grid, build_grid_of. rewrite E. cbn [bind]. rewrite (build_points_tensor PI cos tiny_code _ _ _ G). cbn [bind].
  set (A := a_of PI cos tiny_code (m + 1)). set (z := repeat 0%R (Z.to_nat d)).
  set (one := repeat 1 (Z.to_nat d)). set (other := m + 1 :: repeat 1 (Z.to_nat d - 1)).
  assert (H1 : In one L) by (apply HL; now apply ones_index).
  assert (H2 : In other L).
  { apply HL. cbn. unfold other. split; [rewrite zlen_cons; unfold zlen; rewrite repeat_length; lia|]. split.
    - constructor; [lia|]. apply Forall_forall. intros x Hx. apply repeat_spec in Hx. lia.
    - rewrite total_cons, total_repeat. lia. }
  assert (Hne : one <> other) by (unfold one, other; intros EE; destruct (Z.to_nat d) eqn:Ed; cbn in EE; [lia|injection EE; lia]).
  assert (P1 : In z (iproduct (map A one))).
  { apply iproduct_In. unfold z, one. clear. induction (Z.to_nat d); cbn; constructor; auto. now left. }
  assert (P2 : In z (iproduct (map A other))).
  { apply iproduct_In. unfold z, other. replace (Z.to_nat d) with (S (Z.to_nat d - 1)) by lia. cbn [repeat map]. constructor; [apply tiny_code_collapse; lia|]. replace (S (Z.to_nat d - 1) - 1)%nat with (Z.to_nat d - 1)%nat by lia. clear. induction (Z.to_nat d - 1)%nat; cbn; constructor; auto. now left. }
  assert (ND : ~ NoDup (tensor A L)).
  { intros C. unfold tensor in C. clear -C H1 H2 Hne P1 P2. induction L as [|el L IH]; [destruct H1|]. cbn in C.
    assert (D : forall x, In x (iproduct (map A el)) -> In x (flat_map (fun el => iproduct (map A el)) L) -> False).
    { clear -C. intros x Hx Hx'. induction (iproduct (map A el)) as [|y l IHl]; [destruct Hx|]. cbn in C. inversion C; subst. destruct Hx as [->|Hx]; [apply H1; apply in_or_app; auto|auto]. }
    destruct H1 as [->|H1], H2 as [->|H2].
    - now apply Hne.
    - apply (D z P1). apply in_flat_map. eauto.
    - apply (D z P2). apply in_flat_map. eauto.
    - apply IH; auto. clear -C. induction (iproduct (map A el)); auto. cbn in C. inversion C; auto. }
  assert (DUP : exists p q, (p < length (tensor A L))%nat /\ (q < length (tensor A L))%nat /\ p <> q /\ nth p (tensor A L) [] = nth q (tensor A L) []).
  { revert ND. generalize (tensor A L). intros l. clear. induction l as [|x l IH]; intros ND; [exfalso; apply ND; constructor|].
    assert (EM : In x l \/ ~ In x l) by (destruct (in_dec (list_eq_dec Req_EM_T) x l); auto).
    destruct EM as [Hin|Hni].
    - apply In_nth with (d := []) in Hin as (k & Hk & Ek). exists O, (S k). cbn. repeat split; auto; lia.
    - destruct IH as (p & q & Hp & Hq & Hpq & Eq); [intros C; apply ND; now constructor|]. exists (S p), (S q). cbn. repeat split; auto; lia. }
  destruct DUP as (p & q & Hp & Hq & Hpq & Eq).
  eexists. exists (Z.of_nat p), (Z.of_nat q), (zlen (tensor phi_of L)). split; [reflexivity|]. split; [now apply (of_rows_shape tiny_code d (MuInt m) m)|].
  pose proof (same_count PI cos tiny_code (MuInt m) m L G) as HC. fold A in HC. unfold zlen in HC.
  split; [unfold zlen; lia|]. split; [unfold zlen; lia|]. split; [lia|].
  rewrite !(of_rows_row tiny_code d (MuInt m) m Hd Hok L HL) by (unfold zlen; lia). rewrite !Nat2Z.id. exact Eq.
Qed.

(** ** Concrete cases *)
Example density_case : density_ok 3 (MuArr [1; 3; 2]) 3.
Proof. cbn. split; [reflexivity|]. split; [repeat constructor; lia|]. split; [right; now left|]. intros x [<-|[<-|[<-|[]]]]; lia. Qed.
Example tiny_case : tiny_ok tiny_code 4. Proof. apply tiny_code_ok. lia. Qed.
Example bounds_case : bound_list 3 (-1) (BList [0; -2; 1]%R) [0; -2; 1]%R /\ bound_list 3 1 (BScalar 5%R) [5; 5; 5]%R /\ Forall2 Rlt [0; -2; 1]%R [5; 5; 5]%R.
Proof. repeat split; auto; [intros x [<-|[<-|[<-|[]]]]; auto|]. repeat constructor; lra. Qed.
Example permute_case : permute [2; 1; 2] = Ok [[1; 2; 2]; [2; 1; 2]; [2; 2; 1]]. Proof. reflexivity. Qed.
Example smol_inds_case : smol_inds 2 (MuArr [1; 2]) = Ok [[1; 2]; [2; 1]; [1; 3]; [2; 2]; [1; 1]]. Proof. reflexivity. Qed.
Example pinds_case : poly_inds 2 (MuInt 1) = Ok [[1; 2]; [1; 3]; [2; 1]; [3; 1]; [1; 1]]. Proof. reflexivity. Qed.
Example permute_short : permute [1] = Err IndexErr. Proof. reflexivity. Qed.
Example indices_case : indices_ok 2 1 [[1; 2]; [1; 3]; [2; 1]; [3; 1]; [1; 1]]. Proof. repeat constructor; cbn; try reflexivity; lia. Qed.
