(** Proofs for C34. *)
From Coq Require Import ZArith List Bool Lia.
From Verif Require Import Base BaseFacts ArrayModel ArrayFacts SplineModel Spec CartesianModel SpecCartesian.
Import ListNotations.
Open Scope Z_scope.

(** A loop each iteration of which makes the cells in [Q k] good. *)
Lemma loop_good {S} (J : S -> Prop) (good : S -> Z -> Prop) (Q : Z -> Z -> Prop) (f : S -> Z -> res S) n s :
  J s -> 0 <= n ->
  (forall k s, 0 <= k < n -> J s -> exists s', f s k = Ok s' /\ J s' /\ forall r, (good s r \/ Q k r) -> good s' r) ->
  exists s', foldM f (zrange n) s = Ok s' /\ J s' /\ forall r, (good s r \/ exists k, 0 <= k < n /\ Q k r) -> good s' r.
Proof.
  intros HJ Hn H.
  destruct (foldM_zrange f (fun k s' => J s' /\ forall r, (good s r \/ exists j, 0 <= j < k /\ Q j r) -> good s' r) n s) as (s' & E & HJ' & HG).
  - auto.
  - split; auto. intros r [G|(k & Hk & _)]; [auto|lia].
  - intros k s1 Hk [J1 G1]. destruct (H k s1 Hk J1) as (s2 & E & J2 & G2). exists s2. split; auto. split; auto.
    intros r [G|(j & Hj & Hq)]; apply G2.
    + left. apply G1. auto.
    + destruct (Z.eq_dec j k) as [->|Hne]; auto. left. apply G1. right. exists j. split; [lia|auto].
  - exists s'. auto.
Qed.

Lemma map_nth' {A B} (f : A -> B) l d d' n : (n < length l)%nat -> nth n (map f l) d = f (nth n l d').
Proof. intros H. rewrite (nth_indep _ d (f d')) by (rewrite map_length; auto). apply map_nth. Qed.

Section C.
Context {T : Type} {NT : Num T} (d0 : T).

Definition colval (x : list T) (L r : Z) : T := nth (Z.to_nat ((r / L) mod zlen x)) x d0.

Lemma repeat_1d_spec x K i out R n : ashape out = [R; n] -> 0 <= i < n -> 0 < K -> 0 < zlen x ->
  forall L, 0 <= L -> R = K * zlen x * L ->
  exists out', repeat_1d x K i out = Ok out' /\ ashape out' = [R; n] /\
    (forall r j, j <> i -> acell out' [r; j] = acell out [r; j]) /\
    (forall r, 0 <= r < R -> acell out' [r; i] = colval x L r).
Proof.
  intros S Hi HK HN L HL HR. unfold repeat_1d, adim. rewrite S.
  rewrite (lget_ok [R; n] 0 0) by (unfold zlen; cbn; lia). cbn [nth Z.to_nat bind].
  destruct (Z.eqb_spec (K * zlen x) 0); [nia|].
  replace (R / (K * zlen x)) with L by (subst R; rewrite Z.mul_comm, Z.div_mul; auto).
  set (N := zlen x) in *.
  set (J := fun o : arr T => ashape o = [R; n] /\ forall r j, j <> i -> acell o [r; j] = acell out [r; j]).
  set (good := fun (o : arr T) r => acell o [r; i] = colval x L r).
  assert (Step : forall nn, 0 <= nn < N -> forall k o, 0 <= k < K -> J o ->
     exists o', foldM (fun o l => aset o [k * N * L + nn * L + l; i] (nth (Z.to_nat nn) x d0)) (zrange L) o = Ok o' /\ J o' /\
       forall r, (good o r \/ exists l, 0 <= l < L /\ r = k * N * L + nn * L + l) -> good o' r).
  { intros nn Hnn k o Hk Jo. apply (loop_good J good (fun l r => r = k * N * L + nn * L + l)); auto.
    intros l o1 Hl [S1 C1]. 
    assert (Hin : 0 <= k * N * L + nn * L + l < R).
    { assert (0 <= k * N + nn < K * N) by nia. replace (k * N * L + nn * L + l) with ((k * N + nn) * L + l) by ring. rewrite HR. nia. }
    rewrite aset_ok; [|rewrite S1; cbn; rewrite !andb_true_iff, !Z.leb_le, !Z.ltb_lt; lia].
    eexists. split; [reflexivity|]. split.
    - split; [exact S1|]. intros r j Hj. rewrite upd_other by congruence. auto.
    - intros r Hr. unfold good in *.
      destruct (Z.eq_dec r (k * N * L + nn * L + l)) as [->|Hne].
      + rewrite upd_same. unfold colval. fold N. f_equal. f_equal.
        replace (k * N * L + nn * L + l) with ((k * N + nn) * L + l) by ring. rewrite Z.div_add_l, (Z.div_small l) by lia.
        rewrite Z.add_0_r, Z.add_comm, Z_mod_plus_full, Z.mod_small; lia.
      + rewrite upd_other by congruence. destruct Hr; [auto|congruence]. }
  destruct (loop_good J good (fun nn r => exists k l, 0 <= k < K /\ 0 <= l < L /\ r = k * N * L + nn * L + l)
    (fun out n0 => val <- lget x n0 ;; foldM (fun out k => foldM (fun out l => aset out [k * N * L + n0 * L + l; i] val) (zrange L) out) (zrange K) out) N out) as (o' & E & [S' C'] & G).
  - split; auto.
  - lia.
  - intros nn o Hnn Jo. rewrite (lget_ok x nn d0) by auto. cbn [bind].
    destruct (loop_good J good (fun k r => exists l, 0 <= l < L /\ r = k * N * L + nn * L + l)
      (fun out k => foldM (fun out l => aset out [k * N * L + nn * L + l; i] (nth (Z.to_nat nn) x d0)) (zrange L) out) K o) as (o1 & E1 & J1 & G1).
    + auto. + lia. + intros k s Hk Js. apply Step; auto.
    + exists o1. split; [exact E1|]. split; auto. intros r [G|(k & l & Hk & Hl & ->)]; apply G1; auto. right. exists k. split; auto. exists l. auto.
  - exists o'. split; [exact E|]. split; auto. split; auto. intros r Hr. apply G. right.
    assert (HL0 : 0 < L) by (subst R; nia).
    exists ((r / L) mod N). split; [apply Z.mod_pos_bound; lia|]. exists (r / L / N), (r mod L).
    assert (0 <= r / L < K * N) by (split; [apply Z.div_pos; lia|apply Z.div_lt_upper_bound; subst R; nia]).
    split; [split; [apply Z.div_pos; lia|apply Z.div_lt_upper_bound; nia]|].
    split; [apply Z.mod_pos_bound; lia|].
    pose proof (Z.div_mod r L). pose proof (Z.div_mod (r / L) N). nia.
Qed.

(** ** Repetitions *)
Lemma cumprod_from_nth l : forall acc i, (i < length l)%nat -> nth i (cumprod_from acc l) 0 = acc * zprod (firstn (S i) l).
Proof.
  induction l as [|x l IH]; cbn [length]; intros acc [|i] Hi; try lia.
  - cbn. ring.
  - cbn [cumprod_from nth]. rewrite IH by lia. cbn [firstn]. rewrite !zprod_cons. ring.
Qed.
Lemma cumprod_length l : forall acc, length (cumprod_from acc l) = length l.
Proof. induction l; cbn; auto. Qed.
Lemma removelast_length {A} (l : list A) : length (removelast l) = pred (length l).
Proof. induction l as [|a [|b l] IH]; auto. cbn [removelast length] in *. now rewrite IH. Qed.
Lemma firstn_removelast {A} (l : list A) i : (i < length l)%nat -> firstn i (removelast l) = firstn i l.
Proof.
  revert i; induction l as [|a l IH]; cbn [length]; intros i Hi; [lia|]. destruct l as [|b l]; [cbn in Hi; replace i with 0%nat by lia; auto|].
  destruct i; auto. change (removelast (a :: b :: l)) with (a :: removelast (b :: l)). cbn [firstn]. f_equal. apply IH. cbn in *. lia.
Qed.
Lemma reps_c sh i : (i < length sh)%nat -> nth i (cumprod (1 :: removelast sh)) 0 = zprod (firstn i sh) /\ length (cumprod (1 :: removelast sh)) = length sh.
Proof.
  intros Hi. unfold cumprod. split; [|rewrite cumprod_length; cbn [length]; rewrite removelast_length; lia].
  rewrite cumprod_from_nth; [|cbn [length]; rewrite removelast_length; lia].
  cbn [firstn]. rewrite firstn_removelast by auto. rewrite zprod_cons. ring.
Qed.
Definition reps (ord : order) (sh : list Z) : list Z :=
  match ord with OrderC => cumprod (1 :: removelast sh) | OrderF => rev (cumprod (1 :: removelast (rev sh))) end.
Definition outer_c (ord : order) (pre post : list Z) : Z := match ord with OrderC => zprod pre | OrderF => zprod post end.
Definition inner_c (ord : order) (pre post : list Z) : Z := match ord with OrderC => zprod post | OrderF => zprod pre end.
Lemma lget_reps ord pre n post : lget (reps ord (pre ++ n :: post)) (zlen pre) = Ok (outer_c ord pre post).
Proof.
  assert (Hl : (length pre < length (pre ++ n :: post))%nat) by (rewrite app_length; cbn; lia).
  destruct ord; cbn [reps outer_c].
  - destruct (reps_c _ _ Hl) as [H1 H2]. rewrite (lget_ok _ _ 0) by (unfold zlen; rewrite H2; lia). unfold zlen. rewrite Nat2Z.id, H1.
    rewrite firstn_app, Nat.sub_diag, firstn_all. cbn [firstn]. now rewrite app_nil_r.
  - assert (Hl2 : (length post < length (rev (pre ++ n :: post)))%nat) by (rewrite rev_length, app_length; cbn; lia).
    destruct (reps_c _ _ Hl2) as [H1 H2]. rewrite (lget_ok _ _ 0) by (unfold zlen; rewrite rev_length, H2, rev_length; lia).
    unfold zlen. rewrite Nat2Z.id, rev_nth by (rewrite H2, rev_length; auto). rewrite H2, rev_length, app_length. cbn [length].
    replace (length pre + S (length post) - S (length pre))%nat with (length post) by lia. rewrite H1.
    rewrite rev_app_distr. cbn [rev]. rewrite <- app_assoc, firstn_app, rev_length, Nat.sub_diag. cbn [firstn].
    rewrite app_nil_r, <- (rev_length post), firstn_all. now rewrite zprod_rev.
Qed.

(** ** The whole loop *)
Definition cellv (ord : order) (nodes : list (list T)) (r i : Z) : T :=
  let sh := map zlen nodes in
  colval (nth (Z.to_nat i) nodes []) (inner_c ord (firstn (Z.to_nat i) sh) (skipn (S (Z.to_nat i)) sh)) r.

Lemma nodes_split (nodes : list (list T)) i : 0 <= i < zlen nodes ->
  exists pre x post, nodes = pre ++ x :: post /\ zlen pre = i /\ nth (Z.to_nat i) nodes [] = x /\
    firstn (Z.to_nat i) (map zlen nodes) = map zlen pre /\ skipn (S (Z.to_nat i)) (map zlen nodes) = map zlen post.
Proof.
  intros Hi. destruct (nth_error nodes (Z.to_nat i)) as [x|] eqn:E; [|apply nth_error_None in E; unfold zlen in Hi; lia].
  apply nth_error_split in E as (pre & post & -> & Hp). exists pre, x, post. split; auto. split; [unfold zlen; lia|].
  split; [rewrite app_nth2, Hp, Nat.sub_diag by lia; auto|]. rewrite map_app. cbn [map]. rewrite <- Hp.
  split.
  - rewrite firstn_app, map_length, Nat.sub_diag. cbn. rewrite app_nil_r, <- (map_length zlen pre). apply firstn_all.
  - rewrite skipn_app, map_length. replace (S (length pre) - length pre)%nat with 1%nat by lia. rewrite skipn_all2 by (rewrite map_length; lia). reflexivity.
Qed.

Lemma cartesian_cells nodes ord : nodes <> [] -> Forall (fun x => 0 < zlen x) nodes ->
  exists out, cartesian nodes ord = Ok out /\ ashape out = [zprod (map zlen nodes); zlen nodes] /\
  forall r i, 0 <= r < zprod (map zlen nodes) -> 0 <= i < zlen nodes -> acell out [r; i] = cellv ord nodes r i.
Proof.
  intros Hne Hpos. unfold cartesian. destruct nodes as [|x0 nodes']; [congruence|]. set (nodes := x0 :: nodes') in *. clearbody nodes. clear x0 nodes'.
  set (R := zprod (map zlen nodes)). set (n := zlen nodes). fold (reps ord (map zlen nodes)).
  destruct (foldM_zrange (fun out i => x <- lget nodes i ;; K <- lget (reps ord (map zlen nodes)) i ;; repeat_1d x K i out)
     (fun i out => ashape out = [R; n] /\ forall r j, 0 <= r < R -> 0 <= j < i -> acell out [r; j] = cellv ord nodes r j) n (azeros [R; n])) as (out & E & S & V).
  - unfold n. apply zlen_nonneg.
  - split; [reflexivity|]. lia.
  - intros i o Hi [S V]. destruct (nodes_split nodes i Hi) as (pre & x & post & En & Hl & Hx & Hf & Hs).
    rewrite (lget_ok nodes i []) by auto. cbn [bind]. rewrite Hx.
    assert (Hp : 0 < zprod (map zlen pre) /\ 0 < zprod (map zlen post) /\ 0 < zlen x).
    { rewrite En in Hpos. apply Forall_app in Hpos as [H1 H2]. inversion H2; subst.
      split; [apply zprod_pos; now apply Forall_map|]. split; [apply zprod_pos; now apply Forall_map|auto]. }
    assert (EK : lget (reps ord (map zlen nodes)) i = Ok (outer_c ord (map zlen pre) (map zlen post))).
    { rewrite En, map_app. cbn [map]. rewrite <- Hl, <- (zlen_map zlen pre). apply lget_reps. }
    rewrite EK. cbn [bind].
    destruct (repeat_1d_spec x (outer_c ord (map zlen pre) (map zlen post)) i o R n S Hi ltac:(destruct ord; cbn; lia) ltac:(lia)
      (inner_c ord (map zlen pre) (map zlen post)) ltac:(destruct ord; cbn; lia)) as (o' & E' & S' & C' & V').
    { unfold R. rewrite En, map_app. cbn [map]. rewrite zprod_app, zprod_cons. destruct ord; cbn; ring. }
    exists o'. split; auto. split; auto. intros r j Hr Hj. destruct (Z.eq_dec j i) as [->|Hne'].
    + rewrite V' by auto. unfold cellv. now rewrite Hx, Hf, Hs.
    + rewrite C' by auto. apply V; auto. lia.
  - exists out. split; [exact E|]. split; [exact S|]. exact V.
Qed.

(** ** Enumerations *)
Lemma nth_flat_map_map (h : T -> list (list T)) (m : nat) (D : list (list T)) x r e :
  (forall a, h a = map (cons a) D) -> length D = m -> (0 < m)%nat -> (r < length x * m)%nat ->
  nth r (flat_map h x) e = nth (r / m) x d0 :: nth (r mod m) D e.
Proof.
  intros Hh Hm Hm0. revert r; induction x as [|a x IH]; cbn [length flat_map]; intros r Hr; [lia|].
  assert (Hla : length (h a) = m) by (rewrite Hh, map_length; auto).
  destruct (Nat.lt_ge_cases r m) as [Hl|Hg].
  - rewrite app_nth1 by lia. rewrite Nat.div_small, Nat.mod_small by auto. rewrite Hh. cbn [nth].
    rewrite (nth_indep _ e (a :: e)) by (rewrite map_length; lia). now rewrite (map_nth (cons a)).
  - rewrite app_nth2 by lia. rewrite Hla, IH by lia.
    replace r with ((r - m) + 1 * m)%nat at 3 4 by lia. rewrite Nat.div_add, Nat.mod_add by lia. now rewrite Nat.add_1_r.
Qed.
Lemma product_length (nodes : list (list T)) : Z.of_nat (length (product nodes)) = zprod (map zlen nodes).
Proof.
  induction nodes as [|x nodes IH]; [reflexivity|]. cbn [product map]. rewrite zprod_cons, <- IH.
  generalize (product nodes). intros D. induction x as [|a x IHx]; [reflexivity|]. cbn [flat_map]. rewrite app_length, map_length, Nat2Z.inj_add, IHx, zlen_cons. nia.
Qed.
Lemma product_nth nodes : Forall (fun x => 0 < zlen x) nodes -> forall r, 0 <= r < zprod (map zlen nodes) ->
  nth (Z.to_nat r) (product nodes) [] = map2 (fun x i => nth (Z.to_nat i) x d0) nodes (unravel (map zlen nodes) r).
Proof.
  induction 1 as [|x nodes Hx Hn IH]; intros r Hr; [cbn in *; now replace r with 0 by lia|].
  cbn [product map unravel map2]. cbn [map] in Hr. rewrite zprod_cons in Hr. pose proof (zprod_pos (map zlen nodes) ltac:(now apply Forall_map)) as Hp.
  pose proof (product_length nodes) as PL.
  rewrite (nth_flat_map_map _ (length (product nodes)) (product nodes) x (Z.to_nat r) []); [|reflexivity|reflexivity|lia|unfold zlen in *; nia].
  assert (E1 : (Z.to_nat r / length (product nodes))%nat = Z.to_nat (r / zprod (map zlen nodes))).
  { rewrite <- PL, Z2Nat.inj_div by lia. now rewrite Nat2Z.id. }
  assert (E2 : (Z.to_nat r mod length (product nodes))%nat = Z.to_nat (r mod zprod (map zlen nodes))).
  { rewrite <- PL, Z2Nat.inj_mod by lia. now rewrite Nat2Z.id. }
  rewrite E1, E2. f_equal. apply IH. apply Z.mod_pos_bound. lia.
Qed.

Lemma unravel_length sh : forall r, length (unravel sh r) = length sh.
Proof. induction sh; cbn; auto. Qed.
Lemma unravel_entry pre n post : Forall (fun n => 0 < n) pre -> 0 < n -> Forall (fun n => 0 < n) post ->
  forall r, 0 <= r < zprod (pre ++ n :: post) -> nth (length pre) (unravel (pre ++ n :: post) r) 0 = (r / zprod post) mod n.
Proof.
  intros Hpre Hn Hpost. pose proof (zprod_pos _ Hpost) as Pp.
  induction Hpre as [|m pre Hm Hpre IH]; intros r Hr; cbn [app length unravel nth].
  - cbn [app] in Hr. rewrite zprod_cons in Hr. symmetry. apply Z.mod_small. split; [apply Z.div_pos; lia|apply Z.div_lt_upper_bound; lia].
  - pose proof (zprod_pos _ Hpre). assert (P : 0 < zprod (pre ++ n :: post)) by (rewrite zprod_app, zprod_cons; nia).
    rewrite IH by (apply Z.mod_pos_bound; lia).
    rewrite zprod_app, zprod_cons. replace (zprod pre * (n * zprod post)) with (zprod post * (n * zprod pre)) by ring.
    rewrite Z.rem_mul_r by nia. rewrite (Z.add_comm (r mod zprod post)), (Z.mul_comm (zprod post)), Z.div_add_l by lia.
    rewrite (Z.div_small (r mod zprod post)) by (apply Z.mod_pos_bound; lia). rewrite Z.add_0_r.
    rewrite Z.rem_mul_r by nia. rewrite (Z.mul_comm n (_ mod _)), Z_mod_plus_full. now rewrite Z.mod_mod by lia.
Qed.

Lemma nth_map2 {A B C} (f : A -> B -> C) l : forall m i a b c, (i < length l)%nat -> (i < length m)%nat -> nth i (map2 f l m) c = f (nth i l a) (nth i m b).
Proof. induction l as [|x l IH]; intros [|y m] [|i] a b c H1 H2; cbn in *; try lia; auto. apply IH; lia. Qed.
Lemma list_ext {A} (l m : list A) d : length l = length m -> (forall i, (i < length l)%nat -> nth i l d = nth i m d) -> l = m.
Proof. intros. now apply (nth_ext l m d d). Qed.

Lemma enumeration_length ord (nodes : list (list T)) : zlen (enumeration ord nodes) = zprod (map zlen nodes).
Proof. destruct ord; cbn; unfold product_f, zlen; rewrite ?map_length, product_length; auto. now rewrite map_rev, zprod_rev. Qed.
Lemma enumeration_nth ord nodes r : Forall (fun x => 0 < zlen x) nodes -> 0 <= r < zprod (map zlen nodes) ->
  nth (Z.to_nat r) (enumeration ord nodes) [] = map (cellv ord nodes r) (zrange (zlen nodes)).
Proof.
  intros Hpos Hr. assert (P : Forall (fun n => 0 < n) (map zlen nodes)) by now apply Forall_map.
  assert (Main : length (nth (Z.to_nat r) (enumeration ord nodes) []) = length nodes /\
    forall i, 0 <= i < zlen nodes -> nth (Z.to_nat i) (nth (Z.to_nat r) (enumeration ord nodes) []) d0 = cellv ord nodes r i).
  { destruct ord; cbn [enumeration].
    - rewrite product_nth by auto. rewrite map2_length by (rewrite unravel_length, map_length; auto). split; [auto|].
      intros i Hi. unfold zlen in Hi. rewrite (nth_map2 _ _ _ _ [] 0) by (rewrite ?unravel_length, ?map_length; lia).
      destruct (nodes_split nodes i Hi) as (pre & x & post & En & Hl & Hx & Hf & Hs). unfold cellv, colval. rewrite Hx, Hf, Hs. cbn [inner_c]. f_equal. f_equal.
      rewrite En, map_app in P, Hr |- *. cbn [map] in *. apply Forall_app in P as [P1 P2]. inversion P2; subst.
      unfold zlen at 1. rewrite Nat2Z.id. rewrite <- (map_length zlen pre). now apply unravel_entry.
    - unfold product_f. rewrite map_nth' with (d' := []) by (rewrite <- (Nat2Z.id (length _)), product_length, map_rev, zprod_rev; lia).
      assert (P' : Forall (fun x => 0 < zlen x) (rev nodes)) by now apply Forall_rev.
      assert (Hr' : 0 <= r < zprod (map zlen (rev nodes))) by now rewrite map_rev, zprod_rev.
      rewrite product_nth by auto. split; [rewrite rev_length, map2_length by (rewrite unravel_length, map_length; auto); apply rev_length|].
      intros i Hi. unfold zlen in Hi.
      rewrite rev_nth by (rewrite map2_length by (rewrite unravel_length, map_length; auto); rewrite rev_length; lia).
      rewrite map2_length by (rewrite unravel_length, map_length; auto). rewrite rev_length.
      rewrite (nth_map2 _ _ _ _ [] 0) by (rewrite ?unravel_length, ?map_length, ?rev_length; lia).
      rewrite (rev_nth nodes) by lia. replace (length nodes - S (length nodes - S (Z.to_nat i)))%nat with (Z.to_nat i) by lia.
      destruct (nodes_split nodes i Hi) as (pre & x & post & En & Hl & Hx & Hf & Hs). unfold cellv, colval. rewrite Hx, Hf, Hs. cbn [inner_c]. f_equal. f_equal.
      rewrite En, rev_app_distr in Hr' |- *. cbn [rev] in *. rewrite <- app_assoc in *. cbn [app] in *. rewrite map_app in *. cbn [map] in *.
      rewrite En, map_app in P. apply Forall_app in P as [P1 P2]. inversion P2; subst.
      rewrite app_length. cbn [length]. unfold zlen at 1. rewrite Nat2Z.id.
      replace (length pre + S (length post) - S (length pre))%nat with (length (map zlen (rev post))) by (rewrite map_length, rev_length; lia).
      rewrite unravel_entry; auto; try (rewrite map_rev; now apply Forall_rev). now rewrite map_rev, zprod_rev. }
  destruct Main as [ML MV]. apply (list_ext _ _ d0).
  - rewrite ML, map_length, zrange_length. unfold zlen. now rewrite Nat2Z.id.
  - intros i Hi. rewrite ML in Hi. rewrite <- (Nat2Z.id i), MV by (unfold zlen; lia). rewrite nth_zmap by (unfold zlen; lia). auto.
Qed.

Theorem cartesian_enumerates nodes ord : nodes <> [] -> Forall (fun x => x <> []) nodes ->
  exists out, cartesian nodes ord = Ok out /\ ashape out = [zprod (map zlen nodes); zlen nodes] /\ rows_of out = enumeration ord nodes.
Proof.
  intros Hne Hpos'. assert (Hpos : Forall (fun x => 0 < zlen x) nodes).
  { eapply Forall_impl; [|exact Hpos']. intros [|a l] H; [congruence|]. rewrite zlen_cons. pose proof (zlen_nonneg l). lia. }
  destruct (cartesian_cells nodes ord Hne Hpos) as (out & E & S & V). exists out. split; auto. split; auto.
  unfold rows_of. rewrite S. apply (list_ext _ _ []).
  - rewrite map_length, zrange_length, <- (enumeration_length ord). unfold zlen. apply Nat2Z.id.
  - intros i Hi. rewrite map_length, zrange_length in Hi. rewrite <- (Nat2Z.id i). rewrite nth_zmap by lia. rewrite enumeration_nth by (auto; lia).
    apply map_ext_in. intros j Hj. apply zrange_In in Hj. apply V; lia.
Qed.
End C.
