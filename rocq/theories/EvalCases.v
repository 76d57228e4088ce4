(** Corollaries for eval_linear, concrete cases and counterexamples used in PropsEval. *)
From Coq Require Import ZArith List Bool Reals QArith Lia Lra PrimFloat ZifyBool.
From Verif Require Import Base BaseFacts SplineModel Spec EvalProps EvalExact EvalValue EvalR EvalRProps ExampleData.
Import ListNotations.
Open Scope Z_scope.

Lemma valid_calls_return k orders xm grid comps (C : arr R) :
  valid_grid grid -> kgrid_ok k grid -> coefs_ok k grid comps C -> diff_ok k grid orders ->
  exists F : list R -> list Z -> R, forall pt suf,
    length pt = length grid -> inb (result_shape comps orders) suf = true ->
    forall v, value_at k orders xm grid comps C pt suf v <-> v = F pt suf.
Proof.
  intros Hv Hk HC Hd. exists (outcome k orders xm grid comps C). intros pt suf HL Hs v.
  apply value_at_iff; auto. unfold zlen; lia.
Qed.

Lemma value_linear_at {T} {NT : Num T} mode grid comps (C : arr T) pt suf v :
  value_linear mode grid comps C pt suf v <-> value_at 1 None (default_mode mode) grid comps C pt suf v.
Proof. unfold value_linear, value_at. destruct mode; reflexivity. Qed.
Lemma value_cubic_at {T} {NT : Num T} mode grid comps (C : arr T) pt suf v :
  value_cubic mode grid comps C pt suf v <-> value_at 3 None (default_mode mode) grid comps C pt suf v.
Proof. unfold value_cubic, value_at. destruct mode; reflexivity. Qed.

Lemma eval_linear_at_node mode grid comps (C : arr R) idx suf :
  valid_grid grid -> coefs_ok 1 grid comps C ->
  inb (map gsize grid) idx = true -> inb comps suf = true ->
  value_linear mode grid comps C (node_at grid idx) suf (acell C (idx ++ suf)).
Proof. intros. apply value_linear_at. now apply linear_at_node. Qed.

Lemma eval_linear_multi_affine mode grid comps (C : arr R) f pt suf :
  valid_grid grid -> coefs_ok 1 grid comps C -> inb comps suf = true ->
  multi_affine (length grid) f ->
  (forall idx, inb (map gsize grid) idx = true -> acell C (idx ++ suf) = f (node_at grid idx)) ->
  length pt = length grid -> (default_mode mode = XLinear \/ in_domain grid pt) ->
  value_linear mode grid comps C pt suf (f pt).
Proof. intros. apply value_linear_at. now apply linear_multi_affine. Qed.

Lemma eval_linear_range mode grid comps (C : arr R) m M pt suf v :
  valid_grid grid -> coefs_ok 1 grid comps C -> inb comps suf = true ->
  length pt = length grid ->
  (in_domain grid pt \/ mode = Some XNearest) ->
  (forall idx, inb (map gsize grid) idx = true -> (m <= acell C (idx ++ suf) <= M)%R) ->
  value_linear mode grid comps C pt suf v -> (m <= v <= M)%R.
Proof.
  intros Hv HC Hs HL Hd Hb H. apply value_linear_at in H. eapply linear_range with (xm := default_mode mode); eauto.
  destruct Hd as [Hd| ->]; auto.
Qed.

Lemma closest_exists grid pt : valid_grid grid -> length pt = length grid -> exists! q, closest grid pt q.
Proof.
  intros Hv HL. exists (proj_grid grid pt). split.
  - split; [now apply proj_in_domain|]. revert pt HL.
    induction Hv as [|g grid Hg Hv IH]; intros [|x pt] HL q' Hq'; try discriminate; inversion Hq' as [|g' y gr' q'' Hy Hq'']; subst.
    + cbn. lra.
    + cbn in HL. specialize (IH pt ltac:(lia) q'' Hq''). cbn [proj_grid map2 sqdist].
      fold (proj_grid grid pt). apply Rplus_le_compat; auto.
      pose proof (glo_ghi g Hg). unfold in_dim in Hy. unfold projR, Rmax, Rmin.
      set (lo := glo g) in *. set (hi := ghi g) in *. clearbody lo hi. destruct Hy as [Y1 Y2].
      destruct (Rle_dec x hi) as [A|A].
      * destruct (Rle_dec lo x) as [B|B]; [pose proof (Rle_0_sqr (x - y)) as Q; unfold Rsqr in Q; nra|]. apply Rnot_le_lt in B.
        pose proof (Rle_0_sqr (y - lo)) as Q; unfold Rsqr in Q. assert (0 <= (y - lo) * (lo - x))%R by (apply Rmult_le_pos; lra). nra.
      * apply Rnot_le_lt in A. destruct (Rle_dec lo hi) as [B|B]; [|lra].
        pose proof (Rle_0_sqr (hi - y)) as Q; unfold Rsqr in Q. assert (0 <= (hi - y) * (x - hi))%R by (apply Rmult_le_pos; lra). nra.
  - intros q Hq. symmetry. now apply closest_proj.
Qed.

Lemma inplace_constant_scalar_outside' {T} {NT : Num T} k os grid (C : arr T) pt out r i a b n x :
  coefs_ok k grid [] C -> grid_sizes_ok grid -> all_uniform grid -> length pt = length grid ->
  eval_spline k (Some os) XLinear grid C (P1 pt) None = Ok (r, None) ->
  nth_error grid i = Some (Unif a b n) -> nth_error pt i = Some x ->
  n_ltb x a || n_ltb b x = true ->
  eval_spline k (Some os) XConstant grid C (P1 pt) (Some out) = Ok (VNum (n_ofZ 0), Some out).
Proof. intros. eapply inplace_constant_scalar_outside; eauto. exists i, a, b, n, x. auto. Qed.

(** Counterexample for C06/C09. *)
Lemma inplace_point_refuted :
  exists (grid : list (gdim Q)) C pt a out out',
    coefs_ok 1 grid [2] C /\ grid_sizes_ok grid /\ ashape out = result_shape [2] None /\
    eval_spline 1 None XConstant grid C (P1 pt) None = Ok (VArr a, None) /\
    eval_spline 1 None XConstant grid C (P1 pt) (Some out) = Ok (VNone, Some out') /\
    ~ (acell a [0%Z] == acell out' [0%Z])%Q.
Proof.
  exists qu, qVu, [2; 0]%Q. do 3 eexists. 
  split. { split; [reflexivity|]. right. exists 2. split; [reflexivity|lia]. }
  split. { repeat constructor; cbn; lia. }
  split. 2:{ split. { vm_compute. reflexivity. } split.
    { instantiate (2 := azeros [2]). vm_compute. reflexivity. }
    vm_compute. discriminate. }
  reflexivity.
Qed.

(** Linear derivatives. *)
Lemma linear_partial_nonuniform g1 gc g2 comps (C : arr R) p1 p2 os os' j j' o1 o2 comp F G t :
  let grid := g1 ++ Nonunif gc :: g2 in
  valid_grid grid -> coefs_ok 1 grid comps C ->
  diff_ok 1 grid (Some os) -> diff_ok 1 grid (Some os') ->
  inb comps comp = true -> length p1 = length g1 -> length p2 = length g2 -> length o1 = length g1 ->
  nth_error os j = Some (o1 ++ 0 :: o2) -> nth_error os' j' = Some (o1 ++ 1 :: o2) ->
  (forall t, value_at 1 (Some os) XLinear grid comps C (p1 ++ t :: p2) (comp ++ [Z.of_nat j]) (F t)) ->
  (forall t, value_at 1 (Some os') XLinear grid comps C (p1 ++ t :: p2) (comp ++ [Z.of_nat j']) (G t)) ->
  ~ In t gc -> derivable_pt_lim F t (G t).
Proof.
  intros grid Hv HC Hd Hd' Hs H1 H2 H3 Hn Hn' HF HG Ht.
  destruct (linear_partial_factor g1 (Nonunif gc) g2 comps C p1 p2 os os' j j' o1 o2 comp F G 0
    Hv HC Hd Hd' Hs H1 H2 H3 Hn Hn' HF HG t eq_refl) as [D [HD E]].
  - intros i Hi ->. apply Ht. cbn. apply nth_In. unfold gsize, zlen in Hi. lia.
  - rewrite E. cbn. now rewrite Rmult_1_l.
Qed.
Lemma linear_partial_high' g1 g g2 comps (C : arr R) p1 p2 os os' j j' o1 o2 comp F G l t :
  let grid := g1 ++ g :: g2 in
  valid_grid grid -> coefs_ok 1 grid comps C ->
  diff_ok 1 grid (Some os) -> diff_ok 1 grid (Some os') ->
  inb comps comp = true -> length p1 = length g1 -> length p2 = length g2 -> length o1 = length g1 ->
  nth_error os j = Some (o1 ++ l :: o2) -> nth_error os' j' = Some (o1 ++ l + 1 :: o2) ->
  (forall t, value_at 1 (Some os) XLinear grid comps C (p1 ++ t :: p2) (comp ++ [Z.of_nat j]) (F t)) ->
  (forall t, value_at 1 (Some os') XLinear grid comps C (p1 ++ t :: p2) (comp ++ [Z.of_nat j']) (G t)) ->
  1 <= l -> (forall i, 0 <= i < gsize g -> t <> gnode g i) -> derivable_pt_lim F t (G t).
Proof.
  intros grid Hv HC Hd Hd' Hs H1 H2 H3 Hn Hn' HF HG Hl Ht.
  exact (linear_partial_high g1 g g2 comps C p1 p2 os os' j j' o1 o2 comp F G l
    Hv HC Hd Hd' Hs H1 H2 H3 Hn Hn' HF HG t Hl Ht).
Qed.
Lemma linear_partial_uniform g1 a b n g2 comps (C : arr R) p1 p2 os os' j j' o1 o2 comp F G t :
  let grid := g1 ++ Unif a b n :: g2 in
  valid_grid grid -> coefs_ok 1 grid comps C ->
  diff_ok 1 grid (Some os) -> diff_ok 1 grid (Some os') ->
  inb comps comp = true -> length p1 = length g1 -> length p2 = length g2 -> length o1 = length g1 ->
  nth_error os j = Some (o1 ++ 0 :: o2) -> nth_error os' j' = Some (o1 ++ 1 :: o2) ->
  (forall t, value_at 1 (Some os) XLinear grid comps C (p1 ++ t :: p2) (comp ++ [Z.of_nat j]) (F t)) ->
  (forall t, value_at 1 (Some os') XLinear grid comps C (p1 ++ t :: p2) (comp ++ [Z.of_nat j']) (G t)) ->
  (forall i, 0 <= i < n -> t <> gnode (Unif a b n) i) ->
  let h := ((b - a) / (IZR n - 1))%R in
  exists D, derivable_pt_lim F t D /\ G t = (h * h * D)%R.
Proof.
  intros grid Hv HC Hd Hd' Hs H1 H2 H3 Hn Hn' HF HG Ht h.
  exact (linear_partial_factor g1 (Unif a b n) g2 comps C p1 p2 os os' j j' o1 o2 comp F G 0
    Hv HC Hd Hd' Hs H1 H2 H3 Hn Hn' HF HG t eq_refl Ht).
Qed.

(** ** Concrete cases *)
Lemma have_values k orders xm grid comps (C : arr R) suf :
  valid_grid grid -> kgrid_ok k grid -> coefs_ok k grid comps C -> diff_ok k grid orders ->
  inb (result_shape comps orders) suf = true ->
  exists F, forall q, length q = length grid -> value_at k orders xm grid comps C q suf (F q).
Proof.
  intros Hv Hk HC Hd Hs. exists (fun q => outcome k orders xm grid comps C q suf). intros q Hq.
  apply value_at_outcome; auto. unfold zlen; lia.
Qed.

Definition ex1 : list (gdim R) := [Unif 0 1 3]%R.
Definition ex1C : arr R := mkArr [3] (fun idx => match idx with [i] => IZR i | _ => 0%R end).
Lemma ex1_valid : valid_grid ex1.
Proof. repeat constructor; cbn; try lia; lra. Qed.
Lemma ex1C_ok : coefs_ok 1 ex1 [] ex1C.
Proof. split; auto. Qed.
Lemma ex1_diff : diff_ok 1 ex1 (Some [[0]; [1]]).
Proof. split; [split; [discriminate|repeat constructor]|]. repeat constructor; lia. Qed.

Lemma ex1_affine : multi_affine 1 (fun p => 2 * hd 0 p)%R.
Proof. intros pre x y t post H. destruct pre as [|z pre]; cbn; [ring|]. cbn in H. rewrite app_length in H. cbn in H. lia. Qed.

Lemma linear_partial_uniform_refuted :
  exists (grid : list (gdim R)) C F G t,
    valid_grid grid /\ all_uniform grid /\ coefs_ok 1 grid [] C /\
    (forall t, value_at 1 (Some [[0]; [1]]) XLinear grid [] C [t] [0] (F t)) /\
    (forall t, value_at 1 (Some [[0]; [1]]) XLinear grid [] C [t] [1] (G t)) /\
    (forall i, 0 <= i < 3 -> [t] <> node_at grid [i]) /\
    ~ derivable_pt_lim F t (G t).
Proof.
  destruct (have_values 1 (Some [[0]; [1]]) XLinear ex1 [] ex1C [0] ex1_valid (or_introl eq_refl) ex1C_ok ex1_diff eq_refl) as [F HF].
  destruct (have_values 1 (Some [[0]; [1]]) XLinear ex1 [] ex1C [1] ex1_valid (or_introl eq_refl) ex1C_ok ex1_diff eq_refl) as [G HG].
  exists ex1, ex1C, (fun t => F [t]), (fun t => G [t]), (1 / 4)%R.
  assert (Hnode : forall i, 0 <= i < 3 -> (1 / 4)%R <> gnode (Unif 0 1 3)%R i).
  { intros i Hi. assert (i = 0 \/ i = 1 \/ i = 2) as [->|[->| ->]] by lia; cbn; lra. }
  split; [exact ex1_valid|]. split; [repeat constructor; cbn; auto|]. split; [exact ex1C_ok|].
  split; [intros; now apply HF|]. split; [intros; now apply HG|]. split.
  { intros i Hi E. apply (Hnode i Hi). now inversion E. }
  intros Hc.
  destruct (linear_partial_uniform [] 0 1 3 [] [] ex1C [] [] [[0]; [1]] [[0]; [1]] 0 1 [] [] []
    (fun t => F [t]) (fun t => G [t]) (1 / 4)) as [D [HD E]]; 
    try solve [exact ex1_valid | exact ex1C_ok | exact ex1_diff | reflexivity | exact Hnode | intros; now apply HF | intros; now apply HG].
  cbn beta in E.
  (* F is t -> 2 t *)
  assert (EF : forall t, F [t] = (2 * t)%R).
  { intros t. pose proof (HF [t] eq_refl) as H.
    apply (zero_orders 1 XLinear ex1 [] ex1C [t] [[0]; [1]] 0 [] (F [t])) in H;
      auto using ex1_valid, ex1C_ok, ex1_diff; [|now left].
    eapply value_at_fun; [| exact H|]; auto.
    apply (linear_multi_affine XLinear ex1 [] ex1C (fun p => 2 * hd 0 p)%R [t] []);
      auto using ex1_valid, ex1C_ok, ex1_affine.
    intros idx Hi. destruct idx as [|i [|]]; cbn in Hi; try lia. cbn. field. }
  assert (DF : derivable_pt_lim (fun t => F [t]) (1 / 4) 2%R).
  { replace 2%R with (2 * 1)%R by ring. intros eps He. destruct (derivable_pt_lim_scal id 2 (1 / 4) 1 (derivable_pt_lim_id _) eps He) as [d Hd].
    exists d. intros h Hh1 Hh2. rewrite !EF. apply (Hd h Hh1 Hh2). }
  pose proof (uniqueness_limite _ _ _ _ HD DF). pose proof (uniqueness_limite _ _ _ _ Hc DF). subst D.
  rewrite H0 in E. lra.
Qed.

Lemma ex_cubic_hyps : valid_grid exu /\ kgrid_ok 3 exu /\ coefs_ok 3 exu [] exK /\ diff_ok 3 exu (Some [[0; 0]; [1; 0]]).
Proof.
  split; [exact exu_valid|]. split; [right; split; auto; exact exu_uniform|]. split; [exact exK_ok|].
  split; [split; [discriminate|repeat constructor]|]. repeat constructor; lia.
Qed.
Lemma exg_bounds : glo (Unif 0 1 3)%R = 0%R /\ ghi (Unif 0 1 3)%R = 1%R /\
  glo (Nonunif [0; 1; 3]%R) = 0%R /\ ghi (Nonunif [0; 1; 3]%R) = 3%R.
Proof. split; [|split; [|split; reflexivity]]; unfold glo, ghi; cbn; field. Qed.
Lemma exg_dom x y : (0 <= x <= 1)%R -> (0 <= y <= 3)%R -> in_domain exg [x; y].
Proof.
  destruct exg_bounds as (A & B & C & D). intros Hx Hy.
  constructor; [|constructor; [|constructor]]; unfold in_dim; [rewrite A, B|rewrite C, D]; auto.
Qed.
Lemma exg_dom_inv q : in_domain exg q -> exists x y, q = [x; y] /\ (0 <= x <= 1)%R /\ (0 <= y <= 3)%R.
Proof.
  destruct exg_bounds as (A & B & C & D). intros H.
  inversion H as [|g x gr q1 H1 H']; subst. inversion H' as [|g2 y gr2 q2 H2 H'']; subst. inversion H''; subst.
  unfold in_dim in *. rewrite A, B in H1. rewrite C, D in H2. eauto.
Qed.
Lemma ex_C01 : value_linear None exg [2] exV [1; 3]%R [1] 124%R.
Proof.
  replace [1; 3]%R with (node_at exg [2; 2]).
  - exact (eval_linear_at_node None exg [2] exV [2; 2] [1] exg_valid exV_ok eq_refl eq_refl).
  - cbn. repeat f_equal. field.
Qed.
Definition ex_bilinear (p : list R) : R := match p with [x; y] => (3 + x - 2 * y + 5 * x * y)%R | _ => 0%R end.
Definition ex_sample (f : list R -> R) : arr R := mkArr [3; 3] (fun idx => f (node_at exg idx)).
Lemma ex_bilinear_affine : multi_affine 2 ex_bilinear.
Proof.
  intros pre x y t post H. rewrite app_length in H. cbn in H.
  destruct pre as [|a [|]], post as [|b [|]]; cbn in H; try lia; cbn; ring.
Qed.
Lemma ex_C02 : multi_affine 2 ex_bilinear /\
  value_linear None exg [] (ex_sample ex_bilinear) [7; -3]%R [] (ex_bilinear [7; -3]%R).
Proof.
  split; [exact ex_bilinear_affine|].
  apply eval_linear_multi_affine; auto using exg_valid, ex_bilinear_affine.
  - split; auto.
  - intros idx Hi. cbn. now rewrite app_nil_r.
Qed.
Lemma ex_C03 : in_domain exg [1 / 3; 2]%R /\
  (forall idx, inb (map gsize exg) idx = true -> (0 <= acell exC (idx ++ []) <= 24)%R) /\
  exists v, value_at 1 None XLinear exg [] exC [1 / 3; 2]%R [] v.
Proof.
  split. { apply exg_dom; lra. } split.
  - intros idx Hi. destruct idx as [|i [|j [|]]]; cbn in Hi; try lia. change (zlen [0; 1; 3]%R) with 3 in Hi.
    cbn -[Z.mul IZR]. split; apply IZR_le; nia.
  - destruct (have_values 1 None XLinear exg [] exC [] exg_valid (or_introl eq_refl) exC_ok (diff_ok_none _ _) eq_refl) as [F HF].
    exists (F [1 / 3; 2]%R). now apply HF.
Qed.
Lemma ex_C04 : coefs_ok 1 fg [] fC /\ grid_sizes_ok fg /\ points_ok fg (P1 [nan; infinity]).
Proof. split; [split; auto|]. split; [repeat constructor; cbn; unfold zlen; cbn; lia|]. cbn. unfold zlen. cbn. lia. Qed.
Lemma ex_C05 : is_ok (eval_spline 3 (Some [[0; 0]; [1; 0]]) XNearest qu qK (P2 qP) None) = true /\
  coefs_ok 3 qu [] qK /\ single_point_form XNearest qu [] (Some [[0; 0]; [1; 0]]).
Proof.
  split; [vm_compute; reflexivity|]. split; [split; auto|]. split; [right; repeat constructor; cbn; auto|].
  intros [H _]; discriminate.
Qed.
Lemma ex_C07 : coefs_ok 1 qg [2] qV /\ grid_sizes_ok qg /\
  is_ok (eval_spline 1 (Some [[0; 0]; [1; 0]]) XConstant qg qV (P2 qP) None) = true.
Proof.
  split; [split; [reflexivity|]; right; exists 2; split; [reflexivity|lia]|].
  split; [repeat constructor; cbn; unfold zlen; cbn; lia|]. vm_compute. reflexivity.
Qed.
Lemma ex_C08 : closest exg [7; 1 / 2]%R [1; 1 / 2]%R.
Proof.
  split. { apply exg_dom; lra. }
  intros q' H. destruct (exg_dom_inv q' H) as (x & y & -> & Hx & Hy). cbn.
  pose proof (Rle_0_sqr (1 / 2 - y)) as Q. unfold Rsqr in Q. nra.
Qed.
Lemma ex_C09 : ~ in_domain exg [1 / 2; 4]%R /\ in_domain exg [1 / 2; 3]%R.
Proof.
  split.
  - intros H. destruct (exg_dom_inv _ H) as (x & y & E & Hx & Hy). inversion E; subst. lra.
  - apply exg_dom; lra.
Qed.
Lemma ex_kg : kgrid_ok 3 exu. Proof. right; split; auto; exact exu_uniform. Qed.
Lemma ex_d os : os <> [] -> Forall (fun o => length o = 2%nat /\ Forall (fun l => 0 <= l <= 1) o) os -> diff_ok 3 exu (Some os).
Proof.
  intros H1 H2. split; [split; auto|]; (eapply Forall_impl; [|exact H2]); cbn; intros o [E F].
  - unfold zlen. cbn. lia.
  - eapply Forall_impl; [|exact F]. cbn. intros; lia.
Qed.
Lemma ex_C10 : exists F, forall t, value_at 3 None XLinear exu [] exK ([1 / 3] ++ t :: [])%R [] (F t).
Proof.
  destruct (have_values 3 None XLinear exu [] exK [] exu_valid ex_kg exK_ok (diff_ok_none _ _) eq_refl) as [F HF].
  exists (fun t => F [1 / 3; t]%R). intros t. now apply HF.
Qed.
Lemma ex_C11 : exists v, value_at 3 (Some [[0; 0]; [1; 1]]) XNearest exu [] exK [7; 1 / 3]%R [1] v.
Proof.
  destruct (have_values 3 (Some [[0; 0]; [1; 1]]) XNearest exu [] exK [1] exu_valid ex_kg exK_ok) as [F HF]; auto.
  { apply ex_d; [discriminate|]. repeat constructor; lia. }
  exists (F [7; 1 / 3]%R). now apply HF.
Qed.
Lemma ex_C12 : exists F, forall q, length q = length exg -> value_at 1 None XNearest exg [] exC q [] (F q).
Proof.
  exact (have_values 1 None XNearest exg [] exC [] exg_valid (or_introl eq_refl) exC_ok (diff_ok_none _ _) eq_refl).
Qed.
Lemma ex_C19 : exists F G,
  (forall t, value_at 3 (Some [[1; 0]; [1; 1]]) XLinear exu [] exK ([1 / 3] ++ t :: [])%R ([] ++ [Z.of_nat 0]) (F t)) /\
  (forall t, value_at 3 (Some [[1; 0]; [1; 1]]) XLinear exu [] exK ([1 / 3] ++ t :: [])%R ([] ++ [Z.of_nat 1]) (G t)).
Proof.
  assert (D : diff_ok 3 exu (Some [[1; 0]; [1; 1]])). { apply ex_d; [discriminate|]. repeat constructor; lia. }
  destruct (have_values 3 (Some [[1; 0]; [1; 1]]) XLinear exu [] exK [0] exu_valid ex_kg exK_ok D eq_refl) as [F HF].
  destruct (have_values 3 (Some [[1; 0]; [1; 1]]) XLinear exu [] exK [1] exu_valid ex_kg exK_ok D eq_refl) as [G HG].
  exists (fun t => F [1 / 3; t]%R), (fun t => G [1 / 3; t]%R). split; intros t; [now apply HF|now apply HG].
Qed.
Lemma ex_C21 : exists F G,
  (forall t, value_at 1 (Some [[0; 0]; [0; 1]]) XLinear exg [] exC ([1 / 3] ++ t :: [])%R ([] ++ [Z.of_nat 0]) (F t)) /\
  (forall t, value_at 1 (Some [[0; 0]; [0; 1]]) XLinear exg [] exC ([1 / 3] ++ t :: [])%R ([] ++ [Z.of_nat 1]) (G t)) /\
  ~ In (5 / 2)%R [0; 1; 3]%R.
Proof.
  assert (D : diff_ok 1 exg (Some [[0; 0]; [0; 1]])).
  { split; [split; [discriminate|repeat constructor]|]. repeat constructor; lia. }
  destruct (have_values 1 (Some [[0; 0]; [0; 1]]) XLinear exg [] exC [0] exg_valid (or_introl eq_refl) exC_ok D eq_refl) as [F HF].
  destruct (have_values 1 (Some [[0; 0]; [0; 1]]) XLinear exg [] exC [1] exg_valid (or_introl eq_refl) exC_ok D eq_refl) as [G HG].
  exists (fun t => F [1 / 3; t]%R), (fun t => G [1 / 3; t]%R). split; [intros t; now apply HF|]. split; [intros t; now apply HG|].
  cbn. lra.
Qed.

Lemma default_is_nearest_refuted :
  exists (grid : list (gdim Q)) C pt v w,
    coefs_ok 1 grid [] C /\ grid_sizes_ok grid /\
    eval_linear grid C (P1 pt) None None = Ok (VNum v, None) /\
    eval_linear grid C (P1 pt) None (Some XNearest) = Ok (VNum w, None) /\ ~ (v == w)%Q.
Proof.
  exists qu, qCu, [2; 0]%Q. do 2 eexists. split; [split; auto|]. split; [repeat constructor; cbn; lia|].
  split; [vm_compute; reflexivity|]. split; [vm_compute; reflexivity|]. vm_compute. discriminate.
Qed.
