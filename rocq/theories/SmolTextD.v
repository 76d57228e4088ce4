(** The text of smolyak/grid.py: build_B. *)
From Coq Require Import ZArith List Bool String Lia ZifyBool Reals.
From Verif Require Import SpecSmolText Base BaseFacts CompleteModel SmolyakModel SpecSmolyak SmolyakChains SmolyakB PySyntax NpSem NpFacts SmolText SmolTextA SmolTextB SmolTextC.
Import ListNotations.
Open Scope Z_scope.
Local Notation Forall := List.Forall.

Definition b_build_B := Eval vm_compute in nodoc (snd (sm_def "build_B")).

(** ** Arrays *)
Lemma attr_T_canon (a : arr R) : attribute (VArr (canon a)) "T" = Ok (VArr (canon (atranspose a))).
Proof.
  rewrite (farr_canon a), attr_T, farr_canon. f_equal.
Qed.
Lemma set_column n P (f : list Z -> R) h j : 0 <= j < P ->
  store (farr [n; P] f) [SAll; SI j] (farr [n] h) = Ok (farr [n; P] (fun idx => if nth 1 idx 0 =? j then h [hd 0 idx] else f idx)).
Proof.
  intros H. unfold farr at 1 2. unfold store, as_floats, set_sub. rewrite !tab_shape. cbn [List.length fill_dots pred repeat List.app].
  cbn [sub_shape]. rewrite wrap_in by auto. rewrite in_bool by auto. cbn [bind]. rewrite bshape_same. rewrite idx_eqb_refl. cbn [bind]. f_equal.
  apply farr_ext. intros idx Hi. pose proof Hi as Hi'. apply inb2 in Hi as (p & q & -> & Hp & Hq). cbn [sub_inv nth hd]. rewrite wrap_in by auto. destruct (q =? j).
  - rewrite bidx_id by now apply inb1_. apply tab_cell. now apply inb1_.
  - now apply tab_cell.
Qed.
Lemma set_line n m P (f : list Z -> R) h i j : 0 <= i < n -> 0 <= j < m ->
  store (farr [n; m; P] f) [SI i; SI j; SAll] (farr [P] h) = Ok (farr [n; m; P] (fun idx => if (nth 0 idx 0 =? i) && (nth 1 idx 0 =? j) then h [nth 2 idx 0] else f idx)).
Proof.
  intros H H'. unfold farr at 1 2. unfold store, as_floats, set_sub. rewrite !tab_shape. cbn [List.length fill_dots pred repeat List.app].
  cbn [sub_shape]. rewrite !wrap_in by auto. rewrite !in_bool by auto. cbn [bind]. rewrite bshape_same. rewrite idx_eqb_refl. cbn [bind]. f_equal.
  apply farr_ext. intros idx Hi. pose proof Hi as Hi'. apply inb3 in Hi as (p & q & r & -> & Hp & Hq & Hr). cbn [sub_inv nth hd]. rewrite !wrap_in by auto.
  destruct (p =? i); cbn [andb]; [|now apply tab_cell]. destruct (q =? j); [|now apply tab_cell].
  rewrite bidx_id by now apply inb1_. apply tab_cell. now apply inb1_.
Qed.
Lemma get_line n m P (f : list Z -> R) i j : 0 <= i < n -> 0 <= j < m ->
  subscript (farr [n; m; P] f) [SI i; SI j; SAll] = Ok (farr [P] (fun idx => f [i; j; hd 0 idx])).
Proof.
  intros H H'. unfold farr at 1. unfold subscript, get_sub. rewrite tab_shape. cbn [List.length fill_dots pred repeat List.app].
  cbn [sub_shape]. rewrite !wrap_in by auto. rewrite !in_bool by auto. cbn [bind ashape tab]. f_equal.
  apply farr_ext. intros idx Hi. apply inb1 in Hi as (p & -> & Hp). cbn [sub_idx hd]. rewrite !wrap_in by auto. change (acell (tab (n_ofZ (Num := NumR) 0) [n; m; P] f) [i; j; p] = f [i; j; p]). apply tab_cell. now apply inb3_.
Qed.
Lemma get_plane n m P (f : list Z -> R) i : 0 <= i < n ->
  subscript (farr [n; m; P] f) [SI i; SAll; SAll] = Ok (farr [m; P] (fun idx => f (i :: idx))).
Proof. intros H. rewrite <- (subscript_first n m [P] f i H). reflexivity. Qed.
Lemma set_plane n m P (f h : list Z -> R) i : 0 <= i < n ->
  store (farr [n; m; P] f) [SI i; SAll; SAll] (farr [m; P] h) = Ok (farr [n; m; P] (fun idx => if hd 0 idx =? i then h (tl idx) else f idx)).
Proof. intros H. rewrite <- (set_first n m [P] f h i H). reflexivity. Qed.

Lemma reduce_farr sh (f : list Z -> R) g (l : list Z) :
  reduce_ (farr sh f) (map (fun i => farr sh (g i)) l) = Ok (farr sh (fun idx => fold_left (fun acc i => acc * g i idx)%R l (f idx))).
Proof.
  revert f. induction l as [|i l IH]; intros f; [reflexivity|]. cbn [map reduce_]. rewrite (bin_ff "*" n_mul) by reflexivity. cbn [bind]. now rewrite IH.
Qed.
Lemma fold_mul (g : Z -> R) l a : fold_left (fun acc i => acc * g i)%R l a = (a * rprod (map g l))%R.
Proof. revert a. induction l as [|i l IH]; intros a; cbn; [ring|]. rewrite IH. unfold rprod. ring. Qed.

(** A loop over a range. *)
Lemma iterate_range (body : val R -> env R -> res (state R)) (g : Z -> val R) (I : Z -> env R -> Prop) n E : 0 <= n -> I 0 E ->
  (forall j E, 0 <= j < n -> I j E -> exists E', body (g j) E = Ok (Nxt, E') /\ I (j + 1) E') ->
  exists E', iterate body (map g (zrange n)) E = Ok (Nxt, E') /\ I n E'.
Proof.
  intros Hn HI HB.
  assert (G : forall len j, 0 <= j -> j + Z.of_nat len = n -> forall E, I j E -> exists E', iterate body (map g (map (fun i => j + Z.of_nat i) (seq 0 len))) E = Ok (Nxt, E') /\ I n E').
  { induction len as [|len IH]; intros j Hj Hl E0 H0; [cbn; exists E0; split; auto; replace n with j by lia; auto|].
    cbn [seq map iterate]. replace (j + Z.of_nat 0) with j by lia. destruct (HB j E0 ltac:(lia) H0) as (E1 & -> & H1). cbn [bind].
    destruct (IH (j + 1) ltac:(lia) ltac:(lia) E1 H1) as (E2 & H2 & H3). exists E2. split; auto. rewrite <- H2. f_equal. rewrite <- seq_shift, !map_map. apply map_ext. intros i. f_equal. lia. }
  destruct (G (Z.to_nat n) 0 ltac:(lia) ltac:(lia) E HI) as (E' & H1 & H2). exists E'. split; auto.
Qed.
Definition vtup (c : list Z) : val R := VTup (map VInt c).
Lemma lib_enum X (l : list (list Z)) : library X "enumerate" [VList (map vtup l)] = Some (Ok (VList (map (fun j => VTup [VInt j; vtup (nth (Z.to_nat j) l [])]) (zrange (zlen l))))).
Proof.
  cbv [library String.eqb Ascii.eqb Bool.eqb orb]. cbn [items bind]. do 3 f_equal. unfold zrange, zlen. rewrite map_length, Nat2Z.id, map_map.
  assert (G : forall s l', (forall i, nth (s + i) l [] = nth i l' []) -> map (fun p => VTup [VInt (Z.of_nat (fst p)); snd p]) (combine (seq s (List.length l')) (map vtup l')) =
    map (fun x => VTup [VInt (Z.of_nat x); vtup (nth (Z.to_nat (Z.of_nat x)) l [])]) (seq s (List.length l'))).
  { intros s l'. revert s. induction l' as [|c l' IH]; intros s H; [reflexivity|]. cbn [List.length seq map combine fst snd]. f_equal.
    - rewrite Nat2Z.id. specialize (H O). rewrite Nat.add_0_r in H. rewrite H. reflexivity.
    - apply IH. intros i. specialize (H (S i)). rewrite Nat.add_succ_r in H. exact H. }
  apply G. reflexivity.
Qed.
Lemma sub_vtup c z : 0 <= z < zlen c -> subscript (vtup c) [SI z] = Ok (VInt (nth (Z.to_nat z) c 0)).
Proof.
  intros H. unfold vtup, subscript. rewrite zlen_map, wrap_in by auto. unfold lget. destruct (Z.ltb_spec z 0); [lia|].
  rewrite nth_error_map. erewrite nth_error_nth' by (unfold zlen in H; lia). reflexivity.
Qed.

Section D.
Variable X : externals R.
Notation run := (run X sm_program).
Variables (d m npts : Z) (pts : arr R) (b_inds : list (list Z)) (mu : mu_t).
Hypothesis (Hd : 1 <= d) (Hn : 0 <= npts) (Hsh : ashape pts = [npts; d]) (Hb : indices_ok d m b_inds) (Hm : 1 <= m) (Hmu : max_mu mu = Ok m).
Let P := zlen b_inds.
Let top := 2 ^ m + 1.
Let HP : 0 <= P := zlen_nonneg b_inds.

(** The products of the table [Ts]. *)
Definition colv (Ts : arr R) (comb : list Z) (p : Z) : R := rprod (map (fun i => acell Ts [nth (Z.to_nat i) comb 0 - 1; i; p]) (zrange d)).
Definition linev (Ts : arr R) (Us : list Z -> R) (comb : list Z) (i p : Z) : R :=
  rprod (map (fun k => if negb (i =? k) then acell Ts [nth (Z.to_nat k) comb 0 - 1; k; p] else Us [nth (Z.to_nat k) comb 0 - 1; k; p]) (zrange d)).

Lemma comb_at j k : 0 <= j < P -> 0 <= k < d -> zlen (nth (Z.to_nat j) b_inds []) = d /\ 1 <= nth (Z.to_nat k) (nth (Z.to_nat j) b_inds []) 0 <= top.
Proof.
  intros Hj Hk. destruct (comb_ok d m b_inds Hd Hb Hm j Hj) as (comb & _ & -> & Hc & H). split; auto. destruct (H k Hk) as (c & _ & -> & Hc'). exact Hc'.
Qed.

Section Loops.
Variable call : string -> list (val R) -> list (string * val R) -> res (val R).
Variable invoke : val R -> string -> list (val R) -> list (string * val R) -> res (val R).
Variable fuel : nat.
Notation block := (block X call invoke fuel).
Variable Ts : arr R.
Hypothesis (HT : ashape Ts = [top + 1; d; npts]).
Definition e_col : expr := ECall (EName "reduce") [EName "mul"; EComp (ESub (EName "Ts") [EBin "-" (ESub (EName "comb") [EName "i"]) (EInt 1); EName "i"; ESlice None None None]) (EName "i") (ECall (EName "range") [EName "d"] []) None] [].
Lemma eval_col E j : 0 <= j < P -> K [("d"%string, VInt d); ("Ts"%string, VArr (canon Ts)); ("comb"%string, vtup (nth (Z.to_nat j) b_inds []))] E ->
  eval X call invoke E e_col = Ok (farr [npts] (fun idx => colv Ts (nth (Z.to_nat j) b_inds []) (hd 0 idx))).
Proof.
  intros Hj HK. set (comb := nth (Z.to_nat j) b_inds []) in *. unfold e_col.
  assert (HC : eval X call invoke E (EComp (ESub (EName "Ts") [EBin "-" (ESub (EName "comb") [EName "i"]) (EInt 1); EName "i"; ESlice None None None]) (EName "i") (ECall (EName "range") [EName "d"] []) None)
     = Ok (VList (map (fun i => farr [npts] (fun idx => acell Ts [nth (Z.to_nat i) comb 0 - 1; i; hd 0 idx])) (zrange d)))).
  { eapply ev_comp; [eve | reflexivity |]. eapply (pick_map X _ _ VInt). intros i Hi. apply zrange_In in Hi. destruct (comb_at j i Hj Hi) as [Hl Hc]. fold comb in Hl, Hc.
    pose proof (sub_vtup comb i ltac:(lia)) as Hs.
    eapply eq_trans; [eapply ev_sub; [eve | evsub] |]. rewrite (farr_canon Ts), HT. apply get_line; lia. }
  rewrite zrange_cons in HC by lia. cbn [map] in HC. rewrite map_map in HC.
  eapply eq_trans; [eapply ev_reduce; [exact HC | reflexivity] |]. rewrite (reduce_farr [npts] _ (fun x idx => acell Ts [nth (Z.to_nat (Z.succ x)) comb 0 - 1; Z.succ x; hd 0 idx])).
  f_equal. apply farr_ext. intros idx Hi. rewrite (fold_mul (fun x => acell Ts [nth (Z.to_nat (Z.succ x)) comb 0 - 1; Z.succ x; hd 0 idx])).
  unfold colv. rewrite (zrange_cons d) by lia. cbn [map]. rewrite map_map. reflexivity.
Qed.
Definition b_values : list stmt := [SAssign [ESub (EName "B") [ESlice None None None; EName "ind"]] e_col].
Definition enum (j : Z) : val R := VTup [VInt j; vtup (nth (Z.to_nat j) b_inds [])].
Definition KB (v : val R) : env R -> Prop :=
  K [("d"%string, VInt d); ("npts"%string, VInt npts); ("npolys"%string, VInt P); ("mu"%string, vmu mu); ("max_mu"%string, VInt m); ("pts"%string, VArr (canon pts));
     ("b_inds"%string, VList (map vtup b_inds)); ("Ts"%string, VArr (canon Ts)); ("B"%string, v)].
Lemma loop_values E : KB (farr [npts; P] (fun _ => 0%R)) E ->
  exists E', iterate (fun w E => E <- bind_target E (ETup [EName "ind"; EName "comb"]) w ;; block b_values E) (map enum (zrange P)) E = Ok (Nxt, E') /\
    (forall x, x <> "ind"%string -> x <> "comb"%string -> x <> "B"%string -> E' x = E x) /\
    KB (farr [npts; P] (fun idx => colv Ts (nth (Z.to_nat (nth 1 idx 0)) b_inds []) (nth 0 idx 0))) E'.
Proof.
  intros HK.
  set (I := fun j E1 => (forall x, x <> "ind"%string -> x <> "comb"%string -> x <> "B"%string -> E1 x = E x) /\ KB (farr [npts; P] (fun idx => if nth 1 idx 0 <? j then colv Ts (nth (Z.to_nat (nth 1 idx 0)) b_inds []) (nth 0 idx 0) else 0%R)) E1).
  edestruct (iterate_range (fun w E => E <- bind_target E (ETup [EName "ind"; EName "comb"]) w ;; block b_values E) enum I P E HP) as (E' & HE & Hx & HK').
  - split; auto. unfold KB in *. set (v := farr [npts; P] (fun idx => if nth 1 idx 0 <? 0 then _ else _)). assert (Ev : v = farr [npts; P] (fun _ => 0%R)).
    { apply farr_ext. intros idx Hi. apply inb2 in Hi as (p & q & -> & Hp & Hq). cbn [nth]. destruct (Z.ltb_spec q 0); [lia|reflexivity]. }
    rewrite Ev. exact HK.
  - intros j E1 Hj [Hx HK1]. unfold enum. cbn [bind_target items bind bind_names]. unfold b_values. unfold KB in HK1. set (B0 := farr [npts; P] _) in HK1.
    set (E2 := upd _ _ _). assert (HK2 : K [("d"%string, VInt d); ("Ts"%string, VArr (canon Ts)); ("comb"%string, vtup (nth (Z.to_nat j) b_inds []))] E2) by (unfold E2; kk).
    pose proof (eval_col E2 j Hj HK2) as Hcol. eexists. split; [|split].
    + erewrite block_next; [reflexivity|]. unfold E2 in *. eapply exec_set_; [exact Hcol | eapply assign_sub; [evsub | look | apply set_column; exact Hj]].
    + intros x H1 H2 H3. unfold E2. rewrite !upd_other by auto. auto.
    + unfold KB. set (v := farr _ _). set (v' := farr _ _). assert (Ev : v = v').
      { apply farr_ext. intros idx Hi. apply inb2 in Hi as (p & q & -> & Hp & Hq). cbn [nth hd]. destruct (Z.eqb_spec q j) as [->|].
        - destruct (Z.ltb_spec j (j + 1)); [reflexivity|lia].
        - destruct (Z.ltb_spec q j), (Z.ltb_spec q (j + 1)); auto; lia. }
      rewrite <- Ev. unfold E2. kk.
  - exists E'. split; [exact HE|]. split; [exact Hx|]. refine (eq_ind _ (fun v => KB v E') HK' _ _).
    apply farr_ext. intros idx Hi. apply inb2 in Hi as (p & q & -> & Hp & Hq). cbn [nth]. destruct (Z.ltb_spec q P); [reflexivity|lia].
Qed.

(** The derivative *)
Definition NU := 1 + (top + 1).
Definition b_scale : list stmt := [SAssign [ESub (EName "Us") [EName "i"; ESlice None None None; ESlice None None None]]
  (EBin "*" (ESub (EName "Us") [EName "i"; ESlice None None None; ESlice None None None]) (EName "i"))].
Lemma NU_pos : 0 <= NU.
Proof. unfold NU, top. pose proof (Z.pow_nonneg 2 m). lia. Qed.
Lemma loop_scale E U : E "Us"%string = Some (farr [NU; d; npts] U) ->
  exists E', iterate (fun w E => E <- bind_target E (EName "i") w ;; block b_scale E) (map VInt (zrange NU)) E = Ok (Nxt, E') /\
    (forall x, x <> "i"%string -> x <> "Us"%string -> E' x = E x) /\ E' "Us"%string = Some (farr [NU; d; npts] (fun idx => U idx * IZR (hd 0%Z idx))%R).
Proof.
  intros HU.
  set (I := fun j E1 => (forall x, x <> "i"%string -> x <> "Us"%string -> E1 x = E x) /\ E1 "Us"%string = Some (farr [NU; d; npts] (fun idx => if (hd 0%Z idx <? j)%Z then U idx * IZR (hd 0%Z idx) else U idx)%R)).
  edestruct (iterate_range (fun w E => E <- bind_target E (EName "i") w ;; block b_scale E) VInt I NU E NU_pos) as (E' & HE & Hx & HK').
  - split; auto. rewrite HU. f_equal. apply farr_ext. intros idx Hi. apply inb3 in Hi as (p & q & r & -> & Hp & Hq). cbn [hd]. destruct (Z.ltb_spec p 0); [lia|reflexivity].
  - intros j E1 Hj [Hx H1]. cbn [bind_target bind]. eexists. split; [|split].
    + unfold b_scale. match type of H1 with _ = Some (farr _ ?g) => set (f := g) in H1 end. pose proof (get_plane NU d npts f j Hj) as Hg. erewrite block_next; [reflexivity|].
      eapply exec_set_; [eve | eapply assign_sub; [evsub | look | apply set_plane; exact Hj]].
    + intros x H2 H3. rewrite !upd_other by auto. auto.
    + rewrite upd_same. f_equal. apply farr_ext. intros idx Hi. apply inb3 in Hi as (p & q & r & -> & Hp & Hq). cbn [hd tl]. destruct (Z.eqb_spec p j) as [->|].
      * destruct (Z.ltb_spec j (j + 1)), (Z.ltb_spec j j); try lia. reflexivity.
      * destruct (Z.ltb_spec p j), (Z.ltb_spec p (j + 1)); auto; lia.
  - exists E'. split; [exact HE|]. split; [exact Hx|]. rewrite HK'. f_equal. apply farr_ext. intros idx Hi. apply inb3 in Hi as (p & q & r & -> & Hp & Hq). cbn [hd]. destruct (Z.ltb_spec p NU); [reflexivity|lia].
Qed.

Variable U : list Z -> R.
Definition e_line : expr := ECall (EName "reduce") [EName "mul"; EComp (EIfE (ECmp (EName "i") [("!="%string, EName "k")])
  (ESub (EName "Ts") [EBin "-" (ESub (EName "comb") [EName "k"]) (EInt 1); EName "k"; ESlice None None None])
  (ESub (EName "Us") [EBin "-" (ESub (EName "comb") [EName "k"]) (EInt 1); EName "k"; ESlice None None None])) (EName "k") (ECall (EName "range") [EName "d"] []) None] [].
Lemma eval_line E j i : 0 <= j < P -> K [("d"%string, VInt d); ("Ts"%string, VArr (canon Ts)); ("Us"%string, farr [NU; d; npts] U); ("comb"%string, vtup (nth (Z.to_nat j) b_inds [])); ("i"%string, VInt i)] E ->
  eval X call invoke E e_line = Ok (farr [npts] (fun idx => linev Ts U (nth (Z.to_nat j) b_inds []) i (hd 0 idx))).
Proof.
  intros Hj HK. set (comb := nth (Z.to_nat j) b_inds []) in *. unfold e_line.
  set (F := fun k p => if negb (i =? k) then acell Ts [nth (Z.to_nat k) comb 0 - 1; k; p] else U [nth (Z.to_nat k) comb 0 - 1; k; p]).
  match goal with |- context [EComp ?a ?b ?c ?e] => assert (HC : eval X call invoke E (EComp a b c e) = Ok (VList (map (fun k => farr [npts] (fun idx => F k (hd 0 idx))) (zrange d)))) end.
  { eapply ev_comp; [eve | reflexivity |]. eapply (pick_map X _ _ VInt). intros k Hk. apply zrange_In in Hk. destruct (comb_at j k Hj Hk) as [Hl Hc]. fold comb in Hl, Hc.
    pose proof (sub_vtup comb k ltac:(lia)) as Hs.
    eapply eq_trans; [eapply ev_ife; eve |]. unfold F. destruct (negb (i =? k)).
    - eapply eq_trans; [eapply ev_sub; [eve | evsub] |]. rewrite (farr_canon Ts), HT. apply get_line; lia.
    - eapply eq_trans; [eapply ev_sub; [eve | evsub] |]. apply get_line; [unfold NU; lia|lia]. }
  rewrite zrange_cons in HC by lia. cbn [map] in HC. rewrite map_map in HC.
  eapply eq_trans; [eapply ev_reduce; [exact HC | reflexivity] |]. rewrite (reduce_farr [npts] _ (fun x idx => F (Z.succ x) (hd 0 idx))).
  f_equal. apply farr_ext. intros idx Hi. rewrite (fold_mul (fun x => F (Z.succ x) (hd 0 idx))).
  unfold linev. rewrite (zrange_cons d) by lia. cbn [map]. rewrite map_map. reflexivity.
Qed.
Definition b_line : list stmt := [SAssign [ESub (EName "der_B") [EName "ind"; EName "i"; ESlice None None None]] e_line].
Definition b_deriv : list stmt := [SFor (ETup [EName "ind"; EName "comb"]) (ECall (EName "enumerate") [EName "b_inds"] []) b_line].
Definition KD (v : val R) : env R -> Prop :=
  K [("d"%string, VInt d); ("b_inds"%string, VList (map vtup b_inds)); ("Ts"%string, VArr (canon Ts)); ("Us"%string, farr [NU; d; npts] U); ("der_B"%string, v)].
Definition dcell (idx : list Z) : R := linev Ts U (nth (Z.to_nat (nth 0 idx 0)) b_inds []) (nth 1 idx 0) (nth 2 idx 0).
Lemma loop_line E i : 0 <= i < d -> E "i"%string = Some (VInt i) -> KD (farr [P; d; npts] (fun idx => if (nth 1 idx 0 <? i)%Z then dcell idx else 0%R)) E ->
  exists E', block b_deriv E = Ok (Nxt, E') /\
    (forall x, x <> "ind"%string -> x <> "comb"%string -> x <> "der_B"%string -> E' x = E x) /\
    KD (farr [P; d; npts] (fun idx => if (nth 1 idx 0 <? i + 1)%Z then dcell idx else 0%R)) E'.
Proof.
  intros Hi Ei HK. unfold b_deriv. rewrite block_cons.
  pose proof (lib_enum X b_inds) as Hen. pose proof HK as HK_. unfold KD in HK_.
  erewrite exec_for; [| eapply ev_lib; [reflexivity | reflexivity | evs | evk | reflexivity | exact Hen] | reflexivity].
  set (I := fun j E1 => (forall x, x <> "ind"%string -> x <> "comb"%string -> x <> "der_B"%string -> E1 x = E x) /\
     KD (farr [P; d; npts] (fun idx => if (nth 1 idx 0 <? i) || ((nth 1 idx 0 =? i) && (nth 0 idx 0 <? j)) then dcell idx else 0%R)) E1).
  edestruct (iterate_range (fun w E => E <- bind_target E (ETup [EName "ind"; EName "comb"]) w ;; block b_line E) enum I P E HP) as (E' & HE & Hx & HK').
  - split; auto. refine (eq_ind _ (fun v => KD v E) HK _ _). apply farr_ext. intros idx H. apply inb3 in H as (p & q & r & -> & Hp & Hq & Hr). cbn [nth].
    destruct (Z.ltb_spec p 0); [lia|]. now rewrite andb_false_r, orb_false_r.
  - intros j E1 Hj [Hx HK1]. unfold enum. cbn [bind_target items bind bind_names]. unfold b_line. unfold KD in HK1. set (D0 := farr [P; d; npts] _) in HK1.
    assert (Ei1 : E1 "i"%string = Some (VInt i)) by (rewrite Hx; [exact Ei | discriminate | discriminate | discriminate]).
    set (E2 := upd _ _ _). assert (HK2 : K [("d"%string, VInt d); ("Ts"%string, VArr (canon Ts)); ("Us"%string, farr [NU; d; npts] U); ("comb"%string, vtup (nth (Z.to_nat j) b_inds [])); ("i"%string, VInt i)] E2) by (unfold E2; kk).
    pose proof (eval_line E2 j i Hj HK2) as Hcol. eexists. split; [|split].
    + erewrite block_next; [reflexivity|]. unfold E2 in *. eapply exec_set_; [exact Hcol | eapply assign_sub; [evsub | look | apply set_line; [exact Hj | exact Hi]]].
    + intros x H1 H2 H3. unfold E2. rewrite !upd_other by auto. auto.
    + unfold KD. set (v := farr _ _). set (v1 := farr _ _). set (v' := farr _ _). assert (Ev : v1 = v').
      { apply farr_ext. intros idx H. apply inb3 in H as (p & q & r & -> & Hp & Hq & Hr). cbn [nth hd]. destruct (Z.eqb_spec p j) as [->|]; cbn [andb].
        - destruct (Z.eqb_spec q i) as [->|]; [|reflexivity]. destruct (Z.ltb_spec j (j + 1)); [|lia]. rewrite orb_true_r. reflexivity.
        - destruct (Z.ltb_spec p j), (Z.ltb_spec p (j + 1)); auto; lia. }
      rewrite <- Ev. unfold E2. kk.
  - unfold b_line in HE |- *. exists E'. split; [|split; [exact Hx|]].
    + fold P. unfold enum in HE. rewrite HE. reflexivity.
    + refine (eq_ind _ (fun v => KD v E') HK' _ _). apply farr_ext. intros idx H. apply inb3 in H as (p & q & r & -> & Hp & Hq & Hr). cbn [nth].
      destruct (Z.ltb_spec p P); [|lia]. rewrite andb_true_r. destruct (Z.ltb_spec q i), (Z.eqb_spec q i), (Z.ltb_spec q (i + 1)); auto; lia.
Qed.
Lemma loop_deriv E : KD (farr [P; d; npts] (fun _ => 0%R)) E ->
  exists E', iterate (fun w E => E <- bind_target E (EName "i") w ;; block b_deriv E) (map VInt (zrange d)) E = Ok (Nxt, E') /\
    (forall x, x <> "i"%string -> x <> "ind"%string -> x <> "comb"%string -> x <> "der_B"%string -> E' x = E x) /\ KD (farr [P; d; npts] dcell) E'.
Proof.
  intros HK.
  set (I := fun j E1 => (forall x, x <> "i"%string -> x <> "ind"%string -> x <> "comb"%string -> x <> "der_B"%string -> E1 x = E x) /\ KD (farr [P; d; npts] (fun idx => if (nth 1 idx 0 <? j)%Z then dcell idx else 0%R)) E1).
  edestruct (iterate_range (fun w E => E <- bind_target E (EName "i") w ;; block b_deriv E) VInt I d E ltac:(lia)) as (E' & HE & Hx & HK').
  - split; auto. refine (eq_ind _ (fun v => KD v E) HK _ _). apply farr_ext. intros idx H. apply inb3 in H as (p & q & r & -> & Hp & Hq & Hr). cbn [nth]. destruct (Z.ltb_spec q 0); [lia|reflexivity].
  - intros j E1 Hj [Hx HK1]. cbn [bind_target bind]. destruct (loop_line (upd E1 "i" (VInt j)) j Hj) as (E2 & HE2 & Hx2 & HK2).
    + apply upd_same.
    + unfold KD in *. kk.
    + exists E2. split; [exact HE2|]. split; [|exact HK2]. intros x H1 H2 H3 H4. rewrite Hx2 by auto. rewrite upd_other by auto. auto.
  - exists E'. split; [exact HE|]. split; [exact Hx|]. refine (eq_ind _ (fun v => KD v E') HK' _ _). apply farr_ext. intros idx H. apply inb3 in H as (p & q & r & -> & Hp & Hq & Hr). cbn [nth]. destruct (Z.ltb_spec q d); [reflexivity|lia].
Qed.
End Loops.

Lemma top_ge_ : 3 <= top.
Proof. unfold top. pose proof (Z.pow_le_mono_r 2 1 m). lia. Qed.
Lemma m_i_top : m_i (m + 1) = Ok top.
Proof. rewrite m_i_last by lia. rewrite last_ge2 by lia. replace (m + 1 - 1) with m by lia. reflexivity. Qed.
Lemma shape_T : ashape (atranspose pts) = [d; npts].
Proof. unfold atranspose. cbn [ashape]. rewrite Hsh. reflexivity. Qed.
Lemma run_Ts k kind vs ks : (vs = [VFlt kind] /\ ks = [] \/ vs = [] /\ ks = [("kind"%string, VFlt kind)] \/ vs = [] /\ ks = [] /\ kind = n_ofZ 1) ->
  exists Ts, run (S k) "cheby2n" (VArr (canon (atranspose pts)) :: VInt top :: vs) ks = Ok (VArr (canon Ts)) /\ ashape Ts = [top + 1; d; npts] /\
    forall i j p, 0 <= i <= top -> acell Ts [i; j; p] = chebk kind (Z.to_nat i) (acell pts [p; j]).
Proof.
  intros Hk. pose proof top_ge_. destruct (cheby2n_spec (atranspose pts) top kind ltac:(lia)) as (Ts & HTs & HT & HC). exists Ts.
  destruct (run_cheby2n X k d [npts] (atranspose pts) top kind Ts vs ks shape_T HTs Hk) as [G1 G2]. split; [exact G1|]. split; [exact G2|].
  intros i j p Hi. rewrite HC by auto. reflexivity.
Qed.
Lemma prefix k E : K [("d"%string, VInt d); ("mu"%string, vmu mu); ("pts"%string, VArr (canon pts)); ("b_inds"%string, VList (map vtup b_inds))] E ->
  exists Ts E', ashape Ts = [top + 1; d; npts] /\ (forall i j p, 0 <= i <= top -> acell Ts [i; j; p] = cheb (Z.to_nat i) (acell pts [p; j])) /\
    block X (run (S k)) (inv X sm_program (S k)) (S k) b_build_B E = block X (run (S k)) (inv X sm_program (S k)) (S k) (skipn 7 b_build_B) E' /\
    E' "deriv"%string = E "deriv"%string /\ KB Ts (farr [npts; P] (fun idx => colv Ts (nth (Z.to_nat (nth 1 idx 0)) b_inds []) (nth 0 idx 0))) E'.
Proof.
  intros HK. destruct (run_Ts k (n_ofZ 1) [] [] ltac:(right; right; auto)) as (Ts & HTs & HT & HC).
  exists Ts. unfold b_build_B. cbn [skipn]. rewrite block_cons. erewrite exec_if by eve. cbv iota. rewrite block_nil. cbn [bind].
  erewrite block_next; [| apply (max_mu_text X _ _ _ E _ mu m "max_mu" Hmu ltac:(look) eq_refl)].
  pose proof (attr_T_canon pts) as HpT. pose proof (run_m_i X k (m + 1)) as Hmi. rewrite m_i_top in Hmi.
  erewrite block_next.
  2:{ eapply exec_set. eapply eq_trans; [eapply ev_fun; [reflexivity | eapply evs_cons; [reflexivity | eapply eq_trans; [eapply ev_attr; [reflexivity | eve] | exact HpT] |
        eapply evs_cons; [reflexivity | eapply eq_trans; [eapply ev_fun; [reflexivity | evs | evk | reflexivity] | exact Hmi] | apply evs_nil]] | evk | reflexivity] | exact HTs]. }
  assert (Hlen : library X "len" [VList (map vtup b_inds)] = Some (Ok (VInt P))) by (cbv [library String.eqb Ascii.eqb Bool.eqb orb]; now rewrite zlen_map).
  erewrite block_next. 2:{ eapply exec_set. eapply ev_lib; [reflexivity | reflexivity | evs | evk | reflexivity | exact Hlen]. }
  assert (Hshp : attribute (VArr (canon pts)) "shape" = Ok (VTup (map VInt [npts; d]))) by (rewrite farr_canon, attr_shape, Hsh; reflexivity).
  erewrite block_next. 2:{ eapply exec_set. eapply eq_trans; [eapply ev_sub; [eapply eq_trans; [eapply ev_attr; [reflexivity | eve] | exact Hshp] | evsub] | reflexivity]. }
  erewrite block_next. 2:{ eapply exec_set. eapply ev_lib; [reflexivity | reflexivity | evs | evk | reflexivity | reflexivity]. }
  set (E1 := upd _ "B"%string _). rewrite block_cons.
  assert (HK1 : KB Ts (farr [npts; P] (fun _ => 0%R)) E1) by (unfold E1, KB; kk).
  assert (Hde : E1 "deriv"%string = E "deriv"%string) by (unfold E1; rewrite !upd_other by discriminate; reflexivity). clearbody E1.
  pose proof (lib_enum X b_inds) as Hen. pose proof HK1 as HK_. unfold KB in HK_.
  erewrite exec_for; [| eapply ev_lib; [reflexivity | reflexivity | evs | evk | reflexivity | exact Hen] | reflexivity].
  destruct (loop_values (run (S k)) (inv X sm_program (S k)) (S k) Ts HT E1 HK1) as (E' & HE & Hx & HK').
  exists E'. split; auto. split; [intros i j p Hi; rewrite HC by auto; cbn [n_ofZ NumR]; apply chebk_1|]. split; [|split; auto].
  - unfold b_values, e_col, enum in HE. fold P. rewrite HE. reflexivity.
  - rewrite Hx by discriminate. exact Hde.
Qed.
Lemma colv_basis Ts : (forall i j p, 0 <= i <= top -> acell Ts [i; j; p] = cheb (Z.to_nat i) (acell pts [p; j])) -> forall p j, 0 <= j < P ->
  colv Ts (nth (Z.to_nat j) b_inds []) p = basis (nth (Z.to_nat j) b_inds []) (mrow d pts p).
Proof.
  intros HC p j Hj. unfold colv. rewrite (basis_rprod d); [| | unfold mrow; rewrite zlen_map, zlen_zrange; lia].
  - f_equal. apply map_ext_in. intros k Hk. apply zrange_In in Hk. destruct (comb_at j k Hj Hk) as [_ Hc]. rewrite HC by lia. unfold mrow. rewrite (nth_zmap (fun k => acell pts [p; k])) by auto. reflexivity.
  - destruct (comb_ok d m b_inds Hd Hb Hm j Hj) as (c & _ & <- & Hc & _). exact Hc.
Qed.
Lemma run_build_B k B : build_B d mu pts b_inds false = Ok (B, None) ->
  run (S (S k)) "build_B" [VInt d; vmu mu; VArr (canon pts); VList (map vtup b_inds)] [] = Ok (VArr (canon B)).
Proof.
  intros HB. destruct (build_B_spec d m npts pts b_inds Hd Hn Hsh Hb Hm mu Hmu) as (B' & HB' & HBs & HBv). rewrite HB in HB'. injection HB' as <-.
  enter. fold b_build_B. set (E := upd _ "d"%string _).
  assert (HK : K [("d"%string, VInt d); ("mu"%string, vmu mu); ("pts"%string, VArr (canon pts)); ("b_inds"%string, VList (map vtup b_inds))] E) by (unfold E; kk).
  assert (Hde : E "deriv"%string = Some (VBool false)) by (unfold E; look). clearbody E.
  destruct (prefix k E HK) as (Ts & E' & HT & HC & -> & Hde' & HK'). rewrite Hde in Hde'. unfold KB in HK'. cbn [skipn b_build_B].
  rewrite block_cons. erewrite exec_if by eve. cbv iota. rewrite block_nil. cbn [bind].
  eapply eq_trans; [eapply ends_ret; eapply block_ret; eapply exec_ret; eve |]. rewrite (farr_canon B), HBs. f_equal. apply farr_ext.
  intros idx Hi. apply inb2 in Hi as (p & q & -> & Hp & Hq). cbn [nth]. rewrite HBv by auto. now apply colv_basis.
Qed.

(** np.concatenate((zeros((1, d, npts)), Us)) *)
Definition shifted (Us : arr R) (idx : list Z) : R := if hd 0 idx <? 1 then 0%R else acell Us (hd 0 idx - 1 :: tl idx).
Lemma lib_concat Us : ashape Us = [top + 1; d; npts] ->
  library X "np.concatenate" [VList [farr [1; d; npts] (fun _ => 0%R); VArr (canon Us)]] = Some (Ok (farr [NU; d; npts] (shifted Us))).
Proof.
  intros H. rewrite farr_canon, H. cbv [library String.eqb Ascii.eqb Bool.eqb orb]. cbn [farr bind]. unfold concat0. unfold farr. cbn [ashape tab]. rewrite idx_eqb_refl. cbn [bind]. do 3 f_equal.
  apply tab_ext. intros idx Hi. apply inb3 in Hi as (p & q & r & -> & Hp & Hq & Hr). unfold shifted. cbn [hd tl]. unfold NU in Hp.
  destruct (Z.ltb_spec p 1).
  - rewrite tab_cell; [reflexivity|]. apply inb3_; lia.
  - apply tab_cell. apply inb3_; lia.
Qed.
Lemma linev_d Ts Us : (forall i j p, 0 <= i <= top -> acell Ts [i; j; p] = cheb (Z.to_nat i) (acell pts [p; j])) ->
  (forall i j p, 0 <= i <= top -> acell Us [i; j; p] = chebk 2 (Z.to_nat i) (acell pts [p; j])) -> forall p j i, 0 <= j < P ->
  linev Ts (fun idx => shifted Us idx * IZR (hd 0%Z idx))%R (nth (Z.to_nat j) b_inds []) i p = rprod (map (dfactor (nth (Z.to_nat j) b_inds []) (mrow d pts p) i) (zrange d)).
Proof.
  intros HC HU p j i Hj. unfold linev. f_equal. apply map_ext_in. intros k Hk. apply zrange_In in Hk. destruct (comb_at j k Hj Hk) as [_ Hc]. unfold dfactor.
  unfold mrow. rewrite (nth_zmap (fun k => acell pts [p; k])) by auto. set (c := nth (Z.to_nat k) _ 0) in *. destruct (Z.eqb_spec i k) as [->|]; cbn [negb].
  - unfold shifted. cbn [hd tl]. destruct (Z.ltb_spec (c - 1) 1).
    + replace (c - 1) with 0 by lia. cbn. ring.
    + rewrite HU by lia. replace (Z.to_nat (c - 1)) with (S (Z.to_nat (c - 1 - 1))) by lia. unfold dcheb. rewrite S_INR, INR_IZR_INZ, Z2Nat.id by lia. rewrite <- plus_IZR. replace (c - 1 - 1 + 1) with (c - 1) by lia. ring.
  - apply HC. lia.
Qed.
Lemma run_build_B_deriv k B D : build_B d mu pts b_inds true = Ok (B, Some D) ->
  run (S (S k)) "build_B" [VInt d; vmu mu; VArr (canon pts); VList (map vtup b_inds); VBool true] [] = Ok (VTup [VArr (canon B); VArr (canon D)]).
Proof.
  intros HB. destruct (build_B_deriv_spec d m npts pts b_inds Hd Hn Hsh Hb Hm mu Hmu) as (B' & D' & HB' & HBs & HDs & HBv & HDv). rewrite HB in HB'. injection HB' as <- <-.
  enter. fold b_build_B. set (E := upd _ "d"%string _).
  assert (HK : K [("d"%string, VInt d); ("mu"%string, vmu mu); ("pts"%string, VArr (canon pts)); ("b_inds"%string, VList (map vtup b_inds))] E) by (unfold E; kk).
  assert (Hde : E "deriv"%string = Some (VBool true)) by (unfold E; look). clearbody E.
  destruct (prefix k E HK) as (Ts & E' & HT & HC & -> & Hde' & HK'). rewrite Hde in Hde'. unfold KB in HK'. set (vB := farr [npts; P] _) in HK'.
  assert (EB : vB = VArr (canon B)).
  { rewrite (farr_canon B), HBs. apply farr_ext. intros idx Hi. apply inb2 in Hi as (p & q & -> & Hp & Hq). cbn [nth]. rewrite HBv by auto. now apply colv_basis. }
  rewrite EB in HK'. clear EB vB. cbn [skipn b_build_B]. rewrite block_cons. erewrite exec_if by eve. cbv iota.
  destruct (run_Ts k (n_ofZ 2) [] [("kind"%string, VFlt (n_ofZ 2))] ltac:(right; left; auto)) as (Us & HUs & HUsh & HUv). cbn [n_ofZ NumR] in HUv.
  pose proof (attr_T_canon pts) as HpT. pose proof (run_m_i X k (m + 1)) as Hmi. rewrite m_i_top in Hmi.
  erewrite block_next.
  2:{ eapply exec_set. eapply eq_trans; [eapply ev_fun; [reflexivity | eapply evs_cons; [reflexivity | eapply eq_trans; [eapply ev_attr; [reflexivity | eve] | exact HpT] |
        eapply evs_cons; [reflexivity | eapply eq_trans; [eapply ev_fun; [reflexivity | evs | evk | reflexivity] | exact Hmi] | apply evs_nil]] | evk | reflexivity] | exact HUs]. }
  pose proof (lib_concat Us HUsh) as Hcc.
  erewrite block_next.
  2:{ eapply exec_set. eapply ev_lib; [reflexivity | reflexivity | eapply evs_cons; [reflexivity | eapply ev_list; eapply evs_cons; [reflexivity | eapply ev_lib; [reflexivity | reflexivity | evs | evk | reflexivity | reflexivity] | evs] | apply evs_nil] | evk | reflexivity | exact Hcc]. }
  set (E1 := upd _ "Us"%string _).
  assert (HK1 : K [("Us"%string, farr [NU; d; npts] (shifted Us)); ("d"%string, VInt d); ("npts"%string, VInt npts); ("npolys"%string, VInt P); ("b_inds"%string, VList (map vtup b_inds)); ("Ts"%string, VArr (canon Ts)); ("B"%string, VArr (canon B))] E1) by (unfold E1; kk).
  clearbody E1. rewrite block_cons.
  erewrite exec_for; [| eapply ev_lib; [reflexivity | reflexivity | eapply evs_cons; [reflexivity | eapply eq_trans; [eapply ev_sub; [eapply eq_trans; [eapply ev_attr; [reflexivity | eve] | apply attr_shape] | evsub] | reflexivity] | apply evs_nil] | evk | reflexivity | reflexivity] | reflexivity].
  destruct (loop_scale (run (S k)) (inv X sm_program (S k)) (S k) E1 (shifted Us) ltac:(look)) as (E2 & HE2 & Hx2 & HU2).
  unfold b_scale in HE2. rewrite HE2. cbn [bind]. set (U := fun idx => (shifted Us idx * IZR (hd 0%Z idx))%R) in HU2.
  assert (HK2 : K [("Us"%string, farr [NU; d; npts] U); ("d"%string, VInt d); ("npts"%string, VInt npts); ("npolys"%string, VInt P); ("b_inds"%string, VList (map vtup b_inds)); ("Ts"%string, VArr (canon Ts)); ("B"%string, VArr (canon B))] E2).
  { repeat (apply Forall_cons; [cbn [fst snd]; first [exact HU2 | rewrite Hx2 by discriminate; look] |]); apply Forall_nil. }
  clear HE2 Hx2 HU2 HK1 HK'. erewrite block_next. 2:{ eapply exec_set. eapply ev_lib; [reflexivity | reflexivity | evs | evk | reflexivity | reflexivity]. }
  set (E3 := upd _ "der_B"%string _). assert (HK3 : KD Ts U (farr [P; d; npts] (fun _ => 0%R)) E3) by (unfold E3, KD; kk).
  assert (HB3 : E3 "B"%string = Some (VArr (canon B))) by (unfold E3; look). clearbody E3. rewrite block_cons.
  pose proof HK3 as HK3_. unfold KD in HK3_.
  erewrite exec_for; [| eapply ev_lib; [reflexivity | reflexivity | evs | evk | reflexivity | reflexivity] | reflexivity].
  destruct (loop_deriv (run (S k)) (inv X sm_program (S k)) (S k) Ts HT U E3 HK3) as (E4 & HE4 & Hx4 & HK4).
  unfold b_deriv, b_line, e_line in HE4. rewrite HE4. cbn [bind].
  assert (HB4 : E4 "B"%string = Some (VArr (canon B))) by (rewrite Hx4 by discriminate; exact HB3).
  unfold KD in HK4. set (vD := farr [P; d; npts] _) in HK4.
  assert (ED : vD = VArr (canon D)).
  { rewrite (farr_canon D), HDs. apply farr_ext. intros idx Hi. apply inb3 in Hi as (p & q & r & -> & Hp & Hq & Hr). unfold dcell. cbn [nth]. rewrite HDv by auto. unfold U. now apply linev_d. }
  rewrite ED in HK4.
  erewrite block_ret; [reflexivity|]. eapply exec_ret. eve.
Qed.
End D.
