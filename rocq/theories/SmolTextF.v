(** The text of smolyak/interp.py: SmolyakInterp. *)
From Coq Require Import ZArith List Bool String Lia ZifyBool Reals.
From Verif Require Import SpecSmolText Base BaseFacts CompleteModel SmolyakModel SpecSmolyak SmolyakChains SmolyakB PySyntax NpSem NpFacts SmolText SmolTextA SmolTextB SmolTextC SmolTextD SmolTextE.
From Verif Require CartesianProps.
Import ListNotations.
Open Scope Z_scope.
Local Notation Forall := List.Forall.

(** ** Products *)
Lemma asum_ext n (f g : Z -> R) : (forall j, 0 <= j < n -> f j = g j) -> asum n f = asum n g.
Proof.
  intros H. unfold asum. assert (HI : forall j, In j (zrange n) -> f j = g j) by (intros j Hj; apply H; now apply zrange_In).
  revert HI. generalize (zrange n), (n_ofZ (T := R) 0). induction l as [|j l IH]; intros s HI; [reflexivity|]. cbn [fold_left]. rewrite (HI j) by now left. apply IH. intros; apply HI; now right.
Qed.
Lemma dot_canon a b p m tl v : ashape a = [p; m] -> ashape b = m :: tl -> adot a b = Ok v -> exists r, adot (canon a) (canon b) = Ok r /\ canon (T := R) r = canon v.
Proof.
  intros Ha Hb H. unfold adot in *. rewrite !canon_shape, Ha, Hb in *. destruct tl as [|q [|]]; [| |discriminate]; rewrite Z.eqb_refl in *; injection H as <-; eexists; (split; [reflexivity|]).
  - apply canon_ext; [reflexivity|]. cbn [ashape acell]. intros idx Hi. apply inb1 in Hi as (i & -> & Hi). cbn [List.app]. apply asum_ext. intros j Hj. rewrite !canon_cell; [reflexivity | rewrite Hb; now apply inb1_ | rewrite Ha; now apply inb2_].
  - apply canon_ext; [reflexivity|]. cbn [ashape acell]. intros idx Hi. apply inb2 in Hi as (i & k & -> & Hi & Hk). cbn [nth]. apply asum_ext. intros j Hj. rewrite !canon_cell; [reflexivity | rewrite Hb; now apply inb2_ | rewrite Ha; now apply inb2_].
Qed.
Lemma tensordot_text (th D dv : arr R) m tl d n : ashape th = m :: tl -> ashape D = [m; d; n] -> tensordot0_T th D = Ok dv ->
  exists r, tensordot00 (canon th) (canon D) = Ok r /\ attribute (VArr r) "T" = Ok (VArr (canon dv)).
Proof.
  intros Ht HD H. unfold tensordot0_T in H. unfold tensordot00. rewrite !canon_shape, Ht, HD in *. destruct tl as [|q [|]]; [| |discriminate]; rewrite Z.eqb_refl in *; injection H as <-; eexists; (split; [reflexivity|]).
  - cbn [List.app]. eapply eq_trans; [apply (attr_T [d; n]) |]. cbn [rev List.app]. rewrite farr_canon. cbn [ashape acell]. f_equal. apply farr_ext. intros idx Hi. apply inb2 in Hi as (i & k & -> & Hi & Hk). cbn [rev List.app List.length firstn skipn].
    apply asum_ext. intros j Hj. rewrite !canon_cell; [reflexivity | rewrite HD; now apply inb3_ | rewrite Ht; now apply inb1_].
  - cbn [List.app]. eapply eq_trans; [apply (attr_T [q; d; n]) |]. cbn [rev List.app]. rewrite farr_canon. cbn [ashape acell]. f_equal. apply farr_ext. intros idx Hi. apply inb3 in Hi as (i & k & l & -> & Hi & Hk & Hl). cbn [rev List.app List.length firstn skipn nth].
    apply asum_ext. intros j Hj. rewrite !canon_cell; [reflexivity | rewrite HD; now apply inb3_ | rewrite Ht; now apply inb2_].
Qed.
Lemma sub_new c (g : list Z -> R) : subscript (farr [c] g) [SNew; SAll] = Ok (farr [1; c] (fun idx => g [nth 1 idx 0])).
Proof.
  unfold farr, subscript, get_sub. cbn [ashape tab List.length fill_dots pred repeat sub_shape bind]. f_equal. apply farr_ext. intros idx Hi. apply inb2 in Hi as (i & j & -> & Hi & Hj).
  cbn [sub_idx tl hd nth]. apply (tab_cell (n_ofZ (Num := NumR) 0) [c] g [j]). now apply inb1_.
Qed.
(** numpy matches the last axes. *)
Lemma bin_bcast o g (a : arr R) c h sh : fop o = Some g -> bshape (ashape a) [1; c] = Some sh -> (forall idx, inb sh idx = true -> inb (ashape a) (bidx (ashape a) idx) = true /\ inb [1; c] (bidx [1; c] idx) = true) ->
  binop o (VArr (canon a)) (farr [1; c] h) = Ok (farr sh (fun idx => g (acell a (bidx (ashape a) idx)) (h (bidx [1; c] idx)))).
Proof.
  intros Ho Hb Hi. unfold farr at 1. rewrite (fop_spec o g) by (auto; discriminate). cbn [as_floats]. unfold zipa. rewrite canon_shape. cbn [ashape tab]. rewrite Hb. cbn [bind]. f_equal.
  apply farr_ext. intros idx H. destruct (Hi idx H) as [H1 H2]. rewrite canon_cell by auto. f_equal. now apply (tab_cell (n_ofZ (Num := NumR) 0) [1; c] h).
Qed.
Lemma bshape2 n d c : bshape [n; d] [1; c] = if d =? c then Some [n; d] else if d =? 1 then Some [n; c] else if c =? 1 then Some [n; d] else None.
Proof. unfold bshape. cbn [rev List.app bzip]. destruct (Z.eqb_spec n 1) as [->|]; cbn; destruct (d =? c), (d =? 1), (c =? 1); reflexivity. Qed.
Lemma bshape3 n d q c : bshape [n; d; q] [1; c] = if q =? c then Some [n; d; q] else if q =? 1 then Some [n; d; c] else if c =? 1 then Some [n; d; q] else None.
Proof. unfold bshape. cbn [rev List.app bzip]. destruct (Z.eqb_spec d 1) as [->|]; cbn; destruct (q =? c), (q =? 1), (c =? 1); reflexivity. Qed.
Lemma bix n i : 0 <= i < n -> (if n =? 1 then 0 else i) = i.
Proof. destruct (Z.eqb_spec n 1); lia. Qed.
Lemma scale_text (dv r : arr R) radii n d : (ashape dv = [n; d] \/ exists q, ashape dv = [n; d; q]) -> scale_last dv radii = Ok r ->
  binop "*" (VArr (canon dv)) (farr [1; zlen radii] (fun idx => nth (Z.to_nat (nth 1 idx 0)) radii (n_ofZ 0))) = Ok (VArr (canon r)).
Proof.
  intros Hs H. unfold scale_last in H. set (c := zlen radii) in *.
  assert (G : forall sh, bshape (ashape dv) [1; c] = Some sh -> (forall idx, inb sh idx = true -> inb (ashape dv) (bidx (ashape dv) idx) = true /\ inb [1; c] (bidx [1; c] idx) = true) ->
    ashape r = sh -> (forall idx, inb sh idx = true -> acell r idx = (acell dv (bidx (ashape dv) idx) * nth (Z.to_nat (nth 1 (bidx [1; c]%Z idx) 0%Z)) radii 0)%R) ->
    binop "*" (VArr (canon dv)) (farr [1; c] (fun idx => nth (Z.to_nat (nth 1 idx 0)) radii (n_ofZ 0))) = Ok (VArr (canon r))).
  { intros sh H1 H2 H3 H4. rewrite (bin_bcast "*" n_mul dv c _ sh eq_refl H1 H2). rewrite (farr_canon r), H3. f_equal. apply farr_ext. intros idx Hi. rewrite H4 by auto. reflexivity. }
  destruct Hs as [Hs | (q & Hs)]; rewrite Hs in *; cbn [rev List.app] in H.
  - destruct (Z.eqb_spec d c) as [E|E]; [|destruct (Z.eqb_spec d 1) as [E1|E1]; [|destruct (Z.eqb_spec c 1) as [E2|E2]; [|discriminate]]]; injection H as <-.
    + apply (G [n; d]); auto; [rewrite bshape2; now rewrite (proj2 (Z.eqb_eq d c) E) | |]; intros idx Hi; apply inb2 in Hi as (i & j & -> & Hi & Hj); cbn [bidx List.length Nat.sub skipn map2].
      * rewrite !bix by auto. split; [now apply inb2_|]. apply inb2_; [cbn; lia | destruct (Z.eqb_spec c 1); lia].
      * rewrite !bix by auto. cbn [nth last acell]. rewrite (bix c) by lia. reflexivity.
    + apply (G [n; c]); auto; [rewrite bshape2; destruct (Z.eqb_spec d c), (Z.eqb_spec d 1); congruence | |]; intros idx Hi; apply inb2 in Hi as (i & j & -> & Hi & Hj); cbn [bidx List.length Nat.sub skipn map2].
      * rewrite (bix n) by auto. rewrite E1. split; [apply inb2_; cbn; lia|]. apply inb2_; [cbn; lia | destruct (Z.eqb_spec c 1); lia].
      * rewrite (bix n) by auto. rewrite E1. cbn [nth last acell removelast List.app]. rewrite (bix c) by lia. reflexivity.
    + apply (G [n; d]); auto; [rewrite bshape2; destruct (Z.eqb_spec d c), (Z.eqb_spec d 1), (Z.eqb_spec c 1); congruence | |]; intros idx Hi; apply inb2 in Hi as (i & j & -> & Hi & Hj); cbn [bidx List.length Nat.sub skipn map2].
      * rewrite (bix n), (bix d) by auto. split; [now apply inb2_|]. apply inb2_; [cbn; lia | destruct (Z.eqb_spec c 1); lia].
      * rewrite (bix n), (bix d) by auto. rewrite E2. reflexivity.
  - destruct (Z.eqb_spec q c) as [E|E]; [|destruct (Z.eqb_spec q 1) as [E1|E1]; [|destruct (Z.eqb_spec c 1) as [E2|E2]; [|discriminate]]]; injection H as <-.
    + apply (G [n; d; q]); auto; [rewrite bshape3; now rewrite (proj2 (Z.eqb_eq q c) E) | |]; intros idx Hi; apply inb3 in Hi as (i & k & j & -> & Hi & Hk & Hj); cbn [bidx List.length Nat.sub skipn map2].
      * rewrite !bix by auto. split; [now apply inb3_|]. apply inb2_; [cbn; lia | destruct (Z.eqb_spec c 1); lia].
      * rewrite !bix by auto. cbn [nth last acell]. rewrite (bix c) by lia. reflexivity.
    + apply (G [n; d; c]); auto; [rewrite bshape3; destruct (Z.eqb_spec q c), (Z.eqb_spec q 1); congruence | |]; intros idx Hi; apply inb3 in Hi as (i & k & j & -> & Hi & Hk & Hj); cbn [bidx List.length Nat.sub skipn map2].
      * rewrite (bix n), (bix d) by auto. rewrite E1. split; [apply inb3_; cbn; lia|]. apply inb2_; [cbn; lia | destruct (Z.eqb_spec c 1); lia].
      * rewrite (bix n), (bix d) by auto. rewrite E1. cbn [nth last acell removelast List.app]. rewrite (bix c) by lia. reflexivity.
    + apply (G [n; d; q]); auto; [rewrite bshape3; destruct (Z.eqb_spec q c), (Z.eqb_spec q 1), (Z.eqb_spec c 1); congruence | |]; intros idx Hi; apply inb3 in Hi as (i & k & j & -> & Hi & Hk & Hj); cbn [bidx List.length Nat.sub skipn map2].
      * rewrite (bix n), (bix d), (bix q) by auto. split; [now apply inb3_|]. apply inb2_; [cbn; lia | destruct (Z.eqb_spec c 1); lia].
      * rewrite (bix n), (bix d), (bix q) by auto. rewrite E2. reflexivity.
Qed.

(** ** The class *)
Definition vsi (si : sinterp R) : val R := VObj "SmolyakInterp" [("sg", vsg (si_sg si)); ("f_on_grid", VArr (canon (si_f si))); ("theta", VArr (canon (si_theta si)))]%string.
Definition b_find_theta := Eval vm_compute in nodoc (snd (sm_def "find_theta")).
Definition b_interp_init := Eval vm_compute in snd (sm_meth "SmolyakInterp" "__init__").
Definition b_update := Eval vm_compute in nodoc (snd (sm_meth "SmolyakInterp" "update_theta")).
Definition b_interpolate := Eval vm_compute in nodoc (snd (sm_meth "SmolyakInterp" "interpolate")).
Definition method_ends (r : res (state R)) : res (val R * val R) :=
  '(s, E) <- r ;; match s with
                  | Ret v => match E "self"%string with Some w => Ok (v, w) | None => Err TypeErr end
                  | Nxt => match E "self"%string with Some w => Ok (VNone, w) | None => Err TypeErr end
                  | _ => Err TypeErr end.
Lemma method_text X n v m ps b b' vs ks E : method_def sm_program v m = Some (ps, b) -> existsb has_yield b = false -> nodoc b = b' ->
  bind_params X (run X sm_program n) (inv X sm_program n) ps (v :: vs) ks = Ok E ->
  run_method X sm_program n v m vs ks = method_ends (block X (run X sm_program n) (inv X sm_program n) n b' E).
Proof.
  intros H1 H2 <- H3. unfold run_method. rewrite H1. rewrite (call_plain _ _ _ _ _ _ _ _ E) by auto. rewrite block_nodoc.
  unfold method_ends. change (fun v0 m0 vs0 ks0 => match method_def sm_program v0 m0 with Some (ps0, b0) => '(r, _) <- call_body X (run X sm_program n) (fun _ _ _ _ => Err TypeErr) n ps0 b0 (v0 :: vs0) ks0 ;; Ok r | None => Err NameErr end) with (inv X sm_program n).
  destruct (block _ _ _ _ _ _) as [[[] ?]|]; reflexivity.
Qed.
Ltac enterr := erewrite method_text;
  [| vm_compute; reflexivity | vm_compute; reflexivity | cbv [nodoc]; reflexivity
   | cbn [bind_params find fst snd String.eqb Ascii.eqb Bool.eqb bind eval]; reflexivity].

Section Interp.
Variable X : externals R.
Notation run := (run X sm_program).
Notation inv := (inv X sm_program).
Notation solve := (the_solve X).
Lemma lib_solve A b x : solve A b = Ok x -> library X "la.solve" [VArr (canon A); VArr (canon b)] = Some (Ok (VArr (canon x))).
Proof. intros H. cbv [library String.eqb Ascii.eqb Bool.eqb orb]. unfold the_solve in H. rewrite H. reflexivity. Qed.
Lemma run_find_theta k sg f th : find_theta solve sg f = Ok th -> run (S k) "find_theta" [vsg sg; VArr (canon f)] [] = Ok (VArr (canon th)).
Proof.
  intros H. unfold find_theta in H. destruct (solve (sg_BL sg) f) as [y|] eqn:E1; [|discriminate]. cbn [bind] in H.
  pose proof (lib_solve _ _ _ E1) as L1. pose proof (lib_solve _ _ _ H) as L2.
  enter. fold b_find_theta. unfold b_find_theta. eapply ends_ret. eapply block_ret. eapply exec_ret.
  eapply ev_lib; [reflexivity | reflexivity | eapply evs_cons; [reflexivity | eve | eapply evs_cons; [reflexivity | eapply ev_lib; [reflexivity | reflexivity | evs | evk | reflexivity | exact L1] | apply evs_nil]] | evk | reflexivity | exact L2].
Qed.
Lemma run_interp k sg f si : si_new solve sg f = Ok si -> run (S (S k)) "SmolyakInterp" [vsg sg; VArr (canon f)] [] = Ok (vsi si).
Proof.
  intros H. unfold si_new in H. destruct (find_theta solve sg f) as [th|] eqn:E; [|discriminate]. injection H as <-. pose proof (run_find_theta k sg f th E) as HR.
  erewrite run_class_def; [| vm_compute; reflexivity | vm_compute; reflexivity | vm_compute; reflexivity | cbn [bind_params find fst snd String.eqb Ascii.eqb Bool.eqb bind]; reflexivity].
  fold b_interp_init. unfold b_interp_init. stepa; [|eve]. stepa; [|eve]. stepa; [|eapply eq_trans; [eapply ev_fun; [reflexivity | evs | evk | reflexivity] | exact HR]].
  rewrite block_nil. unfold self_of. cbn [bind]. rewrite upd_same. reflexivity.
Qed.
Lemma run_update k si f si' : si_update solve si f = (si', Ok tt) -> run_method X sm_program (S k) (vsi si) "update_theta" [VArr (canon f)] [] = Ok (VNone, vsi si').
Proof.
  intros H. unfold si_update in H. destruct (find_theta solve (si_sg si) f) as [th|] eqn:E; [|discriminate]. injection H as <-. pose proof (run_find_theta k (si_sg si) f th E) as HR.
  enterr. fold b_update. unfold b_update. unfold vsi. stepa; [|eve]. stepa; [|eapply eq_trans; [eapply ev_fun; [reflexivity | evs | evk | reflexivity] | exact HR]].
  rewrite block_nil. unfold method_ends. cbn [bind]. rewrite upd_same. reflexivity.
Qed.
End Interp.

(** ** interpolate *)
Lemma zlen_map2 {A B C} (f : A -> B -> C) l m : zlen l = zlen m -> zlen (map2 f l m) = zlen l.
Proof. unfold zlen. intros H. rewrite map2_length by lia. reflexivity. Qed.
Definition some {A} (o : option A) : bool := match o with Some _ => true | None => false end.
Definition p_interpolate := Eval vm_compute in fst (sm_meth "SmolyakInterp" "interpolate").
Lemma enter_flags X n v pts ip dv dt dx vs ks : flags_args ip dv dt dx vs ks ->
  exists E, bind_params X (run X sm_program n) (inv X sm_program n) p_interpolate (v :: VArr (canon pts) :: vs) ks = Ok E /\
    K [("self", v); ("pts", VArr (canon pts)); ("interp", VBool ip); ("deriv", VBool dv); ("deriv_th", VBool dt); ("deriv_X", VBool dx)]%string E.
Proof.
  intros [(-> & ->) | (-> & H1 & H2 & H3 & H4)]; unfold p_interpolate; cbn [bind_params bind].
  - eexists. split; [reflexivity|]. kk.
  - unfold flag in *.
    destruct (find (fun p => String.eqb (fst p) "deriv_X") ks) as [[? ?]|]; subst; cbn [bind eval];
    destruct (find (fun p => String.eqb (fst p) "deriv_th") ks) as [[? ?]|]; subst; cbn [bind eval];
    destruct (find (fun p => String.eqb (fst p) "deriv") ks) as [[? ?]|]; subst; cbn [bind eval];
    destruct (find (fun p => String.eqb (fst p) "interp") ks) as [[? ?]|]; subst; cbn [bind eval];
    (eexists; split; [reflexivity|]; kk).
Qed.
Section Interpolate.
Variable X : externals R.
Notation run := (run X sm_program).
Notation inv := (inv X sm_program).
Notation solve := (the_solve X).
Variables (si : sinterp R) (pts tp : arr R) (d m npts : Z) (tl : list Z) (k : nat).
Let sg := si_sg si.
Let th := si_theta si.
Hypothesis (Hd : 1 <= d) (Hm : 1 <= m) (Hn : 0 <= npts) (Hmu : max_mu (sg_mu sg) = Ok m) (Hs : ashape pts = [npts; d]) (Ll : zlen (sg_lb sg) = d) (Lu : zlen (sg_ub sg) = d)
  (Hok : indices_ok d m (sg_pinds sg)) (Hth : ashape th = zlen (sg_pinds sg) :: tl) (Htl : tl = [] \/ exists q, tl = [q])
  (Htp : dom2cube (sg_lb sg) (sg_ub sg) pts = Ok tp).
Definition BK (ip dv dt dx : bool) : list (string * val R) :=
  [("self", vsi si); ("d", VInt d); ("sg", vsg sg); ("theta", VArr (canon th)); ("trans_points", VArr (canon tp)); ("interp", VBool ip); ("deriv", VBool dv); ("deriv_th", VBool dt); ("deriv_X", VBool dx)]%string.
Definition SK (ip dv dt dx : bool) (rets : list (arr R)) (nB : option (arr R)) (E : env R) : Prop :=
  K (("rets"%string, VList (map varr rets)) :: BK ip dv dt dx) E /\ forall B, nB = Some B -> E "new_B"%string = Some (VArr (canon B)).
Notation exec := (exec X (run (S (S k))) (inv (S (S k))) (S (S k))).
Notation block := (block X (run (S (S k))) (inv (S (S k))) (S (S k))).
Lemma tp_shape : ashape tp = [npts; d].
Proof. unfold dom2cube, per_column in Htp. rewrite Hs, Ll, Lu, !Z.eqb_refl in Htp. cbn [andb] in Htp. injection Htp as <-. reflexivity. Qed.
Lemma B_exists : exists B, build_B d (sg_mu sg) tp (sg_pinds sg) false = Ok (B, None) /\ ashape B = [npts; zlen (sg_pinds sg)].
Proof. destruct (build_B_spec d m npts tp (sg_pinds sg) Hd Hn tp_shape Hok Hm (sg_mu sg) Hmu) as (B & E & S & _). exists B. auto. Qed.
Lemma D_exists : exists B D, build_B d (sg_mu sg) tp (sg_pinds sg) true = Ok (B, Some D) /\ ashape B = [npts; zlen (sg_pinds sg)] /\ ashape D = [zlen (sg_pinds sg); d; npts].
Proof. destruct (build_B_deriv_spec d m npts tp (sg_pinds sg) Hd Hn tp_shape Hok Hm (sg_mu sg) Hmu) as (B & D & E & S & S' & _). exists B, D. auto. Qed.
Lemma text_B B : build_B d (sg_mu sg) tp (sg_pinds sg) false = Ok (B, None) ->
  run (S (S k)) "build_B" [VInt d; vmu (sg_mu sg); VArr (canon tp); VList (map vtup (sg_pinds sg))] [] = Ok (VArr (canon B)).
Proof. apply (run_build_B X d m npts tp (sg_pinds sg) (sg_mu sg) Hd Hn tp_shape Hok Hm Hmu). Qed.
Lemma text_D B D : build_B d (sg_mu sg) tp (sg_pinds sg) true = Ok (B, Some D) ->
  run (S (S k)) "build_B" [VInt d; vmu (sg_mu sg); VArr (canon tp); VList (map vtup (sg_pinds sg)); VBool true] [] = Ok (VTup [VArr (canon B); VArr (canon D)]).
Proof. apply (run_build_B_deriv X d m npts tp (sg_pinds sg) (sg_mu sg) Hd Hn tp_shape Hok Hm Hmu). Qed.
Lemma append_text E x rets a r : E "rets"%string = Some (VList (map varr rets)) -> eval X (run (S (S k))) (inv (S (S k))) E x = Ok (VArr (canon a)) -> match x with EStar _ => false | _ => true end = true ->
  block (SExpr (ECall (EAttr (EName "rets") "append") [x] []) :: r) E = block r (upd E "rets" (VList (map varr (rets ++ [a])))).
Proof.
  intros H1 H2 H3. apply block_next. eapply exec_mut; [reflexivity | exact H1 | apply evs_cons; [exact H3 | exact H2 | apply evs_nil] |]. cbn. rewrite map_app. reflexivity.
Qed.
Lemma stage1 ip dv dt dx E nB rets : K (("rets"%string, VList []) :: BK ip dv dt dx) E ->
  (if dv then
       '(nB, oD) <- build_B d (sg_mu sg) tp (sg_pinds sg) true ;;
       vals <- adot nB th ;;
       D <- match oD with Some D => Ok D | None => Err NameErr end ;;
       dv <- tensordot0_T th D ;;
       dv <- scale_last dv (map2 (fun l u => n_ofZ 2 /! (u -! l)) (sg_lb sg) (sg_ub sg)) ;;
       Ok (Some nB, (if ip then [vals] else []) ++ [dv])
     else if ip then
       '(nB, _) <- build_B d (sg_mu sg) tp (sg_pinds sg) false ;; vals <- adot nB th ;; Ok (Some nB, [vals])
     else Ok (None, [])) = Ok (nB, rets) ->
  exists E', exec (nth 5 b_interpolate SPass) E = Ok (Nxt, E') /\ SK ip dv dt dx rets nB E' /\ some nB = ip || dv.
Proof.
  intros HK H. cbn [nth b_interpolate]. unfold BK in HK. destruct dv.
  - destruct D_exists as (B & D & EB & SB & SD). rewrite EB in H. cbn [bind] in H. destruct (adot B th) as [v|] eqn:Ev; [|discriminate]. cbn [bind] in H.
    destruct (tensordot0_T th D) as [tv|] eqn:Et; [|discriminate]. cbn [bind] in H. destruct (scale_last tv _) as [gv|] eqn:Eg; [|discriminate]. cbn [bind] in H. injection H as <- <-.
    destruct (dot_canon B th npts _ tl v SB Hth Ev) as (v' & Ev' & Ec). destruct (tensordot_text th D tv _ tl d npts Hth SD Et) as (t' & Et' & Ec').
    pose proof (text_D B D EB) as HR.
    erewrite exec_if by eve. cbv iota.
    erewrite block_next. 2:{ eapply exec_set_; [eapply eq_trans; [eapply ev_fun; [reflexivity | evs | evk | reflexivity] | exact HR] | reflexivity]. }
    erewrite block_next. 2:{ eapply exec_set. eapply eq_trans; [eapply ev_dot; [reflexivity | reflexivity | eve | eve] |]. rewrite Ev'. cbn [bind]. rewrite Ec. reflexivity. }
    assert (Ltd : library X "np.tensordot" [VArr (canon th); VArr (canon D); VTup [VInt 0; VInt 0]] = Some (Ok (VArr t'))) by (cbv [library String.eqb Ascii.eqb Bool.eqb orb]; rewrite Et'; reflexivity).
    erewrite block_next. 2:{ eapply exec_set. eapply eq_trans; [eapply ev_attr; [reflexivity | eapply ev_lib; [reflexivity | reflexivity | evs | evk | reflexivity | exact Ltd]] | exact Ec']. }
    set (E0 := upd _ "d_vals"%string _).
    assert (HK0 : K (("d_vals"%string, VArr (canon tv)) :: ("vals"%string, varr v) :: ("new_B"%string, VArr (canon B)) :: ("rets"%string, VList []) :: BK ip true dt dx) E0) by (unfold E0, BK; kk). clearbody E0. clear HK.
    assert (G : exists E1, (forall r, block (SIf (EName "interp") [SExpr (ECall (EAttr (EName "rets") "append") [EName "vals"] [])] [] :: r) E0 = block r E1) /\
      K (("d_vals"%string, VArr (canon tv)) :: ("new_B"%string, VArr (canon B)) :: ("rets"%string, VList (map varr (if ip then [v] else []))) :: BK ip true dt dx) E1).
    { unfold BK in *. destruct ip.
      - eexists. split; [intros r; apply block_next; erewrite exec_if by eve; cbv iota; rewrite (append_text E0 (EName "vals") [] v) by (first [reflexivity | look | eve]); reflexivity |]. kk.
      - exists E0. split; [intros r; apply block_next; erewrite exec_if by eve; reflexivity | kk]. }
    destruct G as (E1 & -> & HK1). clear HK0. unfold BK in HK1.
    assert (Hu : attribute (vsg sg) "ub" = Ok (farr [d] (vec (n_ofZ 0) (sg_ub sg)))) by (cbn; unfold fvec; rewrite Lu; reflexivity).
    assert (Hl : attribute (vsg sg) "lb" = Ok (farr [d] (vec (n_ofZ 0) (sg_lb sg)))) by (cbn; unfold fvec; rewrite Ll; reflexivity).
    erewrite block_next. 2:{ eapply exec_set. eapply eq_trans; [eapply ev_bin; [eve | eapply eq_trans; [eapply ev_bin; [eapply eq_trans; [eapply ev_attr; [reflexivity | eve] | exact Hu] | eapply eq_trans; [eapply ev_attr; [reflexivity | eve] | exact Hl]] | ops]] | ops]. }
    match goal with |- context [upd _ "radii"%string (farr [d] ?f)] => set (g := f) end. assert (Hg : farr [1; d] (fun idx => g [nth 1 idx 0]) = farr [1; zlen (map2 (fun l u => n_ofZ 2 /! (u -! l)) (sg_lb sg) (sg_ub sg))] (fun idx => nth (Z.to_nat (nth 1 idx 0)) (map2 (fun l u => n_ofZ 2 /! (u -! l)) (sg_lb sg) (sg_ub sg)) (n_ofZ 0))).
    { rewrite zlen_map2 by (rewrite Ll, Lu; reflexivity). rewrite Ll. apply farr_ext. intros idx Hi. apply inb2 in Hi as (i & j & -> & Hi & Hj). cbn [nth]. unfold zlen in Ll, Lu.
      rewrite (CartesianProps.nth_map2 _ (sg_lb sg) (sg_ub sg) (Z.to_nat j) (n_ofZ 0) (n_ofZ 0)) by lia. unfold g. reflexivity. }
    assert (Hts : ashape tv = [npts; d] \/ exists q, ashape tv = [npts; d; q]).
    { unfold tensordot0_T in Et. rewrite Hth, SD in Et. destruct Htl as [-> | (q & ->)]; rewrite Z.eqb_refl in Et; injection Et as <-; cbn [ashape]; [left; reflexivity | right; eexists; reflexivity]. }
    pose proof (scale_text tv gv _ npts d Hts Eg) as Hsc. rewrite <- Hg in Hsc.
    pose proof (sub_new d g) as Hsub. rewrite Hg in Hsub. rewrite Hg in Hsc.
    rewrite (append_text _ _ (if ip then [v] else []) gv).
    + rewrite block_nil. eexists. split; [reflexivity|]. split; [|try destruct ip; reflexivity]. split; [unfold BK; kk|]. intros B' HB'. injection HB' as <-. look.
    + look.
    + eapply eq_trans; [eapply ev_bin; [eve | eapply eq_trans; [eapply ev_sub; [eve | evsub] | exact Hsub]] | exact Hsc].
    + reflexivity.
  - destruct ip.
    + destruct B_exists as (B & EB & SB). rewrite EB in H. cbn [bind] in H. destruct (adot B th) as [v|] eqn:Ev; [|discriminate]. cbn [bind] in H. injection H as <- <-.
      destruct (dot_canon B th npts _ tl v SB Hth Ev) as (v' & Ev' & Ec). pose proof (text_B B EB) as HR.
      erewrite exec_if by eve. cbv iota. rewrite block_cons.
      erewrite exec_if; [| eapply eq_trans; [eapply ev_and; [eve | intros _; eve] | reflexivity]]. cbv iota.
      erewrite block_next. 2:{ eapply exec_set. eapply eq_trans; [eapply ev_fun; [reflexivity | evs | evk | reflexivity] | exact HR]. }
      erewrite block_next. 2:{ eapply exec_set. eapply eq_trans; [eapply ev_dot; [reflexivity | reflexivity | eve | eve] |]. rewrite Ev'. cbn [bind]. rewrite Ec. reflexivity. }
      rewrite (append_text _ (EName "vals") [] v) by (first [reflexivity | look | eve]). rewrite !block_nil. cbn [bind]. eexists. split; [reflexivity|]. split; [|try destruct ip; reflexivity]. split; [unfold BK; kk|]. intros B' HB'. injection HB' as <-. look.
    + injection H as <- <-. erewrite exec_if by eve. cbv iota. rewrite block_cons.
      erewrite exec_if; [| eapply eq_trans; [eapply ev_and; [eve | intros _; eve] | reflexivity]]. cbv iota.
      exists E. split; [reflexivity|]. split; [|reflexivity]. split; [exact HK|]. discriminate.
Qed.
Definition make_B : stmt := SAssign [EName "new_B"] (ECall (EName "build_B") [EName "d"; EAttr (EName "sg") "mu"; EName "trans_points"; EAttr (EName "sg") "pinds"] []).
Lemma need_B ip dv dt dx c E nB rets B : SK ip dv dt dx rets nB E -> eval X (run (S (S k))) (inv (S (S k))) E c = Ok (VBool (negb (some nB))) ->
  match nB with Some B => Ok B | None => '(B, _) <- build_B d (sg_mu sg) tp (sg_pinds sg) false ;; Ok B end = Ok B ->
  exists E1, exec (SIf c [make_B] []) E = Ok (Nxt, E1) /\ K (("new_B"%string, VArr (canon B)) :: ("rets"%string, VList (map varr rets)) :: BK ip dv dt dx) E1.
Proof.
  intros [HK HB] Hc H. erewrite exec_if by exact Hc. unfold BK in *. destruct nB as [b|]; cbn [some negb] in *; cbv iota.
  - injection H as ->. exists E. split; [reflexivity|]. specialize (HB B eq_refl). kk.
  - destruct B_exists as (b & EB & SB). rewrite EB in H. cbn [bind] in H. injection H as ->. pose proof (text_B B EB) as HR. unfold make_B.
    erewrite block_next. 2:{ eapply exec_set. eapply eq_trans; [eapply ev_fun; [reflexivity | evs | evk | reflexivity] | exact HR]. }
    rewrite block_nil. eexists. split; [reflexivity|]. kk.
Qed.
Lemma stage2 ip dv dt dx E nB rets nB' rets' : SK ip dv dt dx rets nB E -> some nB = ip || dv ->
  (if dt then
       nB <- match nB with Some B => Ok B | None => '(B, _) <- build_B d (sg_mu sg) tp (sg_pinds sg) false ;; Ok B end ;;
       Ok (Some nB, rets ++ [nB])
     else Ok (nB, rets)) = Ok (nB', rets') ->
  exists E', exec (nth 6 b_interpolate SPass) E = Ok (Nxt, E') /\ SK ip dv dt dx rets' nB' E' /\ some nB' = ip || dv || dt.
Proof.
  intros HK Hs' H. cbn [nth b_interpolate]. destruct dt.
  - destruct (match nB with Some B => _ | None => _ end) as [B|] eqn:EB in H; [|discriminate]. cbn [bind] in H. injection H as <- <-.
    destruct HK as [HK HB]. unfold BK in HK. erewrite exec_if by eve. cbv iota.
    edestruct (need_B ip dv true dx (EAnd (ENot (EName "interp")) (ENot (EName "deriv"))) E nB rets B) as (E1 & H1 & HK1); [split; assumption | | exact EB |].
    { eapply eq_trans; [eapply ev_and; [eve | intros _; eve] |]. rewrite Hs'. destruct ip, dv; reflexivity. }
    unfold make_B in H1. rewrite (block_next _ _ _ _ _ _ _ _ H1). clear HK. unfold BK in HK1. rewrite (append_text _ (EName "new_B") rets B) by (first [reflexivity | look | eve]). rewrite block_nil.
    eexists. split; [reflexivity|]. split; [|now rewrite orb_true_r]. split; [unfold BK; kk|]. intros B' HB'. injection HB' as <-. look.
  - injection H as <- <-. exists E. split; [|split; [exact HK | now rewrite orb_false_r]]. destruct HK as [HK HB]. unfold BK in HK. erewrite exec_if by eve. reflexivity.
Qed.
Lemma stage3 ip dv dt dx E nB rets rets' : SK ip dv dt dx rets nB E -> some nB = ip || dv || dt ->
  (if dx then
    nB <- match nB with Some B => Ok B | None => '(B, _) <- build_B d (sg_mu sg) tp (sg_pinds sg) false ;; Ok B end ;;
    y <- solve (atranspose (sg_BU sg)) (atranspose nB) ;;
    x <- solve (atranspose (sg_BL sg)) y ;;
    Ok (rets ++ [atranspose x])
   else Ok rets) = Ok rets' ->
  exists E', exec (nth 7 b_interpolate SPass) E = Ok (Nxt, E') /\ K (("rets"%string, VList (map varr rets')) :: BK ip dv dt dx) E'.
Proof.
  intros HK Hs' H. cbn [nth b_interpolate]. destruct dx.
  - destruct (match nB with Some B => _ | None => _ end) as [B|] eqn:EB in H; [|discriminate]. cbn [bind] in H. destruct (solve _ _) as [y|] eqn:Ey in H; [|discriminate]. cbn [bind] in H. destruct (solve _ y) as [x|] eqn:Ex in H; [|discriminate]. cbn [bind] in H. injection H as <-.
    pose proof (lib_solve X _ _ _ Ey) as L1. pose proof (lib_solve X _ _ _ Ex) as L2. pose proof (attr_T_canon x) as T1. pose proof (attr_T_canon B) as T2. pose proof (attr_T_canon (sg_BU sg)) as T3. pose proof (attr_T_canon (sg_BL sg)) as T4.
    assert (A3 : attribute (vsg sg) "B_U" = Ok (VArr (canon (sg_BU sg)))) by reflexivity. assert (A4 : attribute (vsg sg) "B_L" = Ok (VArr (canon (sg_BL sg)))) by reflexivity.
    destruct HK as [HK HB]. unfold BK in HK. erewrite exec_if by eve. cbv iota.
    edestruct (need_B ip dv dt true (EAnd (ENot (EName "interp")) (EAnd (ENot (EName "deriv")) (ENot (EName "deriv_th")))) E nB rets B) as (E1 & H1 & HK1); [split; assumption | | exact EB |].
    { eapply eq_trans; [eapply ev_and; [eve | intros _; eapply ev_and; [eve | intros _; eve]] |]. rewrite Hs'. destruct ip, dv, dt; reflexivity. }
    unfold make_B in H1. rewrite (block_next _ _ _ _ _ _ _ _ H1). clear HK. unfold BK in HK1.
    erewrite block_next. 2:{ eapply exec_set. eapply eq_trans; [eapply ev_attr; [reflexivity | eapply ev_lib; [reflexivity | reflexivity |
      eapply evs_cons; [reflexivity | eapply eq_trans; [eapply ev_attr; [reflexivity | eapply eq_trans; [eapply ev_attr; [reflexivity | eve] | exact A4]] | exact T4] |
      eapply evs_cons; [reflexivity | eapply ev_lib; [reflexivity | reflexivity |
         eapply evs_cons; [reflexivity | eapply eq_trans; [eapply ev_attr; [reflexivity | eapply eq_trans; [eapply ev_attr; [reflexivity | eve] | exact A3]] | exact T3] |
         eapply evs_cons; [reflexivity | eapply eq_trans; [eapply ev_attr; [reflexivity | eve] | exact T2] | apply evs_nil]] | evk | reflexivity | exact L1] | apply evs_nil]] | evk | reflexivity | exact L2]] | exact T1]. }
    rewrite (append_text _ (EName "d_X") rets (atranspose x)) by (first [reflexivity | look | eve]). rewrite block_nil. eexists. split; [reflexivity|]. unfold BK. kk.
  - injection H as <-. exists E. split; [|apply HK]. destruct HK as [HK HB]. unfold BK in HK. erewrite exec_if by eve. reflexivity.
Qed.
Lemma b_interpolate_split : b_interpolate = firstn 5 b_interpolate ++ nth 5 b_interpolate SPass :: nth 6 b_interpolate SPass :: nth 7 b_interpolate SPass :: skipn 8 b_interpolate.
Proof. reflexivity. Qed.
Lemma tail_rets ip dv dt dx rets E : K (("rets"%string, VList (map varr rets)) :: BK ip dv dt dx) E -> exists E', block (skipn 8 b_interpolate) E = Ok (Ret (packed rets), E') /\ E' "self"%string = Some (vsi si).
Proof.
  intros HK. cbn [skipn b_interpolate]. unfold BK in HK.
  assert (Hl : library X "len" [VList (map varr rets)] = Some (Ok (VInt (zlen rets)))) by (cbv [library String.eqb Ascii.eqb Bool.eqb orb]; now rewrite zlen_map).
  assert (Hc : eval X (run (S (S k))) (inv (S (S k))) E (ECmp (ECall (EName "len") [EName "rets"] []) [("=="%string, EInt 1)]) = Ok (VBool (zlen rets =? 1))).
  { eapply eq_trans; [eapply ev_cmp; [eapply ev_lib; [reflexivity | reflexivity | evs | evk | reflexivity | exact Hl] | eve] | reflexivity]. }
  rewrite block_cons. erewrite exec_if by exact Hc. destruct (Z.eqb_spec (zlen rets) 1) as [E1|E1].
  - assert (exists a, rets = [a]) as (a & ->) by (destruct rets as [|a [|]]; unfold zlen in E1; cbn in E1; try lia; eauto).
    cbv iota. erewrite block_next. 2:{ eapply exec_set. eapply eq_trans; [eapply ev_sub; [eve | evsub] | reflexivity]. }
    rewrite block_nil. cbn [bind]. eexists. split; [eapply block_ret; eapply exec_ret; eve | look].
  - cbv iota. rewrite block_nil. cbn [bind]. exists E. split; [|look]. eapply block_ret. eapply exec_ret. eapply eq_trans; [eve|]. f_equal. unfold packed. destruct rets as [|a [|]]; try reflexivity. unfold zlen in E1. cbn in E1. lia.
Qed.
Theorem run_interpolate ip dv dt dx rets : si_interpolate solve si pts ip dv dt dx = Ok rets ->
  forall vs ks, flags_args ip dv dt dx vs ks ->
  run_method X sm_program (S (S k)) (vsi si) "interpolate" (VArr (canon pts) :: vs) ks = Ok (packed rets, vsi si).
Proof.
  intros H vs ks HA. unfold si_interpolate in H. assert (Hadim : adim pts 1 = Ok d) by (unfold adim; rewrite Hs; reflexivity). rewrite Hadim in H. cbn [bind] in H. fold sg th in H. rewrite Htp in H. cbn [bind] in H.
  match type of H with bind ?a _ = _ => destruct a as [[nB rets1]|] eqn:S1; [|discriminate] end. cbn [bind] in H.
  match type of H with bind ?a _ = _ => destruct a as [[nB2 rets2]|] eqn:S2; [|discriminate] end. cbn [bind] in H.
  destruct (enter_flags X (S (S k)) (vsi si) pts ip dv dt dx vs ks HA) as (E & HE & HK).
  erewrite method_text; [| vm_compute; reflexivity | vm_compute; reflexivity | cbv [nodoc]; reflexivity | exact HE].
  fold b_interpolate. rewrite b_interpolate_split. cbn [firstn b_interpolate List.app].
  assert (A1 : attribute (VArr (canon pts)) "shape" = Ok (VTup (map VInt [npts; d]))) by (rewrite farr_canon, attr_shape, Hs; reflexivity).
  assert (A2 : attribute (vsi si) "sg" = Ok (vsg sg)) by reflexivity. assert (A3 : attribute (vsi si) "theta" = Ok (VArr (canon th))) by reflexivity.
  erewrite block_next. 2:{ eapply exec_set. eapply eq_trans; [eapply ev_sub; [eapply eq_trans; [eapply ev_attr; [reflexivity | eve] | exact A1] | evsub] | reflexivity]. }
  erewrite block_next. 2:{ eapply exec_set. eapply eq_trans; [eapply ev_attr; [reflexivity | eve] | exact A2]. }
  erewrite block_next. 2:{ eapply exec_set. eapply eq_trans; [eapply ev_attr; [reflexivity | eve] | exact A3]. }
  pose proof (inv_dom2cube X [("d", VInt (sg_d sg)); ("lb", fvec (sg_lb sg)); ("ub", fvec (sg_ub sg)); ("mu", vmu (sg_mu sg)); ("inds", VList (map zl (sg_inds sg)));
   ("pinds", VList (map vtup (sg_pinds sg))); ("cube_grid", VArr (canon (sg_cube sg))); ("grid", VArr (canon (sg_grid sg)));
   ("B", VArr (canon (sg_B sg))); ("B_L", VArr (canon (sg_BL sg))); ("B_U", VArr (canon (sg_BU sg)))]%string (sg_lb sg) (sg_ub sg) npts d pts eq_refl eq_refl Ll Lu Hs (S (S k)) tp Htp) as HD.
  erewrite block_next. 2:{ eapply exec_set. eapply eq_trans; [eapply ev_method; [reflexivity | eve | evs | evk] | exact HD]. }
  erewrite block_next by (eapply exec_set; eve).
  set (E4 := upd _ "rets"%string _).
  assert (HK4 : K (("rets"%string, VList []) :: BK ip dv dt dx) E4) by (unfold E4, BK; kk). clearbody E4. clear HK.
  destruct (stage1 ip dv dt dx E4 nB rets1 HK4 S1) as (E5 & X5 & HK5 & Hb5).
  destruct (stage2 ip dv dt dx E5 nB rets1 nB2 rets2 HK5 Hb5 S2) as (E6 & X6 & HK6 & Hb6).
  destruct (stage3 ip dv dt dx E6 nB2 rets2 rets HK6 Hb6 H) as (E7 & X7 & HK7).
  rewrite (block_next _ _ _ _ _ _ _ _ X5), (block_next _ _ _ _ _ _ _ _ X6), (block_next _ _ _ _ _ _ _ _ X7).
  destruct (tail_rets ip dv dt dx rets E7 HK7) as (E8 & -> & H8). unfold method_ends. cbn [bind]. rewrite H8. reflexivity.
Qed.
End Interpolate.
