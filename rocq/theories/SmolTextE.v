(** The texts of smolyak/grid.py and interp.py: the classes. *)
From Coq Require Import ZArith List Bool String Lia ZifyBool Reals.
From Verif Require Import SpecSmolText Base BaseFacts CompleteModel SmolyakModel SpecSmolyak SmolyakChains SmolyakB PySyntax NpSem NpFacts SmolText SmolTextA SmolTextB SmolTextC SmolTextD.
Import ListNotations.
Open Scope Z_scope.
Local Notation Forall := List.Forall.

(** Bounds as arguments: None, a number, a list, something else. *)
Definition b_bound (x : string) (e : expr) (msg : expr) : stmt :=
  SIf (ECmp (EName x) [("is"%string, ENone)])
    [SAssign [EAttr (EName "self") x] (EBin "*" e (ECall (EAttr (EName "np") "ones") [EName "d"] []))]
    [SIf (EOr (ECall (EName "isinstance") [EName x; EName "int"] []) (ECall (EName "isinstance") [EName x; EName "float"] []))
       [SAssign [EAttr (EName "self") x] (EBin "*" (ECall (EAttr (EName "np") "ones") [EName "d"] []) (EName x))]
       [SIf (EOr (ECall (EName "isinstance") [EName x; EName "list"] []) (ECall (EName "isinstance") [EName x; EAttr (EName "np") "ndarray"] []))
          [SAssign [EName x] (ECall (EAttr (EName "np") "asarray") [EName x] []);
           SIf (ECmp (EAttr (EName x) "size") [("=="%string, EName "d")]) [SAssign [EAttr (EName "self") x] (EName x)]
             [SRaise (Some (ECall (EName "ValueError") [msg] []))]] []]].
Lemma fvec_repeat d (x : R) : 0 <= d -> farr [d] (fun _ => x) = fvec (repeat x (Z.to_nat d)).
Proof.
  intros H. unfold fvec. assert (E : zlen (repeat x (Z.to_nat d)) = d) by (unfold zlen; rewrite repeat_length; lia). rewrite E. apply farr_ext. intros idx Hi. apply inb1 in Hi as (p & -> & Hp).
  unfold vec. cbn [hd]. rewrite (nth_indep _ _ x) by (rewrite repeat_length; lia). symmetry. apply nth_repeat.
Qed.
Lemma make_floats (l : list R) : make_array (map VFlt l) = Ok (fvec l).
Proof. unfold make_array. pose proof (floats_map l) as H. destruct l; cbn [map] in *; rewrite ?H; reflexivity. Qed.
Lemma make_ints (l : list Z) : l <> [] -> make_array (T := R) (map VInt l) = Ok (ivec l).
Proof. intros Hl. unfold make_array. pose proof (ints_map (T := R) l) as H. destruct l; [congruence|]. cbn [map] in *. rewrite H. reflexivity. Qed.
Lemma lib_as_floats (X : externals R) l : library X "np.asarray" [VList (map VFlt l)] = Some (Ok (fvec l)).
Proof. cbv [library String.eqb Ascii.eqb Bool.eqb orb]. now rewrite make_floats. Qed.
Lemma size_fvec (l : list R) : attribute (fvec l) "size" = Ok (VInt (zlen l)).
Proof. unfold fvec. rewrite attr_size. cbn. do 2 f_equal. lia. Qed.

Section Bound.
Variable X : externals R.
Variable call : string -> list (val R) -> list (string * val R) -> res (val R).
Variable invoke : val R -> string -> list (val R) -> list (string * val R) -> res (val R).
Variable fuel : nat.
Lemma bound_text E x e msg dflt b c l d :
  (x = "lb" /\ e = ENeg (EInt 1) /\ dflt = n_ofZ (-1) \/ x = "ub" /\ e = EInt 1 /\ dflt = n_ofZ 1)%string -> 0 <= d ->
  E x = Some (vbound b) -> E "self"%string = Some (VObj c l) -> E "d"%string = Some (VInt d) ->
  match read_bound d dflt b with
  | Ok (Some v) => exists E', exec X call invoke fuel (b_bound x e msg) E = Ok (Nxt, E') /\ E' "self"%string = Some (VObj c (set_attr l x (fvec v))) /\
      forall y, y <> x -> y <> "self"%string -> E' y = E y
  | Ok None => exec X call invoke fuel (b_bound x e msg) E = Ok (Nxt, E)
  | Err er => exec X call invoke fuel (b_bound x e msg) E = Err er
  end.
Proof.
  intros Hx Hd Ex Es Ed. unfold b_bound.
  assert (He : eval X call invoke E e = Ok (VInt (if String.eqb x "lb" then -1 else 1)) /\ dflt = IZR (if String.eqb x "lb" then -1 else 1)).
  { destruct Hx as [(-> & -> & ->) | (-> & -> & ->)]; split; reflexivity. }
  destruct He as [He Hdf]. assert (Hxs : x <> "self"%string) by (destruct Hx as [(-> & _) | (-> & _)]; discriminate).
  assert (Hxd : x <> "d"%string) by (destruct Hx as [(-> & _) | (-> & _)]; discriminate).
  assert (Hxm : module_name x = false) by (destruct Hx as [(-> & _) | (-> & _)]; reflexivity). clear Hx. set (z := if String.eqb x "lb" then -1 else 1) in *. clearbody z. subst dflt.
  destruct b as [|s|v|]; cbn [vbound read_bound] in *.
  - erewrite exec_if by eve. cbv iota. eexists. split; [|split].
    + erewrite block_next; [reflexivity|]. eapply exec_set_; [eapply eq_trans; [eapply ev_bin; [exact He | eve] | ops] | eapply assign_attr; exact Es].
    + rewrite upd_same. do 4 f_equal. rewrite <- fvec_repeat by auto. apply farr_ext. intros. cbn [n_mul n_ofZ NumR]. ring.
    + intros y H1 H2. now rewrite upd_other.
  - erewrite exec_if by eve. cbv iota. rewrite block_cons.
    erewrite exec_if; [|eapply eq_trans; [eapply ev_or; [eve | intros _; eve] | reflexivity]]. cbv iota. eexists. split; [|split].
    + erewrite block_next; [reflexivity|]. eapply exec_set_; [eapply eq_trans; [eapply ev_bin; [eve | eve] | ops] | eapply assign_attr; exact Es].
    + rewrite upd_same. do 4 f_equal. rewrite <- fvec_repeat by auto. apply farr_ext. intros. cbn [n_mul n_ofZ NumR]. ring.
    + intros y H1 H2. now rewrite upd_other.
  - erewrite exec_if by eve. cbv iota. rewrite block_cons.
    erewrite exec_if; [|eapply eq_trans; [eapply ev_or; [eve | intros _; eve] | reflexivity]]. cbv iota. rewrite block_cons.
    erewrite exec_if; [|eapply eq_trans; [eapply ev_or; [eve | intros _; eve] | reflexivity]]. cbv iota.
    pose proof (lib_as_floats X v) as Ha. pose proof (size_fvec v) as Hs.
    erewrite block_next.
    2:{ eapply exec_set. eapply ev_lib; [reflexivity | reflexivity | evs | evk | reflexivity | exact Ha]. }
    assert (Ev : upd E x (fvec v) x = Some (fvec v)) by apply upd_same.
    assert (Es' : upd E x (fvec v) "self"%string = Some (VObj c l)) by (rewrite upd_other by congruence; exact Es).
    assert (Ed' : upd E x (fvec v) "d"%string = Some (VInt d)) by (rewrite upd_other by congruence; exact Ed).
    rewrite block_cons. erewrite exec_if.
    2:{ eapply eq_trans; [eapply ev_cmp; [eapply eq_trans; [eapply ev_attr; [exact Hxm | eapply ev_name; exact Ev] | exact Hs] | eapply ev_name; exact Ed'] | reflexivity]. }
    destruct (zlen v =? d); [|reflexivity]. cbv iota. eexists. split; [|split].
    + erewrite block_next; [reflexivity|]. eapply exec_set_; [eapply ev_name; exact Ev | eapply assign_attr; exact Es'].
    + now rewrite upd_same.
    + intros y H1 H2. now rewrite !upd_other.
  - erewrite exec_if by eve. cbv iota. rewrite block_cons.
    erewrite exec_if; [|eapply eq_trans; [eapply ev_or; [eve | intros _; eve] | reflexivity]]. cbv iota. rewrite block_cons.
    erewrite exec_if; [|eapply eq_trans; [eapply ev_or; [eve | intros _; eve] | reflexivity]]. reflexivity.
Qed.
End Bound.

(** ** Methods *)
Lemma inv_def X n v m ps b b' vs ks E : method_def sm_program v m = Some (ps, b) -> existsb has_yield b = false -> nodoc b = b' ->
  bind_params X (run X sm_program n) (fun _ _ _ _ => Err TypeErr) ps (v :: vs) ks = Ok E ->
  inv X sm_program n v m vs ks = ends (block X (run X sm_program n) (fun _ _ _ _ => Err (A := val R) TypeErr) n b' E).
Proof.
  intros H1 H2 <- H3. unfold inv. rewrite H1. rewrite (call_plain _ _ _ _ _ _ _ _ E) by auto. rewrite block_nodoc.
  destruct (block _ _ _ _ _ _) as [[[] ?]|]; reflexivity.
Qed.
Ltac enterm := erewrite inv_def;
  [| vm_compute; reflexivity | vm_compute; reflexivity | cbv [nodoc]; reflexivity
   | cbn [bind_params find fst snd String.eqb Ascii.eqb Bool.eqb bind]; reflexivity].
Definition b_cube2dom := Eval vm_compute in nodoc (snd (sm_meth "SmolyakGrid" "cube2dom")).
Definition b_dom2cube := Eval vm_compute in nodoc (snd (sm_meth "SmolyakGrid" "dom2cube")).
Section Methods.
Variable X : externals R.
Variables (l : list (string * val R)) (lb ub : list R) (N c : Z) (pts : arr R).
Hypothesis (Hlb : attr l "lb" = Ok (fvec lb)) (Hub : attr l "ub" = Ok (fvec ub)) (Ll : zlen lb = c) (Lu : zlen ub = c) (Hs : ashape pts = [N; c]).
Let sg := VObj "SmolyakGrid" l.
Lemma bounds_are : attribute sg "lb" = Ok (farr [c] (vec (n_ofZ 0) lb)) /\ attribute sg "ub" = Ok (farr [c] (vec (n_ofZ 0) ub)).
Proof. unfold sg. cbn [attribute]. rewrite Hlb, Hub. unfold fvec. now rewrite Ll, Lu. Qed.
Lemma inv_cube2dom n g : cube2dom lb ub pts = Ok g -> inv X sm_program n sg "cube2dom" [VArr (canon pts)] [] = Ok (VArr (canon g)).
Proof.
  intros H. destruct bounds_are as [B1 B2]. unfold sg in *. enterm. fold b_cube2dom. unfold b_cube2dom.
  unfold cube2dom, per_column in H. rewrite Hs, Ll, Lu, !Z.eqb_refl in H. cbn [andb] in H. injection H as <-.
  rewrite farr_canon, Hs.
  erewrite block_next. 2:{ eapply exec_set. eapply eq_trans; [eapply ev_attr; [reflexivity | eve] | exact B1]. }
  erewrite block_next. 2:{ eapply exec_set. eapply eq_trans; [eapply ev_attr; [reflexivity | eve] | exact B2]. }
  step. step. step. eapply eq_trans; [eapply ends_ret; eapply block_ret; eapply exec_ret; eve|].
  rewrite farr_canon. reflexivity.
Qed.
Lemma inv_dom2cube n g : dom2cube lb ub pts = Ok g -> inv X sm_program n sg "dom2cube" [VArr (canon pts)] [] = Ok (VArr (canon g)).
Proof.
  intros H. destruct bounds_are as [B1 B2]. unfold sg in *. enterm. fold b_dom2cube. unfold b_dom2cube.
  unfold dom2cube, per_column in H. rewrite Hs, Ll, Lu, !Z.eqb_refl in H. cbn [andb] in H. injection H as <-.
  rewrite farr_canon, Hs.
  erewrite block_next. 2:{ eapply exec_set. eapply eq_trans; [eapply ev_attr; [reflexivity | eve] | exact B1]. }
  erewrite block_next. 2:{ eapply exec_set. eapply eq_trans; [eapply ev_attr; [reflexivity | eve] | exact B2]. }
  step. step. step. eapply eq_trans; [eapply ends_ret; eapply block_ret; eapply exec_ret; eve|].
  rewrite farr_canon. reflexivity.
Qed.
End Methods.

(** ** SmolyakGrid(d, mu, lb, ub) *)
Definition vsg (sg : sgrid R) : val R := VObj "SmolyakGrid"
  [("d", VInt (sg_d sg)); ("lb", fvec (sg_lb sg)); ("ub", fvec (sg_ub sg)); ("mu", vmu (sg_mu sg)); ("inds", VList (map zl (sg_inds sg)));
   ("pinds", VList (map vtup (sg_pinds sg))); ("cube_grid", VArr (canon (sg_cube sg))); ("grid", VArr (canon (sg_grid sg)));
   ("B", VArr (canon (sg_B sg))); ("B_L", VArr (canon (sg_BL sg))); ("B_U", VArr (canon (sg_BU sg)))]%string.
Definition p_grid_init := Eval vm_compute in fst (sm_meth "SmolyakGrid" "__init__").
Definition b_grid_init := Eval vm_compute in snd (sm_meth "SmolyakGrid" "__init__").
Definition b_tail : list stmt :=
  [SAssign [EAttr (EName "self") "mu"] (EName "mu");
   SAssign [EAttr (EName "self") "inds"] (ECall (EName "smol_inds") [EName "d"; EName "mu"] []);
   SAssign [EAttr (EName "self") "pinds"] (ECall (EName "poly_inds") [EName "d"; EName "mu"] [("inds"%string, EAttr (EName "self") "inds")]);
   SAssign [EAttr (EName "self") "cube_grid"] (ECall (EName "build_grid") [EAttr (EName "self") "d"; EAttr (EName "self") "mu"; EAttr (EName "self") "inds"] []);
   SAssign [EAttr (EName "self") "grid"] (ECall (EAttr (EName "self") "cube2dom") [EAttr (EName "self") "cube_grid"] []);
   SAssign [EAttr (EName "self") "B"] (ECall (EName "build_B") [EAttr (EName "self") "d"; EAttr (EName "self") "mu"; EAttr (EName "self") "cube_grid"; EAttr (EName "self") "pinds"] [])].
Ltac stepa := erewrite block_next; [| eapply exec_set_; [| eapply assign_attr; look]].
Section Grid.
Variable X : externals R.
Notation run := (run X sm_program).
Notation inv := (inv X sm_program).
Variables (d m N : Z) (mu : mu_t) (sg : sgrid R).
Hypothesis (Hd : 2 <= d) (Hm : 1 <= m) (Hmu : max_mu mu = Ok m) (Gd : sg_d sg = d) (Gmu : sg_mu sg = mu) (HI : smol_inds d mu = Ok (sg_inds sg)) (HP : poly_inds_of mu (sg_inds sg) = Ok (sg_pinds sg))
  (HC : build_grid_of (s_n (x_pi X) (x_cos X) tiny14) mu (sg_inds sg) = Ok (sg_cube sg)) (HG : cube2dom (sg_lb sg) (sg_ub sg) (sg_cube sg) = Ok (sg_grid sg))
  (HB : build_B d mu (sg_cube sg) (sg_pinds sg) false = Ok (sg_B sg, None)) (Hs : ashape (sg_cube sg) = [N; d]) (HN : 0 < N) (Ll : zlen (sg_lb sg) = d) (Lu : zlen (sg_ub sg) = d)
  (Hok : indices_ok d m (sg_pinds sg)).
Definition attrs0 : list (string * val R) := [("d", VInt d); ("lb", fvec (sg_lb sg)); ("ub", fvec (sg_ub sg))]%string.
Definition attrs1 : list (string * val R) :=
  (attrs0 ++ [("mu", vmu mu); ("inds", VList (map zl (sg_inds sg)));
   ("pinds", VList (map vtup (sg_pinds sg))); ("cube_grid", VArr (canon (sg_cube sg))); ("grid", VArr (canon (sg_grid sg)));
   ("B", VArr (canon (sg_B sg)))]%string)%list.
Lemma tail_text k E : (fact (Z.to_nat d) + Z.to_nat d <= k)%nat -> K [("self", VObj "SmolyakGrid" attrs0); ("d", VInt d); ("mu", vmu mu)]%string E ->
  exists E', block X (run (S (S (S k)))) (inv (S (S (S k)))) (S (S (S k))) b_tail E = Ok (Nxt, E') /\ E' "self"%string = Some (VObj "SmolyakGrid" attrs1).
Proof.
  intros Hk HK. unfold b_tail.
  pose proof (run_smol_inds X (S k) d mu (sg_inds sg) HI ltac:(lia) ltac:(lia)) as R1.
  pose proof (run_poly_inds X (S k) d mu (sg_inds sg) (sg_pinds sg) HP) as R2.
  pose proof (run_build_grid X k d mu (sg_inds sg) (sg_cube sg) HC) as R3. rewrite Hs in R3. cbn [hd] in R3. specialize (R3 ltac:(intros mm E1; rewrite Hmu in E1; injection E1 as <-; lia) HN).
  pose proof (run_build_B X d m N (sg_cube sg) (sg_pinds sg) mu ltac:(lia) ltac:(lia) Hs Hok Hm Hmu (S k) (sg_B sg) HB) as R4.
  stepa; [|eve]. stepa; [|eapply eq_trans; [eapply ev_fun; [reflexivity | evs | evk | reflexivity] | exact R1]].
  stepa; [|eapply eq_trans; [eapply ev_fun; [reflexivity | evs | evk | reflexivity] | exact R2]].
  stepa; [|eapply eq_trans; [eapply ev_fun; [reflexivity | evs | evk | reflexivity] | exact R3]].
  stepa; [| eapply eq_trans; [eapply ev_method; [reflexivity | eve | evs | evk] |]].
  2:{ eapply (inv_cube2dom X _ (sg_lb sg) (sg_ub sg) N d); [reflexivity | reflexivity | exact Ll | exact Lu | exact Hs | exact HG]. }
  stepa; [|eapply eq_trans; [eapply ev_fun; [reflexivity | evs | evk | reflexivity] | exact R4]].
  rewrite block_nil. eexists. split; [reflexivity|]. rewrite upd_same. reflexivity.
Qed.
End Grid.

(** The density as an argument: an integer, an array, a list. *)
Definition msg_b : expr := EBin "+" (EStr "lb must be a scalar or array-like object") (EStr "with d elements.").
Definition self_of (r : res (state R)) : res (val R) :=
  '(s, E) <- r ;; match s with Ret _ | Nxt => match E "self"%string with Some v => Ok v | None => Err TypeErr end | _ => Err TypeErr end.
Lemma run_class_def X n c cb ps b vs ks E : find_class sm_program c = Some cb -> find_def cb "__init__" = Some (ps, b) -> existsb has_yield b = false ->
  bind_params X (run X sm_program n) (inv X sm_program n) ps (VObj c [] :: vs) ks = Ok E ->
  run X sm_program (S n) c vs ks = self_of (block X (run X sm_program n) (inv X sm_program n) n b E).
Proof.
  intros H1 H2 H3 H4. rewrite (run_class X sm_program n c cb ps b) by auto. rewrite (call_plain _ _ _ _ _ _ _ _ E) by auto.
  unfold self_of. destruct (block _ _ _ _ _ _) as [[[] ?]|]; reflexivity.
Qed.
Section Init.
Variable X : externals R.
Notation run := (run X sm_program).
Notation inv := (inv X sm_program).
Variables (n : nat) (d : Z) (mu : mu_t) (w : val R) (lb ub : bound R) (vs : list (val R)) (ks : list (string * val R)).
Hypothesis (Hd : 0 <= d) (Hw : mu_arg mu w) (Ha : bounds_args lb ub vs ks).
Definition E_init : env R := upd (upd (upd (upd (upd empty "ub" (vbound ub)) "lb" (vbound lb)) "mu" w) "d" (VInt d)) "self" (VObj "SmolyakGrid" []).
Lemma enter_init : run (S n) "SmolyakGrid" (VInt d :: w :: vs) ks = self_of (block X (run n) (inv n) n b_grid_init E_init).
Proof.
  destruct Ha as [(-> & ->) | [(-> & ->) | (-> & -> & H1 & H2)]].
  - erewrite run_class_def; [| vm_compute; reflexivity | vm_compute; reflexivity | vm_compute; reflexivity | cbn [bind_params find fst snd String.eqb Ascii.eqb Bool.eqb bind]; reflexivity]. reflexivity.
  - erewrite run_class_def; [| vm_compute; reflexivity | vm_compute; reflexivity | vm_compute; reflexivity | cbn [bind_params find fst snd String.eqb Ascii.eqb Bool.eqb bind]; reflexivity]. reflexivity.
  - unfold E_init. rewrite H1, H2. erewrite run_class_def; [| vm_compute; reflexivity | vm_compute; reflexivity | vm_compute; reflexivity | cbn [bind_params find fst snd String.eqb Ascii.eqb Bool.eqb bind eval]; reflexivity]. reflexivity.
Qed.
(** After the bounds *)
Lemma init_bounds :
  match read_bound d (n_ofZ (-1)) lb, read_bound d (n_ofZ 1) ub with
  | Err e, _ => block X (run n) (inv n) n b_grid_init E_init = Err e
  | Ok _, Err e => block X (run n) (inv n) n b_grid_init E_init = Err e
  | Ok ol, Ok ou => exists E l, block X (run n) (inv n) n b_grid_init E_init = block X (run n) (inv n) n (skipn 3 b_grid_init) E /\ K [("d", VInt d); ("mu", w)]%string E /\
      E "self"%string = Some (VObj "SmolyakGrid" l) /\ forall vl vu, ol = Some vl -> ou = Some vu -> l = [("d", VInt d); ("lb", fvec vl); ("ub", fvec vu)]%string
  end.
Proof.
  unfold b_grid_init. cbn [skipn].
  assert (E1 : exists E, K [("self", VObj "SmolyakGrid" [("d", VInt d)]); ("d", VInt d); ("mu", w); ("lb", vbound lb); ("ub", vbound ub)]%string E /\ forall r,
    block X (run n) (inv n) n (SAssign [EAttr (EName "self") "d"] (EName "d") :: r) E_init = block X (run n) (inv n) n r E).
  { eexists. split; [|intros r; unfold E_init; stepa; [reflexivity | eve]]. kk. }
  destruct E1 as (E1 & HK1 & ->).
  pose proof (bound_text X (run n) (inv n) n E1 "lb" (ENeg (EInt 1)) msg_b (n_ofZ (-1)) lb "SmolyakGrid" [("d"%string, VInt d)] d ltac:(left; auto) Hd ltac:(look) ltac:(look) ltac:(look)) as B1.
  unfold b_bound, msg_b in B1. destruct (read_bound d (n_ofZ (-1)) lb) as [ol|e] eqn:El; [|rewrite block_cons, B1; reflexivity].
  assert (B1' : exists E2 l, forall r, block X (run n) (inv n) n (b_bound "lb" (ENeg (EInt 1)) msg_b :: r) E1 = block X (run n) (inv n) n r E2 /\
    E2 "self"%string = Some (VObj "SmolyakGrid" l) /\ K [("d", VInt d); ("mu", w); ("ub", vbound ub)]%string E2 /\ (forall vl, ol = Some vl -> l = [("d", VInt d); ("lb", fvec vl)]%string)).
  { destruct ol as [vl|].
    - destruct B1 as (E2 & HE & Hself & Hx). exists E2. eexists. intros r. split; [unfold b_bound, msg_b; apply block_next; exact HE|]. split; [exact Hself|]. split.
      + repeat (apply Forall_cons; [cbn [fst snd]; rewrite Hx by discriminate; look |]); apply Forall_nil.
      + intros vl' E. injection E as <-. reflexivity.
    - exists E1. eexists. intros r. split; [unfold b_bound, msg_b; apply block_next; exact B1|]. split; [look|]. split; [kk|discriminate]. }
  destruct B1' as (E2 & l2 & B1'). destruct (B1' []) as (_ & Hs2 & HK2 & Hl2). unfold b_bound, msg_b in B1'.
  pose proof (bound_text X (run n) (inv n) n E2 "ub" (EInt 1) msg_b (n_ofZ 1) ub "SmolyakGrid" l2 d ltac:(right; auto) Hd ltac:(look) ltac:(look) ltac:(look)) as B2.
  unfold b_bound, msg_b in B2. destruct (read_bound d (n_ofZ 1) ub) as [ou|e] eqn:Eu.
  2:{ destruct ol; (rewrite (proj1 (B1' _)), block_cons, B2; reflexivity). }
  destruct ou as [vu|].
  - destruct B2 as (E3 & HE & Hself & Hx). exists E3. eexists. split; [rewrite (proj1 (B1' _)); apply block_next; exact HE|]. split; [|split; [exact Hself|]].
    + repeat (apply Forall_cons; [cbn [fst snd]; rewrite Hx by discriminate; look |]); apply Forall_nil.
    + intros vl vu' E E'. injection E' as <-. rewrite (Hl2 vl E). reflexivity.
  - exists E2, l2. split; [rewrite (proj1 (B1' _)); apply block_next; exact B2|]. split; [kk|]. split; [look|discriminate].
Qed.
End Init.

Lemma cmp_iz (X : externals R) l z : compare (T := R) "<" (ivec l) (VInt z) = Ok (barr [zlen l] (fun idx => vec 0 l idx <? z)).
Proof.
  unfold ivec, iarr. cbv [compare String.eqb Ascii.eqb Bool.eqb]. cbv [order_ is_arr orb cmp_arr as_ints as_floats num ashape]. rewrite zipa_r. cbn [bind ashape tab]. f_equal. unfold barr. f_equal.
  apply tab_ext. intros idx Hi. f_equal. apply (tab_cell 0 [zlen l] (vec 0 l)). exact Hi.
Qed.
Lemma existsb_map {A B} (f : B -> bool) (g : A -> B) l : existsb f (map g l) = existsb (fun a => f (g a)) l.
Proof. induction l as [|a l IH]; auto. cbn. now rewrite IH. Qed.
Lemma existsb_zrange (p : Z -> bool) l : existsb (fun i => p (vec 0 l [i])) (zrange (zlen l)) = existsb p l.
Proof.
  rewrite <- (existsb_map p (fun i => vec 0 l [i])). f_equal. pose proof (map_nth_zrange (fun x : Z => x) l 0) as H. rewrite map_id in H. exact H.
Qed.
Lemma lib_as_mu (X : externals R) mu l w : mu_arg mu w -> mu = MuArr l -> library X "np.asarray" [w] = Some (Ok (ivec l)).
Proof.
  intros [-> | (l' & -> & Hl & ->)] E; [rewrite E; reflexivity|]. injection E as <-. cbv [library String.eqb Ascii.eqb Bool.eqb orb]. now rewrite make_ints.
Qed.
Section Init2.
Variable X : externals R.
Variable call : string -> list (val R) -> list (string * val R) -> res (val R).
Variable invoke : val R -> string -> list (val R) -> list (string * val R) -> res (val R).
Variable fuel : nat.
Lemma mu_text E d mu w l : mu_arg mu w -> K [("self", VObj "SmolyakGrid" l); ("d", VInt d); ("mu", w)]%string E ->
  if density_bad d mu then exec X call invoke fuel (nth 4 b_grid_init SPass) E = Err ValueErr
  else exists E', exec X call invoke fuel (nth 4 b_grid_init SPass) E = block X call invoke fuel b_tail E' /\ K [("self", VObj "SmolyakGrid" l); ("d", VInt d); ("mu", vmu mu)]%string E'.
Proof.
  intros Hw HK. cbn [nth b_grid_init]. destruct mu as [m|ml]; cbn [density_bad].
  - destruct Hw as [-> | (? & ? & _)]; [|discriminate]. cbn [vmu] in *. destruct (m <? 1) eqn:Em.
    + erewrite exec_if by eve. cbv iota. rewrite block_cons. erewrite exec_if by eve. rewrite Em. reflexivity.
    + exists E. split; [|exact HK]. erewrite exec_if by eve. cbv iota. rewrite block_cons. erewrite exec_if by eve. rewrite Em. reflexivity.
  - pose proof (lib_as_mu X (MuArr ml) ml w Hw eq_refl) as Has.
    assert (G1 : eval X call invoke E (ECall (EName "isinstance") [EName "mu"; EName "int"] []) = Ok (VBool false)).
    { eapply ev_isinstance; [eve|]. destruct Hw as [-> | (? & _ & _ & ->)]; reflexivity. }
    assert (Hany : forall E, eval X call invoke (upd E "mu" (ivec ml)) (ECall (EName "any") [ECmp (EName "mu") [("<"%string, EInt 1)]] []) = Ok (VBool (existsb (fun m => m <? 1) ml))).
    { intros E0. eapply ev_lib; [reflexivity | reflexivity | eapply evs_cons; [reflexivity | eapply eq_trans; [eapply ev_cmp; [eve | eve] | apply cmp_iz; exact X] | apply evs_nil] | evk | reflexivity |].
      rewrite lib_any. do 3 f_equal. apply (existsb_zrange (fun m => m <? 1)). }
    assert (Hlen : library X "len" [ivec ml] = Some (Ok (VInt (zlen ml)))) by reflexivity.
    destruct (existsb (fun m => m <? 1) ml) eqn:Ee; [|destruct (zlen ml =? d) eqn:El]; cbn [orb negb].
    + erewrite exec_if by exact G1. cbv iota. erewrite block_next. 2:{ eapply exec_set. eapply ev_lib; [reflexivity | reflexivity | evs | evk | reflexivity | exact Has]. }
      rewrite block_cons. erewrite exec_if by apply Hany. cbv iota. reflexivity.
    + eexists. split.
      * erewrite exec_if by exact G1. cbv iota. erewrite block_next. 2:{ eapply exec_set. eapply ev_lib; [reflexivity | reflexivity | evs | evk | reflexivity | exact Has]. }
        rewrite block_cons. erewrite exec_if by apply Hany. cbv iota. rewrite block_nil. cbn [bind].
        rewrite block_cons. erewrite exec_if; [| eapply eq_trans; [eapply ev_cmp; [eapply ev_lib; [reflexivity | reflexivity | evs | evk | reflexivity | exact Hlen] | eve] | cmps]].
        rewrite El. cbv iota. reflexivity.
      * cbn [vmu]. kk.
    + erewrite exec_if by exact G1. cbv iota. erewrite block_next. 2:{ eapply exec_set. eapply ev_lib; [reflexivity | reflexivity | evs | evk | reflexivity | exact Has]. }
      rewrite block_cons. erewrite exec_if by apply Hany. cbv iota. rewrite block_nil. cbn [bind].
      rewrite block_cons. erewrite exec_if; [| eapply eq_trans; [eapply ev_cmp; [eapply ev_lib; [reflexivity | reflexivity | evs | evk | reflexivity | exact Hlen] | eve] | cmps]].
      rewrite El. cbv iota. reflexivity.
Qed.
End Init2.

Section Run.
Variable X : externals R.
Notation run := (run X sm_program).
Notation inv := (inv X sm_program).
Definition the_sn : Z -> list R := s_n (x_pi X) (x_cos X) tiny14.
Definition the_lu (A : arr R) : res (arr R * arr R) := x_lu X (canon A).
Definition the_solve (A b : arr R) : res (arr R) := x_solve X (canon A) (canon b).
Lemma read_bad d x b : bad_bound d b -> read_bound d x b = Err ValueErr.
Proof. intros (l & -> & H). cbn. destruct (Z.eqb_spec (zlen l) d); [lia|reflexivity]. Qed.
Lemma read_err d x (b : bound R) e : read_bound d x b = Err e -> e = ValueErr.
Proof. destruct b; cbn; try discriminate. destruct (_ =? _); [discriminate|congruence]. Qed.
Lemma read_len d x (b : bound R) v : 0 <= d -> read_bound d x b = Ok (Some v) -> zlen v = d.
Proof.
  intros Hd. destruct b; cbn; try discriminate.
  1,2: intros E; injection E as <-; unfold zlen; rewrite repeat_length; lia.
  destruct (Z.eqb_spec (zlen l) d); [congruence|discriminate].
Qed.
Lemma run_grid_refuses k d mu w lb ub vs ks : 0 <= d -> mu_arg mu w -> bounds_args lb ub vs ks ->
  bad_bound d lb \/ bad_bound d ub \/ d <= 1 \/ density_bad d mu = true -> run (S k) "SmolyakGrid" (VInt d :: w :: vs) ks = Err ValueErr.
Proof.
  intros Hd Hw Ha Hbad. rewrite (enter_init X k d w lb ub vs ks Ha).
  pose proof (init_bounds X k d w lb ub Hd) as HB.
  destruct (read_bound d (n_ofZ (-1)) lb) as [ol|e] eqn:El.
  2:{ apply read_err in El as ->. rewrite HB. reflexivity. }
  destruct (read_bound d (n_ofZ 1) ub) as [ou|e] eqn:Eu.
  2:{ apply read_err in Eu as ->. destruct ol; rewrite HB; reflexivity. }
  destruct Hbad as [Hb | [Hb | Hbad]]; [rewrite (read_bad _ _ _ Hb) in El; discriminate | rewrite (read_bad _ _ _ Hb) in Eu; discriminate |].
  assert (HB' : exists E l, block X (run k) (inv k) k b_grid_init (E_init d w lb ub) = block X (run k) (inv k) k (skipn 3 b_grid_init) E /\ K [("d", VInt d); ("mu", w)]%string E /\
      E "self"%string = Some (VObj "SmolyakGrid" l)).
  { destruct ol, ou; destruct HB as (E & l' & ? & ? & ? & _); exists E, l'; auto. }
  clear HB. destruct HB' as (E & l & -> & HK & Hs).
  assert (HK' : K [("self", VObj "SmolyakGrid" l); ("d", VInt d); ("mu", w)]%string E) by kk.
  pose proof (mu_text X (run k) (inv k) k E d mu w l Hw HK') as HM. cbn [nth b_grid_init] in HM.
  unfold b_grid_init. cbn [skipn]. rewrite block_cons. erewrite exec_if by eve.
  destruct (Z.leb_spec d 1); [reflexivity|]. cbv iota. rewrite block_nil. cbn [bind].
  destruct Hbad as [?|Hbad]; [lia|]. rewrite Hbad in HM. rewrite block_cons, HM. reflexivity.
Qed.
Lemma run_grid k d mu w lb ub vs ks sg m N : mu_arg mu w -> bounds_args lb ub vs ks ->
  sg_new the_sn the_lu d mu lb ub = Ok sg -> max_mu mu = Ok m -> 1 <= m -> ashape (sg_cube sg) = [N; d] -> 0 < N -> indices_ok d m (sg_pinds sg) ->
  (fact (Z.to_nat d) + Z.to_nat d <= k)%nat -> run (S (S (S (S k)))) "SmolyakGrid" (VInt d :: w :: vs) ks = Ok (vsg sg).
Proof.
  intros Hw Ha H Hmu Hm Hs HN Hok Hk. unfold sg_new in H.
  destruct (read_bound d (n_ofZ (-1)) lb) as [ol|] eqn:El; [|discriminate]. cbn [bind] in H.
  destruct (read_bound d (n_ofZ 1) ub) as [ou|] eqn:Eu; [|discriminate]. cbn [bind] in H.
  destruct (Z.leb_spec d 1) as [|Hd]; [discriminate|].
  assert (Hg : density_bad d mu = false).
  { destruct mu as [z|l]; cbn [density_bad]; [destruct (z <? 1); [discriminate|reflexivity]|]. destruct (existsb _ l); [discriminate|]. destruct (zlen l =? d); [reflexivity|discriminate]. }
  assert (H' : inds <- smol_inds d mu ;; pinds <- poly_inds_of mu inds ;; cube <- build_grid_of the_sn mu inds ;;
    match ol, ou with
    | Some lb, Some ub => grid <- cube2dom lb ub cube ;; '(B, _) <- build_B d mu cube pinds false ;; '(L, U) <- the_lu B ;; Ok (mkSG d mu lb ub inds pinds cube grid B L U)
    | _, _ => Err NameErr end = Ok sg).
  { destruct mu as [z|l]; cbn [density_bad] in Hg.
    - rewrite Hg in H. exact H.
    - apply orb_false_iff in Hg as [G1 G2]. rewrite G1, G2 in H. exact H. }
  clear H. destruct (smol_inds d mu) as [inds|] eqn:EI; [|discriminate]. cbn [bind] in H'. destruct (poly_inds_of mu inds) as [P|] eqn:EP; [|discriminate]. cbn [bind] in H'.
  destruct (build_grid_of the_sn mu inds) as [cube|] eqn:EC; [|discriminate]. cbn [bind] in H'. destruct ol as [vl|]; [|discriminate]. destruct ou as [vu|]; [|discriminate].
  destruct (cube2dom vl vu cube) as [g|] eqn:EG; [|discriminate]. cbn [bind] in H'. destruct (build_B d mu cube P false) as [[B o]|] eqn:EB; [|discriminate]. cbn [bind] in H'.
  destruct (the_lu B) as [[L U]|] eqn:ELU; [|discriminate]. cbn [bind] in H'. injection H' as <-. cbn [sg_cube sg_pinds] in *.
  assert (Hd0 : 0 <= d) by lia. pose proof (read_len _ _ _ _ Hd0 El) as Ll. pose proof (read_len _ _ _ _ Hd0 Eu) as Lu.
  assert (EB' : o = None).
  { destruct (build_B_spec d m N cube P ltac:(lia) ltac:(lia) Hs Hok Hm mu Hmu) as (B' & E1 & _). rewrite EB in E1. now injection E1. } subst o.
  rewrite (enter_init X _ d w lb ub vs ks Ha). pose proof (init_bounds X (S (S (S k))) d w lb ub ltac:(lia)) as HB. rewrite El, Eu in HB.
  destruct HB as (E & l & -> & HK & Hself & Hl). specialize (Hl vl vu eq_refl eq_refl). subst l.
  assert (HK' : K [("self", VObj "SmolyakGrid" [("d", VInt d); ("lb", fvec vl); ("ub", fvec vu)]); ("d", VInt d); ("mu", w)]%string E) by kk.
  pose proof (mu_text X (run (S (S (S k)))) (inv (S (S (S k)))) (S (S (S k))) E d mu w _ Hw HK') as HM. rewrite Hg in HM. destruct HM as (E1 & HM & HK1). cbn [nth b_grid_init] in HM.
  set (sg := mkSG d mu vl vu inds P cube g B L U).
  destruct (tail_text X d m N mu sg ltac:(lia) Hm Hmu EI EP EC EG EB Hs HN Ll Lu Hok k E1 Hk HK1) as (E2 & HE2 & Hs2).
  unfold b_grid_init. cbn [skipn]. rewrite block_cons. erewrite exec_if by eve. destruct (Z.leb_spec d 1); [lia|]. cbv iota. rewrite block_nil. cbn [bind].
  erewrite block_next; [| rewrite HM; exact HE2].
  assert (Hlu : library X "lu" [VArr (canon B); VBool true] = Some (Ok (VTup [VArr (canon L); VArr (canon U)]))).
  { cbv [library String.eqb Ascii.eqb Bool.eqb orb]. unfold the_lu in ELU. rewrite ELU. reflexivity. }
  erewrite block_next.
  2:{ eapply exec_set_; [eapply ev_lib; [reflexivity | reflexivity | evs | evk | reflexivity | exact Hlu] | reflexivity]. }
  stepa; [|eve]. stepa; [|eve]. rewrite block_nil. unfold self_of. cbn [bind]. rewrite upd_same. reflexivity.
Qed.
End Run.
