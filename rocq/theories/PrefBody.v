(** The in-place functions of prefilter_cubic.py for d = 1, ..., 4 dimensions, and their vector-valued recursion. *)
From Coq Require Import ZArith List Bool String Lia.
From Verif Require Import Base BaseFacts SplineModel BasisModel PrefilterModel PySyntax PySem SpecText PySemFacts BasisText PyArr SrcPrefilterCubic PrefCore PrefPass PrefText.
Import ListNotations.
Open Scope list_scope.
Open Scope Z_scope.
Open Scope num_scope.

Definition inplace_def := Eval vm_compute in nth 0 (overloads pf_program "_filter_cubic") ([], []).
Definition alloc_def := Eval vm_compute in nth 1 (overloads pf_program "_filter_cubic") ([], []).
(** The function defined under [if d == k]. *)
Definition under (k : nat) : list stmt :=
  match nth k (tl (snd inplace_def)) SPass with SIf _ (SDef _ _ b :: _) _ => b | _ => [] end.
Definition p3 : list (string * option expr) := [("grid", None); ("D", None); ("C", None)]%string.

Section Body.
Context {T : Type} {NT : Num T}.

(** A grid dimension as a value: a tuple [(min, max, n)], or a vector different from the coefficients. *)
Definition is_dim (h : heap T) (kc : nat) (v : val T) (g : gdim T) : Prop :=
  match g with
  | Unif a b n => v = PTup [PFlt a; PFlt b; PInt n]
  | Nonunif gc => exists k, v = PArr k [] /\ k <> kc /\ nth_error h k = Some (OF (vecT gc))
  end.
Lemma is_dim_heap h kc v g C junk : (kc < List.length h)%nat -> is_dim h kc v g -> is_dim (hset h kc (OF C) ++ junk) kc v g.
Proof.
  intros Hk. destruct g; cbn; auto. intros (k & -> & H1 & H2). exists k. split; [auto|]. split; auto.
  assert ((k < List.length h)%nat) by (apply nth_error_Some; congruence).
  rewrite nth_error_app1 by (rewrite hset_length; auto). rewrite nth_hset_other; auto.
Qed.

Variable G : env T.
Variable call : string -> list (val T) -> list (string * val T) -> heap T -> res (val T * heap T).
Variable fuel : nat.
Notation eval := (eval G call).
Notation exec := (exec G call fuel).
Notation block := (block G call fuel).

Definition dinv_expr (i : Z) : expr :=
  EBin "/" (EBin "-" (ESub (ESub (EName "grid") [EInt i]) [EInt 1]) (ESub (ESub (EName "grid") [EInt i]) [EInt 0]))
    (ESub (ESub (EName "grid") [EInt i]) [EInt 2]).
Lemma eval_dinv E h kc vs v g i : E "grid"%string = Some (PTup vs) -> 0 <= i -> lget vs i = Ok v -> is_dim h kc v g ->
  eval E (dinv_expr i) h = (x <- dinv g ;; Ok (PFlt x, h)).
Proof.
  intros HE Hi Hv Hg.
  assert (X : forall j, eval E (ESub (ESub (EName "grid") [EInt i]) [EInt j]) h = (x <- subscript h v [SIx j] ;; Ok (x, h))).
  { intros j. cbn -[subscript]. rewrite (lookup_in G _ _ _ HE). cbn -[subscript]. cbn [subscript]. rewrite wrap_pos by auto. rewrite Hv. reflexivity. }
  unfold dinv_expr. destruct g as [a b n|gc]; cbn [is_dim] in Hg.
  - subst v.
    match goal with |- eval E (EBin ?o (EBin ?o' ?a ?b) ?c) h = _ =>
      change (eval E (EBin o (EBin o' a b) c) h) with
        ('(x, h) <- ('(x, h) <- eval E a h ;; '(y, h) <- eval E b h ;; v <- binop h o' x y ;; Ok (v, h)) ;; '(y, h) <- eval E c h ;; v <- binop h o x y ;; Ok (v, h)) end.
    assert (X1 := X 1). assert (X0 := X 0). assert (X2 := X 2). change (subscript h (PTup [PFlt a; PFlt b; PInt n]) [SIx 1]) with (@Ok (val T) (PFlt b)) in X1.
    change (subscript h (PTup [PFlt a; PFlt b; PInt n]) [SIx 0]) with (@Ok (val T) (PFlt a)) in X0.
    change (subscript h (PTup [PFlt a; PFlt b; PInt n]) [SIx 2]) with (@Ok (val T) (PInt n)) in X2. cbn [bind] in X0, X1, X2.
    rewrite X1. cbn [bind]. rewrite X0. cbn [bind binop is_array arith String.eqb Ascii.eqb Bool.eqb num]. rewrite X2.
    cbn -[divE]. destruct (divE _ _); reflexivity.
  - destruct Hg as (k & -> & _ & Hk).
    match goal with |- eval E (EBin ?o (EBin ?o' ?a ?b) ?c) h = _ =>
      change (eval E (EBin o (EBin o' a b) c) h) with
        ('(x, h) <- ('(x, h) <- eval E a h ;; '(y, h) <- eval E b h ;; v <- binop h o' x y ;; Ok (v, h)) ;; '(y, h) <- eval E c h ;; v <- binop h o x y ;; Ok (v, h)) end.
    assert (P : forall z, 0 <= z -> pyget gc z = lget gc z) by (intros z Hz; unfold pyget; destruct (Z.ltb_spec z 0); [lia|auto]).
    assert (X' : forall j, 0 <= j -> eval E (ESub (ESub (EName "grid") [EInt i]) [EInt j]) h = (x <- lget gc j ;; Ok (PFlt x, h))).
    { intros j Hj. rewrite X, (knots_vec h k gc Hk), P by auto. destruct (lget gc j); reflexivity. }
    rewrite X' by lia. unfold dinv. destruct (lget gc 1) as [g1|]; cbn [bind]; auto.
    rewrite X' by lia. destruct (lget gc 0) as [g0|]; cbn [bind]; auto. cbn [binop is_array arith String.eqb Ascii.eqb Bool.eqb num bind].
    rewrite X' by lia. destruct (lget gc 2) as [g2|]; cbn -[divE]; auto.
    destruct (divE _ _); reflexivity.
Qed.
Lemma eval_dim E h a k w A dims i m : E a = Some (PArr k w) -> nth_error h k = Some (OF A) -> vshape w (ashape A) = dims ->
  0 <= i -> lget dims i = Ok m -> eval E (ESub (EAttr (EName a) "shape") [EInt i]) h = Ok (PInt m, h).
Proof.
  intros HE Hk Hs Hi Hm. cbn. rewrite (lookup_in G _ _ _ HE). cbn [bind]. unfold attribute. cbn [String.eqb Ascii.eqb Bool.eqb].
  rewrite (vdims_arr _ _ _ _ Hk), Hs. cbn [bind]. cbn [subscript]. unfold zlen. rewrite wrap_pos by auto.
  unfold lget in *. destruct (i <? 0); [discriminate|]. rewrite nth_error_map. destruct (nth_error dims (Z.to_nat i)); [|discriminate].
  injection Hm as ->. reflexivity.
Qed.
Lemma eval_plus2 E h x m : E x = Some (PInt m) -> eval E (EBin "+" (EName x) (EInt 2)) h = Ok (PInt (m + 2), h).
Proof. intros H. cbn. rewrite (lookup_in G _ _ _ H). reflexivity. Qed.
Lemma sim_dinv {S} (f : T -> res S) x e g l E h R kc vs v i : e = dinv_expr i ->
  E "grid"%string = Some (PTup vs) -> 0 <= i -> lget vs i = Ok v -> is_dim h kc v g ->
  (forall t, dinv g = Ok t -> sim (f t) (block l (upd E x (PFlt t)) h) R) ->
  sim (t <- dinv g ;; f t) (block (SAssign [EName x] e :: l) E h) R.
Proof.
  intros -> H1 H2 H3 H4 H5. rewrite block_cons, exec_set, (eval_dinv _ _ _ _ _ _ _ H1 H2 H3 H4).
  destruct (dinv g) as [t|]; cbn [bind]; [|reflexivity]. now apply H5.
Qed.
Lemma block_set x e l E h v : eval E e h = Ok (v, h) -> block (SAssign [EName x] e :: l) E h = block l (upd E x v) h.
Proof. intros H. rewrite block_cons, exec_set, H. reflexivity. Qed.

Hypothesis Hfind : find_ok call.
Section Scalar.
Variable h0 : heap T.
Variables kd kc : nat.
Variables wd wc : list (option Z).
Variables D C0 : arr T.
Variables dims comps suf : list Z.
Variable grid : list (gdim T).
Variable vs : list (val T).
Hypothesis Hne : kd <> kc.
Hypothesis HD : nth_error h0 kd = Some (OF D).
Hypothesis HC : nth_error h0 kc = Some (OF C0).
Hypothesis SD : ashape D = dims ++ comps.
Hypothesis SC : ashape C0 = map (fun m => m + 2) dims ++ comps.
Hypothesis Hsuf : inb comps suf = true.
Hypothesis Hwd : is_view wd (List.length dims) suf.
Hypothesis Hwc : is_view wc (List.length dims) suf.
Hypothesis Hpos : Forall (fun m => 1 <= m) dims.
Hypothesis Hgrid : Forall2 (is_dim h0 kc) vs grid.
Hypothesis Hlen : List.length grid = List.length dims.

(** The result of an in-place call: the coefficients are stored at [kc]; new arrays may follow. *)
Definition writes (r : res (arr T)) (x : res (val T * heap T)) : Prop :=
  match r with
  | Ok C => ashape C = ashape C0 /\ exists junk, x = Ok (PNone, hset h0 kc (OF C) ++ junk)
  | Err e => x = Err e
  end.
Definition stored (C : arr T) (_ : env T) (h : heap T) : Prop := ashape C = ashape C0 /\ exists junk, h = hset h0 kc (OF C) ++ junk.
Lemma writes_sim r ps b us E : bind_params G call ps us [] h0 = Ok (E, h0) ->
  sim r (block b E h0) stored -> writes r (call_body G call fuel ps b us [] h0).
Proof.
  intros H1 H2. unfold call_body. rewrite H1. cbn [bind]. destruct r as [C|e]; cbn in *.
  - destruct H2 as (E' & h' & -> & S' & junk & ->). split; auto. exists junk. reflexivity.
  - now rewrite H2.
Qed.
Lemma inv_adim E0 C E h k : inv h0 kc C0 E0 C E h -> (k < List.length dims)%nat -> adim C (Z.of_nat k) = Ok (nth k dims 0 + 2).
Proof using SC.
  clear Hne Hlen. intros (_ & S' & _) Hk. unfold adim. rewrite S', SC. unfold lget. destruct (Z.ltb_spec (Z.of_nat k) 0); [lia|]. rewrite Nat2Z.id.
  rewrite nth_error_app1 by (rewrite map_length; auto). rewrite nth_error_map.
  rewrite (nth_error_nth' dims 0 Hk). reflexivity.
Qed.

Lemma inv_start E0 : inv h0 kc C0 E0 C0 E0 h0.
Proof. split; [apply agree_refl|]. split; auto. exists []. rewrite app_nil_r. symmetry. now apply hset_same. Qed.

End Scalar.

Definition ready (h0 : heap T) (kd kc : nat) (wd wc : list (option Z)) (D C0 : arr T) (dims comps suf : list Z) (grid : list (gdim T)) (vs : list (val T)) : Prop :=
  kd <> kc /\ nth_error h0 kd = Some (OF D) /\ nth_error h0 kc = Some (OF C0) /\
  ashape D = dims ++ comps /\ ashape C0 = map (fun m => m + 2) dims ++ comps /\ inb comps suf = true /\
  is_view wd (List.length dims) suf /\ is_view wc (List.length dims) suf /\
  Forall (fun m => 1 <= m) dims /\ Forall2 (is_dim h0 kc) vs grid /\ List.length grid = List.length dims.

Lemma ready_pass h0 kd kc wd wc D C0 dims comps suf grid vs (HR : ready h0 kd kc wd wc D C0 dims comps suf grid vs)
  (E0 : env T) mname dn (vsp vsq : list (string * string)) eS eC del M pre post (own : bool) :
  let xp := map fst vsp in let xq := map fst vsq in let xs := xp ++ xq in
  1 <= M -> dims = pre ++ M :: post -> List.length vsp = List.length pre -> (own = false -> pre = []) ->
  incl xs (tl temps) -> NoDup xs ->
  E0 "D"%string = Some (PArr kd wd) -> E0 "C"%string = Some (PArr kc wc) ->
  E0 mname = Some (PInt M) -> E0 dn = Some (PFlt del) -> ~ In mname temps -> ~ In dn temps ->
  Forall2 (fun v n => E0 (snd v) = Some (PInt n) /\ ~ In (snd v) temps) (vsp ++ vsq) (map (fun m => m + 2) pre ++ post) ->
  line_expr (if own then "C" else "D")%string xp xq eS -> line_expr "C" xp xq eC ->
  forall C E h, inv h0 kc C0 E0 C E h ->
  sim (filter_pass del M (if own then None else Some D) pre post suf (M + 2) C)
      (block (SAssign [EName "bands"] (ECall (EAttr (EName "np") "zeros") [ETup [EBin "+" (EName mname) (EInt 2); EInt 4]] []) ::
              loops (vsp ++ vsq) [SExpr (ECall (EName "find_coefs_1d") [EName dn; eS; eC; EName "bands"] [])]) E h)
      (inv h0 kc C0 E0).
Proof.
  destruct HR as (Hne & HD & HC & SD & SC & Hsuf & Hwd & Hwc & Hpos & Hgrid & Hlen).
  apply (line_pass G call fuel Hfind h0 kd kc wd wc D C0 dims comps suf Hne HD HC SD SC Hsuf Hwd Hwc).
Qed.
Ltac dinv_step Hg := eapply sim_dinv; [reflexivity|reflexivity|lia|reflexivity|exact Hg|]; intros ? _.
Ltac dim_step HD VD := erewrite block_set by (eapply (eval_dim _ _ "D"); [reflexivity|exact HD|exact VD|lia|reflexivity]).
Ltac next_step := erewrite block_set by (apply eval_plus2; reflexivity).
Ltac notin := let H := fresh in cbn; intros H; repeat destruct H as [H|H]; try discriminate; auto.
(** The next pass: [vsp], [vsq] its loops before and after the direction [k]. *)
Ltac pass_step hr e0 k mn dv vp vq pr po ow :=
  cbn [filter_passes]; cbn [app];
  lazymatch goal with |- sim (bind (lget ?l ?z) ?f) _ _ => let v := eval cbv in (lget l z) in change (lget l z) with v; cbn [bind] end;
  lazymatch goal with Hi : inv _ _ _ e0 ?C _ _, SC : ashape _ = map _ _ ++ _ |- sim (bind (adim ?C ?z) ?f) _ _ =>
    change z with (Z.of_nat k); rewrite (inv_adim _ _ _ _ _ SC _ _ _ _ k Hi) by (cbn; lia); cbn [bind nth] end;
  lazymatch goal with |- sim _ (PySem.block _ _ _ ?l _ _) _ => let l1 := eval vm_compute in (firstn 2 l) in let l2 := eval vm_compute in (skipn 2 l) in change l with (l1 ++ l2) end;
  lazymatch goal with Hi : inv ?h0 ?kc ?C0 e0 ?C ?E ?h |- sim (bind (filter_pass ?del ?M ?src pr po ?suf ?nc ?C) ?f) _ _ =>
  eapply (sim_app G call fuel (filter_pass del M src pr po suf nc C) f _ _ E h (inv h0 kc C0 e0));
  [ eapply (ready_pass _ _ _ _ _ _ _ _ _ _ _ _ hr) with (E0 := e0) (mname := mn) (dn := dv) (vsp := vp) (vsq := vq) (own := ow);
    [ lia | reflexivity | reflexivity | (intros _; reflexivity) || discriminate
    | intros x Hx; cbn in Hx |- *; tauto
    | cbn; repeat constructor; notin
    | reflexivity | reflexivity | reflexivity | reflexivity | notin | notin
    | cbn; repeat constructor; cbn; notin
    | (left; reflexivity) || (right; repeat split) | (left; reflexivity) || (right; repeat split) | exact Hi ]
  | clear Hi; intros ? ? ? Hi ] end.

Lemma scalar_1 h0 kd kc wd wc D C0 dims comps suf grid vs : ready h0 kd kc wd wc D C0 dims comps suf grid vs -> List.length dims = 1%nat ->
  writes h0 kc C0 (filter_scalar grid D suf C0) (call_body G call fuel p3 (under 1) [PTup vs; PArr kd wd; PArr kc wc] [] h0).
Proof.
  intros HR Ld. pose proof HR as (Hne & HD & HC & SD & SC & Hsuf & Hwd & Hwc & Hpos & Hgrid & Hlen).
  destruct dims as [|m0 [|? ?]]; try discriminate Ld. clear Ld.
  destruct grid as [|g0 [|? ?]]; try discriminate Hlen.
  inversion Hgrid as [|v0 ? ? ? Hg0 Hgrid1]; subst. inversion Hgrid1; subst.
  repeat match goal with H : Forall _ (_ :: _) |- _ => inversion H; clear H; subst end.
  assert (VD : vshape wd (ashape D) = [m0]) by (rewrite SD; apply (view_shape wd suf); auto; symmetry; now apply inb_length).
  unfold filter_scalar. rewrite SD. cbn [mapM]. change ((zlen [g0] <? 1) || (4 <? zlen [g0])) with false. cbv iota. cbn [List.length firstn app]. change (zlen [g0]) with 1.
  eapply writes_sim; [reflexivity|].
  match goal with |- sim _ (PySem.block _ _ _ ?l _ _) _ => let l1 := eval vm_compute in l in change l with l1 end.
  rewrite bind_assoc. dinv_step Hg0. cbn [bind].
  dim_step HD VD. next_step.
  match goal with |- sim _ (PySem.block _ _ _ _ ?E _) _ => set (E0 := E) end.
  eapply sim_weak with (R := inv h0 kc C0 E0); [|intros C E h (_ & H); exact H].
  pose proof (inv_start h0 kc C0 HC E0) as Hi.
  pass_step HR E0 0%nat "Mx"%string "dinv_0"%string (@nil (string * string)) (@nil (string * string)) (@nil Z) (@nil Z) false.
  now apply sim_end.
Qed.
Let vx (n : string) := ("ix"%string, n). Let vy (n : string) := ("iy"%string, n). Let vz (n : string) := ("iz"%string, n). Let vt (n : string) := ("iz4"%string, n).
Let none : list (string * string) := [].
Lemma scalar_2 h0 kd kc wd wc D C0 dims comps suf grid vs : ready h0 kd kc wd wc D C0 dims comps suf grid vs -> List.length dims = 2%nat ->
  writes h0 kc C0 (filter_scalar grid D suf C0) (call_body G call fuel p3 (under 2) [PTup vs; PArr kd wd; PArr kc wc] [] h0).
Proof.
  intros HR Ld. pose proof HR as (Hne & HD & HC & SD & SC & Hsuf & Hwd & Hwc & Hpos & Hgrid & Hlen).
  destruct dims as [|m0 [|m1 [|? ?]]]; try discriminate Ld. clear Ld.
  destruct grid as [|g0 [|g1 [|? ?]]]; try discriminate Hlen.
  inversion Hgrid as [|v0 ? ? ? Hg0 Hgrid1]; subst. inversion Hgrid1 as [|v1 ? ? ? Hg1 Hgrid2]; subst. inversion Hgrid2; subst.
  repeat match goal with H : Forall _ (_ :: _) |- _ => inversion H; clear H; subst end.
  assert (VD : vshape wd (ashape D) = [m0; m1]) by (rewrite SD; apply (view_shape wd suf); auto; symmetry; now apply inb_length).
  unfold filter_scalar. rewrite SD. cbn [mapM]. change (zlen [g0; g1]) with 2. change ((2 <? 1) || (4 <? 2)) with false. cbv iota. cbn [List.length firstn app].
  eapply writes_sim; [reflexivity|].
  match goal with |- sim _ (PySem.block _ _ _ ?l _ _) _ => let l1 := eval vm_compute in l in change l with l1 end.
  rewrite ?bind_assoc. dinv_step Hg0. rewrite ?bind_assoc. dinv_step Hg1. cbn [bind].
  do 2 dim_step HD VD. do 2 next_step.
  match goal with |- sim _ (PySem.block _ _ _ _ ?E _) _ => set (E0 := E) end.
  eapply sim_weak with (R := inv h0 kc C0 E0); [|intros C E h (_ & H); exact H].
  pose proof (inv_start h0 kc C0 HC E0) as Hi.
  pass_step HR E0 0%nat "Mx"%string "dinv_0"%string none [vy "My"] (@nil Z) [m1] false.
  pass_step HR E0 1%nat "My"%string "dinv_0"%string [vx "Nx"] none [m0] (@nil Z) true.
  now apply sim_end.
Qed.
Lemma scalar_3 h0 kd kc wd wc D C0 dims comps suf grid vs : ready h0 kd kc wd wc D C0 dims comps suf grid vs -> List.length dims = 3%nat ->
  writes h0 kc C0 (filter_scalar grid D suf C0) (call_body G call fuel p3 (under 3) [PTup vs; PArr kd wd; PArr kc wc] [] h0).
Proof.
  intros HR Ld. pose proof HR as (Hne & HD & HC & SD & SC & Hsuf & Hwd & Hwc & Hpos & Hgrid & Hlen).
  destruct dims as [|m0 [|m1 [|m2 [|? ?]]]]; try discriminate Ld. clear Ld.
  destruct grid as [|g0 [|g1 [|g2 [|? ?]]]]; try discriminate Hlen.
  inversion Hgrid as [|v0 ? ? ? Hg0 Hgrid1]; subst. inversion Hgrid1 as [|v1 ? ? ? Hg1 Hgrid2]; subst. inversion Hgrid2 as [|v2 ? ? ? Hg2 Hgrid3]; subst. inversion Hgrid3; subst.
  repeat match goal with H : Forall _ (_ :: _) |- _ => inversion H; clear H; subst end.
  assert (VD : vshape wd (ashape D) = [m0; m1; m2]) by (rewrite SD; apply (view_shape wd suf); auto; symmetry; now apply inb_length).
  unfold filter_scalar. rewrite SD. cbn [mapM]. change (zlen [g0; g1; g2]) with 3. change ((3 <? 1) || (4 <? 3)) with false. cbv iota. cbn [List.length firstn app].
  eapply writes_sim; [reflexivity|].
  match goal with |- sim _ (PySem.block _ _ _ ?l _ _) _ => let l1 := eval vm_compute in l in change l with l1 end.
  rewrite ?bind_assoc. dinv_step Hg0. rewrite ?bind_assoc. dinv_step Hg1. rewrite ?bind_assoc. dinv_step Hg2. cbn [bind].
  do 3 dim_step HD VD. do 3 next_step.
  match goal with |- sim _ (PySem.block _ _ _ _ ?E _) _ => set (E0 := E) end.
  eapply sim_weak with (R := inv h0 kc C0 E0); [|intros C E h (_ & H); exact H].
  pose proof (inv_start h0 kc C0 HC E0) as Hi.
  pass_step HR E0 0%nat "Mx"%string "dinv_0"%string none [vy "My"; vz "Mz"] (@nil Z) [m1; m2] false.
  pass_step HR E0 1%nat "My"%string "dinv_1"%string [vx "Nx"] [vz "Mz"] [m0] [m2] true.
  pass_step HR E0 2%nat "Mz"%string "dinv_2"%string [vx "Nx"; vy "Ny"] none [m0; m1] (@nil Z) true.
  now apply sim_end.
Qed.
Lemma scalar_4 h0 kd kc wd wc D C0 dims comps suf grid vs : ready h0 kd kc wd wc D C0 dims comps suf grid vs -> List.length dims = 4%nat ->
  writes h0 kc C0 (filter_scalar grid D suf C0) (call_body G call fuel p3 (under 4) [PTup vs; PArr kd wd; PArr kc wc] [] h0).
Proof.
  intros HR Ld. pose proof HR as (Hne & HD & HC & SD & SC & Hsuf & Hwd & Hwc & Hpos & Hgrid & Hlen).
  destruct dims as [|m0 [|m1 [|m2 [|m3 [|? ?]]]]]; try discriminate Ld. clear Ld.
  destruct grid as [|g0 [|g1 [|g2 [|g3 [|? ?]]]]]; try discriminate Hlen.
  inversion Hgrid as [|v0 ? ? ? Hg0 Hgrid1]; subst. inversion Hgrid1 as [|v1 ? ? ? Hg1 Hgrid2]; subst. inversion Hgrid2 as [|v2 ? ? ? Hg2 Hgrid3]; subst. inversion Hgrid3 as [|v3 ? ? ? Hg3 Hgrid4]; subst. inversion Hgrid4; subst.
  repeat match goal with H : Forall _ (_ :: _) |- _ => inversion H; clear H; subst end.
  assert (VD : vshape wd (ashape D) = [m0; m1; m2; m3]) by (rewrite SD; apply (view_shape wd suf); auto; symmetry; now apply inb_length).
  unfold filter_scalar. rewrite SD. cbn [mapM]. change (zlen [g0; g1; g2; g3]) with 4. change ((4 <? 1) || (4 <? 4)) with false. cbv iota. cbn [List.length firstn app].
  eapply writes_sim; [reflexivity|].
  match goal with |- sim _ (PySem.block _ _ _ ?l _ _) _ => let l1 := eval vm_compute in l in change l with l1 end.
  rewrite ?bind_assoc. dinv_step Hg0. rewrite ?bind_assoc. dinv_step Hg1. rewrite ?bind_assoc. dinv_step Hg2. rewrite ?bind_assoc. dinv_step Hg3. cbn [bind].
  do 4 dim_step HD VD. do 4 next_step.
  match goal with |- sim _ (PySem.block _ _ _ _ ?E _) _ => set (E0 := E) end.
  eapply sim_weak with (R := inv h0 kc C0 E0); [|intros C E h (_ & H); exact H].
  pose proof (inv_start h0 kc C0 HC E0) as Hi.
  pass_step HR E0 0%nat "Mx"%string "dinv_0"%string none [vy "My"; vz "Mz"; vt "Mz4"] (@nil Z) [m1; m2; m3] false.
  pass_step HR E0 1%nat "My"%string "dinv_1"%string [vx "Nx"] [vz "Mz"; vt "Mz4"] [m0] [m2; m3] true.
  pass_step HR E0 2%nat "Mz"%string "dinv_2"%string [vx "Nx"; vy "Ny"] [vt "Mz4"] [m0; m1] [m3] true.
  pass_step HR E0 3%nat "Mz4"%string "dinv_3"%string [vx "Nx"; vy "Ny"; vz "Nz"] none [m0; m1; m2] (@nil Z) true.
  now apply sim_end.
Qed.
End Body.
