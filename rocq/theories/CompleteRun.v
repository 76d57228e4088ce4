(** The functions of complete_poly.py, run from the text of the file. *)
From Coq Require Import ZArith List Bool String Lia.
From Verif Require Import Base BaseFacts CompleteModel CompleteGeneric PySyntax PySem SpecText PySemFacts PyArr SrcCompletePoly CompleteText.
Import ListNotations.
Open Scope list_scope.
Open Scope Z_scope.

(** ** [n_complete] *)
Section Count.
Context {T : Type} {NT : Num T}.
Variable G : env T.
Variable call : string -> list (val T) -> list (string * val T) -> heap T -> res (val T * heap T).
Variable fuel : nat.
Notation eval := (eval G call).
Notation exec := (exec G call fuel).
Notation block := (block G call fuel).

Lemma for_pure {S} (g : S -> Z -> S) lo hi : forall s, for_ lo hi (fun i s => Ok (g s i)) s = Ok (fold_left g (zrange2 lo hi) s).
Proof. unfold for_. generalize (zrange2 lo hi) as l. induction l as [|a l IH]; intros s; [reflexivity|]. cbn. apply IH. Qed.
Lemma zrange2_0 n : zrange2 0 n = zrange n.
Proof. unfold zrange2. rewrite Z.sub_0_r. rewrite <- (map_id (zrange n)) at 2. reflexivity. Qed.

Definition tmp_text : list stmt := [SAug "*" (EName "tmp") (EBin "+" (EName "n") (EName "j"))].
Definition count_text : list stmt :=
  [SAssign [EName "tmp"] (EInt 1);
   SAug "*" (EName "denom") (EBin "+" (EName "i") (EInt 1));
   SFor (EName "j") (ECall (EName "range") [EBin "+" (EName "i") (EInt 1)] []) tmp_text;
   SAug "+" (EName "out") (EBin "//" (EName "tmp") (EName "denom"))].
Variables n d : Z.
Variable h : heap T.
Definition RI (s : Z * Z) (E : env T) (h' : heap T) : Prop :=
  h' = h /\ 0 < snd s /\ K [("n", PInt n); ("d", PInt d); ("out", PInt (fst s)); ("denom", PInt (snd s))]%string E.
Definition RJ i (s : Z * Z) (tmp : Z) (E : env T) (h' : heap T) : Prop :=
  h' = h /\ K [("n", PInt n); ("d", PInt d); ("i", PInt i); ("out", PInt (fst s)); ("denom", PInt (snd s)); ("tmp", PInt tmp)]%string E.
Ltac look H := repeat match goal with |- context [lookup G ?E ?x] => erewrite (lookup_in G E x) by (eapply K_at; [exact H|reflexivity]) end.
Ltac known H := repeat (constructor; [cbn [fst snd]; first [apply upd_same | rewrite ?upd_other by discriminate; first [reflexivity | apply upd_same | (eapply K_at; [exact H|reflexivity])]]|]); constructor.
Definition tstep (tmp j : Z) : Z := tmp * (n + j).
Definition cstep (s : Z * Z) (i : Z) : Z * Z :=
  (fst s + fold_left tstep (zrange (i + 1)) 1 / (snd s * (i + 1)), snd s * (i + 1)).
Lemma tmp_sim i s tmp j E h' : RJ i s tmp E h' -> sim (Ok (tstep tmp j)) (block tmp_text (upd E "j" (PInt j)) h') (RJ i s).
Proof.
  intros [-> H]. assert (H' : K [("n", PInt n); ("tmp", PInt tmp); ("j", PInt j)]%string (upd E "j" (PInt j))) by known H.
  unfold tmp_text. cbn [PySem.block PySem.exec PySem.eval]. look H'. cbn -[Z.mul Z.add upd].
  eexists _, _. split; [reflexivity|]. split; [reflexivity|]. known H.
Qed.
Lemma count_sim s i E h' : 0 <= i -> RI s E h' -> sim (Ok (cstep s i)) (block count_text (upd E "i" (PInt i)) h') RI.
Proof.
  intros Hi (-> & Hs & H). unfold count_text. rewrite block_cons, exec_set. cbn [PySem.eval bind]. rewrite block_cons.
  set (E1 := upd (upd E "i" (PInt i)) "tmp" (PInt 1)).
  assert (H1 : K [("n", PInt n); ("d", PInt d); ("i", PInt i); ("out", PInt (fst s)); ("denom", PInt (snd s)); ("tmp", PInt 1)]%string E1) by (unfold E1; known H).
  cbn [PySem.exec PySem.eval]. look H1. cbn -[Z.mul Z.add upd PySem.block sim].
  set (s1 := (fst s, snd s * (i + 1))).
  assert (H2 : RJ i s1 1 (upd E1 "denom" (PInt (snd s * (i + 1)))) h) by (split; [reflexivity|]; known H1).
  replace (Ok (cstep s i)) with (tmp <- for_ 0 (i + 1) (fun j t => Ok (tstep t j)) 1 ;; Ok (fst s1 + tmp / snd s1, snd s1))
    by (rewrite for_pure, zrange2_0; reflexivity).
  eapply sim_cons with (R := RJ i s1).
  - apply sim_for2; [|intros t j E' h' _ H'; now apply tmp_sim|exact H2]. destruct H2 as [_ H2].
    eapply ev_range1; [|exact H2]. eapply ev_bin; [apply ev_name; reflexivity|apply ev_int|reflexivity].
  - intros t E' h' [-> H']. cbn [PySem.block PySem.exec PySem.eval]. look H'. cbn -[Z.mul Z.add upd Z.div Z.eqb].
    destruct (Z.eqb_spec (snd s * (i + 1)) 0) as [X|X]; [exfalso; nia|]. cbn -[Z.mul Z.add upd Z.div].
    eexists _, _. split; [reflexivity|]. split; [reflexivity|]. split; [cbn; nia|]. cbn [fst snd]. known H'.
Qed.
Lemma cstep_n : n_complete n d = fst (fold_left cstep (zrange2 0 d) (1, 1)).
Proof.
  rewrite zrange2_0. unfold n_complete. f_equal. generalize (zrange d) as l, (1, 1) as s.
  induction l as [|a l IH]; intros [o e]; [reflexivity|]. cbn [fold_left]. apply IH.
Qed.
Lemma count_body : call_body G call fuel (fst (cdef "n_complete")) (snd (cdef "n_complete")) [PInt n; PInt d] [] h = Ok (PInt (n_complete n d), h).
Proof.
  unfold call_body.
  let t := eval vm_compute in (fst (cdef "n_complete")) in change (fst (cdef "n_complete")) with t.
  assert (X : exists doc, snd (cdef "n_complete") = [SExpr (EStr doc); SAssign [EName "out"] (EInt 1); SAssign [EName "denom"] (EInt 1);
     SFor (EName "i") (ECall (EName "range") [EName "d"] []) count_text; SRet (Some (EName "out"))]).
  { eexists. vm_compute. reflexivity. }
  destruct X as [doc ->]. set (E0 := upd (upd empty "d" (PInt d)) "n" (PInt n) : env T).
  match goal with |- context [bind_params G call ?p ?v ?k h] => replace (bind_params G call p v k h) with (Ok (E0, h) : res (env T * heap T)) by reflexivity end.
  cbn [bind].
  rewrite block_cons. cbn [PySem.exec PySem.eval bind]. rewrite block_cons, exec_set. cbn [PySem.eval bind]. rewrite block_cons, exec_set. cbn [PySem.eval bind].
  assert (H : RI (1, 1) (upd (upd E0 "out" (PInt 1)) "denom" (PInt 1)) h).
  { split; [reflexivity|]. split; [cbn; lia|]. unfold E0. repeat constructor. }
  assert (Y : sim (for_ 0 d (fun i s => Ok (cstep s i)) (1, 1))
    (exec (SFor (EName "i") (ECall (EName "range") [EName "d"] []) count_text) (upd (upd E0 "out" (PInt 1)) "denom" (PInt 1)) h) RI).
  { apply sim_for2; [|intros s i E' h' Hi H'; apply count_sim; auto; lia|exact H]. destruct H as (_ & _ & H).
    eapply ev_range1; [|exact H]. apply ev_name; reflexivity. }
  rewrite for_pure, <- cstep_n in Y || rewrite for_pure in Y. cbn [sim] in Y. destruct Y as (E' & h' & Y & -> & _ & HK).
  rewrite block_cons, Y. cbn [bind PySem.block PySem.exec PySem.eval]. look HK. cbn [bind]. rewrite cstep_n. reflexivity.
Qed.
End Count.

(** ** The functions that fill [out] *)
Section Fill.
Context {T : Type} {NT : Num T}.
Hypothesis one_mul : forall x : T, n_mul (n_ofZ 1) x = x.
Variable G : env T.
Variable call : string -> list (val T) -> list (string * val T) -> heap T -> res (val T * heap T).
Variable fuel : nat.
Variable h : heap T.
Variables kz ko : nat.
Variables z out : arr T.
Variables n d : Z.
Hypothesis Hz : nth_error h kz = Some (OF z).
Hypothesis Ho : nth_error h ko = Some (OF out).
Hypothesis Hne : kz <> ko.
Hypothesis Hn : 0 <= n.
Notation body f := (call_body G call fuel (fst (cdef f)) (snd (cdef f))).
Lemma Hko : (ko < List.length h)%nat.
Proof. apply nth_error_Some. congruence. Qed.
Ltac start shp := eapply simr_call with (F := fun o => hset h ko (OF o)) (R := post h ko shp); [reflexivity| |intros ? ? X; exact (proj1 X)];
  let X := fresh in assert (X : h = hp h ko out) by (symmetry; apply hset_same, Ho); lazymatch goal with |- simr ?r (PySem.block ?g ?c ?f ?b ?E h) ?P =>
    cut (simr r (PySem.block g c f b E (hp h ko out)) P); [rewrite <- X; exact (fun q => q)|clear X] end.
Ltac two f := let t := eval vm_compute in (snd (cdef f)) in
    match t with ?a :: ?b :: _ => change (snd (cdef f)) with (a :: b :: skipn 2 (snd (cdef f))) end.
Ltac arg v := eapply (simr_set _ _ _ _ [("z"%string, PArr kz [])]); [v|repeat constructor|].
Lemma vec_body m : ashape z = [n] -> ashape out = [m] ->
  body "_complete_poly_impl_vec" [PArr kz []; PInt d; PArr ko []] [] h = (o <- complete_poly_impl_vec z d out ;; Ok (PNone, hset h ko (OF o))).
Proof.
  intros Sz So. start [m]. two "_complete_poly_impl_vec"%string.
  rewrite block_cons. cbn [PySem.exec PySem.eval bind].
  arg ltac:(apply (ev_shape1 _ _ h kz ko z Hz Hne); [reflexivity|exact Sz]).
  eapply vec_text; eauto. { apply Hko. } split; [repeat constructor|auto].
Qed.
Lemma mat_body nobs m m' : ashape z = [n; nobs] -> ashape out = [m; m'] ->
  body "_complete_poly_impl" [PArr kz []; PInt d; PArr ko []] [] h = (o <- complete_poly_impl z d out ;; Ok (PNone, hset h ko (OF o))).
Proof.
  intros Sz So. start [m; m']. two "_complete_poly_impl"%string.
  arg ltac:(apply (ev_shape2 _ _ h kz ko z Hz Hne _ _ n nobs false); [reflexivity|exact Sz]).
  arg ltac:(apply (ev_shape2 _ _ h kz ko z Hz Hne _ _ n nobs true); [reflexivity|exact Sz]).
  eapply mat_text; eauto. { apply Hko. } split; [repeat constructor|auto].
Qed.
Variable der : Z.
Hypothesis Hder : 0 <= der < n.
Lemma dvec_body m : ashape z = [n] -> ashape out = [m] ->
  body "_complete_poly_der_impl_vec" [PArr kz []; PInt d; PInt der; PArr ko []] [] h =
  (o <- complete_poly_der_impl_vec z d der out ;; Ok (PNone, hset h ko (OF o))).
Proof.
  intros Sz So. start [m]. two "_complete_poly_der_impl_vec"%string.
  rewrite block_cons. cbn [PySem.exec PySem.eval bind].
  arg ltac:(apply (ev_shape1 _ _ h kz ko z Hz Hne); [reflexivity|exact Sz]).
  eapply dvec_text; eauto. { apply Hko. } split; [repeat constructor|auto].
Qed.
Lemma dmat_body nobs m m' : ashape z = [n; nobs] -> ashape out = [m; m'] ->
  body "_complete_poly_der_impl" [PArr kz []; PInt d; PInt der; PArr ko []] [] h =
  (o <- complete_poly_der_impl z d der out ;; Ok (PNone, hset h ko (OF o))).
Proof.
  intros Sz So. start [m; m']. two "_complete_poly_der_impl"%string.
  arg ltac:(apply (ev_shape2 _ _ h kz ko z Hz Hne _ _ n nobs false); [reflexivity|exact Sz]).
  arg ltac:(apply (ev_shape2 _ _ h kz ko z Hz Hne _ _ n nobs true); [reflexivity|exact Sz]).
  eapply dmat_text; eauto. { apply Hko. } split; [repeat constructor|auto].
Qed.
End Fill.

(** ** The functions of the module *)
Section Top.
Context {T : Type} {NT : Num T}.
Hypothesis one_mul : forall x : T, n_mul (n_ofZ 1) x = x.
Definition GC : env T := globals cp_program.
Notation runc := (run GC cp_program).
Lemma run_text_cp k f vs ks (h : heap T) : run_text complete_poly_py k f vs ks h = runc k f vs ks h.
Proof. unfold run_text, GC. rewrite cp_text. reflexivity. Qed.
Lemma run_cdef k f vs ks h : overloads cp_program f = [] -> find_def cp_program f <> None ->
  runc (S k) f vs ks h = call_body GC (runc k) k (fst (cdef f)) (snd (cdef f)) vs ks h.
Proof.
  intros H1 H2. unfold cdef. destruct (find_def cp_program f) as [[ps b]|] eqn:E; [|easy]. now apply run_def.
Qed.
Lemma run_count k n d h : runc (S k) "n_complete" [PInt n; PInt d] [] h = Ok (PInt (n_complete n d), h).
Proof. rewrite run_cdef by (reflexivity || discriminate). apply count_body. Qed.

Variable h : heap T.
Variable kz : nat.
Variable z : arr T.
Hypothesis Hz : nth_error h kz = Some (OF z).
Hypothesis Hpos : Forall (fun n => 0 <= n) (ashape z).
Lemma kz_lt : (kz < List.length h)%nat.
Proof. apply nth_error_Some. congruence. Qed.
Lemma kz_new o : nth_error (h ++ [o]) kz = Some (OF z).
Proof. rewrite nth_error_app1; [exact Hz|apply kz_lt]. Qed.

Definition fresh_result (r : res (arr T)) : res (val T * heap T) := out <- r ;; Ok (PArr (List.length h) [], h ++ [OF out]).
Lemma zlen3 {A} (a b c : A) l : (zlen (a :: b :: c :: l) =? 1) = false.
Proof. unfold zlen. cbn [List.length]. apply Z.eqb_neq. lia. Qed.
Ltac doc f := let t := eval vm_compute in (fst (cdef f)) in change (fst (cdef f)) with t;
  let t := eval vm_compute in (tl (snd (cdef f))) in
  let X := fresh in assert (X : exists doc, snd (cdef f) = SExpr (EStr doc) :: t) by (eexists; vm_compute; reflexivity);
  let d := fresh "doc" in destruct X as [d ->].
Lemma run_complete k d : runc (S (S k)) "complete_polynomial" [PArr kz []; PInt d] [] h = fresh_result (complete_polynomial z d).
Proof.
  rewrite run_cdef by (reflexivity || discriminate).
  assert (HC := fun n h' => run_count k n d h').
  assert (HV := fun vs h' => run_cdef k "_complete_poly_impl_vec" vs [] h' eq_refl ltac:(discriminate)).
  assert (HM := fun vs h' => run_cdef k "_complete_poly_impl" vs [] h' eq_refl ltac:(discriminate)).
  revert HC HV HM. generalize (runc (S k)) as call. intros call HC HV HM.
  doc "complete_polynomial"%string. unfold complete_polynomial, fresh_result. cbn. rewrite Z.geb_leb. destruct (0 <=? d) eqn:Dd; [|reflexivity].
  cbn -[Z.gtb]. rewrite Z.gtb_ltb. destruct (5 <? d) eqn:D5; [reflexivity|]. cbn. rewrite (vdims_arr _ _ _ _ Hz). cbn -[zlen].
  destruct (ashape z) as [|n [|nobs [|n3 l]]] eqn:Sz.
  - change (zlen (@nil Z)) with 0. cbn -[vdims]. rewrite (vdims_arr _ _ _ _ Hz), Sz. reflexivity.
  - change (zlen [n]) with 1. cbn -[vdims Z.mul]. rewrite (vdims_arr _ _ _ _ Hz), Sz. cbn -[Z.mul]. rewrite Z.mul_1_r, HC. cbn.
    rewrite HV. inversion Hpos; subst.
    rewrite (vec_body GC (runc k) k _ kz (List.length h) z _ n d (kz_new _) (nth_new h [] _)) with (m := n_complete n d); auto;
      [|pose proof kz_lt; lia].
    destruct (complete_poly_impl_vec z d (azeros [n_complete n d])) as [o|e]; [|reflexivity]. cbn. rewrite hset_app. reflexivity.
  - change (zlen [n; nobs]) with 2. cbn -[vdims Z.mul]. rewrite (vdims_arr _ _ _ _ Hz), Sz. cbn -[Z.mul]. rewrite HC. cbn.
    rewrite HM. inversion Hpos; subst.
    rewrite (mat_body GC (runc k) k _ kz (List.length h) z _ n d (kz_new _) (nth_new h [] _)) with (nobs := nobs) (m := n_complete n d) (m' := nobs); auto;
      [|pose proof kz_lt; lia].
    destruct (complete_poly_impl z d (azeros [n_complete n d; nobs])) as [o|e]; [|reflexivity]. cbn. rewrite hset_app. reflexivity.
  - rewrite zlen3. cbn -[vdims]. rewrite (vdims_arr _ _ _ _ Hz), Sz. reflexivity.
Qed.
Lemma run_complete_der k d der : runc (S (S k)) "complete_polynomial_der" [PArr kz []; PInt d; PInt der] [] h = fresh_result (complete_polynomial_der z d der).
Proof.
  rewrite run_cdef by (reflexivity || discriminate).
  assert (HC := fun n h' => run_count k n d h').
  assert (HV := fun vs h' => run_cdef k "_complete_poly_der_impl_vec" vs [] h' eq_refl ltac:(discriminate)).
  assert (HM := fun vs h' => run_cdef k "_complete_poly_der_impl" vs [] h' eq_refl ltac:(discriminate)).
  revert HC HV HM. generalize (runc (S k)) as call. intros call HC HV HM.
  doc "complete_polynomial_der"%string. unfold complete_polynomial_der, fresh_result. cbn. rewrite Z.geb_leb. destruct (0 <=? d) eqn:Dd; [|reflexivity].
  cbn -[Z.geb]. rewrite Z.geb_leb. destruct (0 <=? der) eqn:Dr; [|reflexivity].
  cbn -[Z.gtb]. rewrite Z.gtb_ltb. destruct (5 <? d) eqn:D5; [reflexivity|]. cbn. rewrite (vdims_arr _ _ _ _ Hz). cbn -[zlen].
  destruct (ashape z) as [|n [|nobs [|n3 l]]] eqn:Sz.
  - change (zlen (@nil Z)) with 0. cbn -[vdims]. rewrite (vdims_arr _ _ _ _ Hz), Sz. reflexivity.
  - change (zlen [n]) with 1. cbn -[vdims Z.mul]. rewrite (vdims_arr _ _ _ _ Hz), Sz. cbn -[Z.mul]. rewrite Z.mul_1_r.
    destruct (der <? n) eqn:Dn; [|reflexivity]. cbn. rewrite HC. cbn.
    rewrite HV. inversion Hpos; subst.
    rewrite (dvec_body one_mul GC (runc k) k _ kz (List.length h) z _ n d (kz_new _) (nth_new h [] _)) with (m := n_complete n d); auto;
      [|pose proof kz_lt; lia|lia].
    destruct (complete_poly_der_impl_vec z d der (azeros [n_complete n d])) as [o|e]; [|reflexivity]. cbn. rewrite hset_app. reflexivity.
  - change (zlen [n; nobs]) with 2. cbn -[vdims Z.mul]. rewrite (vdims_arr _ _ _ _ Hz), Sz. cbn -[Z.mul].
    destruct (der <? n) eqn:Dn; [|reflexivity]. cbn. rewrite HC. cbn.
    rewrite HM. inversion Hpos; subst.
    rewrite (dmat_body one_mul GC (runc k) k _ kz (List.length h) z _ n d (kz_new _) (nth_new h [] _)) with (nobs := nobs) (m := n_complete n d) (m' := nobs); auto;
      [|pose proof kz_lt; lia|lia].
    destruct (complete_poly_der_impl z d der (azeros [n_complete n d; nobs])) as [o|e]; [|reflexivity]. cbn. rewrite hset_app. reflexivity.
  - rewrite zlen3. cbn -[vdims]. rewrite (vdims_arr _ _ _ _ Hz), Sz. reflexivity.
Qed.
End Top.
