(** The text of hermite.py computes what HermiteModel.v computes. *)
From Coq Require Import ZArith List Bool String Lia.
From Verif Require Import Base BaseFacts SplineModel HermiteModel PySyntax PySem SpecText PySemFacts SrcHermite.
Import ListNotations.
Open Scope Z_scope.
Open Scope num_scope.

Definition hermite_program : list stmt := Eval vm_compute in match parse_text hermite_py with Some p => p | None => [] end.
Lemma hermite_text : parse_text hermite_py = Some hermite_program.
Proof. vm_cast_no_check (eq_refl (Some hermite_program)). Qed.
Definition hdef (f : string) := match find_def hermite_program f with Some d => d | None => ([], []) end.

Section Text.
Context {T : Type} {NT : Num T}.
Definition GH : env T := globals hermite_program.

(** A vector on the heap: a 1-d array, or a 1-d view of an array. *)
Definition isvec (h : heap T) (v : val T) (l : list T) : Prop :=
  exists k w a, v = PArr k w /\ nth_error h k = Some (OF a) /\ vshape w (ashape a) = [zlen l] /\
    forall i, aget a (vmerge w [i]) = lget l i.
(** The facts used about them. *)
Lemma isvec_sub h v l z : isvec h v l -> subscript h v [SIx z] = (x <- pyget l z ;; Ok (PFlt x)).
Proof.
  intros (k & w & a & -> & Hk & Sh & Hg). cbn [subscript array_of]. unfold hget. rewrite Hk. cbn [bind oshape]. rewrite Sh.
  cbn [all_ix List.length Nat.eqb wraps oget]. rewrite Hg. unfold pyget, wrap. rewrite (Z.add_comm z).
  destruct (z <? 0); reflexivity.
Qed.
Lemma isvec_dims h v l : isvec h v l -> vdims h v = Ok [zlen l].
Proof. intros (k & w & a & -> & Hk & Sh & Hg). unfold vdims. cbn [array_of]. unfold hget. rewrite Hk. cbn. now rewrite Sh. Qed.
Lemma lget_all {A} (l : list A) : mapM (lget l) (zrange (zlen l)) = Ok l.
Proof.
  unfold zrange, zlen. rewrite Nat2Z.id.
  assert (G : forall q p : list A, mapM (lget (p ++ q)) (map Z.of_nat (seq (List.length p) (List.length q))) = Ok q).
  { induction q as [|x q IH]; intros p; [reflexivity|]. cbn [List.length seq map mapM].
    unfold lget at 1. destruct (Z.ltb_spec (Z.of_nat (List.length p)) 0); [lia|].
    rewrite Nat2Z.id, nth_error_app2, Nat.sub_diag by lia. cbn [nth_error bind].
    pose proof (IH (p ++ [x])) as X. rewrite app_length, Nat.add_1_r, <- app_assoc in X. cbn [app] in X. rewrite X. reflexivity. }
  exact (G l []).
Qed.
Lemma isvec_elements h v l : isvec h v l -> elements h v = Ok l.
Proof.
  intros (k & w & a & -> & Hk & Sh & Hg). unfold elements, content. cbn [array_of]. unfold hget. rewrite Hk. cbn [bind oview ashape].
  rewrite Sh. etransitivity; [|apply lget_all]. apply mapM_ext. intros i Hi. apply zrange_In in Hi.
  assert (X : exists x, lget l i = Ok x).
  { unfold lget. destruct (Z.ltb_spec i 0); [lia|]. destruct (nth_error l (Z.to_nat i)) as [x|] eqn:E; [eauto|].
    apply nth_error_None in E. unfold zlen in Hi. lia. }
  destruct X as [x Hx]. pose proof (Hg i) as Gi. rewrite Hx in *. apply aget_inv in Gi as [_ ->].
  unfold aget. cbn [ashape acell inb]. destruct (Z.leb_spec 0 i), (Z.ltb_spec i (zlen l)); try lia; reflexivity.
Qed.
Lemma isvec_app h h' v l : isvec h v l -> isvec (h ++ h') v l.
Proof.
  intros (k & w & a & -> & Hk & Sh & Hg). exists k, w, a. repeat split; auto. rewrite nth_error_app1; auto.
  apply nth_error_Some. congruence.
Qed.

Section Body.
Variable G : env T.
Variable call : string -> list (val T) -> list (string * val T) -> heap T -> res (val T * heap T).
Variable fuel : nat.
Notation body f := (call_body G call fuel (fst (hdef f)) (snd (hdef f))).

Definition tup4 (q : T * T * T * T) : val T := let '(a, b, c, d) := q in PTup [PFlt a; PFlt b; PFlt c; PFlt d].
Lemma body_splines t h : body "hermite_splines" [PFlt t] [] h = Ok (tup4 (hermite_splines t), h).
Proof. reflexivity. Qed.

Lemma body_interp x0 xk xkn pk pkn mk mkn h :
  (forall t, call "hermite_splines"%string [PFlt t] [] h = Ok (tup4 (hermite_splines t), h)) ->
  body "hermite_interp" [PFlt x0; PFlt xk; PFlt xkn; PFlt pk; PFlt pkn; PFlt mk; PFlt mkn] [] h
  = (v <- hermite_interp x0 xk xkn pk pkn mk mkn ;; Ok (PFlt v, h)).
Proof.
  intros H. cbn -[divE]. unfold hermite_interp. destruct (divE (x0 -! xk) (xkn -! xk)) as [t|]; cbn; auto. rewrite H. reflexivity.
Qed.

Lemma body_interpolation x0 X Y P x y yp h : isvec h X x -> isvec h Y y -> isvec h P yp ->
  (forall x0 xk xkn pk pkn mk mkn, call "hermite_interp"%string [PFlt x0; PFlt xk; PFlt xkn; PFlt pk; PFlt pkn; PFlt mk; PFlt mkn] [] h
     = (v <- hermite_interp x0 xk xkn pk pkn mk mkn ;; Ok (PFlt v, h))) ->
  body "HermiteInterpolation" [PFlt x0; X; Y; P] [] h = (v <- hermite_interpolation x0 x y yp ;; Ok (PFlt v, h)).
Proof.
  intros HX HY HP Hc. unfold hermite_interpolation.
  assert (EX := isvec_elements _ _ _ HX).
  assert (AX : exists k w, X = PArr k w) by (destruct HX as (k & w & a & -> & _); eauto). destruct AX as (k & w & ->).
  cbn -[subscript elements searchsorted pyget]. rewrite EX. cbn -[subscript elements searchsorted pyget].
  unfold npmin. destruct x as [|xa xr]; [reflexivity|]. cbn -[subscript elements searchsorted pyget].
  destruct (x0 <=?! fold_left pymin xr xa); cbn -[subscript elements searchsorted pyget].
  - rewrite (isvec_sub h Y y) by auto. destruct (pyget y 0); reflexivity.
  - rewrite EX. cbn -[subscript elements searchsorted pyget].
    destruct (fold_left pymax xr xa <=?! x0); cbn -[subscript elements searchsorted pyget].
    + rewrite (isvec_sub h Y y) by auto. destruct (pyget y (-1)); reflexivity.
    + rewrite EX. cbn -[subscript elements searchsorted pyget Z.sub].
      set (i := searchsorted (xa :: xr) x0). set (x := xa :: xr) in *.
      rewrite !(isvec_sub h (PArr k w) x) by auto. destruct (pyget x (i - 1)) as [xk|]; cbn -[subscript elements searchsorted pyget Z.sub]; auto.
      rewrite !(isvec_sub h (PArr k w) x) by auto. destruct (pyget x i) as [xkn|]; cbn -[subscript elements searchsorted pyget Z.sub]; auto.
      rewrite !(isvec_sub h Y y) by auto. destruct (pyget y (i - 1)) as [pk|]; cbn -[subscript elements searchsorted pyget Z.sub]; auto.
      rewrite !(isvec_sub h Y y) by auto. destruct (pyget y i) as [pkn|]; cbn -[subscript elements searchsorted pyget Z.sub]; auto.
      rewrite !(isvec_sub h P yp) by auto. destruct (pyget yp (i - 1)) as [mk|]; cbn -[subscript elements searchsorted pyget Z.sub]; auto.
      rewrite !(isvec_sub h P yp) by auto. destruct (pyget yp i) as [mkn|]; cbn -[subscript elements searchsorted pyget Z.sub]; auto.
      rewrite Hc. destruct (hermite_interp x0 xk xkn pk pkn mk mkn); reflexivity.
Qed.

Lemma body_vect V X Y P xs x y yp h : isvec h V xs -> isvec h X x -> isvec h Y y -> isvec h P yp ->
  (forall x0 h', call "HermiteInterpolation"%string [PFlt x0; X; Y; P] [] (h ++ h') = (v <- hermite_interpolation x0 x y yp ;; Ok (PFlt v, h ++ h'))) ->
  body "HermiteInterpolationVect" [V; X; Y; P] [] h
  = (o <- hermite_vect xs x y yp ;; Ok (PArr (List.length h) [], h ++ [OF o])).
Proof.
  intros HV HX HY HP Hc. unfold hermite_vect.
  assert (AV : exists k w, V = PArr k w) by (destruct HV as (k & w & a & -> & _); eauto). destruct AV as (k & w & ->).
  cbn -[subscript vdims zlen store]. rewrite (isvec_dims _ _ _ HV). cbn -[subscript vdims iterate zlen block foldM zrange store].
  set (R := fun (o : arr T) (E : env T) (h' : heap T) => h' = h ++ [OF o] /\ ashape o = [zlen xs] /\
    E "xvect"%string = Some (PArr k w) /\ E "x"%string = Some X /\ E "y"%string = Some Y /\ E "yp"%string = Some P /\
    E "out"%string = Some (PArr (List.length h) [])).
  match goal with |- context [iterate ?b (map PInt _) ?E ?h0] =>
    assert (S : sim (foldM (fun (out : arr T) (i : Z) => x0 <- lget xs i ;; v <- hermite_interpolation x0 x y yp ;; aset out [i] v)
      (zrange (zlen xs)) (azeros [zlen xs])) (iterate b (map PInt (zrange (zlen xs))) E h0) R) end.
  { apply sim_iterate.
    - intros o i E h' Hi (-> & So & E1 & E2 & E3 & E4 & E5). apply zrange_In in Hi. unfold lookup. cbn -[subscript store nth_error]. rewrite E1. cbn -[subscript store nth_error].
      rewrite (isvec_sub _ _ xs) by (apply isvec_app; auto). unfold pyget. destruct (Z.ltb_spec i 0); [lia|].
      destruct (lget xs i) as [x0|]; cbn -[subscript store nth_error]; [|reflexivity].
      rewrite E2, E3, E4, E5. cbn -[subscript store nth_error]. rewrite Hc. destruct (hermite_interpolation x0 x y yp) as [v|]; cbn -[subscript store nth_error]; [|reflexivity].
      unfold store. rewrite (hget_nth _ _ (OF o)) by apply nth_new. cbn -[nth_error]. rewrite So. cbn -[nth_error wrap].
      rewrite wrap_pos by lia. destruct (aset o [i] v) as [o'|] eqn:Eo; cbn -[nth_error]; [|reflexivity].
      eexists _, _. split; [reflexivity|]. unfold R. rewrite hset_app. split; auto. split.
      + apply aset_inv in Eo as [_ ->]. cbn. auto.
      + cbn. auto.
    - unfold R. cbn. auto 10. }
  destruct (foldM _ _ _) as [o|e]; cbn [sim] in S.
  - destruct S as (E & h' & -> & -> & _ & _ & _ & _ & _ & E5). cbn. unfold lookup. rewrite E5. reflexivity.
  - rewrite S. reflexivity.
Qed.
End Body.

(** ** Calls from the outside *)
Lemma run_text_hermite n f vs ks (h : heap T) : run_text hermite_py n f vs ks h = run GH hermite_program n f vs ks h.
Proof. unfold run_text, GH. rewrite hermite_text. reflexivity. Qed.
Lemma run_h n f vs ks (h : heap T) : overloads hermite_program f = [] -> find_def hermite_program f <> None ->
  run GH hermite_program (S n) f vs ks h = call_body GH (run GH hermite_program n) n (fst (hdef f)) (snd (hdef f)) vs ks h.
Proof.
  intros H1 H2. unfold hdef. destruct (find_def hermite_program f) as [[ps b]|] eqn:E; [|easy]. now apply run_def.
Qed.

Lemma text_interpolation n x0 X Y P x y yp (h : heap T) : isvec h X x -> isvec h Y y -> isvec h P yp ->
  run_text hermite_py (S (S (S n))) "HermiteInterpolation" [PFlt x0; X; Y; P] [] h
  = (v <- hermite_interpolation x0 x y yp ;; Ok (PFlt v, h)).
Proof.
  intros HX HY HP. rewrite run_text_hermite, run_h by (reflexivity || discriminate). apply body_interpolation; auto.
  intros. rewrite run_h by (reflexivity || discriminate). apply body_interp.
  intros. rewrite run_h by (reflexivity || discriminate). apply body_splines.
Qed.
Lemma text_vect n V X Y P xs x y yp (h : heap T) : isvec h V xs -> isvec h X x -> isvec h Y y -> isvec h P yp ->
  run_text hermite_py (S (S (S (S n)))) "HermiteInterpolationVect" [V; X; Y; P] [] h
  = (o <- hermite_vect xs x y yp ;; Ok (PArr (List.length h) [], h ++ [OF o])).
Proof.
  intros HV HX HY HP. rewrite run_text_hermite, run_h by (reflexivity || discriminate). apply body_vect; auto.
  intros. rewrite <- run_text_hermite. apply text_interpolation; now apply isvec_app.
Qed.

(** [hermite] itself: the overload runs on the values of the arguments. *)
Lemma run_over n f vs ks (h : heap T) ps b : overloads hermite_program f = [(ps, b)] -> accepts ps (List.length vs) (map fst ks) = true ->
  run GH hermite_program (S n) f vs ks h
  = ('(v, _) <- call_body GH (run GH hermite_program n) n ps b vs ks h ;;
     match v with PFun qs c => call_body GH (run GH hermite_program n) n qs c vs ks h | _ => Err TypeErr end).
Proof. intros H1 H2. cbn [run]. rewrite H1. cbn [find fst]. rewrite H2. reflexivity. Qed.
Lemma isvec_arr (h : heap T) v l : isvec h v l -> exists k w, v = PArr k w.
Proof. intros (k & w & a & -> & _). eauto. Qed.

Lemma text_hermite_number n x0 X Y P x y yp out (h : heap T) : isvec h X x -> isvec h Y y -> isvec h P yp -> (List.length out <= 1)%nat ->
  run_text hermite_py (S (S (S (S n)))) "hermite" ([PFlt x0; X; Y; P] ++ out) [] h
  = (v <- hermite_interpolation x0 x y yp ;; Ok (PFlt v, h)).
Proof.
  intros HX HY HP HO. rewrite run_text_hermite.
  pose proof (text_interpolation n x0 X Y P x y yp h HX HY HP) as Hc. rewrite run_text_hermite in Hc.
  destruct out as [|o [|? ?]]; [| |cbn in HO; lia]; cbn [app]; (erewrite run_over by reflexivity);
    set (call := run GH hermite_program (S (S (S n)))) in *; clearbody call; rename Hc into Hc'; cbn; rewrite Hc';
    destruct (hermite_interpolation x0 x y yp); reflexivity.
Qed.
Lemma text_hermite_vector n V X Y P xs x y yp out (h : heap T) : isvec h V xs -> isvec h X x -> isvec h Y y -> isvec h P yp -> (List.length out <= 1)%nat ->
  run_text hermite_py (S (S (S (S (S n))))) "hermite" ([V; X; Y; P] ++ out) [] h
  = (o <- hermite_vect xs x y yp ;; Ok (PArr (List.length h) [], h ++ [OF o])).
Proof.
  intros HV HX HY HP HO. rewrite run_text_hermite. assert (HD := isvec_dims _ _ _ HV). destruct (isvec_arr _ _ _ HV) as (k & w & ->).
  pose proof (text_vect n (PArr k w) X Y P xs x y yp h HV HX HY HP) as Hc. rewrite run_text_hermite in Hc.
  destruct out as [|o [|? ?]]; [| |cbn in HO; lia]; cbn [app]; (erewrite run_over by reflexivity);
    set (call := run GH hermite_program (S (S (S (S n))))) in *; clearbody call; rename Hc into Hc';
    set (m := zlen xs) in *; clearbody m; cbn -[vdims]; rewrite HD; cbn -[vdims]; change (zlen [m]) with 1; cbn -[vdims]; rewrite Hc'; destruct (hermite_vect xs x y yp); reflexivity.
Qed.
(** A matrix stands for its first column. *)
Lemma text_hermite_matrix n k a N p X Y P x y yp out (h : heap T) : nth_error h k = Some (OF a) -> ashape a = [N; p] -> 0 <= N -> 0 < p ->
  isvec h X x -> isvec h Y y -> isvec h P yp -> (List.length out <= 1)%nat ->
  run_text hermite_py (S (S (S (S (S n))))) "hermite" ([PArr k []; X; Y; P] ++ out) [] h
  = (o <- hermite_vect (map (fun i => acell a [i; 0]) (zrange N)) x y yp ;; Ok (PArr (List.length h) [], h ++ [OF o])).
Proof.
  intros Hk Sa HN Hp HX HY HP HO. rewrite run_text_hermite.
  assert (HD : vdims h (PArr k []) = Ok [N; p]).
  { unfold vdims. cbn [array_of]. rewrite (hget_nth _ _ _ Hk). cbn. now rewrite Sa. }
  assert (HS : subscript h (PArr k []) [SAll; SIx 0] = Ok (PArr k [None; Some 0])).
  { cbn [subscript array_of]. rewrite (hget_nth _ _ _ Hk). cbn. rewrite Sa. cbn -[wrap]. rewrite wrap_pos by lia.
    destruct (Z.leb_spec 0 0), (Z.ltb_spec 0 p); try lia. reflexivity. }
  assert (HV : isvec h (PArr k [None; Some 0]) (map (fun i => acell a [i; 0]) (zrange N))).
  { assert (Z0 : zlen (map (fun i => acell a [i; 0]) (zrange N)) = N).
    { unfold zlen, zrange. rewrite map_length, map_length, seq_length. lia. }
    exists k, [None; Some 0], a. repeat split; auto.
    - rewrite Sa, Z0. reflexivity.
    - intros i. cbn [vmerge]. unfold aget, lget. rewrite Sa. cbn [inb].
      destruct (Z.ltb_spec i 0). { destruct (Z.leb_spec 0 i); [lia|]. reflexivity. }
      destruct (Z.leb_spec 0 i); [|lia]. destruct (Z.leb_spec 0 0), (Z.ltb_spec 0 p); try lia. rewrite !andb_true_r. cbn [andb].
      unfold zrange. rewrite map_map. rewrite nth_error_map. destruct (Z.ltb_spec i N).
      + rewrite (nth_error_nth' _ 0%nat) by (rewrite seq_length; lia). rewrite seq_nth by lia. cbn. now rewrite Z2Nat.id by lia.
      + rewrite (proj2 (nth_error_None _ _)); [reflexivity|]. rewrite seq_length. lia. }
  pose proof (text_vect n _ X Y P _ x y yp h HV HX HY HP) as Hc. rewrite run_text_hermite in Hc.
  destruct out as [|o [|? ?]]; [| |cbn in HO; lia]; cbn [app]; (erewrite run_over by reflexivity);
    set (call := run GH hermite_program (S (S (S (S n))))) in *; clearbody call; rename Hc into Hc';
    cbn -[vdims subscript]; rewrite HD; cbn -[vdims subscript]; change (zlen [N; p]) with 2; cbn -[vdims subscript]; rewrite HS; cbn -[vdims subscript]; rewrite Hc';
    destruct (hermite_vect _ x y yp); reflexivity.
Qed.
End Text.
