(** Statements about the texts of basis_splines.py and hermite.py: proofs. *)
From Coq Require Import ZArith List Bool String Reals QArith Lia.
From Verif Require Import Base BaseFacts SplineModel Spec BasisModel SpecBasis BasisFinal HermiteModel HermiteProps
  PySyntax PySem SpecText PySemFacts SrcBasisSplines SrcHermite BasisText HermiteText.
Import ListNotations.
Open Scope list_scope.
Open Scope Z_scope.

Section Any.
Context {T : Type} {NT : Num T}.
Lemma isvec_vec (h : heap T) k l : nth_error h k = Some (OF (vecT l)) -> isvec h (PArr k []) l.
Proof.
  intros H. exists k, [], (vecT l). repeat split; auto. intros i. cbn [vmerge]. apply lget_aget.
Qed.
Lemma text_B_any p n l i x (h : heap T) u : (u = PTup (map PFlt l) \/ exists k, u = PArr k [] /\ nth_error h k = Some (OF (vecT l))) -> (p < n)%nat ->
  run_text basis_splines_py (S n) "B" [PInt (Z.of_nat p); u; PInt i; PFlt x] [] h = (v <- B p l i x ;; Ok (PFlt v, h)).
Proof.
  intros [->|(k & -> & Hk)]; apply text_B; [apply knots_list|now apply knots_vec].
Qed.
Lemma text_hermite_any n kx ky kp x y yp out (h : heap T) :
  nth_error h kx = Some (OF (vecT x)) -> nth_error h ky = Some (OF (vecT y)) -> nth_error h kp = Some (OF (vecT yp)) -> (List.length out <= 1)%nat ->
  (forall t, run_text hermite_py (5 + n) "hermite" ([PFlt t; PArr kx []; PArr ky []; PArr kp []] ++ out) [] h
     = (v <- hermite_interpolation t x y yp ;; Ok (PFlt v, h))) /\
  (forall k xs, nth_error h k = Some (OF (vecT xs)) ->
     run_text hermite_py (5 + n) "hermite" ([PArr k []; PArr kx []; PArr ky []; PArr kp []] ++ out) [] h
     = (o <- hermite_vect xs x y yp ;; Ok (PArr (List.length h) [], h ++ [OF o]))) /\
  (forall k a N q, nth_error h k = Some (OF a) -> ashape a = [N; q] -> 0 <= N -> 0 < q ->
     run_text hermite_py (5 + n) "hermite" ([PArr k []; PArr kx []; PArr ky []; PArr kp []] ++ out) [] h
     = (o <- hermite_vect (map (fun i => acell a [i; 0]) (zrange N)) x y yp ;; Ok (PArr (List.length h) [], h ++ [OF o]))).
Proof.
  intros Hx Hy Hp Ho. pose proof (isvec_vec _ _ _ Hx). pose proof (isvec_vec _ _ _ Hy). pose proof (isvec_vec _ _ _ Hp). repeat split; intros.
  - now apply (text_hermite_number (S n)).
  - apply (text_hermite_vector n); auto. now apply isvec_vec.
  - now apply (text_hermite_matrix n) with (p := q).
Qed.
End Any.

Open Scope R_scope.
Lemma text_bspline_R p n l i x (h : heap R) u : increasing l -> (0 <= i)%Z -> (i + Z.of_nat p + 1 < zlen l)%Z ->
  (u = PTup (map PFlt l) \/ exists k, u = PArr k [] /\ nth_error h k = Some (OF (vecT l))) -> (p < n)%nat ->
  run_text basis_splines_py (S n) "B" [PInt (Z.of_nat p); u; PInt i; PFlt x] [] h = Ok (PFlt (bspline (knot l) p i x), h).
Proof. intros Hl Hi Hp Hu Hn. rewrite (text_B_any p n l) by auto. rewrite B_is_bspline by auto. reflexivity. Qed.

Lemma text_hermite_R x y yp (h : heap R) kx ky kp : valid_dim (Nonunif x) -> List.length y = List.length x -> List.length yp = List.length x ->
  nth_error h kx = Some (OF (vecT x)) -> nth_error h ky = Some (OF (vecT y)) -> nth_error h kp = Some (OF (vecT yp)) ->
  exists F D : R -> R,
    (forall t n out, (List.length out <= 1)%nat ->
       run_text hermite_py (5 + n) "hermite" ([PFlt t; PArr kx []; PArr ky []; PArr kp []] ++ out) [] h = Ok (PFlt (F t), h)) /\
    (forall i, (0 <= i < zlen x)%Z -> F (nth (Z.to_nat i) x 0) = nth (Z.to_nat i) y 0) /\
    (forall t, nth 0 x 0 < t < nth (Z.to_nat (zlen x - 1)) x 0 -> derivable_pt_lim F t (D t) /\ continuity_pt D t) /\
    (forall i, (0 <= i < zlen x)%Z -> D (nth (Z.to_nat i) x 0) = nth (Z.to_nat i) yp 0) /\
    right_slope F (nth 0 x 0) (nth 0 yp 0) /\
    left_slope F (nth (Z.to_nat (zlen x - 1)) x 0) (nth (Z.to_nat (zlen x - 1)) yp 0) /\
    (forall c, (0 <= c < zlen x - 1)%Z -> exists a0 a1 a2 a3, forall t,
       nth (Z.to_nat c) x 0 <= t <= nth (Z.to_nat (c + 1)) x 0 -> F t = a0 + a1 * t + a2 * t ^ 2 + a3 * t ^ 3) /\
    (forall t, (t <= nth 0 x 0 -> F t = nth 0 y 0) /\ (nth (Z.to_nat (zlen x - 1)) x 0 <= t -> F t = nth (Z.to_nat (zlen x - 1)) y 0)).
Proof.
  intros V Ly Lp Hx Hy Hp. destruct (C27_main x y yp V Ly Lp) as (F & D & HF & H1 & H2 & H3 & H4 & H5 & H6).
  assert (HI : forall t, hermite_interpolation t x y yp = Ok (F t)).
  { intros t. specialize (HF t None). unfold hermite in HF. destruct (hermite_interpolation t x y yp); cbn in HF; congruence. }
  exists F, D. refine (conj _ (conj H1 (conj H2 (conj H3 (conj H4 (conj H5 (conj H6 _))))))).
  - intros t n out Ho. rewrite (proj1 (text_hermite_any n kx ky kp x y yp out h Hx Hy Hp Ho)). rewrite HI. reflexivity.
  - intros t. pose proof (C28_out_main x y yp V Ly Lp t None) as [A B]. rewrite HF in A, B.
    split; intros Ht; [specialize (A Ht)|specialize (B Ht)]; congruence.
Qed.

(** The vector and the matrix forms: a new array with the values of [F]. *)
Lemma text_hermite_forms_R x y yp (h : heap R) kx ky kp n out : valid_dim (Nonunif x) -> List.length y = List.length x -> List.length yp = List.length x ->
  nth_error h kx = Some (OF (vecT x)) -> nth_error h ky = Some (OF (vecT y)) -> nth_error h kp = Some (OF (vecT yp)) -> (List.length out <= 1)%nat ->
  forall k a N, nth_error h k = Some (OF a) -> (0 <= N)%Z -> ashape a = [N] \/ (exists q, (0 < q)%Z /\ ashape a = [N; q]) ->
  exists o, run_text hermite_py (5 + n) "hermite" ([PArr k []; PArr kx []; PArr ky []; PArr kp []] ++ out) [] h = Ok (PArr (List.length h) [], h ++ [OF o]) /\
    ashape o = [N] /\
    forall i, (0 <= i < N)%Z ->
      run_text hermite_py (5 + n) "hermite" [PFlt (acell a (i :: tl (map (fun _ => 0%Z) (ashape a)))); PArr kx []; PArr ky []; PArr kp []] [] h
      = Ok (PFlt (acell o [i]), h).
Proof.
  intros V Ly Lp Hx Hy Hp Ho k a N Hk HN Sa.
  destruct (C27_main x y yp V Ly Lp) as (F & D & HF & _).
  set (xs := map (fun i => acell a (i :: tl (map (fun _ => 0%Z) (ashape a)))) (zrange N)).
  assert (R0 : run_text hermite_py (5 + n) "hermite" ([PArr k []; PArr kx []; PArr ky []; PArr kp []] ++ out) [] h
     = (o <- hermite_vect xs x y yp ;; Ok (PArr (List.length h) [], h ++ [OF o]))).
  { destruct Sa as [Sa|(q & Hq & Sa)].
    - unfold xs. rewrite Sa. cbn [map tl]. apply text_hermite_vector; try (now apply isvec_vec); auto.
      exists k, [], a. repeat split; auto; rewrite ?Sa; cbn [vshape vmerge].
      + f_equal. unfold zlen, zrange. rewrite !map_length, seq_length. lia.
      + intros i. unfold aget, lget. rewrite Sa. cbn [inb]. rewrite andb_true_r.
        destruct (Z.ltb_spec i 0). { destruct (Z.leb_spec 0 i); [lia|]. reflexivity. }
        destruct (Z.leb_spec 0 i); [|lia]. cbn [andb]. unfold zrange. rewrite map_map, nth_error_map. destruct (Z.ltb_spec i N).
        * rewrite (nth_error_nth' _ 0%nat) by (rewrite seq_length; lia). rewrite seq_nth by lia. cbn. now rewrite Z2Nat.id by lia.
        * rewrite (proj2 (nth_error_None _ _)); [reflexivity|]. rewrite seq_length. lia.
    - unfold xs. rewrite Sa. cbn [map tl]. apply text_hermite_matrix with (p := q); try (now apply isvec_vec); auto. }
  rewrite R0. destruct (hermite_vector_form xs x y yp None) as [A B].
  destruct B as [[r q] E]. { intros x0 _. exists (VNum (F x0), None). apply HF. }
  destruct (A r q E) as (-> & o & -> & So & Ho').
  assert (E' : hermite_vect xs x y yp = Ok o).
  { unfold hermite in E. destruct (hermite_vect xs x y yp); cbn in E; congruence. }
  exists o. rewrite E'. split; [reflexivity|]. split.
  { rewrite So. f_equal. unfold xs, zlen, zrange. rewrite !map_length, seq_length. lia. }
  intros i Hi. change [PFlt (acell a (i :: tl (map (fun _ => 0%Z) (ashape a)))); PArr kx []; PArr ky []; PArr kp []]
    with ([PFlt (acell a (i :: tl (map (fun _ => 0%Z) (ashape a)))); PArr kx []; PArr ky []; PArr kp []] ++ []).
  rewrite (proj1 (text_hermite_any n kx ky kp x y yp [] h Hx Hy Hp (le_S _ _ (le_n _)))).
  assert (N0 : nth_error xs (Z.to_nat i) = Some (acell a (i :: tl (map (fun _ => 0%Z) (ashape a))))).
  { unfold xs, zrange. rewrite map_map, nth_error_map, (nth_error_nth' _ 0%nat) by (rewrite seq_length; lia). rewrite seq_nth by lia. cbn. now rewrite Z2Nat.id by lia. }
  specialize (Ho' i _ (proj1 Hi) N0 None). unfold hermite in Ho'.
  destruct (hermite_interpolation _ x y yp) as [v|]; cbn in Ho'; [|congruence]. injection Ho' as ->. reflexivity.
Qed.
