(** C61, C62: basis_splines.py and hermite.py as they are written.  [run_text] parses the embedded
    text and interprets it (PySyntax.v, PySem.v). *)
From Coq Require Import ZArith List Bool String Reals QArith.
From Verif Require Import Base SplineModel Spec BasisModel SpecBasis BasisFinal HermiteModel ExampleData HermiteProps PySyntax PySem SpecText SrcBasisSplines SrcHermite TextProps.
Import ListNotations.
Open Scope list_scope.
Open Scope Z_scope.

(** C61.  The text of [B], run on knots in a list or in an array, is the model, in any arithmetic: same value, same error. *)
Theorem C61_text_is_model (T : Type) (NT : Num T) p n l i x (h : heap T) u :
  (u = PTup (map PFlt l) \/ exists k, u = PArr k [] /\ nth_error h k = Some (OF (vecT l))) -> (p < n)%nat ->
  run_text basis_splines_py (S n) "B" [PInt (Z.of_nat p); u; PInt i; PFlt x] [] h = (v <- B p l i x ;; Ok (PFlt v, h)).
Proof. exact (text_B_any p n l i x h u). Qed.
Print Assumptions C61_text_is_model.
(** Over the reals it returns the B-spline and writes nothing. *)
Theorem C61_text_is_bspline p n l i x (h : heap R) u :
  increasing l -> 0 <= i -> i + Z.of_nat p + 1 < zlen l ->
  (u = PTup (map PFlt l) \/ exists k, u = PArr k [] /\ nth_error h k = Some (OF (vecT l))) -> (p < n)%nat ->
  run_text basis_splines_py (S n) "B" [PInt (Z.of_nat p); u; PInt i; PFlt x] [] h = Ok (PFlt (bspline (knot l) p i x), h).
Proof. exact (text_bspline_R p n l i x h u). Qed.
Print Assumptions C61_text_is_bspline.
Example C61_case : increasing [0; 1; 3; 4; 7; 9]%R /\
  match run_text (T := Q) basis_splines_py 4 "B" [PInt 2; PTup (map PFlt [0; 1; 3; 4; 7; 9]%Q); PInt 1; PFlt (7 # 2)%Q] [] [] with
  | Ok (PFlt v, []) => Qred v = (41 # 48)%Q | _ => False end.
Proof. split; [exact increasing_case|vm_compute; reflexivity]. Qed.

(** C62.  The text of [hermite] on a number: values, slopes, cubics, constant outside; the arrays
    and the optional last argument are left as they were. *)
Theorem C62_text_values_and_slopes x y yp (h : heap R) kx ky kp : valid_dim (Nonunif x) -> List.length y = List.length x -> List.length yp = List.length x ->
  nth_error h kx = Some (OF (vecT x)) -> nth_error h ky = Some (OF (vecT y)) -> nth_error h kp = Some (OF (vecT yp)) ->
  exists F D : R -> R,
    (forall t n out, (List.length out <= 1)%nat ->
       run_text hermite_py (5 + n) "hermite" ([PFlt t; PArr kx []; PArr ky []; PArr kp []] ++ out) [] h = Ok (PFlt (F t), h)) /\
    (forall i, 0 <= i < zlen x -> F (nth (Z.to_nat i) x 0%R) = nth (Z.to_nat i) y 0%R) /\
    (forall t, (nth 0 x 0 < t < nth (Z.to_nat (zlen x - 1)) x 0)%R -> derivable_pt_lim F t (D t) /\ continuity_pt D t) /\
    (forall i, 0 <= i < zlen x -> D (nth (Z.to_nat i) x 0%R) = nth (Z.to_nat i) yp 0%R) /\
    right_slope F (nth 0 x 0%R) (nth 0 yp 0%R) /\
    left_slope F (nth (Z.to_nat (zlen x - 1)) x 0%R) (nth (Z.to_nat (zlen x - 1)) yp 0%R) /\
    (forall c, 0 <= c < zlen x - 1 -> exists a0 a1 a2 a3, forall t,
       (nth (Z.to_nat c) x 0 <= t <= nth (Z.to_nat (c + 1)) x 0 -> F t = a0 + a1 * t + a2 * t ^ 2 + a3 * t ^ 3)%R) /\
    (forall t, ((t <= nth 0 x 0 -> F t = nth 0 y 0) /\
                (nth (Z.to_nat (zlen x - 1)) x 0 <= t -> F t = nth (Z.to_nat (zlen x - 1)) y 0))%R).
Proof. exact (text_hermite_R x y yp h kx ky kp). Qed.
Print Assumptions C62_text_values_and_slopes.
(** On a vector, or on a matrix (its first column), it returns a new array with the values at each
    entry; nothing else is written, in particular not [out]. *)
Theorem C62_text_forms x y yp (h : heap R) kx ky kp n out : valid_dim (Nonunif x) -> List.length y = List.length x -> List.length yp = List.length x ->
  nth_error h kx = Some (OF (vecT x)) -> nth_error h ky = Some (OF (vecT y)) -> nth_error h kp = Some (OF (vecT yp)) -> (List.length out <= 1)%nat ->
  forall k a N, nth_error h k = Some (OF a) -> 0 <= N -> ashape a = [N] \/ (exists q, 0 < q /\ ashape a = [N; q]) ->
  exists o, run_text hermite_py (5 + n) "hermite" ([PArr k []; PArr kx []; PArr ky []; PArr kp []] ++ out) [] h = Ok (PArr (List.length h) [], h ++ [OF o]) /\
    ashape o = [N] /\
    forall i, 0 <= i < N ->
      run_text hermite_py (5 + n) "hermite" [PFlt (acell a (i :: tl (map (fun _ => 0) (ashape a)))); PArr kx []; PArr ky []; PArr kp []] [] h
      = Ok (PFlt (acell o [i]), h).
Proof. exact (text_hermite_forms_R x y yp h kx ky kp n out). Qed.
Print Assumptions C62_text_forms.
(** In any arithmetic the text is the model. *)
Theorem C62_text_is_model (T : Type) (NT : Num T) n kx ky kp x y yp out (h : heap T) :
  nth_error h kx = Some (OF (vecT x)) -> nth_error h ky = Some (OF (vecT y)) -> nth_error h kp = Some (OF (vecT yp)) -> (List.length out <= 1)%nat ->
  (forall t, run_text hermite_py (5 + n) "hermite" ([PFlt t; PArr kx []; PArr ky []; PArr kp []] ++ out) [] h
     = (v <- hermite_interpolation t x y yp ;; Ok (PFlt v, h))) /\
  (forall k xs, nth_error h k = Some (OF (vecT xs)) ->
     run_text hermite_py (5 + n) "hermite" ([PArr k []; PArr kx []; PArr ky []; PArr kp []] ++ out) [] h
     = (o <- hermite_vect xs x y yp ;; Ok (PArr (List.length h) [], h ++ [OF o]))) /\
  (forall k a N q, nth_error h k = Some (OF a) -> ashape a = [N; q] -> 0 <= N -> 0 < q ->
     run_text hermite_py (5 + n) "hermite" ([PArr k []; PArr kx []; PArr ky []; PArr kp []] ++ out) [] h
     = (o <- hermite_vect (map (fun i => acell a [i; 0]) (zrange N)) x y yp ;; Ok (PArr (List.length h) [], h ++ [OF o]))).
Proof. exact (text_hermite_any n kx ky kp x y yp out h). Qed.
Print Assumptions C62_text_is_model.
Example C62_case : valid_dim (Nonunif [0; 1; 3]%R) /\
  let h := map (fun l => OF (vecT l)) [[0; 1; 3]; [5; 2; 4]; [1; -1; 2]; [-1; 1 # 2]]%Q in
  match run_text (T := Q) hermite_py 5 "hermite" [PFlt (1 # 2)%Q; PArr 0 []; PArr 1 []; PArr 2 []] [] h with
  | Ok (PFlt v, _) => Qred v = (15 # 4)%Q | _ => False end /\
  match run_text (T := Q) hermite_py 5 "hermite" [PArr 3 []; PArr 0 []; PArr 1 []; PArr 2 []; PArr 3 []] [] h with
  | Ok (PArr 4 [], [_; _; _; _; OF o]) => (ashape o, Qred (acell o [0]), Qred (acell o [1])) = ([2], 5%Q, (15 # 4)%Q) | _ => False end.
Proof. split; [exact ex13_valid|vm_compute; auto]. Qed.
