(** C66: complete_poly.py as it is written.  [run_text] parses the embedded text and interprets it
    (PySyntax.v, PySem.v). *)
From Coq Require Import ZArith List Bool String Reals QArith.
From Verif Require Import Base CompleteModel SpecComplete CompleteCases PySyntax PySem SpecText SrcCompletePoly CompleteTextR.
Import ListNotations.
Open Scope list_scope.
Open Scope Z_scope.

(** In any arithmetic, for [z] of any shape and any integer [d]: the call returns a new array, that of the
    model, and leaves the rest of the heap alone, or raises what the model raises. *)
Theorem C66_complete_polynomial_text (T : Type) (NT : Num T) k (h : heap T) l z d :
  nth_error h l = Some (OF z) -> Forall (fun n => 0 <= n) (ashape z) ->
  run_text complete_poly_py (S (S k)) "complete_polynomial" [PArr l []; PInt d] [] h =
  (out <- complete_polynomial z d ;; Ok (PArr (List.length h) [], h ++ [OF out])).
Proof. exact (text_complete k h l z d). Qed.
Print Assumptions C66_complete_polynomial_text.
(** The same of the derivative, in an arithmetic where 1 * x = x: the text raises [z[der]] to a power,
    the model multiplies from 1. *)
Theorem C66_complete_polynomial_der_text (T : Type) (NT : Num T) k (h : heap T) l z d der :
  (forall x : T, n_mul (n_ofZ 1) x = x) ->
  nth_error h l = Some (OF z) -> Forall (fun n => 0 <= n) (ashape z) ->
  run_text complete_poly_py (S (S k)) "complete_polynomial_der" [PArr l []; PInt d; PInt der] [] h =
  (out <- complete_polynomial_der z d der ;; Ok (PArr (List.length h) [], h ++ [OF out])).
Proof. intros H1 H2 H3. exact (text_complete_der H1 k h l z d der H2 H3). Qed.
Print Assumptions C66_complete_polynomial_der_text.
Theorem C66_n_complete_text n d k (h : heap R) : 0 <= n -> 0 <= d ->
  run_text complete_poly_py (S k) "n_complete" [PInt n; PInt d] [] h = Ok (PInt (binom (Z.to_nat n + Z.to_nat d) (Z.to_nat d)), h).
Proof. exact (text_binom n d k h). Qed.
Print Assumptions C66_n_complete_text.

(** Over the reals, of the text: every monomial of total degree at most d once, the constant first, the
    same order for a vector and for a matrix. *)
Theorem C66_text_monomials n d : 0 <= n -> 0 <= d <= 5 ->
  exists E : list (list nat),
    NoDup E /\ hd_error E = Some (repeat 0%nat (Z.to_nat n)) /\
    (forall e, In e E <-> List.length e = Z.to_nat n /\ (degree e <= Z.to_nat d)%nat) /\
    (forall (z : arr R) (h : heap R) l k, nth_error h l = Some (OF z) -> ashape z = [n] ->
       exists out, run_text complete_poly_py (S (S k)) "complete_polynomial" [PArr l []; PInt d] [] h = Ok (PArr (List.length h) [], h ++ [OF out]) /\
         ashape out = [zlen E] /\
         forall r e, nth_error E r = Some e -> acell out [Z.of_nat r] = monomial (vec_entries n z) e) /\
    (forall (z : arr R) (h : heap R) l k nobs, 0 <= nobs -> nth_error h l = Some (OF z) -> ashape z = [n; nobs] ->
       exists out, run_text complete_poly_py (S (S k)) "complete_polynomial" [PArr l []; PInt d] [] h = Ok (PArr (List.length h) [], h ++ [OF out]) /\
         ashape out = [zlen E; nobs] /\
         forall r e i, nth_error E r = Some e -> 0 <= i < nobs -> acell out [Z.of_nat r; i] = monomial (col_entries n z i) e).
Proof. exact (text_monomials n d). Qed.
Print Assumptions C66_text_monomials.
(** The rows of the derivative are the derivatives of the rows. *)
Theorem C66_text_derivative n nobs d der i (Z_ : R -> arr R) k : 0 <= d <= 5 -> 0 <= der < n -> 0 <= i < nobs ->
  (forall x, ashape (Z_ x) = [n; nobs]) -> (forall x, acell (Z_ x) [der; i] = x) ->
  (forall x y j, 0 <= j < n -> j <> der -> acell (Z_ x) [j; i] = acell (Z_ y) [j; i]) ->
  exists A D : R -> arr R,
    (forall x, run_text complete_poly_py (S (S k)) "complete_polynomial" [PArr 0 []; PInt d] [] [OF (Z_ x)] = Ok (PArr 1 [], [OF (Z_ x); OF (A x)]) /\
               run_text complete_poly_py (S (S k)) "complete_polynomial_der" [PArr 0 []; PInt d; PInt der] [] [OF (Z_ x)] = Ok (PArr 1 [], [OF (Z_ x); OF (D x)]) /\
               ashape (A x) = [n_complete n d; nobs] /\ ashape (D x) = [n_complete n d; nobs]) /\
    forall r x, 0 <= r < n_complete n d -> derivable_pt_lim (fun x => acell (A x) [r; i]) x (acell (D x) [r; i]).
Proof. exact (text_derivative n nobs d der i Z_ k). Qed.
Print Assumptions C66_text_derivative.
Theorem C66_text_derivative_vector n d der (Z_ : R -> arr R) k : 0 <= d <= 5 -> 0 <= der < n ->
  (forall x, ashape (Z_ x) = [n]) -> (forall x, acell (Z_ x) [der] = x) ->
  (forall x y j, 0 <= j < n -> j <> der -> acell (Z_ x) [j] = acell (Z_ y) [j]) ->
  exists A D : R -> arr R,
    (forall x, run_text complete_poly_py (S (S k)) "complete_polynomial" [PArr 0 []; PInt d] [] [OF (Z_ x)] = Ok (PArr 1 [], [OF (Z_ x); OF (A x)]) /\
               run_text complete_poly_py (S (S k)) "complete_polynomial_der" [PArr 0 []; PInt d; PInt der] [] [OF (Z_ x)] = Ok (PArr 1 [], [OF (Z_ x); OF (D x)]) /\
               ashape (A x) = [n_complete n d] /\ ashape (D x) = [n_complete n d]) /\
    forall r x, 0 <= r < n_complete n d -> derivable_pt_lim (fun x => acell (A x) [r]) x (acell (D x) [r]).
Proof. exact (text_derivative_vec n d der Z_ k). Qed.
Print Assumptions C66_text_derivative_vector.
(** The hypotheses are met, and the text runs. *)
Example C66_case : (forall x, ashape (exzm x) = [2; 3]) /\ (forall x, acell (exzm x) [0; 2] = x) /\
  (forall x y i, 0 <= i < 2 -> i <> 0 -> acell (exzm x) [i; 2] = acell (exzm y) [i; 2]).
Proof. exact ex_der_mat. Qed.
Definition new_array (r : res (val Q * heap Q)) : res (arr Q) :=
  '(v, h) <- r ;; match v with PArr l [] => match nth_error h l with Some (OF a) => Ok a | _ => Err TypeErr end | _ => Err TypeErr end.
Example C66_computed :
  cq (new_array (run_text complete_poly_py 2 "complete_polynomial" [PArr 0 []; PInt 2] [] [OF qz])) (map (fun r => [r; 0]) (zrange 10))
  = Some ([10; 2], [1; 2; 3; 5; 4; 6; 10; 9; 15; 25]%Q) /\
  cq (new_array (run_text complete_poly_py 2 "complete_polynomial_der" [PArr 0 []; PInt 2; PInt 1] [] [OF qz])) (map (fun r => [r; 0]) (zrange 10))
  = Some ([10; 2], [0; 0; 1; 0; 0; 2; 0; 6; 5; 0]%Q) /\
  run_text complete_poly_py 2 "complete_polynomial" [PArr 0 []; PInt 6] [] [OF qz] = Err ValueErr.
Proof. vm_compute. auto. Qed.
