(** Properties of complete polynomials: C29-C33. *)
From Coq Require Import ZArith List Reals QArith.
From Verif Require Import Base RSum CompleteModel SpecComplete CompleteGeneric CompleteProps CompleteFit CompleteCases.
Import ListNotations.
Open Scope Z_scope.

(** C29 *)
Theorem C29_n_complete n d : 0 <= n -> 0 <= d ->
  n_complete n d = binom (Z.to_nat n + Z.to_nat d) (Z.to_nat d).
Proof. exact (n_complete_binom n d). Qed.
Print Assumptions C29_n_complete.
Example C29_case : n_complete 3 5 = 56 /\ binom 8 5 = 56 /\ n_complete 40 12 = 206379406870.
Proof. vm_compute. auto. Qed.

(** Each division of the loop body is exact: k! divides n (n+1) ... (n+k-1). *)
Theorem C29_exact_division n k : 0 <= n -> 0 <= k ->
  (fold_left (fun a j => a * (j + 1)) (zrange k) 1 | fold_left (fun a j => a * (n + j)) (zrange k) 1).
Proof. exact (n_complete_exact n k). Qed.
Print Assumptions C29_exact_division.

(** C30: rows are the monomials of total degree at most d, each once, the constant first, for
    the vector and the matrix form with the same order. *)
Theorem C30_every_monomial_once n d : 0 <= n -> 0 <= d <= 5 ->
  exists E : list (list nat),
    NoDup E /\ zlen E = n_complete n d /\ hd_error E = Some (repeat 0%nat (Z.to_nat n)) /\
    (forall e, In e E <-> length e = Z.to_nat n /\ (degree e <= Z.to_nat d)%nat) /\
    (forall z : arr R, ashape z = [n] -> exists out, complete_polynomial z d = Ok out /\ ashape out = [zlen E] /\
       forall r e, nth_error E r = Some e -> acell out [Z.of_nat r] = monomial (vec_entries n z) e) /\
    (forall (z : arr R) nobs, 0 <= nobs -> ashape z = [n; nobs] -> exists out, complete_polynomial z d = Ok out /\ ashape out = [zlen E; nobs] /\
       forall r e k, nth_error E r = Some e -> 0 <= k < nobs -> acell out [Z.of_nat r; k] = monomial (col_entries n z k) e).
Proof. exact (complete_basis n d). Qed.
Print Assumptions C30_every_monomial_once.
Example C30_computed :
  cq (complete_polynomial qz 2) (map (fun r => [r; 0]) (zrange 10))
  = Some ([10; 2], [1; 2; 3; 5; 4; 6; 10; 9; 15; 25]%Q).
Proof. vm_compute. reflexivity. Qed.

Theorem C30_rejected {T} {NT : Num T} (z : arr T) d :
  (d < 0 -> complete_polynomial z d = Err AssertErr) /\ (5 < d -> complete_polynomial z d = Err ValueErr).
Proof. exact (degree_rejected z d). Qed.
Print Assumptions C30_rejected.

(** C31 *)
Theorem C31_derivative_vector n d der (Z_ : R -> arr R) : 0 <= d <= 5 -> 0 <= der < n ->
  (forall x, ashape (Z_ x) = [n]) -> (forall x, acell (Z_ x) [der] = x) ->
  (forall x y i, 0 <= i < n -> i <> der -> acell (Z_ x) [i] = acell (Z_ y) [i]) ->
  exists A D : R -> arr R,
    (forall x, complete_polynomial (Z_ x) d = Ok (A x) /\ complete_polynomial_der (Z_ x) d der = Ok (D x) /\
               ashape (A x) = [n_complete n d] /\ ashape (D x) = [n_complete n d]) /\
    forall r x, 0 <= r < n_complete n d -> derivable_pt_lim (fun x => acell (A x) [r]) x (acell (D x) [r]).
Proof. exact (complete_der_vec n d der Z_). Qed.
Print Assumptions C31_derivative_vector.
Example C31_case : (forall x, ashape (exz x) = [2]) /\ (forall x, acell (exz x) [0] = x) /\
  (forall x y i, 0 <= i < 2 -> i <> 0 -> acell (exz x) [i] = acell (exz y) [i]).
Proof. exact ex_der. Qed.
Theorem C31_derivative_matrix n nobs d der k (Z_ : R -> arr R) : 0 <= d <= 5 -> 0 <= der < n -> 0 <= k < nobs ->
  (forall x, ashape (Z_ x) = [n; nobs]) -> (forall x, acell (Z_ x) [der; k] = x) ->
  (forall x y i, 0 <= i < n -> i <> der -> acell (Z_ x) [i; k] = acell (Z_ y) [i; k]) ->
  exists A D : R -> arr R,
    (forall x, complete_polynomial (Z_ x) d = Ok (A x) /\ complete_polynomial_der (Z_ x) d der = Ok (D x) /\
               ashape (A x) = [n_complete n d; nobs] /\ ashape (D x) = [n_complete n d; nobs]) /\
    forall r x, 0 <= r < n_complete n d -> derivable_pt_lim (fun x => acell (A x) [r; k]) x (acell (D x) [r; k]).
Proof. exact (complete_der_mat n nobs d der k Z_). Qed.
Print Assumptions C31_derivative_matrix.
Example C31_matrix_case : (forall x, ashape (exzm x) = [2; 3]) /\ (forall x, acell (exzm x) [0; 2] = x) /\
  (forall x y i, 0 <= i < 2 -> i <> 0 -> acell (exzm x) [i; 2] = acell (exzm y) [i; 2]).
Proof. exact ex_der_mat. Qed.
Example C31_computed :
  cq (complete_polynomial_der qz 2 1) (map (fun r => [r; 0]) (zrange 10))
  = Some ([10; 2], [0; 0; 1; 0; 0; 2; 0; 6; 5; 0]%Q).
Proof. vm_compute. reflexivity. Qed.

(** C32: in any arithmetic column k of the matrix form is the vector form on column k. *)
Theorem C32_matrix_vector_agree {T} {NT : Num T} n nobs d (z v : arr T) k :
  0 <= n -> 0 <= d <= 5 -> ashape z = [n; nobs] -> ashape v = [n] -> 0 <= k < nobs ->
  (forall i, 0 <= i < n -> acell v [i] = acell z [i; k]) ->
  exists A B, complete_polynomial z d = Ok A /\ complete_polynomial v d = Ok B /\
    ashape A = [n_complete n d; nobs] /\ ashape B = [n_complete n d] /\
    forall r, 0 <= r < n_complete n d -> acell A [r; k] = acell B [r].
Proof. exact (forms_agree n nobs d z v k). Qed.
Print Assumptions C32_matrix_vector_agree.
Theorem C32_der_matrix_vector_agree {T} {NT : Num T} n nobs d der (z v : arr T) k :
  0 <= d <= 5 -> 0 <= der < n -> ashape z = [n; nobs] -> ashape v = [n] -> 0 <= k < nobs ->
  (forall i, 0 <= i < n -> acell v [i] = acell z [i; k]) ->
  exists A B, complete_polynomial_der z d der = Ok A /\ complete_polynomial_der v d der = Ok B /\
    ashape A = [n_complete n d; nobs] /\ ashape B = [n_complete n d] /\
    forall r, 0 <= r < n_complete n d -> acell A [r; k] = acell B [r].
Proof. exact (der_forms_agree n nobs d der z v k). Qed.
Print Assumptions C32_der_matrix_vector_agree.
Example C32_case : let v := mkArr [3] (fun idx => acell qz (idx ++ [1])) in
  ashape v = [3] /\
  option_map snd (cq (complete_polynomial qz 3) (map (fun r => [r; 1]) (zrange 20))) = option_map snd (cq (complete_polynomial v 3) (map (fun r => [r]) (zrange 20))).
Proof. vm_compute. auto. Qed.

(** C33: [der] is the derivative of [__call__], one observation at a time (samples as rows). *)
Theorem C33_der_of_call n tl (cp : cpoly R) c der N k (S : R -> arr R) :
  0 <= n -> 0 <= cp_d cp <= 5 -> cp_coefs cp = Some c -> ashape c = n_complete n (cp_d cp) :: tl -> outshape tl ->
  0 <= der < n -> 0 <= k < N -> (forall x, ashape (S x) = [N; n]) -> (forall x, acell (S x) [k; der] = x) ->
  (forall x y i, 0 <= i < n -> i <> der -> acell (S x) [k; i] = acell (S y) [k; i]) ->
  exists A D : R -> arr R,
    (forall x, cp_call cp (S x) = Ok (A x) /\ cp_der cp (S x) der = Ok (D x) /\ ashape (A x) = N :: tl /\ ashape (D x) = N :: tl) /\
    forall tail x, inb tl tail = true -> derivable_pt_lim (fun x => acell (A x) (k :: tail)) x (acell (D x) (k :: tail)).
Proof. intros H1 H2 H3 H4 H5 H6. exact (der_of_call_mat n tl cp c H1 H2 H3 H4 H5 der H6 N k S). Qed.
Print Assumptions C33_der_of_call.
Theorem C33_der_of_call_vector n tl (cp : cpoly R) c der (S : R -> arr R) :
  0 <= n -> 0 <= cp_d cp <= 5 -> cp_coefs cp = Some c -> ashape c = n_complete n (cp_d cp) :: tl -> outshape tl ->
  0 <= der < n -> (forall x, ashape (S x) = [n]) -> (forall x, acell (S x) [der] = x) ->
  (forall x y i, 0 <= i < n -> i <> der -> acell (S x) [i] = acell (S y) [i]) ->
  exists A D : R -> arr R,
    (forall x, cp_call cp (S x) = Ok (A x) /\ cp_der cp (S x) der = Ok (D x) /\ ashape (A x) = tl /\ ashape (D x) = tl) /\
    forall tail x, inb tl tail = true -> derivable_pt_lim (fun x => acell (A x) tail) x (acell (D x) tail).
Proof. intros H1 H2 H3 H4 H5 H6. exact (der_of_call_vec n tl cp c H1 H2 H3 H4 H5 der H6 S). Qed.
Print Assumptions C33_der_of_call_vector.
Example C33_der_case : let cp := mkCP 1 1 None (Some exc0) in
  cp_coefs cp = Some exc0 /\ ashape exc0 = n_complete 1 (cp_d cp) :: [] /\ outshape [].
Proof. split; [reflexivity|]. split; [reflexivity|]. left. reflexivity. Qed.

(** Fitting data of a polynomial of degree <= d: with any history of (damped) refits to data of
    the same polynomial, after a first undamped one, the coefficients are the polynomial's. *)
Theorem C33_fit_recovers lstsq n d tl c0 s x fits : 0 <= n -> 0 <= d <= 5 -> outshape tl -> ashape c0 = n_complete n d :: tl ->
  good_fit lstsq n d tl c0 s x -> Forall (fun f => let '(s, x, _) := f in good_fit lstsq n d tl c0 s x) fits ->
  exists c, cp_coefs (run_fits lstsq (cp_new n d) ((s, x, 0%R) :: fits)) = Some c /\ aeq c c0.
Proof. exact (fit_history lstsq n d tl c0 s x fits). Qed.
Print Assumptions C33_fit_recovers.
Example C33_fit_case : good_fit exlstsq 1 1 [] exc0 exs exx.
Proof. exact ex_good. Qed.

(** The damped update, in any arithmetic; damping a first fit raises and leaves no coefficients. *)
Theorem C33_damped_update {T} {NT : Num T} lstsq (cp : cpoly T) s x damp P new old :
  complete_polynomial (atranspose s) (cp_d cp) = Ok P -> lstsq (atranspose P) x = Ok new ->
  (n_is0 damp = true -> cp_coefs (fst (cp_fit lstsq cp s x damp)) = Some new /\ snd (cp_fit lstsq cp s x damp) = Ok tt) /\
  (n_is0 damp = false -> cp_coefs cp = Some old -> ashape new = ashape old ->
     snd (cp_fit lstsq cp s x damp) = Ok tt /\
     exists c, cp_coefs (fst (cp_fit lstsq cp s x damp)) = Some c /\ ashape c = ashape new /\
     forall idx, acell c idx = (n_ofZ 1 -! damp) *! acell new idx +! damp *! acell old idx) /\
  (n_is0 damp = false -> cp_coefs cp = None ->
     snd (cp_fit lstsq cp s x damp) = Err NameErr /\ cp_coefs (fst (cp_fit lstsq cp s x damp)) = None).
Proof. exact (damped_update lstsq cp s x damp P new old). Qed.
Print Assumptions C33_damped_update.
Example C33_damped_case :
  let l (_ x : arr Q) := Ok x in let x := mkArr [2] (fun _ => 8%Q) in
  let cp := fst (cp_fit l (cp_new 1 1) (atranspose qz) x 0%Q) in
  option_map (fun c => map (fun i => Qred (acell c [i])) [0; 1]) (cp_coefs cp) = Some [8; 8]%Q /\
  option_map (fun c => map (fun i => Qred (acell c [i])) [0; 1])
    (cp_coefs (fst (cp_fit l cp (atranspose qz) (mkArr [2] (fun _ => 4%Q)) (1#4)%Q))) = Some [5; 5]%Q.
Proof. vm_compute. auto. Qed.
