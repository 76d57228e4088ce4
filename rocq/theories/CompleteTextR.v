(** What the text of complete_poly.py computes, over the reals. *)
From Coq Require Import ZArith List Bool String Lia Reals.
From Verif Require Import Base BaseFacts CompleteModel SpecComplete CompleteGeneric CompleteProps CompleteFit CompleteCases PySyntax PySem SpecText SrcCompletePoly CompleteRun.
Import ListNotations.
Open Scope list_scope.
Open Scope Z_scope.

Section Any.
Context {T : Type} {NT : Num T}.
Lemma text_count n d k (h : heap T) : run_text complete_poly_py (S k) "n_complete" [PInt n; PInt d] [] h = Ok (PInt (n_complete n d), h).
Proof. rewrite run_text_cp. apply run_count. Qed.
Lemma text_complete k (h : heap T) l z d : nth_error h l = Some (OF z) -> Forall (fun n => 0 <= n) (ashape z) ->
  run_text complete_poly_py (S (S k)) "complete_polynomial" [PArr l []; PInt d] [] h =
  (out <- complete_polynomial z d ;; Ok (PArr (List.length h) [], h ++ [OF out])).
Proof. intros. rewrite run_text_cp. now apply run_complete. Qed.
Lemma text_complete_der (one_mul : forall x : T, n_mul (n_ofZ 1) x = x) k (h : heap T) l z d der :
  nth_error h l = Some (OF z) -> Forall (fun n => 0 <= n) (ashape z) ->
  run_text complete_poly_py (S (S k)) "complete_polynomial_der" [PArr l []; PInt d; PInt der] [] h =
  (out <- complete_polynomial_der z d der ;; Ok (PArr (List.length h) [], h ++ [OF out])).
Proof. intros. rewrite run_text_cp. now apply run_complete_der. Qed.
End Any.

Lemma one_R (x : R) : n_mul (n_ofZ 1) x = x.
Proof. exact (Rmult_1_l x). Qed.
Lemma text_binom n d k (h : heap R) : 0 <= n -> 0 <= d ->
  run_text complete_poly_py (S k) "n_complete" [PInt n; PInt d] [] h = Ok (PInt (binom (Z.to_nat n + Z.to_nat d) (Z.to_nat d)), h).
Proof. intros. rewrite text_count, n_complete_binom by auto. reflexivity. Qed.

(** The rows of [complete_polynomial(z, d)]. *)
Lemma text_monomials n d : 0 <= n -> 0 <= d <= 5 ->
  exists E : list (list nat),
    NoDup E /\ hd_error E = Some (repeat 0%nat (Z.to_nat n)) /\
    (forall e, In e E <-> List.length e = Z.to_nat n /\ (degree e <= Z.to_nat d)%nat) /\
    (forall (z : arr R) (h : heap R) l k, nth_error h l = Some (OF z) -> ashape z = [n] ->
       exists out, run_text complete_poly_py (S (S k)) "complete_polynomial" [PArr l []; PInt d] [] h = Ok (PArr (List.length h) [], h ++ [OF out]) /\
         ashape out = [zlen E] /\
         forall r e, nth_error E r = Some e -> acell out [Z.of_nat r] = monomial (vec_entries n z) e) /\
    (forall (z : arr R) (h : heap R) l k nobs, 0 <= nobs -> nth_error h l = Some (OF z) -> ashape z = [n; nobs] ->
       exists out, run_text complete_poly_py (S (S k)) "complete_polynomial" [PArr l []; PInt d] [] h = Ok (PArr (List.length h) [], h ++ [OF out]) /\
         ashape out = [zlen E; nobs] /\
         forall r e i, nth_error E r = Some e -> 0 <= i < nobs -> acell out [Z.of_nat r; i] = monomial (col_entries n z i) e).
Proof.
  intros Hn Hd. destruct (complete_basis n d Hn Hd) as (E & H1 & H2 & H3 & H4 & H5 & H6). exists E.
  split; [auto|]. split; [auto|]. split; [auto|]. split.
  - intros z h l k Hl Sz. destruct (H5 z Sz) as (out & Ho & So & Hv). exists out. split; [|auto].
    eapply eq_trans; [apply (text_complete k h l z d Hl); rewrite Sz; repeat constructor; exact Hn|]. rewrite Ho. reflexivity.
  - intros z h l k nobs Hb Hl Sz. destruct (H6 z nobs Hb Sz) as (out & Ho & So & Hv). exists out. split; [|auto].
    eapply eq_trans; [apply (text_complete k h l z d Hl); rewrite Sz; repeat constructor; auto|]. rewrite Ho. reflexivity.
Qed.

(** The rows of [complete_polynomial_der(z, d, der)] are the derivatives of the rows of [complete_polynomial(z, d)]. *)
Lemma text_derivative n nobs d der i (Z_ : R -> arr R) k : 0 <= d <= 5 -> 0 <= der < n -> 0 <= i < nobs ->
  (forall x, ashape (Z_ x) = [n; nobs]) -> (forall x, acell (Z_ x) [der; i] = x) ->
  (forall x y j, 0 <= j < n -> j <> der -> acell (Z_ x) [j; i] = acell (Z_ y) [j; i]) ->
  exists A D : R -> arr R,
    (forall x, run_text complete_poly_py (S (S k)) "complete_polynomial" [PArr 0 []; PInt d] [] [OF (Z_ x)] = Ok (PArr 1 [], [OF (Z_ x); OF (A x)]) /\
               run_text complete_poly_py (S (S k)) "complete_polynomial_der" [PArr 0 []; PInt d; PInt der] [] [OF (Z_ x)] = Ok (PArr 1 [], [OF (Z_ x); OF (D x)]) /\
               ashape (A x) = [n_complete n d; nobs] /\ ashape (D x) = [n_complete n d; nobs]) /\
    forall r x, 0 <= r < n_complete n d -> derivable_pt_lim (fun x => acell (A x) [r; i]) x (acell (D x) [r; i]).
Proof.
  intros Hd Hr Hi Hs Hx Hc. destruct (complete_der_mat n nobs d der i Z_ Hd Hr Hi Hs Hx Hc) as (A & D & H1 & H2).
  exists A, D. split; [|auto]. intros x. destruct (H1 x) as (HA & HD & SA & SD).
  assert (P : Forall (fun n => 0 <= n) (ashape (Z_ x))) by (rewrite Hs; repeat constructor; lia).
  split; [eapply eq_trans; [exact (text_complete k [OF (Z_ x)] 0 (Z_ x) d eq_refl P)|]; rewrite HA; reflexivity|].
  split; [eapply eq_trans; [exact (text_complete_der one_R k [OF (Z_ x)] 0 (Z_ x) d der eq_refl P)|]; rewrite HD; reflexivity|]. auto.
Qed.
Lemma text_derivative_vec n d der (Z_ : R -> arr R) k : 0 <= d <= 5 -> 0 <= der < n ->
  (forall x, ashape (Z_ x) = [n]) -> (forall x, acell (Z_ x) [der] = x) ->
  (forall x y j, 0 <= j < n -> j <> der -> acell (Z_ x) [j] = acell (Z_ y) [j]) ->
  exists A D : R -> arr R,
    (forall x, run_text complete_poly_py (S (S k)) "complete_polynomial" [PArr 0 []; PInt d] [] [OF (Z_ x)] = Ok (PArr 1 [], [OF (Z_ x); OF (A x)]) /\
               run_text complete_poly_py (S (S k)) "complete_polynomial_der" [PArr 0 []; PInt d; PInt der] [] [OF (Z_ x)] = Ok (PArr 1 [], [OF (Z_ x); OF (D x)]) /\
               ashape (A x) = [n_complete n d] /\ ashape (D x) = [n_complete n d]) /\
    forall r x, 0 <= r < n_complete n d -> derivable_pt_lim (fun x => acell (A x) [r]) x (acell (D x) [r]).
Proof.
  intros Hd Hr Hs Hx Hc. destruct (complete_der_vec n d der Z_ Hd Hr Hs Hx Hc) as (A & D & H1 & H2).
  exists A, D. split; [|auto]. intros x. destruct (H1 x) as (HA & HD & SA & SD).
  assert (P : Forall (fun n => 0 <= n) (ashape (Z_ x))) by (rewrite Hs; repeat constructor; lia).
  split; [eapply eq_trans; [exact (text_complete k [OF (Z_ x)] 0 (Z_ x) d eq_refl P)|]; rewrite HA; reflexivity|].
  split; [eapply eq_trans; [exact (text_complete_der one_R k [OF (Z_ x)] 0 (Z_ x) d der eq_refl P)|]; rewrite HD; reflexivity|]. auto.
Qed.
