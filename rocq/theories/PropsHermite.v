(** Properties of Hermite interpolation: C27, C28. *)
From Coq Require Import ZArith List Reals QArith.
From Verif Require Import Base SplineModel Spec HermiteModel ExampleData HermiteProps.
Import ListNotations.
Open Scope R_scope.

(** C27: on a strictly increasing grid [hermite] interpolates the values; inside it has a
    continuous derivative which is yp[i] at each node (one-sided at the two ends, where the
    function is constant beyond), and is a cubic polynomial on each cell. *)
Theorem C27_values_and_slopes x y yp : valid_dim (Nonunif x) -> length y = length x -> length yp = length x ->
  exists F D : R -> R,
    (forall t out, hermite (HNum t) x y yp out = Ok (VNum (F t), out)) /\
    (forall i, (0 <= i < zlen x)%Z -> F (nth (Z.to_nat i) x 0) = nth (Z.to_nat i) y 0) /\
    (forall t, nth 0 x 0 < t < nth (Z.to_nat (zlen x - 1)) x 0 -> derivable_pt_lim F t (D t) /\ continuity_pt D t) /\
    (forall i, (0 <= i < zlen x)%Z -> D (nth (Z.to_nat i) x 0) = nth (Z.to_nat i) yp 0) /\
    right_slope F (nth 0 x 0) (nth 0 yp 0) /\
    left_slope F (nth (Z.to_nat (zlen x - 1)) x 0) (nth (Z.to_nat (zlen x - 1)) yp 0) /\
    (forall c, (0 <= c < zlen x - 1)%Z -> exists a0 a1 a2 a3, forall t,
       nth (Z.to_nat c) x 0 <= t <= nth (Z.to_nat (c + 1)) x 0 -> F t = a0 + a1 * t + a2 * t ^ 2 + a3 * t ^ 3).
Proof. exact (C27_main x y yp). Qed.
Print Assumptions C27_values_and_slopes.
Example C27_case : valid_dim (Nonunif [0; 1; 3]).
Proof. exact ex13_valid. Qed.
Example C27_computed :
  match hermite (HNum (1 # 2)) [0; 1; 3]%Q [5; 2; 4]%Q [1; -1; 2]%Q None with
  | Ok (VNum v, None) => Qred v | _ => 0%Q end = (15 # 4)%Q.
Proof. vm_compute. reflexivity. Qed.

(** C28: cubic polynomials are reproduced inside. *)
Theorem C28_reproduces_cubics x y yp a0 a1 a2 a3 : valid_dim (Nonunif x) -> length y = length x -> length yp = length x ->
  (forall i, (0 <= i < zlen x)%Z -> let X := nth (Z.to_nat i) x 0 in
     nth (Z.to_nat i) y 0 = a0 + a1 * X + a2 * X ^ 2 + a3 * X ^ 3 /\
     nth (Z.to_nat i) yp 0 = a1 + 2 * a2 * X + 3 * a3 * X ^ 2) ->
  forall t out, nth 0 x 0 <= t <= nth (Z.to_nat (zlen x - 1)) x 0 ->
    hermite (HNum t) x y yp out = Ok (VNum (a0 + a1 * t + a2 * t ^ 2 + a3 * t ^ 3), out).
Proof. exact (C28_exact_main x y yp a0 a1 a2 a3). Qed.
Print Assumptions C28_reproduces_cubics.
Example C28_case : forall i, (0 <= i < zlen [0; 1; 3]%R)%Z -> let X := nth (Z.to_nat i) [0; 1; 3] 0 in
     nth (Z.to_nat i) [1; 2; 28] 0 = 1 + 0 * X + 0 * X ^ 2 + 1 * X ^ 3 /\
     nth (Z.to_nat i) [0; 3; 27] 0 = 0 + 2 * 0 * X + 3 * 1 * X ^ 2.
Proof. exact ex_C28. Qed.

(** Outside the grid the end values are returned. *)
Theorem C28_constant_outside x y yp : valid_dim (Nonunif x) -> length y = length x -> length yp = length x -> forall t out,
  (t <= nth 0 x 0 -> hermite (HNum t) x y yp out = Ok (VNum (nth 0 y 0), out)) /\
  (nth (Z.to_nat (zlen x - 1)) x 0 <= t -> hermite (HNum t) x y yp out = Ok (VNum (nth (Z.to_nat (zlen x - 1)) y 0), out)).
Proof. exact (C28_out_main x y yp). Qed.
Print Assumptions C28_constant_outside.

(** The vector form tabulates the scalar form, in any arithmetic; [out] is left as it was. *)
Theorem C28_vector_form {T} {NT : Num T} (xs x y yp : list T) out :
  (forall r o, hermite (HVec xs) x y yp out = Ok (r, o) ->
     o = out /\ exists a, r = VArr a /\ ashape a = [zlen xs] /\
     forall i x0, (0 <= i)%Z -> nth_error xs (Z.to_nat i) = Some x0 -> forall out', hermite (HNum x0) x y yp out' = Ok (VNum (acell a [i]), out')) /\
  ((forall x0, In x0 xs -> exists v, hermite (HNum x0) x y yp out = Ok v) -> exists v, hermite (HVec xs) x y yp out = Ok v).
Proof. exact (hermite_vector_form xs x y yp out). Qed.
Print Assumptions C28_vector_form.

(** The matrix form uses the first column. *)
Theorem C28_matrix_form {T} {NT : Num T} (a : arr T) N p (x y yp : list T) out : ashape a = [N; p] -> (0 < p)%Z ->
  hermite (HMat a) x y yp out = hermite (HVec (map (fun n => acell a [n; 0%Z]) (zrange N))) x y yp out.
Proof. exact (hermite_matrix_form a N p x y yp out). Qed.
Print Assumptions C28_matrix_form.
Example C28_forms_computed :
  match hermite (HMat (mkArr [2; 1]%Z (fun idx => nth (Z.to_nat (hd 0%Z idx)) [-1; 1 # 2]%Q 0%Q))) [0; 1; 3]%Q [5; 2; 4]%Q [1; -1; 2]%Q None with
  | Ok (VArr v, None) => Some (ashape v, Qred (acell v [0]%Z), Qred (acell v [1]%Z)) | _ => None end
  = Some ([2]%Z, 5%Q, (15 # 4)%Q).
Proof. vm_compute. reflexivity. Qed.
