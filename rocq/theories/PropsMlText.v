(** Property C84: the texts of multilinear/fungen.py and multilinear/mlinterp.py, parsed and run, compute the
    interpolation of the model in up to three dimensions. *)
From Coq Require Import ZArith List Bool String Reals QArith.
From Verif Require Import Base SplineModel Spec InterpModel SpecInterp ExampleData InterpProps InterpCases PySyntax MlSem SpecMlText MlTextD MlTextE.
Import ListNotations.
Open Scope Z_scope.

(** C84: whatever the model's [interp] returns, the text of [interp] returns, for all numbers, axes of either kind
    in every position, and points given as a tuple, as numbers, as an array, as rows or as two vectors. *)
Theorem C84_interp {T} {NT : Num T} axes grid (C : arr T) ea v :
  axes_of axes grid -> (1 <= List.length grid <= 3)%nat -> andim C = zlen grid -> points_arg (List.length grid) ea ->
  interp (axes ++ AArr C :: ea) = Ok v -> ml_text "interp" (map of_arg (axes ++ AArr C :: ea)) = Ok (of_val v).
Proof. exact (interp_is_text axes grid C ea v). Qed.
Print Assumptions C84_interp.
Definition q_of (r : res (rv Q)) : option Q := match r with Ok (RF q) => Some (Qred q) | _ => None end.
Definition qs_of (r : res (rv Q)) (idxs : list (list Z)) : option (list Q) :=
  match r with Ok (RA a) => Some (map (fun i => Qred (acell a i)) idxs) | _ => None end.
Example C84_interp_case : axes_of qaxes qg /\ points_arg 2 [AArr qP] /\ andim qC = zlen qg /\
  qvals (interp (qaxes ++ [AArr qC; AArr qP])) [[0]; [1]] = Some [10 # 3; 22 # 3]%Q.
Proof. split; [exact qaxes_ok|]. split; [right; left; exists qP; split; [right; reflexivity|reflexivity]|]. vm_compute. split; reflexivity. Qed.
Example C84_computed :
  q_of (ml_text "interp" (map of_arg (qaxes ++ [AArr qC; ATuple [1 # 3; 2]%Q]))) = Some (47 # 3)%Q /\
  q_of (ml_text "interp" (map of_arg (qaxes ++ AArr qC :: map AScalar [1 # 3; 20]%Q))) = Some (62 # 3)%Q /\
  qs_of (ml_text "interp" (map of_arg (qaxes ++ [AArr qC; AArr qP]))) [[0]; [1]] = Some [10 # 3; 22 # 3]%Q /\
  qs_of (ml_text "interp" (map of_arg (qaxes ++ [AArr qC; AArr (qa [0; 1 # 3]); AArr (qa [0; 2; 3])]%Q))) [[0; 0]; [0; 1]; [0; 2]; [1; 1]] = Some [0; 15; 20; 47 # 3]%Q.
Proof. vm_compute. repeat split; reflexivity. Qed.

(** C84: the same for [mlinterp]. *)
Theorem C84_mlinterp {T} {NT : Num T} axes grid (C : arr T) u v :
  axes_of axes grid -> (1 <= List.length grid <= 3)%nat -> andim C = zlen grid ->
  (forall x, u = P1 x -> List.length x = List.length grid) ->
  mlinterp grid C u = Ok v ->
  ml_text "mlinterp" [RT (map of_arg axes); RA C; of_arg (match u with P1 x => ATuple x | P2 a => AArr a end)] = Ok (of_val v).
Proof. exact (mlinterp_is_text axes grid C u v). Qed.
Print Assumptions C84_mlinterp.
Example C84_mlinterp_computed :
  q_of (ml_text "mlinterp" [RT (map of_arg qaxes); RA qC; RT [RF (1 # 3)%Q; RF 2%Q]]) = Some (47 # 3)%Q /\
  qval (mlinterp qg qC (P1 [1 # 3; 2]%Q)) = Some (47 # 3)%Q.
Proof. vm_compute. split; reflexivity. Qed.

(** C84: over the reals the text returns a number at every point, namely the multilinear interpolant at the closest
    point of the domain; at a node it is the value of the data, everywhere it is within the range of the data. *)
Theorem C84_value axes grid (C : arr R) pt v :
  axes_of axes grid -> (1 <= List.length grid <= 3)%nat -> valid_grid grid -> coefs_ok 1 grid [] C -> List.length pt = List.length grid ->
  (ml_text "interp" (map of_arg (axes ++ [AArr C; ATuple pt])) = Ok (RF v) <-> value_linear (Some XNearest) grid [] C pt [] v).
Proof. intros Ha Hd Hv HC. exact (text_value axes grid C Ha Hd Hv HC pt v). Qed.
Print Assumptions C84_value.
Theorem C84_node axes grid (C : arr R) idx :
  axes_of axes grid -> (1 <= List.length grid <= 3)%nat -> valid_grid grid -> coefs_ok 1 grid [] C -> inb (ashape C) idx = true ->
  ml_text "interp" (map of_arg (axes ++ [AArr C; ATuple (node_at grid idx)])) = Ok (RF (acell C idx)).
Proof. intros Ha Hd Hv HC. exact (text_node axes grid C Ha Hd Hv HC idx). Qed.
Print Assumptions C84_node.
Theorem C84_range axes grid (C : arr R) m M pt :
  axes_of axes grid -> (1 <= List.length grid <= 3)%nat -> valid_grid grid -> coefs_ok 1 grid [] C -> List.length pt = List.length grid ->
  (forall idx, inb (ashape C) idx = true -> (m <= acell C idx <= M)%R) ->
  exists v, ml_text "interp" (map of_arg (axes ++ [AArr C; ATuple pt])) = Ok (RF v) /\ (m <= v <= M)%R.
Proof. intros Ha Hd Hv HC. exact (text_range axes grid C Ha Hd Hv HC m M pt). Qed.
Print Assumptions C84_range.
Theorem C84_rows axes grid (C a : arr R) N p :
  axes_of axes grid -> (1 <= List.length grid <= 3)%nat -> valid_grid grid -> coefs_ok 1 grid [] C ->
  ashape a = [N; p] -> 0 <= N -> zlen grid <= p ->
  exists r, ml_text "interp" (map of_arg (axes ++ [AArr C; AArr a])) = Ok (RA r) /\ ashape r = [N] /\
    forall n, 0 <= n < N -> ml_text "interp" (map of_arg (axes ++ [AArr C; ATuple (row_of (zlen grid) a n)])) = Ok (RF (acell r [n])).
Proof. intros Ha Hd Hv HC. exact (text_rows axes grid C Ha Hd Hv HC a N p). Qed.
Print Assumptions C84_rows.
Example C84_real_case : axes_of exaxes exg /\ (1 <= List.length exg <= 3)%nat /\ valid_grid exg /\ coefs_ok 1 exg [] exC /\ inb (ashape exC) [2; 1] = true.
Proof. split; [exact exaxes_ok|]. split; [cbn; repeat constructor|]. split; [exact exg_valid|]. split; [exact exC_ok|reflexivity]. Qed.

(** C84: the text refuses vector values in every kind of call, one vector of points per axis in three dimensions,
    and [mlinterp] on a vector. *)
Theorem C84_vector_refused {T} {NT : Num T} axes grid (C : arr T) ea :
  axes_of axes grid -> (1 <= List.length grid <= 3)%nat -> andim C = zlen grid + 1 -> points_arg (List.length grid) ea ->
  exists e, ml_text "interp" (map of_arg (axes ++ AArr C :: ea)) = Err e.
Proof. exact (vector_refused axes grid C ea). Qed.
Print Assumptions C84_vector_refused.
Theorem C84_cartesian_refused {T} {NT : Num T} axes grid (C a1 a2 a3 : arr T) :
  axes_of axes grid -> List.length grid = 3%nat -> andim C = 3 -> andim a1 = 1 -> andim a2 = 1 -> andim a3 = 1 ->
  exists e, ml_text "interp" (map of_arg (axes ++ [AArr C; AArr a1; AArr a2; AArr a3])) = Err e.
Proof. exact (cartesian3_refused axes grid C a1 a2 a3). Qed.
Print Assumptions C84_cartesian_refused.
Theorem C84_mlinterp_refused {T} {NT : Num T} axes grid (C a : arr T) :
  axes_of axes grid -> (1 <= List.length grid <= 3)%nat -> andim a = 1 ->
  exists e, ml_text "mlinterp" [RT (map of_arg axes); RA C; RA a] = Err e.
Proof. exact (mlinterp_vector_refused axes grid C a). Qed.
Print Assumptions C84_mlinterp_refused.
Example C84_refused_case : axes_of qaxes qg /\ andim qV = zlen qg + 1 /\ points_arg 2 [ATuple [1 # 3; 2]%Q] /\
  ml_text "interp" (map of_arg (qaxes ++ [AArr qV; ATuple [1 # 3; 2]%Q])) = Err TypeErr.
Proof. split; [exact qaxes_ok|]. split; [reflexivity|]. split; [left; exists [1 # 3; 2]%Q; split; [reflexivity|left; reflexivity]|]. vm_compute. reflexivity. Qed.
