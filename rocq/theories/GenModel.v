(** Model of interpolation/splines/codegen.py: the programs written by [get_code_spline], as syntax
    trees, for any number of dimensions.  Definitions only.

    The generator fills one of two text templates; here its loops over [range(d)] are loops over a
    list of dimensions and each line of a template is the statement it is read as.  GenText.v fills
    the templates as texts. *)
From Coq Require Import ZArith List Bool String DecimalString.
From Verif Require Import Base SplineModel PySyntax.
Import ListNotations.
Open Scope list_scope.
Open Scope Z_scope.

(** Decimal notation ([str] of a number, [{{i}}]). *)
Definition dec (n : nat) : string := NilEmpty.string_of_uint (Nat.to_uint n).
(** The names a_0, a_1, ...; μ_0_0, ... *)
Definition nm1 (p : string) (i : nat) : string := (p ++ dec i)%string.
Definition nm2 (p : string) (i j : nat) : string := (p ++ dec i ++ "_" ++ dec j)%string.
Definition v1 (p : string) (i : nat) : expr := EName (nm1 p i).
Definition set (x : string) (e : expr) : stmt := SAssign [EName x] e.
Definition f0 : expr := EFlt 0 1.    (* 0.0 *)
Definition f1 : expr := EFlt 10 1.   (* 1.0 *)
Definition zi (i : nat) : expr := EInt (Z.of_nat i).

(** codegen.py 10-28 [gen_trex]. *)
Definition plus_left (l : list expr) : expr :=
  match l with
  | [] => f0                          (* unreachable: k+1 >= 2 terms *)
  | e :: l => fold_left (EBin "+") l e
  end.
Fixpoint gen_trex (l : list (list expr)) (c : list Z -> expr) (inds : list Z) : expr :=
  match l with
  | [] => c inds
  | h :: q => plus_left (map (fun ih => EBin "*" (snd ih) (gen_trex q c (inds ++ [fst ih]))) (enum_from 0 h))
  end.

(** codegen.py 36-43: the name of the weight [j] of dimension [i] for the derivative order [l]. *)
Definition phi (l : Z) (i j : nat) : string :=
  if l =? 0 then nm2 "Φ_" i j
  else if l =? 1 then nm2 "d_Φ_" i j
  else ("d_" ++ dec (Z.to_nat l) ++ "_Φ_" ++ dec i ++ "_" ++ dec j)%string.
(** codegen.py 31-57 [get_values]; [ix] is [] or [i_x]. *)
Definition cell_sub (i : nat) (j : Z) : expr := if 0 <? j then EBin "+" (v1 "i_" i) (EInt j) else v1 "i_" i.
Fixpoint cell_subs (i : nat) (inds : list Z) : list expr :=
  match inds with [] => [] | j :: r => cell_sub i j :: cell_subs (S i) r end.
Fixpoint weights (n : nat) (i : nat) (oo : list Z) : list (list expr) :=
  match oo with [] => [] | l :: r => map (fun j => EName (phi l i j)) (seq 0 n) :: weights n (S i) r end.
Definition gen_values (k : Z) (oo : list Z) (ix : list expr) : expr :=
  gen_trex (weights (Z.to_nat (k + 1)) 0 oo) (fun inds => ESub (EName "C") (cell_subs 0 inds ++ ix)) [].

(** codegen.py 82-141 [blending_formula(k, l, i)]. *)
Definition gen_linear (l : Z) (i : nat) : list stmt :=
  if l =? 0 then [set (phi l i 0) (EBin "-" f1 (v1 "λ_" i)); set (phi l i 1) (v1 "λ_" i)]
  else if l =? 1 then [set (phi l i 0) (EBin "/" (ENeg f1) (v1 "δ_" i)); set (phi l i 1) (EBin "/" f1 (v1 "δ_" i))]
  else [set (phi l i 0) f0; set (phi l i 1) f0].
Definition mu (i j : nat) : expr := EName (nm2 "μ_" i j).
Definition tab (t : string) (j m : nat) : expr := ESub (EName t) [zi j; zi m].
Definition mul := EBin "*".
Definition add := EBin "+".
Definition gen_mus (l : Z) (i : nat) : list stmt :=
  let la := v1 "λ_" i in let de := v1 "δ_" i in
  let four e0 e1 e2 e3 := [set (nm2 "μ_" i 0) e0; set (nm2 "μ_" i 1) e1; set (nm2 "μ_" i 2) e2; set (nm2 "μ_" i 3) e3] in
  if l =? 0 then four (mul (mul la la) la) (mul la la) la f1
  else four (mul (mul (mul (EInt 3) la) la) de) (mul (mul (EInt 2) la) de) de f0.
Definition cub_left (i j : nat) : expr := add (mul (tab "dCd" j 3) (mu i 2)) (mul (tab "Cd" j 3) (mu i 3)).
Definition cub_right (i j : nat) : expr :=
  add (mul (add (add (mul (EInt 3) (tab "Cd" j 0)) (mul (EInt 2) (tab "Cd" j 1))) (tab "Cd" j 2)) (EBin "-" (mu i 2) (mu i 3)))
      (mul (add (add (add (tab "Cd" j 0) (tab "Cd" j 1)) (tab "Cd" j 2)) (tab "Cd" j 3)) (mu i 3)).
Definition cub_mid (i j : nat) : expr :=
  add (add (add (mul (tab "Cd" j 0) (mu i 0)) (mul (tab "Cd" j 1) (mu i 1))) (mul (tab "Cd" j 2) (mu i 2))) (mul (tab "Cd" j 3) (mu i 3)).
Definition four_sets (l : Z) (i : nat) (f : nat -> nat -> expr) : list stmt := map (fun j => set (phi l i j) (f i j)) (seq 0 4).
Definition gen_cubic (l : Z) (i : nat) : list stmt :=
  gen_mus l i ++ four_sets l i (fun _ _ => f0) ++
  [SIf (ECmp (v1 "λ_" i) [("<", EInt 0)%string]) (four_sets l i cub_left)
     [SIf (ECmp (v1 "λ_" i) [(">", EInt 1)%string]) (four_sets l i cub_right) (four_sets l i cub_mid)]].
Definition gen_blend (k l : Z) (i : nat) : list stmt := if k =? 1 then gen_linear l i else gen_cubic l i.

(** codegen.py 429-432 [bases_orders]: the orders used in each dimension, sorted. *)
Fixpoint insert (x : Z) (l : list Z) : list Z :=
  match l with
  | [] => [x]
  | y :: r => if x <? y then x :: l else if x =? y then l else y :: insert x r
  end.
Definition sorted_set (l : list Z) : list Z := fold_right insert [] l.
Definition bases (orders : option (list (list Z))) (i : nat) : list Z :=
  match orders with None => [0] | Some os => sorted_set (map (fun oo => nth i oo 0) os) end.

(** A name val_01 for the multi-index (0, 1) (codegen.py 246 and others). *)
Definition val_name (oo : list Z) : string := fold_left (fun s l => (s ++ dec (Z.to_nat l))%string) oo "val_"%string.

Section Gen.
Variable k : Z.
Variable vec : bool.                      (* vectorized: many points *)
Variable vv : bool.                       (* vector_valued *)
Variable allocate : bool.
Variable types : list bool.               (* grid_types: true for 'uniform' *)
Variable xm : extrap.
Variable orders : option (list (list Z)).

(** codegen.py 170-183 / 307-322: recover grid parameters. *)
Definition dim_sub (i : nat) (j : Z) : expr := ESub (ESub (EName "grid") [zi i]) [EInt j].
Definition gen_recover (i : nat) : list stmt :=
  if nth i types true then
    [set (nm1 "a_" i) (dim_sub i 0); set (nm1 "b_" i) (dim_sub i 1); set (nm1 "n_" i) (dim_sub i 2);
     set (nm1 "δ_" i) (EBin "/" (EBin "-" (v1 "n_" i) f1) (EBin "-" (v1 "b_" i) (v1 "a_" i)))]
  else
    [set (nm1 "gc_" i) (ESub (EName "grid") [zi i]); set (nm1 "N_" i) (ESub (EAttr (v1 "gc_" i) "shape") [EInt 0])] ++
    if vec then [set (nm1 "a_" i) (ESub (v1 "gc_" i) [EInt 0]); set (nm1 "b_" i) (ESub (v1 "gc_" i) [EBin "-" (v1 "N_" i) (EInt 1)])]
    else [].

(** codegen.py 185-203 / 326-341: extract coordinates. *)
Definition all_sub : expr := ESlice None None None.
Definition gen_outside (i : nat) : list stmt :=
  if vec then [SAssign [ESub (EName "out") (EName "nn" :: if vv then [all_sub] else [])] f0; SContinue]
  else if vv then SAssign [ESub (EName "out") [all_sub]] f0 :: if allocate then [SRet (Some (EName "out"))] else []
  else [set "val" f0; SRet (Some (EName "val"))].
Definition gen_extract (i : nat) : list stmt :=
  set (nm1 "x_" i) (ESub (EName "points") (if vec then [EName "nn"; zi i] else [zi i])) ::
  match xm with
  | XLinear => []
  | XNearest => [set (nm1 "x_" i) (ECall (EName "max") [v1 "a_" i; ECall (EName "min") [v1 "x_" i; v1 "b_" i] []] [])]
  | XConstant => [SIf (EOr (ECmp (v1 "x_" i) [("<"%string, v1 "a_" i)]) (ECmp (v1 "x_" i) [(">"%string, v1 "b_" i)])) (gen_outside i) []]
  end.

(** codegen.py 205-222 / 343-359: indices and barycentric coordinates. *)
Definition gen_bracket (i : nat) : list stmt :=
  if nth i types true then
    [set (nm1 "u_" i) (mul (EBin "-" (v1 "x_" i) (v1 "a_" i)) (v1 "δ_" i));
     set (nm1 "i_" i) (ECall (EName "int") [ECall (EName "floor") [v1 "u_" i] []] []);
     set (nm1 "i_" i) (ECall (EName "max") [ECall (EName "min") [v1 "i_" i; EBin "-" (v1 "n_" i) (EInt 2)] []; EInt 0] []);
     set (nm1 "λ_" i) (EBin "-" (v1 "u_" i) (v1 "i_" i))]
  else
    [set (nm1 "i_" i) (EBin "-" (ECall (EName "int") [ECall (EAttr (EName "np") "searchsorted") [v1 "gc_" i; v1 "x_" i] []] []) (EInt 1));
     set (nm1 "i_" i) (ECall (EName "min") [ECall (EName "max") [v1 "i_" i; EInt 0] []; EBin "-" (v1 "N_" i) (EInt 2)] []);
     set (nm1 "δ_" i) (EBin "-" (ESub (v1 "gc_" i) [EBin "+" (v1 "i_" i) (EInt 1)]) (ESub (v1 "gc_" i) [v1 "i_" i]));
     set (nm1 "λ_" i) (EBin "/" (EBin "-" (v1 "x_" i) (ESub (v1 "gc_" i) [v1 "i_" i])) (v1 "δ_" i))].

Definition gen_bases (i : nat) : list stmt := flat_map (fun l => gen_blend k l i) (bases orders i).

(** codegen.py 232-256, 258-290 / 369-411: tensor reductions.  [pre] is [nn] or nothing. *)
Definition dims : list nat := seq 0 (List.length types).
Definition zero_order : list Z := map (fun _ => 0) types.
Definition pre : list expr := if vec then [EName "nn"] else [].
Definition gen_vals (ix : list expr) (os : list (list Z)) : list stmt :=
  map (fun oo => set (val_name oo) (gen_values k oo ix)) os.
Definition gen_stores (ix : list expr) (os : list (list Z)) : list stmt :=
  map (fun jo => SAssign [ESub (EName "out") (pre ++ ix ++ [EInt (fst jo)])] (EName (val_name (snd jo)))) (enum_from 0 os).
Definition gen_reduce : list stmt :=
  if vv then
    [SFor (EName "i_x") (ECall (EName "range") [EName "n_vals"] [])
       match orders with
       | None => [SAssign [ESub (EName "out") (pre ++ [EName "i_x"])] (gen_values k zero_order [EName "i_x"])]
       | Some os => gen_vals [EName "i_x"] os ++ gen_stores [EName "i_x"] os
       end]
  else
    match orders with
    | Some os =>
        gen_vals [] os ++
        if vec then gen_stores [] os
        else if allocate then [set "val" (ETup (map (fun oo => EName (val_name oo)) os)); SRet (Some (EName "val"))]
        else gen_stores [] os
    | None =>
        if vec then [SAssign [ESub (EName "out") [EName "nn"]] (gen_values k zero_order [])]
        else [set "val" (gen_values k zero_order []); SRet (Some (EName "val"))]
    end.

(** The value of [orders] written in the program (codegen.py 304). *)
Definition orders_expr : expr :=
  match orders with None => ENone | Some os => ETup (map (fun oo => ETup (map EInt oo)) os) end.
Definition doc : stmt := SExpr (EStr "This is my docstring").
Definition n_vals_set : list stmt :=
  if vv then [set "n_vals" (ESub (EAttr (EName "C") "shape") [EInt (zlen types)])] else [].
Definition return_out : list stmt := if allocate then [SRet (Some (EName "out"))] else [].

(** codegen.py 149-291 [eval_template]: one point. *)
Definition zeros_call (e : expr) : expr := ECall (EName "zeros") [e] [].
Definition gen_alloc1 : list stmt :=
  if allocate then
    if vv then
      match orders with
      | None => [set "out" (zeros_call (EName "n_vals"))]
      | Some os => [set "out" (zeros_call (ETup [EName "n_vals"; EInt (zlen os)]))]
      end
    else match orders with None => [] | Some os => [set "out" (zeros_call (EInt (zlen os)))] end
  else [].
Definition gen_cell : list stmt := flat_map gen_bracket dims ++ flat_map gen_bases dims.
Definition body1 : list stmt :=
  [doc] ++ n_vals_set ++ gen_alloc1 ++ flat_map gen_recover dims ++ flat_map gen_extract dims ++ gen_cell ++
  gen_reduce ++ if vv then return_out else [].

(** codegen.py 293-416 [eval_template_vectorized]: many points. *)
Definition gen_allocN : list stmt :=
  if allocate then [set "out" (ECall (EName "allocate_output") [EName "grid"; EName "C"; EName "points"; orders_expr] [])] else [].
Definition bodyN : list stmt :=
  [doc; set "N" (ESub (EAttr (EName "points") "shape") [EInt 0])] ++ n_vals_set ++ gen_allocN ++ flat_map gen_recover dims ++
  [SFor (EName "nn") (ECall (EName "range") [EName "N"] []) (flat_map gen_extract dims ++ gen_cell ++ gen_reduce)] ++
  return_out.

Definition gen_params : list (string * option expr) :=
  [("grid", None); ("C", None); ("points", None); ("out", Some ENone); ("k", Some (EInt 1)); ("diff", Some (EStr "None"));
   ("extrap_mode", Some (EStr "linear"))]%string.
(** codegen.py 419-467 [get_code_spline]: the function in the text it returns. *)
Definition gen_body : list stmt := if vec then bodyN else body1.
Definition gen_program : list stmt := [SDef "eval_spline" gen_params gen_body].
End Gen.
