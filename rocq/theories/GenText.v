(** The text of codegen.py, interpreted, writes the programs of GenModel.v: a comparison by
    computation for grids of up to four dimensions and all options.  (The theorems of GenRefine.v are about
    the programs of GenModel.v, for any number of dimensions.) *)
From Coq Require Import ZArith List Bool String.
From Coq.Strings Require Import Byte.
From Verif Require Import Base SplineModel PySyntax PyEq TempitaModel StrSem GenModel SrcCodegen.
Import ListNotations.
Open Scope Z_scope.
Open Scope list_scope.

(** codegen.py as a module. *)
Definition codegen : list stmt := Eval vm_compute in match parse_text codegen_py with Some p => p | None => [] end.
Lemma codegen_ok : parse_text codegen_py = Some codegen.
Proof. vm_cast_no_check (eq_refl (Some codegen)). Qed.

(** The options as [__eval_spline] (eval_splines.py 99-126) passes them. *)
Definition type_text (u : bool) : pv := VS (if u then "uniform" else "nonuniform").
Definition extrap_text (xm : extrap) : pv := VS (match xm with XConstant => "constant" | XLinear => "linear" | XNearest => "nearest" end).
Definition orders_value (o : option (list (list Z))) : pv :=
  match o with None => VN | Some os => VT (map (fun oo => VT (map VI oo)) os) end.
Definition code_of (k : Z) (vec vv allocate : bool) (types : list bool) (xm : extrap) (o : option (list (list Z))) : res pv :=
  call_fun codegen 1000 "get_code_spline" [VI (zlen types)]
    [("k", VI k); ("vectorized", VB vec); ("allocate", VB allocate); ("vector_valued", VB vv); ("orders", orders_value o);
     ("extrap_mode", extrap_text xm); ("grid_types", VL (map type_text types))]%string.
Definition written (r : res pv) : option (list stmt) :=
  match r with Ok (VS s) => parse_bytes (Nat.pow 2 12) (list_byte_of_string s) | _ => None end.

(** Does the text agree with the model for these options. *)
Definition agrees (k : Z) (vec vv allocate : bool) (types : list bool) (xm : extrap) (o : option (list (list Z))) : bool :=
  match written (code_of k vec vv allocate types xm o) with
  | Some p => list_eqb stmt_eqb p (gen_program k vec vv allocate types xm o)
  | None => false
  end.
Definition bools := [false; true].
Definition agree_all (ks : list Z) (types : list (list bool)) (os : list (option (list (list Z)))) : bool :=
  forallb (fun k => forallb (fun vec => forallb (fun vv => forallb (fun al => forallb (fun ty => forallb (fun xm =>
    forallb (fun o => agrees k vec vv al ty xm o) os)
    [XConstant; XLinear; XNearest]) types) bools) bools) bools) ks.

Lemma agrees_ok k vec vv al ty xm o : agrees k vec vv al ty xm o = true ->
  written (code_of k vec vv al ty xm o) = Some (gen_program k vec vv al ty xm o).
Proof.
  unfold agrees. destruct (written _) as [p|]; [|discriminate]. intros H. f_equal.
  apply list_eqb_ok in H; auto. apply Forall_forall. intros s _. apply stmt_eqb_ok.
Qed.
Lemma agree_all_ok ks types os : agree_all ks types os = true ->
  forall k vec vv al ty xm o, In k ks -> In ty types -> In o os ->
  written (code_of k vec vv al ty xm o) = Some (gen_program k vec vv al ty xm o).
Proof.
  intros H k vec vv al ty xm o Hk Hty Ho. apply agrees_ok. unfold agree_all in H.
  assert (B : forall b, In b bools) by (intros []; cbn; auto).
  assert (X : In xm [XConstant; XLinear; XNearest]) by (destruct xm; cbn; auto).
  rewrite forallb_forall in H. specialize (H _ Hk). rewrite forallb_forall in H. specialize (H _ (B vec)).
  rewrite forallb_forall in H. specialize (H _ (B vv)). rewrite forallb_forall in H. specialize (H _ (B al)).
  rewrite forallb_forall in H. specialize (H _ Hty). rewrite forallb_forall in H. specialize (H _ X).
  rewrite forallb_forall in H. apply (H _ Ho).
Qed.

(** Five programs compared in the kernel. *)
Lemma text_point1 : agrees 1 false true true [true] XLinear None = true.
Proof. vm_cast_no_check (eq_refl true). Qed.
Lemma text_linear1 : agrees 1 false true true [false] XLinear None = true.
Proof. vm_cast_no_check (eq_refl true). Qed.
Lemma text_linear2 : agrees 1 true false true [true; false] XConstant (Some [[1; 0]; [0; 2]]) = true.
Proof. vm_cast_no_check (eq_refl true). Qed.
Lemma text_cubic1 : agrees 3 true true false [true] XNearest (Some [[0]; [1]]) = true.
Proof. vm_cast_no_check (eq_refl true). Qed.
Lemma text_cubic2 : agrees 3 true false true [true; true] XLinear None = true.
Proof. vm_cast_no_check (eq_refl true). Qed.

(** Tests, run when this file is compiled ([Eval vm_compute] leaves only their outcome to the kernel). *)
Definition test_linear1 : bool := Eval vm_compute in
  agree_all [1] [[true]; [false]] [None; Some [[0]]; Some [[1]; [0]]; Some [[2]; [0]; [1]]].
Definition test_cubic1 : bool := Eval vm_compute in agree_all [3] [[true]] [None; Some [[0]; [1]]; Some [[1]]].
Definition test_linear2 : bool := Eval vm_compute in
  agree_all [1] [[true; false]; [false; true]] [None; Some [[0; 0]; [1; 0]; [0; 1]]; Some [[2; 1]; [0; 12]]].
Definition test_cubic2 : bool := Eval vm_compute in agree_all [3] [[true; true]] [None; Some [[0; 0]; [1; 0]; [0; 1]; [1; 1]]].
Definition test_linear3 : bool := Eval vm_compute in
  agree_all [1] [[true; false; true]] [None; Some [[0; 1; 0]; [2; 0; 1]]].
Definition test_cubic3 : bool := Eval vm_compute in agree_all [3] [[true; true; true]] [None].
Definition test_linear4 : bool := Eval vm_compute in agree_all [1] [[true; true; true; false]] [None].
Lemma tests_pass : test_linear1 && test_cubic1 && test_linear2 && test_cubic2 && test_linear3 && test_cubic3 && test_linear4 = true.
Proof. reflexivity. Qed.
