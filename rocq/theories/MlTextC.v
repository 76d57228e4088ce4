(** The calls of [interp] on a product of two vectors of points, and of [mlinterp] on an array. *)
From Coq Require Import ZArith List Bool String Lia.
From Verif Require Import Base BaseFacts SplineModel InterpModel SpecInterp InterpProps PySyntax MlSem MlCps SpecMlText MlText MlTextA MlTextB.
Import ListNotations.
Open Scope Z_scope.

Lemma mlinterp_rows_text {T} {NT : Num T} axes grid (C a : arr T) N p r :
  axes_of axes grid -> (1 <= List.length grid <= 3)%nat -> andim C = zlen grid -> ashape a = [N; p] ->
  fill1 N (fun n => uu <- extract_row a n grid ;; mlinterp_point grid C uu) = Ok r ->
  rcall std ml_program 60 "mlinterp" [RT (map of_arg axes); RA C; RA a] = Ok (RA r).
Proof.
  intros Ha Hd HC Hs H. rewrite rcall_cps. destruct C as [sh h]. unfold andim in HC. cbn [ashape] in HC.
  destruct a as [sa u]. cbn [ashape] in Hs. subst sa. unfold fill1, extract_row in H.
  destruct grid as [|g0 [|g1 [|g2 [|g3 grid]]]]; cbn [List.length] in Hd; try lia; clear Hd.
  all: explicit_axes; explicit_shape sh; cbn [map of_arg app]; (call_tree;
    match goal with |- loop_then _ _ ?n ?E ?x ?z ?b ?k = _ => match eval pattern (@azeros T NT [N]) in E with ?sp _ =>
      eapply (loop_fill _ _ n E x z b k (fun rr EE => EE = sp rr \/ exists i q1 q2 q3 q4 q5, EE = (sp rr ++
        [("n", RI i); ("uu", q1); ("tmp", q2); ("indices", q3); ("barycenters", q4); ("coeffs", q5)])%list%string)) with (2 := H) end end;
    [ left; reflexivity
    | cbv beta; clear H; intros r0 E i r1 HI H; explicit_range H; inv_b; point_facts;
      destruct HI as [->|(i' & q1 & q2 & q3 & q4 & q5 & ->)]; cbn [app]; (step_tree; right; do 6 eexists; reflexivity)
    | intros E' [->|(i' & q1 & q2 & q3 & q4 & q5 & ->)]; reflexivity ]).
Qed.

Lemma loop_fill_in {T} (W : ops T) P n E x z body (k : option (rv T) -> list (string * rv T) -> res (option (rv T) * list (string * rv T)))
  (Inv : arr T -> list (string * rv T) -> Prop) (step : arr T -> Z -> res (arr T)) r r' :
  Inv r E -> foldM step (zrange z) r = Ok r' ->
  (forall r E i r', Inv r E -> step r i = Ok r' -> exists E', rex W P n (bindv E x (RI i)) body = Ok (None, E') /\ Inv r' E') ->
  (forall E', Inv r' E' -> k None E' = Ok (None, E')) ->
  exists E', loop_then W P n E x z body k = Ok (None, E') /\ Inv r' E'.
Proof.
  intros HI HF Hs Hk. unfold loop_then.
  destruct (rloop_inv (fun E => rex W P n E body) x Inv step (zrange z) Hs E r r' HI HF) as (E' & HE & HI').
  exists E'. split; [|exact HI']. apply (f_equal (fun s => bind s (fun p => k (fst p) (snd p)))) in HE. etransitivity; [exact HE|]. cbn [bind fst snd]. auto.
Qed.
Lemma ex_eq {A B} (l m : res (A * B)) a P : l = m -> (exists E, m = Ok (a, E) /\ P E) -> exists E, l = Ok (a, E) /\ P E.
Proof. intros ->. auto. Qed.
Lemma ex_weak {A} (P Q R : A -> Prop) : (forall x, Q x -> R x) -> (exists x, P x /\ Q x) -> exists x, P x /\ R x.
Proof. intros H (x & H1 & H2). eauto. Qed.

Lemma cartesian_text {T} {NT : Num T} axes g1 g2 (C ax ay : arr T) N M r :
  axes_of axes [g1; g2] -> andim C = 2 -> ashape ax = [N] -> ashape ay = [M] ->
  fill2 N M (fun n m => x <- aget ax [n] ;; y <- aget ay [m] ;; ml_nearest [g1; g2] C [x; y]) = Ok r ->
  rcall std ml_program 60 "interp" (map of_arg axes ++ [RA C; RA ax; RA ay]) = Ok (RA r).
Proof.
  intros Ha HC Hs Ht H. rewrite rcall_cps. destruct C as [sh h]. unfold andim in HC. cbn [ashape] in HC.
  destruct ax as [sa u]. cbn [ashape] in Hs. subst sa. destruct ay as [sa w]. cbn [ashape] in Ht. subst sa. unfold fill2 in H.
  explicit_axes; explicit_shape sh; cbn [map of_arg app]; (call_tree;
    match goal with |- loop_then _ _ ?n ?E0 ?x ?z ?b ?k = _ => match eval pattern (@azeros T NT [N; M]) in E0 with ?sp _ =>
      eapply (loop_fill _ _ n E0 x z b k (fun rr EE => EE = sp rr \/ (exists i, EE = (sp rr ++ [("n", RI i)])%list%string) \/
        exists i j q, EE = (sp rr ++ [("n", RI i); ("m", RI j); ("ppoint", q)])%list%string)) with (2 := H);
    [ left; reflexivity
    | cbv beta; clear H; intros r0 En i r1 HI H;
      apply (ex_weak _ (fun EE => (EE = (sp r1 ++ [("n", RI i)])%list%string) \/ exists j q, EE = (sp r1 ++ [("n", RI i); ("m", RI j); ("ppoint", q)])%list%string));
      [ intros EE [->|(j & q & ->)]; right; eauto 6
      | destruct HI as [->|[(i' & ->)|(i' & j & q & ->)]]; cbn [app]; rewrite rex_cps; (eapply ex_eq; [block_tree; reflexivity|]);
        (match goal with |- exists E', loop_then _ _ ?n2 ?E2 ?x2 ?z2 ?b2 ?k2 = _ /\ _ =>
          apply (loop_fill_in _ _ n2 E2 x2 z2 b2 k2 (fun rr EE => (EE = (sp rr ++ [("n", RI i)])%list%string) \/ exists j q, EE = (sp rr ++ [("n", RI i); ("m", RI j); ("ppoint", q)])%list%string)) with (2 := H) end;
        [ first [left; reflexivity | right; do 2 eexists; reflexivity]
        | cbv beta; clear H; intros r2 En i2 r3 HI H; inv_b; point_facts;
          destruct HI as [->|(j2 & q2 & ->)]; cbn [app]; (step_tree; right; do 2 eexists; reflexivity)
        | intros E' [->|(j2 & q2 & ->)]; reflexivity ]) ]
    | intros E' [->|[(i' & ->)|(i' & j & q & ->)]]; reflexivity ] end end).
Qed.
