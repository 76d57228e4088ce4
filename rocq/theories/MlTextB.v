(** The calls of [interp] and [mlinterp] at many points. *)
From Coq Require Import ZArith List Bool String Lia.
From Verif Require Import Base BaseFacts SplineModel InterpModel SpecInterp InterpProps PySyntax MlSem MlCps SpecMlText MlText MlTextA.
Import ListNotations.
Open Scope Z_scope.

Lemma rloop_inv {T} (body : list (string * rv T) -> res (option (rv T) * list (string * rv T))) x
  (Inv : arr T -> list (string * rv T) -> Prop) (step : arr T -> Z -> res (arr T)) l :
  (forall r E i r', Inv r E -> step r i = Ok r' -> exists E', body (bindv E x (RI i)) = Ok (None, E') /\ Inv r' E') ->
  forall E r r', Inv r E -> foldM step l r = Ok r' -> exists E', rloop body x l E = Ok (None, E') /\ Inv r' E'.
Proof.
  intros Hs. induction l as [|i l IH]; intros E r r' HI HF; cbn [foldM rloop] in *.
  - injection HF as <-. eauto.
  - apply bind_ok in HF as (r1 & H1 & H2). destruct (Hs r E i r1 HI H1) as (E1 & HB & HI1).
    rewrite HB. cbn [bind]. eauto.
Qed.
(** A loop of the text that fills [r] as [step] does. *)
Lemma loop_fill {T B} (W : ops T) P n E x z body (k : option (rv T) -> list (string * rv T) -> res B)
  (Inv : arr T -> list (string * rv T) -> Prop) (step : arr T -> Z -> res (arr T)) r r' w :
  Inv r E -> foldM step (zrange z) r = Ok r' ->
  (forall r E i r', Inv r E -> step r i = Ok r' -> exists E', rex W P n (bindv E x (RI i)) body = Ok (None, E') /\ Inv r' E') ->
  (forall E', Inv r' E' -> k None E' = w) ->
  loop_then W P n E x z body k = w.
Proof.
  intros HI HF Hs Hk. unfold loop_then.
  destruct (rloop_inv (fun E => rex W P n E body) x Inv step (zrange z) Hs E r r' HI HF) as (E' & HE & HI').
  apply (f_equal (fun s => bind s (fun p => k (fst p) (snd p)))) in HE. etransitivity; [exact HE|]. cbn [bind fst snd]. auto.
Qed.
Ltac block_tree :=
  match goal with |- rexk (@std ?T ?NT) ml_program ?F ?n ?E ?b ?k = _ =>
    let L := fresh "L" in
    tree1 L (fun add sub mn mx num fadd fsub fmul fmin fmax div fdiv search get set zeros G =>
      rexk (T := T) (B := option (rv T) * list (string * rv T)) (mkOps add sub mn mx num fadd fsub fmul fmin fmax div fdiv search get set zeros) ml_program G n E b k);
    apply (f_equal (fun g => g Z.add Z.sub Z.min Z.max (@n_ofZ T NT) (@n_add T NT) (@n_sub T NT) (@n_mul T NT) (@pymin T NT) (@pymax T NT) (@divE T NT)
      (@std_floordiv T NT) (@std_search T NT) (@std_get T) (@std_set T) (@azeros T NT) F)) in L;
    cbv beta in L; etransitivity; [exact L|]; clear L
  end.

Ltac point_facts :=
  repeat match goal with H : aset _ _ _ = Ok _ |- _ => apply std_set_ok in H end;
  match goal with
  | H : ml_nearest _ _ _ = Ok _ |- _ => nearest_facts H
  | H : mlinterp_point _ _ _ = Ok _ |- _ => nearest_facts H
  end.
Ltac step_tree := eexists; split; [rewrite rex_cps; block_tree; run_tree; reflexivity|].

Lemma rows_text {T} {NT : Num T} axes grid (C a : arr T) N p r :
  axes_of axes grid -> (1 <= List.length grid <= 3)%nat -> andim C = zlen grid -> ashape a = [N; p] ->
  fill1 N (fun n => p <- mapM (fun i => aget a [n; i]) (zrange (zlen grid)) ;; ml_nearest grid C p) = Ok r ->
  rcall std ml_program 60 "interp" (map of_arg axes ++ [RA C; RA a]) = Ok (RA r).
Proof.
  intros Ha Hd HC Hs H. rewrite rcall_cps. destruct C as [sh h]. unfold andim in HC. cbn [ashape] in HC.
  destruct a as [sa u]. cbn [ashape] in Hs. subst sa. unfold fill1 in H.
  destruct grid as [|g0 [|g1 [|g2 [|g3 grid]]]]; cbn [List.length] in Hd; try lia; clear Hd.
  all: explicit_axes; explicit_shape sh; cbn [map of_arg app]; (call_tree;
    match goal with |- loop_then _ _ ?n ?E ?x ?z ?b ?k = _ => match eval pattern (@azeros T NT [N]) in E with ?sp _ =>
      eapply (loop_fill _ _ n E x z b k (fun rr EE => EE = sp rr \/ exists i q, EE = (sp rr ++ [("n", RI i); ("ppoint", q)])%list%string)) with (2 := H) end end;
    [ left; reflexivity
    | cbv beta; clear H; intros r0 E i r1 HI H; explicit_range H; inv_b; point_facts;
      destruct HI as [->|(i' & q & ->)]; cbn [app]; (step_tree; right; do 2 eexists; reflexivity)
    | intros E' [->|(i' & q & ->)]; reflexivity ]).
Qed.
Lemma array1_text {T} {NT : Num T} e g (C a : arr T) N r :
  axis_of e g -> andim C = 1 -> ashape a = [N] -> fill1 N (fun n => x <- aget a [n] ;; ml_nearest [g] C [x]) = Ok r ->
  rcall std ml_program 60 "interp" [of_arg e; RA C; RA a] = Ok (RA r).
Proof.
  intros Ha HC Hs H. rewrite rcall_cps. destruct C as [sh h]. unfold andim in HC. cbn [ashape] in HC.
  destruct a as [sa u]. cbn [ashape] in Hs. subst sa. unfold fill1 in H. assert (Hx : axes_of [e] [g]) by (repeat constructor; auto). clear Ha.
  inversion Hx as [|? ? ? ? Ha _]; subst; clear Hx.
  explicit_axes; explicit_shape sh; cbn [map of_arg app]; (call_tree;
    match goal with |- loop_then _ _ ?n ?E ?x ?z ?b ?k = _ => match eval pattern (@azeros T NT [N]) in E with ?sp _ =>
      eapply (loop_fill _ _ n E x z b k (fun rr EE => EE = sp rr \/ exists i q, EE = (sp rr ++ [("n", RI i); ("ppoint", q)])%list%string)) with (2 := H) end end;
    [ left; reflexivity
    | cbv beta; clear H; intros r0 E i r1 HI H; inv_b; point_facts;
      destruct HI as [->|(i' & q & ->)]; cbn [app]; (step_tree; right; do 2 eexists; reflexivity)
    | intros E' [->|(i' & q & ->)]; reflexivity ]).
Qed.
