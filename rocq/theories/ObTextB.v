(** The trees of operations of the methods of CubicSplines; the loop of filter_mcoeffs. *)
From Coq Require Import ZArith List Bool String Lia.
From Verif Require Import Base SplineModel PrefilterModel ArrayModel CartesianModel GradModel ObjectModel SpecObject PySyntax ObSem SpecObText ObText.
Import ListNotations.
Open Scope Z_scope.
Open Scope string_scope.
Section Any.
Context {T : Type} {NT : Num T}.
Definition matt (a b : list T) (n : list Z) c tl : list (string * ov T) :=
  [("d", OI (zlen a)); ("a", OVec a); ("b", OVec b); ("orders", OIVec n); ("__mcoeffs__", c)] ++ tl.
Definition mtail_ok (tl : list (string * ov T)) : Prop := tl = [] \/ exists v, tl = [("__mvalues__", v)].
Definition last_dim (x : arr T) : res Z := lget (ashape x) (zlen (ashape x) + -1).

Notation wd := (@world T (heap T)). Notation an := (@ans T (heap T)).
Notation loop_t := (nat -> list (string * ov T) -> wd -> string -> Z -> list stmt -> (ov T -> wd -> an) -> (list (string * ov T) -> wd -> an) -> an).
Definition loop_body : list stmt :=
  [SAssign [ESub (EName "coefs") [EEllipsis; EName "i"]]
     (ECall (EName "filter_coeffs") [EName "smin"; EName "smax"; EName "orders"; ESub (EName "data") [EEllipsis; EName "i"]] [])].
Definition loop_env (a b : list T) (n : list Z) (ld : nat) (sh : list Z) (ns : Z) (lc : nat) : list (string * ov T) :=
  [("smin", OVec a); ("smax", OVec b); ("orders", OIVec n); ("data", ORef ld [sh]); ("order", OI (zlen a)); ("n_splines", OI ns); ("coefs", ORef lc [])].
Definition after_loop (lv : nat) (sh : list Z) (E : list (string * ov T)) (w : wd) : an :=
  match look E "coefs" with
  | Some v => okret ONone (fst w, set_var (set_var (snd w) "__mcoeffs__" v) "__mvalues__" (ORef lv [sh]))
  | None => okret ONone (fst w, set_var (set_var (snd w) "__mcoeffs__" (OS "coefs")) "__mvalues__" (ORef lv [sh]))
  end.
Definition ret_loop (lv : nat) (sh : list Z) (v : ov T) (w : wd) : an :=
  okret ONone (fst w, set_var (set_var (snd w) "__mcoeffs__" v) "__mvalues__" (ORef lv [sh])).

Definition mcs_set_result (fu : nat) (F : loop_t) (h : heap T) a b n c tl (l : nat) : state T * res (ov T) :=
  let v := nd_arr (h_mem h l) in
  let h1 := h_alloc h true v in
  let at0 := matt a b n c tl in
  match last_dim v with
  | Err e => ((h1, at0), Err e)
  | Ok ns =>
      match areshape v (n ++ [ns])%list with
      | Err e => ((h1, at0), Err e)
      | Ok x =>
          if negb (all_finite x) then ((h1, at0), Err ValueErr)
          else match last_dim x with
               | Err e => ((h1, at0), Err e)
               | Ok m =>
                   F fu (loop_env a b n (h_next h) (n ++ [ns])%list m (S (h_next h))) (h_alloc h1 true (azeros (map (fun i => i + 2)%Z n ++ [m])%list), at0) "i" m
                     loop_body (ret_loop (h_next h) (n ++ [ns])%list) (after_loop (h_next h) (n ++ [ns])%list)
               end
      end
  end.
Lemma mcs_set_tree junk F (h : heap T) a b n c tl l : dims a b n -> mtail_ok tl ->
  callm (np_ops junk) PC F cm 100 "set_values" [ORef l []] [] (h, matt a b n c tl) okret = mcs_set_result 86 F h a b n c tl l.
Proof.
  intros D. revert a b n D. refine (dims_cases _ _ _ _ _); intros;
  (match goal with H : mtail_ok _ |- _ => destruct H as [->|[v ->]] end);
  unfold mcs_set_result, matt, last_dim, ashape; cbn [app map]; 
  zlens; tree; change (-1 <? 0)%Z with true; cbn [Z.eqb Pos.eqb]; heap_simpl;
  (match goal with |- context [lget ?x ?y] => destruct (lget x y) as [ns|e]; [|reflexivity] end);
  heap_simpl;
  (match goal with |- context [areshape ?x ?y] => destruct (areshape x y) as [x1|e]; [|reflexivity] end);
  (destruct (all_finite x1); [|reflexivity]); cbn [negb];
  (match goal with |- context [lget ?x ?y] => destruct (lget x y) as [m|e]; reflexivity end).
Qed.

(** One turn of the loop. *)
Definition turn_result (h : heap T) a b n ld sh (lc : nat) (i : Z) (at0 : list (string * ov T)) (next : heap T -> an) : an :=
  match h_read h ld [sh] with
  | Err e => ((h, at0), Err e)
  | Ok dt =>
      match acomp dt i with
      | Err e => ((h, at0), Err e)
      | Ok ci =>
          let h1 := h_alloc h false ci in
          match areshape ci n with
          | Err e => ((h1, at0), Err e)
          | Ok y =>
              let h2 := h_alloc h1 false y in
              match filter_coeffs a b n ci with
              | Err e => ((h2, at0), Err e)
              | Ok None => ((h2, at0), Err TypeErr)
              | Ok (Some z) =>
                  let h3 := h_alloc h2 true z in
                  match aset_comp (nd_arr (h_mem h3 lc)) i z with
                  | Err e => ((h3, at0), Err e)
                  | Ok x => next (h_store h3 lc x)
                  end
              end
          end
      end
  end.
Lemma turn_tree junk fu F (h : heap T) a b n ld sh ns lc i at0 ret next : fu = 86%nat \/ fu = 74%nat -> dims a b n ->
  ex (np_ops junk) PC F cm fu (loop_env a b n ld sh ns lc ++ [("i", OI i)])%list (h, at0) loop_body ret next =
  turn_result h a b n ld sh lc i at0 (fun h => next (loop_env a b n ld sh ns lc ++ [("i", OI i)])%list (h, at0)).
Proof.
  intros Hf D. revert a b n D. refine (dims_cases _ _ _ _ _); intros; destruct Hf as [->| ->]; unfold turn_result, loop_env; cbn [app]; zlens.
  all: tree_ex; cbn [Z.eqb Pos.eqb]; heap_simpl.
  all: (match goal with |- context [areshape (nd_arr ?x) ?y] => destruct (areshape (nd_arr x) y) as [x1|e]; [|reflexivity] end);
  (destruct (acomp x1 i) as [ci|e]; [|reflexivity]); heap_simpl;
  (match goal with |- context [areshape ?x ?y] => destruct (areshape x y) as [x2|e] eqn:E1; [|reflexivity] end); heap_simpl;
  unfold filter_coeffs; cbn [mapM2 bind]; rewrite E1; cbn [bind];
  unfold filter_dims; rewrite Z.eqb_refl;
  (match goal with |- context [filter_data ?x ?y] => destruct (filter_data x y) as [[z|]|e]; cbn [bind]; try reflexivity end);
  heap_simpl; unfold h_store, h_alloc; cbn [h_mem h_next];
  (match goal with |- context [aset_comp ?x ?y ?z] => destruct (aset_comp x y z) as [x3|e]; reflexivity end).
Qed.

(** The loop. *)
Definition frame (lc : nat) (h h' : heap T) : Prop :=
  (h_next h <= h_next h')%nat /\ forall i, (i < h_next h)%nat -> i <> lc -> h_mem h' i = h_mem h i.
Definition step nan a b n (dt : arr T) (coefs : arr T) (i : Z) : res (arr T) :=
  di <- acomp dt i ;; c <- filter_coeffs a b n di ;;
  match c with Some c => aset_comp coefs i c | None => Ok (afill_comp coefs i nan) end.
Definition env_ok a b n ld sh ns lc (E : list (string * ov T)) : Prop :=
  E = loop_env a b n ld sh ns lc \/ exists j, E = (loop_env a b n ld sh ns lc ++ [("i", OI j)])%list.
Lemma filter_coeffs_some a b n (x : arr T) : dims a b n -> filter_coeffs a b n x <> Ok None.
Proof.
  intros D. revert a b n D. refine (dims_cases _ _ _ _ _); intros; unfold filter_coeffs; cbn [mapM2 bind];
  (destruct (areshape x _); cbn [bind]; [|discriminate]); apply filter_data_some; cbn; lia.
Qed.
Lemma loop_ok junk fu nan m a b n ld sh ns lc at0 ret next l : fu = 86%nat \/ fu = 74%nat -> dims a b n -> forall E (h : heap T) dt coefs, env_ok a b n ld sh ns lc E ->
  (lc < h_next h)%nat -> (ld < h_next h)%nat -> lc <> ld -> h_read h ld [sh] = Ok dt -> nd_arr (h_mem h lc) = coefs ->
  exists h', frame lc h h' /\
    let r := (fix go (l : list Z) E w : an :=
         match l with [] => next E w | i :: l => ex (np_ops junk) PC (loops (np_ops junk) PC cm m) cm fu (set_var E "i" (OI i)) w loop_body ret (fun E w => go l E w) end) l E (h, at0) in
    match foldM (step nan a b n dt) l coefs with
    | Ok c => exists E', env_ok a b n ld sh ns lc E' /\ r = next E' (h', at0) /\ nd_arr (h_mem h' lc) = c
    | Err _ => exists e, r = ((h', at0), Err e)
    end.
Proof.
  intros Hf D. induction l as [|i l IH]; intros E h dt coefs HE Lc Ld Ne Hd Hc.
  - exists h. split; [split; [lia|reflexivity]|]. cbn. exists E. auto.
  - cbn [foldM]. unfold step at 1.
    assert (Es : set_var E "i" (OI i) = (loop_env a b n ld sh ns lc ++ [("i", OI i)])%list)
      by (destruct HE as [->|[j ->]]; reflexivity).
    rewrite Es, turn_tree by assumption. unfold turn_result. rewrite Hd.
    destruct (acomp dt i) as [ci|e]; cbn [bind]; [|exists h; split; [split; [lia|reflexivity]|cbn; eauto]].
    destruct (filter_coeffs a b n ci) as [[z|]|e] eqn:Ef; cbn [bind].
    2:{ exfalso; exact (filter_coeffs_some _ _ _ _ D Ef). }
    2:{ set (h1 := h_alloc h false ci). destruct (areshape ci n) as [y|e0].
        - exists (h_alloc h1 false y). split; [|cbn; eauto]. subst h1. split; [cbn; lia|]. intros j Hj _. cbn.
          rewrite put_other by (cbn; lia). cbn. apply put_other. lia.
        - exists h1. split; [|cbn; eauto]. subst h1. split; [cbn; lia|]. intros j Hj _. cbn. apply put_other. lia. }
    assert (Er : exists y, areshape ci n = Ok y).
    { unfold filter_coeffs in Ef. repeat (match type of Ef with bind ?x _ = _ => destruct x; cbn [bind] in Ef; [|discriminate] end). eauto. }
    destruct Er as [y Er]. rewrite Er. cbn zeta.
    set (h3 := h_alloc (h_alloc (h_alloc h false ci) false y) true z).
    assert (F3 : forall j, (j < h_next h)%nat -> h_mem h3 j = h_mem h j).
    { intros j Hj. subst h3. cbn. rewrite put_other by (cbn; lia). cbn. rewrite put_other by (cbn; lia). cbn. apply put_other. lia. }
    rewrite (F3 lc Lc), Hc.
    destruct (aset_comp coefs i z) as [x|e]; cbn [bind].
    2:{ exists h3. split; [|cbn; eauto]. split; [cbn; lia|intros; auto]. }
    destruct (IH (loop_env a b n ld sh ns lc ++ [("i", OI i)])%list (h_store h3 lc x) dt x) as [h' [Fr R]].
    + right. eauto.
    + cbn. lia.
    + cbn. lia.
    + exact Ne.
    + rewrite h_read1. cbn. rewrite put_other by congruence. rewrite (F3 ld Ld). rewrite <- h_read1. exact Hd.
    + cbn. rewrite put_same. reflexivity.
    + exists h'. split; [|exact R]. destruct Fr as [L F]. split; [cbn in L; lia|]. intros j Hj Hn.
      rewrite F by (cbn; lia || congruence). cbn. rewrite put_other by congruence. apply F3. exact Hj.
Qed.
End Any.
