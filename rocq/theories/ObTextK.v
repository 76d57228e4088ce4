(** Histories that read the grid. *)
From Coq Require Import ZArith List Bool String Lia.
From Verif Require Import Base SplineModel PrefilterModel ArrayModel CartesianModel GradModel ObjectModel SpecObject PySyntax ObSem SpecObText SpecObGrid ObText ObTextA ObTextB ObTextC ObTextD ObTextE ObTextF ObTextG ObTextH ObTextI ObTextJ.
Import ListNotations.
Open Scope Z_scope.
Open Scope string_scope.
Local Opaque run cubic_program.
Section Any.
Context {T : Type} {NT : Num T}.

(** ** Histories *)
(** With a variable in the place of [run], so that no program is looked at. *)
Section Runs.
Context (rn : string -> list (ov T) -> state T -> state T * res (ov T)).
Fixpoint hh (hist : list (deed T)) (w : state T) (last : option (nat * arr T)) : state T * option (nat * arr T) :=
  match hist with
  | [] => (w, last)
  | DSet id :: hist =>
      let r := rn "set_values" [ORef id []] w in
      hh hist (fst r) (match snd r with Ok _ => Some (id, nd_arr (h_mem (fst w) id)) | Err _ => last end)
  | DWrite id idx x :: hist => hh hist (mkHeap (h_next (fst w)) (written (h_mem (fst w)) id idx x), snd w) last
  | DCall p :: hist => hh hist (fst (rn "__call__" [pval p] w)) last
  end.
Fixpoint gh (hist : list (gdeed T)) (w : state T) (last : option (nat * arr T)) (g : option nat) : state T * option (nat * arr T) * option nat :=
  match hist with
  | [] => (w, last, g)
  | GDo (DSet id) :: hist =>
      let r := rn "set_values" [ORef id []] w in
      gh hist (fst r) (match snd r with Ok _ => Some (id, nd_arr (h_mem (fst w) id)) | Err _ => last end) g
  | GDo (DWrite id idx x) :: hist => gh hist (mkHeap (h_next (fst w)) (written (h_mem (fst w)) id idx x), snd w) last g
  | GDo (DCall p) :: hist => gh hist (fst (rn "__call__" [pval p] w)) last g
  | GRead :: hist =>
      let r := rn "grid" [] w in
      gh hist (fst r) last (match snd r with Ok (ORef l []) => Some l | _ => g end)
  | GWrite idx x :: hist =>
      gh hist (match g with None => w | Some l => (mkHeap (h_next (fst w)) (written (h_mem (fst w)) l idx x), snd w) end) last g
  end.
Context (junk : list Z -> T).
Context (r_set : forall k (m : memory T) s g K w id, grel k m s g K w -> (id < k)%nat ->
  let r := rn "set_values" [ORef id []] w in grel k m (fst (cs_step m s id)) g K (fst r) /\ same_outcome (snd r) (snd (cs_step m s id))).
Context (r_set0 : forall k (m : memory T) s w id, crel k m s w -> (id < k)%nat ->
  let r := rn "set_values" [ORef id []] w in crel k m (fst (cs_step m s id)) (fst r) /\ same_outcome (snd r) (snd (cs_step m s id))).
Context (r_call : forall k (m : memory T) s g K w p, grel k m s g K w -> rows p ->
  let r := rn "__call__" [pval p] w in same (seen r) (cs_call junk s p) /\ grel k m s g K (fst r)).
Context (r_call0 : forall k (m : memory T) s w p, crel k m s w -> rows p ->
  let r := rn "__call__" [pval p] w in same (seen r) (cs_call junk s p) /\ crel k m s (fst r)).
Context (r_read : forall k (m : memory T) s g K w, grel k m s g K w ->
  let r := rn "grid" [] w in
  match g with
  | Some l => r = (w, Ok (ORef l []))
  | None => match cs_grid (cs_a s) (cs_b s) (cs_orders s) with
            | Err e => r = (w, Err e)
            | Ok P => snd r = Ok (ORef (h_next (fst w)) []) /\ nd_arr (h_mem (fst (fst r)) (h_next (fst w))) = P /\ grel k m s (Some (h_next (fst w))) (Some P) (fst r)
            end
  end).
Lemma gh_rel k hist : forall (m : memory T) s g K w w0 last, grel k m s g K w -> crel k m s w0 -> Forall (deed_ok k) (deeds hist) ->
  (forall e, cs_grid (cs_a s) (cs_b s) (cs_orders s) = Err e -> g = None) ->
  let r := gh hist w last g in
  let r0 := hh (deeds hist) w0 last in
  exists s', snd (fst r) = snd r0 /\ crel k (writes (deeds hist) m) s' (fst r0) /\
    cs_a s' = cs_a s /\ cs_b s' = cs_b s /\ cs_orders s' = cs_orders s /\
    grel k (writes (deeds hist) m) s' (snd r) (match cs_grid (cs_a s) (cs_b s) (cs_orders s) with Ok P => grid_after hist P K | Err _ => None end) (fst (fst r)).
Proof.
  induction hist as [|e hist IH]; intros m s g K w w0 last G R F Hg; cbv zeta.
  - exists s. cbn [gh hh deeds writes fst snd grid_after]. split; [reflexivity|]. split; [exact R|]. do 3 (split; [reflexivity|]).
    destruct (cs_grid _ _ _) as [P|e]; [exact G|]. rewrite (Hg _ eq_refl) in *. pose proof G as (c & tl & tl' & _ & _ & _ & ->). exact G.
  - destruct e as [[id|id idx x|p]| |idx x]; cbn [deeds] in F |- *.
    + inversion F as [|? ? F1 F2]; subst. cbn [deed_ok] in F1. cbn [gh hh writes grid_after fst snd].
      destruct (r_set k m s g K w id G F1) as [G1 O1]. destruct (r_set0 k m s w0 id R F1) as [R1 O2]. cbv zeta in G1, O1, R1, O2.
      destruct (step_grid m s id) as (Ea & Eb & En).
      assert (Mi : nd_arr (h_mem (fst w) id) = nd_arr (h_mem (fst w0) id)).
      { destruct G as (c & tl & tl' & _ & (_ & M & _) & _). destruct R as (_ & M0 & _). cbn [fst] in M. rewrite (M id F1), (M0 id F1). reflexivity. }
      revert G1 O1 R1 O2.
      generalize (rn "set_values" [ORef id []] w) as q1.
      generalize (rn "set_values" [ORef id []] w0) as q0. intros q0 q1 G1 O1 R1 O2.
      assert (El : match snd q1 with Ok _ => Some (id, nd_arr (h_mem (fst w) id)) | Err _ => last end = match snd q0 with Ok _ => Some (id, nd_arr (h_mem (fst w0) id)) | Err _ => last end).
      { rewrite Mi. unfold same_outcome in O1, O2. destruct (snd (cs_step m s id)); [rewrite O1, O2; reflexivity|destruct O1 as [? ->], O2 as [? ->]; reflexivity]. }
      rewrite El. rewrite <- Ea, <- Eb, <- En in Hg |- *.
      exact (IH m (fst (cs_step m s id)) g K _ _ _ G1 R1 F2 Hg).
    + inversion F as [|? ? F1 F2]; subst. cbn [deed_ok] in F1. cbn [gh hh writes grid_after fst snd].
      exact (IH (written m id idx x) s g K _ _ last (grel_write k m s g K w id idx x G F1) (crel_write k m s w0 id idx x R F1) F2 Hg).
    + inversion F as [|? ? F1 F2]; subst. cbn [deed_ok] in F1. cbn [gh hh writes grid_after fst snd].
      pose proof (proj2 (r_call k m s g K w p G F1)) as G1. pose proof (proj2 (r_call0 k m s w0 p R F1)) as R1. cbv zeta in G1, R1.
      revert G1 R1. generalize (rn "__call__" [pval p] w) as q1.
      generalize (rn "__call__" [pval p] w0) as q0. intros q0 q1 G1 R1.
      exact (IH m s g K _ _ last G1 R1 F2 Hg).
    + cbn [gh hh writes grid_after fst snd]. pose proof (r_read k m s g K w G) as Q. cbv zeta in Q.
      revert Q. generalize (rn "grid" [] w) as q. intros q Q.
      destruct g as [l|].
      * rewrite Q. cbn [fst snd]. pose proof G as (c & tl & tl' & _ & _ & _ & _ & -> & _). exact (IH m s (Some l) _ w w0 last G R F Hg).
      * assert (K = None) as -> by (destruct G as (c & tl & tl' & _ & _ & _ & ->); reflexivity).
        destruct (cs_grid (cs_a s) (cs_b s) (cs_orders s)) as [P|e] eqn:EP.
        -- destruct Q as (Q1 & _ & Q3). rewrite Q1.
           assert (Hg' : forall e, cs_grid (cs_a s) (cs_b s) (cs_orders s) = Err e -> Some (h_next (fst w)) = None) by (rewrite EP; discriminate).
           pose proof (IH m s (Some (h_next (fst w))) (Some P) _ w0 last Q3 R F Hg') as IH1. rewrite EP in IH1. exact IH1.
        -- rewrite Q. cbn [fst snd]. rewrite <- EP in Hg. pose proof (IH m s None None w w0 last G R F Hg) as IH1. rewrite EP in IH1. exact IH1.
    + cbn [gh hh writes grid_after fst snd]. destruct g as [l|].
      * exact (IH m s (Some l) _ _ w0 last (grel_gwrite k m s l K w idx x G) R F Hg).
      * assert (K = None) as -> by (destruct G as (c & tl & tl' & _ & _ & _ & ->); reflexivity). exact (IH m s None None w w0 last G R F Hg).
Qed.
End Runs.
Lemma history_hh junk P c hist : forall (w : state T) last, history junk P c hist w last = hh (fun m vs w => run junk P c m vs [] w) hist w last.
Proof. induction hist as [|[id|id idx x|p] hist IH]; intros w last; [reflexivity| | |]; exact (IH _ _). Qed.
Lemma ghistory_gh junk P c hist : forall (w : state T) last g, ghistory junk P c hist w last g = gh (fun m vs w => run junk P c m vs [] w) hist w last g.
Proof. induction hist as [|[[id|id idx x|p]| |idx x] hist IH]; intros w last g; [reflexivity| | | | |]; exact (IH _ _ _). Qed.
Lemma grel_hist junk k hist : forall (m : memory T) s g K w w0 last, grel k m s g K w -> crel k m s w0 -> Forall (deed_ok k) (deeds hist) ->
  (forall e, cs_grid (cs_a s) (cs_b s) (cs_orders s) = Err e -> g = None) ->
  let r := ghistory junk cubic_program "CubicSpline" hist w last g in
  let r0 := history junk cubic_program "CubicSpline" (deeds hist) w0 last in
  exists s', snd (fst r) = snd r0 /\ crel k (writes (deeds hist) m) s' (fst r0) /\
    cs_a s' = cs_a s /\ cs_b s' = cs_b s /\ cs_orders s' = cs_orders s /\
    grel k (writes (deeds hist) m) s' (snd r) (match cs_grid (cs_a s) (cs_b s) (cs_orders s) with Ok P => grid_after hist P K | Err _ => None end) (fst (fst r)).
Proof.
  intros m s g K w w0 last G R F Hg. rewrite history_hh, ghistory_gh.
  exact (gh_rel (fun m vs w => run junk cubic_program "CubicSpline" m vs [] w) junk (grel_set junk) (cs_set_ok junk) (grel_call junk) (cs_call_ok junk) (grel_read junk)
    k hist m s g K w w0 last G R F Hg).
Qed.
Lemma grel_new k (m : memory T) s w : crel k m s w -> grel k m s None None w.
Proof.
  intros R. pose proof R as (_ & _ & _ & c & tl & E & _). exists c, tl, tl. split; [exact E|]. split; [|auto]. rewrite <- E, <- surjective_pairing. exact R.
Qed.
Lemma new_grid (a b : list T) n v s : cs_new a b n v = Ok s -> cs_a s = a /\ cs_b s = b /\ cs_orders s = n.
Proof.
  unfold cs_new. destruct (_ || _); [discriminate|]. destruct v as [v|]; [|intros [= <-]; auto].
  pose proof (step_grid (fun _ => mkNd true v) (mkCS a b n None None) 0) as Q. unfold cs_step in Q. cbn [nd_arr] in Q.
  destruct (cs_set _ _) as [s1 [u|e]]; cbn in *; [|discriminate]. intros [= <-]. exact Q.
Qed.
Lemma gtext junk a b n (h : heap T) hist : dims a b n -> Forall (deed_ok (h_next h)) (deeds hist) ->
  let w0 := fst (make junk cubic_program "CubicSpline" a b n None h) in
  let r := ghistory junk cubic_program "CubicSpline" hist w0 None None in
  let w := fst (fst r) in
  let r0 := history junk cubic_program "CubicSpline" (deeds hist) w0 None in
  snd (fst r) = snd r0 /\
  (forall i, (i < h_next h)%nat -> h_mem (fst w) i = writes (deeds hist) (h_mem h) i) /\
  (forall p, rows p ->
    same (seen (run junk cubic_program "CubicSpline" "__call__" [pval p] [] w)) (seen (run junk cubic_program "CubicSpline" "__call__" [pval p] [] (fst r0))) /\
    same (seen (run junk cubic_program "CubicSpline" "interpolate" [pval p; ONone; OB false] [] w)) (seen (run junk cubic_program "CubicSpline" "interpolate" [pval p; ONone; OB false] [] (fst r0)))) /\
  let again := run junk cubic_program "CubicSpline" "grid" [] [] w in
  match mlinspace a b n OrderC with
  | Err e => again = (w, Err e)
  | Ok P => exists l, snd again = Ok (ORef l []) /\ (h_next h <= l)%nat /\
      match snd r with Some l' => l' = l /\ fst again = w | None => True end /\
      nd_arr (h_mem (fst (fst again)) l) = match grid_after hist P None with Some A => A | None => P end
  end.
Proof.
  intros D F w0 r w r0. pose proof (cs_make_ok junk (h_next h) a b n None h D (le_n _) I) as Hm. cbv zeta in Hm. fold w0 in Hm. cbn [option_map] in Hm.
  destruct (cs_new a b n None) as [s0|e] eqn:E0.
  2:{ exfalso. unfold cs_new in E0. destruct D as (_ & Lb & Ln). unfold zlen in E0. rewrite Lb, Ln, Z.eqb_refl in E0. discriminate. }
  assert (Es : cs_a s0 = a /\ cs_b s0 = b /\ cs_orders s0 = n).
  { unfold cs_new in E0. destruct D as (_ & Lb & Ln). unfold zlen in E0. rewrite Lb, Ln, Z.eqb_refl in E0. cbn in E0. injection E0 as <-. auto. }
  destruct Es as (Ea & Eb & En). destruct Hm as [_ R0].
  destruct (grel_hist junk (h_next h) hist (h_mem h) s0 None None w0 w0 None (grel_new _ _ _ _ R0) R0 F (fun _ _ => eq_refl)) as (s & El & R & Sa & Sb & Sn & G).
  fold r r0 in El, R, G. fold w in G. rewrite Ea, Eb, En in *.
  split; [exact El|]. split; [destruct G as (c & tl & tl' & _ & (_ & M & _) & _); exact M|]. split.
  - intros p Hp. split.
    + exact (same_trans _ _ _ (proj1 (grel_call junk _ _ s _ _ w p G Hp)) (same_sym _ _ (proj1 (cs_call_ok junk _ _ s (fst r0) p R Hp)))).
    + pose proof (proj1 (cs_interp_ok junk _ _ s (fst r0) p None R Hp I)) as Q0. cbv zeta in Q0. cbn [option_map vref] in Q0.
      destruct G as (c & tl & tl' & E & Rw & _). pose proof (crel_parts _ _ _ _ _ Rw) as (c0 & tl0 & E1 & Dd & Cr & _). destruct (catt_inj _ _ _ _ _ _ _ E1) as [<- <-].
      pose proof (proj1 (cs_interp_ok junk _ _ s _ p None Rw Hp I)) as Q1. cbv zeta in Q1. cbn [option_map vref] in Q1.
      pose proof (cs_interp_put junk (fst w) _ _ _ c tl tl' p Dd Cr Hp) as Q2. rewrite <- E, <- surjective_pairing in Q2.
      revert Q0 Q1 Q2. generalize (run junk cubic_program "CubicSpline" "interpolate" [pval p; ONone; OB false] [] w).
      generalize (run junk cubic_program "CubicSpline" "interpolate" [pval p; ONone; OB false] [] (fst r0)).
      generalize (run junk cubic_program "CubicSpline" "interpolate" [pval p; ONone; OB false] [] (fst w, catt (cs_a s) (cs_b s) (cs_orders s) c tl)).
      intros q2 q0 q1 Q0 Q1 ->. rewrite seen_put. exact (same_trans _ _ _ Q1 (same_sym _ _ Q0)).
  - pose proof (grel_read junk _ _ s _ _ w G) as Q. cbv zeta in Q |- *. rewrite Sa, Sb, Sn in Q. unfold cs_grid in G, Q.
    destruct (mlinspace a b n OrderC) as [P|e].
    + destruct (snd r) as [l|].
      * rewrite Q. cbn [fst snd]. exists l. split; [reflexivity|]. destruct G as (c & tl & tl' & _ & _ & _ & Gl & -> & _). split; [lia|]. split; [auto|reflexivity].
      * destruct Q as (Q1 & Q2 & Q3). exists (h_next (fst w)). split; [exact Q1|]. destruct G as (c & tl & tl' & _ & Rw & _ & ->). split; [exact (proj1 Rw)|]. split; [exact I|exact Q2].
    + destruct (snd r) as [l|]; [|exact Q]. destruct G as (c & tl & tl' & _ & _ & _ & _ & GK & _). discriminate GK.
Qed.
End Any.
