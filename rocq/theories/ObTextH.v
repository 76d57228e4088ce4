(** Histories of the objects of the texts, and what they give at the nodes. *)
From Coq Require Import ZArith List Bool String Lia Reals.
From Verif Require Import Base SplineModel PrefilterModel ArrayModel CartesianModel GradModel ObjectModel SpecObject Spec SpecGrad PySyntax ObSem SpecObText ObText ObTextA ObTextB ObTextC ObTextD ObTextE ObTextF ObTextG PropsObject.
Import ListNotations.
Open Scope Z_scope.
Open Scope string_scope.
Local Opaque run cubic_program linear_program.
Lemma same_sym {A} (r s : res A) : same r s -> same s r.
Proof. destruct r, s; cbn; auto. Qed.
Lemma same_trans {A} (r s t : res A) : same r s -> same s t -> same r t.
Proof. destruct r, s, t; cbn; intros; subst; auto; contradiction. Qed.
Lemma same_ok {A} (r s : res A) x : same r s -> s = Ok x -> r = Ok x.
Proof. intros H ->. destruct r; cbn in H; [congruence|contradiction]. Qed.
Ltac split_all := repeat match goal with |- _ /\ _ => split end.
Section Any.
Context {T : Type} {NT : Num T}.
Lemma cs_text junk a b n (h : heap T) hist : dims a b n -> Forall (deed_ok (h_next h)) hist ->
  let w0 := make junk cubic_program "CubicSpline" a b n None h in
  let r := history junk cubic_program "CubicSpline" hist (fst w0) None in
  snd w0 = Ok ONone /\ exists s0 s, cs_new a b n None = Ok s0 /\ after cs_step (events hist) s0 (h_mem h) None = (s, writes hist (h_mem h), snd r) /\
  crel (h_next h) (writes hist (h_mem h)) s (fst r).
Proof.
  intros D F w0 r. pose proof (cs_make_ok junk (h_next h) a b n None h D (le_n _) I) as Hm. cbv zeta in Hm. fold w0 in Hm. cbn [option_map] in Hm.
  destruct (cs_new a b n None) as [s0|e] eqn:E0.
  2:{ exfalso. unfold cs_new in E0. destruct D as (_ & Lb & Ln). unfold zlen in E0. rewrite Lb, Ln, Z.eqb_refl in E0. discriminate. }
  destruct Hm as [Ho R0]. split; [exact Ho|].
  destruct (cs_history_ok junk (h_next h) hist (h_mem h) s0 (fst w0) None F R0) as (s & A & R). exists s0, s. auto.
Qed.
Lemma mcs_text junk nan a b n (h : heap T) hist : dims a b n -> Forall (deed_ok (h_next h)) hist ->
  let w0 := make junk cubic_program "CubicSplines" a b n None h in
  let r := history junk cubic_program "CubicSplines" hist (fst w0) None in
  snd w0 = Ok ONone /\ exists s0 s, mcs_new nan a b n None = Ok s0 /\ after (mcs_step nan) (events hist) s0 (h_mem h) None = (s, writes hist (h_mem h), snd r) /\
  mrel (h_next h) (writes hist (h_mem h)) s (fst r).
Proof.
  intros D F w0 r. pose proof (mcs_make_ok junk nan (h_next h) a b n None h D (le_n _) I) as Hm. cbv zeta in Hm. fold w0 in Hm. cbn [option_map] in Hm.
  destruct (mcs_new nan a b n None) as [s0|e] eqn:E0.
  2:{ exfalso. unfold mcs_new in E0. destruct D as (_ & Lb & Ln). unfold zlen in E0. rewrite Lb, Ln, Z.eqb_refl in E0. discriminate. }
  destruct Hm as [Ho R0]. split; [exact Ho|].
  destruct (mcs_history_ok junk nan (h_next h) hist (h_mem h) s0 (fst w0) None F R0) as (s & A & R). exists s0, s. auto.
Qed.
Lemma ls_text junk multi a b n (h : heap T) hist : dims a b n -> Forall (deed_ok (h_next h)) hist ->
  let w0 := make junk linear_program (lclass multi) a b n None h in
  let r := history junk linear_program (lclass multi) hist (fst w0) None in
  snd w0 = Ok ONone /\ exists s0 s, ls_new (h_mem h) multi a b n None = Ok s0 /\ after ls_set (events hist) s0 (h_mem h) None = (s, writes hist (h_mem h), snd r) /\
  lrel (h_next h) (writes hist (h_mem h)) s (fst r) /\ ls_multi s = multi.
Proof.
  intros D F w0 r. pose proof (ls_make_ok junk multi (h_next h) a b n None h D (le_n _) I) as Hm. cbv zeta in Hm. fold w0 in Hm.
  cbn [ls_new] in *. unfold ls_new in *. destruct Hm as (Ho & R0 & Em). split; [exact Ho|].
  destruct (ls_history_ok junk multi (h_next h) hist (h_mem h) _ (fst w0) None F R0 Em) as (s & A & R & E1). eexists _, s. split; [reflexivity|]. auto.
Qed.
(** A new object with the values of the last call. *)
Lemma cs_text_last junk a b n (h : heap T) hist plain : dims a b n -> Forall (deed_ok (h_next h)) hist ->
  let r := history junk cubic_program "CubicSpline" hist (fst (make junk cubic_program "CubicSpline" a b n None h)) None in
  let w1 := make junk cubic_program "CubicSpline" a b n (option_map (fun _ => 0%nat) (snd r)) (alone plain (option_map snd (snd r))) in
  snd w1 = Ok ONone /\ forall p, rows p ->
    same (seen (run junk cubic_program "CubicSpline" "__call__" [pval p] [] (fst r))) (seen (run junk cubic_program "CubicSpline" "__call__" [pval p] [] (fst w1))) /\
    same (seen (run junk cubic_program "CubicSpline" "interpolate" [pval p; ONone; OB false] [] (fst r))) (seen (run junk cubic_program "CubicSpline" "interpolate" [pval p; ONone; OB false] [] (fst w1))).
Proof.
  intros D F. destruct (cs_text junk a b n h hist D F) as (_ & s0 & s & E0 & A & R). cbv zeta in *.
  set (r := history _ _ _ _ _ _) in *.
  destruct (C47_cubic_spline a b n (h_mem h) (events hist) s0 s _ _ E0 A) as (s1 & E1 & Sa).
  assert (Hm := cs_make_ok junk 1 a b n (option_map (fun _ => 0%nat) (snd r)) (alone plain (option_map snd (snd r))) D (le_n _)).
  cbv zeta in Hm.
  assert (Ev : option_map (fun l => nd_arr (h_mem (alone plain (option_map snd (snd r))) l)) (option_map (fun _ => 0%nat) (snd r)) = option_map snd (snd r)) by (destruct (snd r) as [[? ?]|]; reflexivity).
  rewrite Ev, E1 in Hm. destruct Hm as [Ho R1]; [destruct (snd r); cbn; auto with arith|]. split; [exact Ho|]. intros p Hp.
  destruct (Sa junk p) as [Si Sc]. split.
  - pose proof (proj1 (cs_call_ok junk _ _ _ _ p R Hp)) as Q1. pose proof (proj1 (cs_call_ok junk _ _ _ _ p R1 Hp)) as Q2. cbv zeta in Q1, Q2. rewrite Sc in Q1. exact (same_trans _ _ _ Q1 (same_sym _ _ Q2)).
  - pose proof (proj1 (cs_interp_ok junk _ _ _ _ p None R Hp I)) as Q1. pose proof (proj1 (cs_interp_ok junk _ _ _ _ p None R1 Hp I)) as Q2. cbv zeta in Q1, Q2. cbn [option_map vref] in Q1, Q2. rewrite Si in Q1. exact (same_trans _ _ _ Q1 (same_sym _ _ Q2)).
Qed.
Lemma mcs_text_last junk a b n (h : heap T) hist plain : dims a b n -> Forall (deed_ok (h_next h)) hist ->
  let r := history junk cubic_program "CubicSplines" hist (fst (make junk cubic_program "CubicSplines" a b n None h)) None in
  let w1 := make junk cubic_program "CubicSplines" a b n (option_map (fun _ => 0%nat) (snd r)) (alone plain (option_map snd (snd r))) in
  snd w1 = Ok ONone /\ forall p, rows p ->
    same (seen (run junk cubic_program "CubicSplines" "__call__" [pval p] [] (fst r))) (seen (run junk cubic_program "CubicSplines" "__call__" [pval p] [] (fst w1))) /\
    same (seen2 (run junk cubic_program "CubicSplines" "interpolate" [pval p; OB true] [] (fst r))) (seen2 (run junk cubic_program "CubicSplines" "interpolate" [pval p; OB true] [] (fst w1))).
Proof.
  set (nan := n_ofZ 0 : T).
  intros D F. destruct (mcs_text junk nan a b n h hist D F) as (_ & s0 & s & E0 & A & R). cbv zeta in *.
  set (r := history _ _ _ _ _ _) in *.
  pose proof (C47_cubic_splines nan a b n (h_mem h) (events hist) s0 s _ _ E0 A) as E1.
  assert (Hm := mcs_make_ok junk nan 1 a b n (option_map (fun _ => 0%nat) (snd r)) (alone plain (option_map snd (snd r))) D (le_n _)).
  cbv zeta in Hm.
  assert (Ev : option_map (fun l => nd_arr (h_mem (alone plain (option_map snd (snd r))) l)) (option_map (fun _ => 0%nat) (snd r)) = option_map snd (snd r)) by (destruct (snd r) as [[? ?]|]; reflexivity).
  rewrite Ev, E1 in Hm. destruct Hm as [Ho R1]; [destruct (snd r); cbn; auto with arith|]. split; [exact Ho|]. intros p Hp. split.
  - pose proof (proj1 (mcs_call_ok junk _ _ _ _ p R Hp)) as Q1. pose proof (proj1 (mcs_call_ok junk _ _ _ _ p R1 Hp)) as Q2. cbv zeta in Q1, Q2. exact (same_trans _ _ _ Q1 (same_sym _ _ Q2)).
  - pose proof (proj1 (mcs_diff_ok junk _ _ _ _ p R Hp)) as Q1. pose proof (proj1 (mcs_diff_ok junk _ _ _ _ p R1 Hp)) as Q2. cbv zeta in Q1, Q2. exact (same_trans _ _ _ Q1 (same_sym _ _ Q2)).
Qed.
Lemma ls_new_multi (m : memory T) multi a b n v s : ls_new m multi a b n v = Ok s -> ls_multi s = multi.
Proof.
  unfold ls_new. destruct v as [id|]; [|intros [= <-]; reflexivity].
  pose proof (ls_set_multi m (mkLS multi a b n None) id) as E. destruct (ls_set _ _ _) as [s1 [u|e]]; cbn in *; [|discriminate]. intros [= <-]. exact E.
Qed.
Lemma ls_text_shares junk multi a b n (h : heap T) hist : dims a b n -> Forall (deed_ok (h_next h)) hist ->
  let r := history junk linear_program (lclass multi) hist (fst (make junk linear_program (lclass multi) a b n None h)) None in
  let now := content_used (h_mem h) (writes hist (h_mem h)) (snd r) in
  let w1 := make junk linear_program (lclass multi) a b n (option_map (fun _ => 0%nat) (snd r)) (alone false now) in
  snd w1 = Ok ONone /\ forall p, rows p ->
    same (seen (run junk linear_program (lclass multi) "__call__" [pval p] [] (fst r))) (seen (run junk linear_program (lclass multi) "__call__" [pval p] [] (fst w1))) /\
    same (seen (run junk linear_program (lclass multi) "interpolate" [pval p] [] (fst r))) (seen (run junk linear_program (lclass multi) "interpolate" [pval p] [] (fst w1))).
Proof.
  intros D F. destruct (ls_text junk multi a b n h hist D F) as (_ & s0 & s & E0 & A & R & Em). cbv zeta in *.
  set (r := history _ _ _ _ _ _) in *. set (now := content_used _ _ _).
  destruct (C47_linear_shares (h_mem h) multi a b n (events hist) s0 s _ _ E0 A) as (s1 & E1 & Sa). fold now in E1, Sa.
  assert (Hm := ls_make_ok junk multi 1 a b n (option_map (fun _ => 0%nat) (snd r)) (alone false now) D (le_n _)).
  cbv zeta in Hm.
  assert (E2 : ls_new (h_mem (alone false now)) multi a b n (option_map (fun _ => 0%nat) (snd r)) = Ok s1).
  { rewrite <- E1. subst now. destruct (snd r) as [[id v]|]; reflexivity. }
  rewrite E2 in Hm. destruct Hm as [Ho [R1 Em1]]; [destruct (snd r); cbn; auto with arith|]. split; [exact Ho|].
  assert (Si : forall p, ls_interpolate (writes hist (h_mem h)) s p = ls_interpolate (h_mem (alone false now)) s1 p) by (intros p; exact (Sa p)).
  assert (Sc : forall p, ls_call (writes hist (h_mem h)) s p = ls_call (h_mem (alone false now)) s1 p).
  { intros [x|q]; unfold ls_call; rewrite Si; [rewrite Em, Em1|]; reflexivity. }
  intros p Hp. split.
  - pose proof (proj1 (ls_call_ok junk _ _ _ _ p R Hp)) as Q1. pose proof (proj1 (ls_call_ok junk _ _ _ _ p R1 Hp)) as Q2. cbv zeta in Q1, Q2. rewrite Sc, Em in Q1. rewrite Em1 in Q2. exact (same_trans _ _ _ Q1 (same_sym _ _ Q2)).
  - pose proof (proj1 (ls_interp_ok junk _ _ _ _ p R)) as Q1. pose proof (proj1 (ls_interp_ok junk _ _ _ _ p R1)) as Q2. cbv zeta in Q1, Q2. rewrite Si, Em in Q1. rewrite Em1 in Q2. exact (same_trans _ _ _ Q1 (same_sym _ _ Q2)).
Qed.
End Any.

Lemma dims_grid (g : list (R * R * Z)) : (1 <= List.length g <= 4)%nat -> dims (lower g) (upper g) (counts g).
Proof. intros L. unfold dims, lower, upper, counts. rewrite !map_length. auto. Qed.
Lemma point_same (r s : res (pyval R)) suf v : same r s -> point_gives s suf v -> point_gives r suf v.
Proof. intros S P. destruct s as [x|e]; [|destruct suf; contradiction]. rewrite (same_ok _ _ _ S eq_refl). exact P. Qed.
Lemma rows_same (f g : arr R -> res (pyval R)) d comps pt suf v :
  (forall p, (exists N D, ashape p = [N; D]) -> same (f p) (g p)) -> rows_give g d comps pt suf v -> rows_give f d comps pt suf v.
Proof.
  intros S H points N n E Hn Hp. destruct (H points N n E Hn Hp) as (o & Eo & X). exists o. split; [|exact X].
  eapply same_ok; [apply S; eauto|exact Eo].
Qed.
Lemma cs_text_gives junk k m g s w pt v : crel k m s w -> cs_gives g s pt v ->
  point_gives (seen (run junk cubic_program "CubicSpline" "__call__" [OVec pt] [] w)) [] v /\
  point_gives (seen (run junk cubic_program "CubicSpline" "interpolate" [OVec pt; ONone; OB false] [] w)) [] v /\
  rows_give (fun p => seen (run junk cubic_program "CubicSpline" "__call__" [OMat p] [] w)) (zlen g) [] pt [] v /\
  rows_give (fun p => seen (run junk cubic_program "CubicSpline" "interpolate" [OMat p; ONone; OB false] [] w)) (zlen g) [] pt [] v.
Proof.
  intros Rl G. destruct (G junk) as (G1 & G2 & G3 & G4). split_all.
  - refine (point_same _ _ _ _ (proj1 (cs_call_ok junk k m s w (P1 pt) Rl I)) _); exact G2.
  - refine (point_same _ _ _ _ (proj1 (cs_interp_ok junk k m s w (P1 pt) None Rl I I)) _); apply G1.
  - refine (rows_same _ _ _ _ _ _ _ (fun p Hp => proj1 (cs_call_ok junk k m s w (P2 p) Rl Hp)) G4).
  - refine (rows_same _ _ _ _ _ _ _ (fun p Hp => proj1 (cs_interp_ok junk k m s w (P2 p) None Rl Hp I)) (G3 (fun _ => None) _)). intros ? ? [=].
Qed.
Lemma mcs_text_gives junk k m g s w ns pt j v : mrel k m s w -> mcs_gives g s ns pt j v ->
  point_gives (seen (run junk cubic_program "CubicSplines" "__call__" [OVec pt] [] w)) [j] v /\
  rows_give (fun p => seen (run junk cubic_program "CubicSplines" "__call__" [OMat p] [] w)) (zlen g) [ns] pt [j] v /\
  rows_give (fun p => seen (run junk cubic_program "CubicSplines" "interpolate" [OMat p; OB false] [] w)) (zlen g) [ns] pt [j] v.
Proof.
  intros Rl G. destruct (G junk) as (G1 & G2 & G3). split_all.
  - refine (point_same _ _ _ _ (proj1 (mcs_call_ok junk k m s w (P1 pt) Rl I)) _); exact G1.
  - refine (rows_same _ _ _ _ _ _ _ (fun p Hp => proj1 (mcs_call_ok junk k m s w (P2 p) Rl Hp)) G2).
  - refine (rows_same _ _ _ _ _ _ _ (fun p Hp => proj1 (mcs_interp_ok junk k m s w (P2 p) Rl Hp)) G3).
Qed.
Lemma ls_text_gives junk k m multi g s w comps pt suf v : lrel k m s w -> ls_multi s = multi -> ls_gives m g s comps pt suf v ->
  point_gives (seen (run junk linear_program (lclass multi) "__call__" [OVec pt] [] w)) suf v /\
  point_gives (seen (run junk linear_program (lclass multi) "interpolate" [OVec pt] [] w)) suf v /\
  rows_give (fun p => seen (run junk linear_program (lclass multi) "__call__" [OMat p] [] w)) (zlen g) comps pt suf v /\
  rows_give (fun p => seen (run junk linear_program (lclass multi) "interpolate" [OMat p] [] w)) (zlen g) comps pt suf v.
Proof.
  intros Rl <- (G1 & G2 & G3 & G4). split_all.
  - refine (point_same _ _ _ _ (proj1 (ls_call_ok junk k m s w (P1 pt) Rl I)) _); exact G2.
  - refine (point_same _ _ _ _ (proj1 (ls_interp_ok junk k m s w (P1 pt) Rl)) _); exact G1.
  - refine (rows_same _ _ _ _ _ _ _ (fun p Hp => proj1 (ls_call_ok junk k m s w (P2 p) Rl Hp)) G4).
  - refine (rows_same _ _ _ _ _ _ _ (fun p Hp => proj1 (ls_interp_ok junk k m s w (P2 p) Rl)) G3).
Qed.
