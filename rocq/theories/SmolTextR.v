(** What the texts of the Smolyak modules guarantee, over the reals. *)
From Coq Require Import ZArith List Bool String Lia Reals Lra.
From Coquelicot Require Import Coquelicot.
From Verif Require Import Base BaseFacts RSum CompleteModel SpecComplete SmolyakModel SpecSmolyak SmolyakChains SmolyakB SmolyakGridR SmolyakInterpR SmolyakProps SpecExact SmolyakExact
  PySyntax NpSem NpFacts SpecSmolText SmolText SmolTextA SmolTextB SmolTextC SmolTextD SmolTextE SmolTextF.
Import ListNotations.
Open Scope list_scope.
Open Scope Z_scope.
Local Notation Forall := List.Forall.

Lemma modules_text : modules SrcSmolyakUtil.util_py SrcSmolyakGrid.grid_py SrcSmolyakInterp.interp_py = Some sm_program.
Proof. exact sm_text. Qed.
Lemma call_text X k f vs ks : smolyak_call X k f vs ks = run X sm_program k f vs ks.
Proof. unfold smolyak_call. rewrite modules_text. reflexivity. Qed.
Lemma method_is X k v m vs ks : smolyak_method X k v m vs ks = run_method X sm_program k v m vs ks.
Proof. unfold smolyak_method. rewrite modules_text. reflexivity. Qed.

Lemma tiny_text : tiny14 = tiny_code.
Proof. unfold tiny14, tiny_code. change (10 ^ 14)%Z with 100000000000000%Z. field. Qed.
Lemma canon_aeq (a b : arr R) : aeq a b -> canon a = canon b.
Proof. intros [H1 H2]. apply canon_ext; auto. Qed.
Section X.
Variable X : externals R.
Hypothesis HX : routines_ok X.
Lemma sn_text : the_sn X = s_n PI cos tiny_code.
Proof. unfold the_sn. destruct HX as (-> & -> & _). rewrite tiny_text. reflexivity. Qed.
Lemma lu_text : lu_ok (the_lu X).
Proof.
  destruct HX as (_ & _ & HL & _). intros B n HB. destruct (HL (canon B) n) as (L & U & E & SL & SU & V); [now rewrite canon_shape|].
  exists L, U. repeat split; auto. intros i j Hi Hj. rewrite V by auto. apply canon_cell. rewrite HB. now apply inb2_.
Qed.
Lemma solve_text : solve_ok (the_solve X).
Proof.
  destruct HX as (_ & _ & _ & HS). intros A b n tl Ho HA Hb HN. destruct (HS (canon A) (canon b) n tl) as (x & E & Sx & V); auto.
  - intros x H. apply HN. intros i Hi. rewrite <- (H i Hi). apply zsum_ext. intros j Hj. rewrite canon_cell; [reflexivity|]. rewrite HA. now apply inb2_.
  - exists x. repeat split; auto. intros i tail Hi Ht. assert (Hin : inb (ashape b) (i :: tail) = true) by (rewrite Hb; cbn [inb]; rewrite Ht, andb_true_r; apply in_bool; auto).
    rewrite <- (canon_cell b (i :: tail) Hin). rewrite <- V by auto. apply zsum_ext. intros j Hj. rewrite canon_cell; [reflexivity|]. rewrite HA. now apply inb2_.
Qed.

(** ** The maps between the domain and the cube *)
Section Maps.
Variables (l : list (string * val R)) (lb ub : list R) (N c : Z) (pts : arr R).
Hypothesis (Hlb : attr l "lb" = Ok (fvec lb)) (Hub : attr l "ub" = Ok (fvec ub)) (Ll : zlen lb = c) (Lu : zlen ub = c) (Hs : ashape pts = [N; c]).
Let sg := VObj "SmolyakGrid" l.
Lemma method_cube2dom n g : cube2dom lb ub pts = Ok g -> run_method X sm_program n sg "cube2dom" [VArr (canon pts)] [] = Ok (VArr (canon g), sg).
Proof.
  intros H. destruct (bounds_are l lb ub c Hlb Hub Ll Lu) as [B1 B2]. unfold sg in *. enterr. fold b_cube2dom. unfold b_cube2dom.
  unfold cube2dom, per_column in H. rewrite Hs, Ll, Lu, !Z.eqb_refl in H. cbn [andb] in H. injection H as <-.
  rewrite farr_canon, Hs.
  erewrite block_next. 2:{ eapply exec_set. eapply eq_trans; [eapply ev_attr; [reflexivity | eve] | exact B1]. }
  erewrite block_next. 2:{ eapply exec_set. eapply eq_trans; [eapply ev_attr; [reflexivity | eve] | exact B2]. }
  step. step. step. erewrite block_ret; [|eapply exec_ret; eve]. unfold method_ends. cbn [bind].
  match goal with |- match ?e with _ => _ end = _ => replace e with (Some (VObj "SmolyakGrid" l)) by (symmetry; look) end.
  rewrite farr_canon. reflexivity.
Qed.
Lemma method_dom2cube n g : dom2cube lb ub pts = Ok g -> run_method X sm_program n sg "dom2cube" [VArr (canon pts)] [] = Ok (VArr (canon g), sg).
Proof.
  intros H. destruct (bounds_are l lb ub c Hlb Hub Ll Lu) as [B1 B2]. unfold sg in *. enterr. fold b_dom2cube. unfold b_dom2cube.
  unfold dom2cube, per_column in H. rewrite Hs, Ll, Lu, !Z.eqb_refl in H. cbn [andb] in H. injection H as <-.
  rewrite farr_canon, Hs.
  erewrite block_next. 2:{ eapply exec_set. eapply eq_trans; [eapply ev_attr; [reflexivity | eve] | exact B1]. }
  erewrite block_next. 2:{ eapply exec_set. eapply eq_trans; [eapply ev_attr; [reflexivity | eve] | exact B2]. }
  step. step. step. erewrite block_ret; [|eapply exec_ret; eve]. unfold method_ends. cbn [bind].
  match goal with |- match ?e with _ => _ end = _ => replace e with (Some (VObj "SmolyakGrid" l)) by (symmetry; look) end.
  rewrite farr_canon. reflexivity.
Qed.
End Maps.
Section Call.
Variables (d m : Z) (mu : mu_t) (lb ub : bound R) (lbl ubl : list R) (w : val R) (vs : list (val R)) (ks : list (string * val R)) (k : nat).
Hypothesis (Hd : 2 <= d) (Hm : density_ok d mu m) (Hm47 : m <= 47) (Hl : bound_list d (-1) lb lbl) (Hu : bound_list d 1 ub ubl) (HW : Forall2 Rlt lbl ubl)
  (Hw : mu_arg mu w) (Ha : bounds_args lb ub vs ks) (Hk : (fact (Z.to_nat d) + Z.to_nat d + 4 <= k)%nat).
Lemma Hm1 : 1 <= m. Proof. destruct (density_max d mu m Hm). auto. Qed.
Lemma Ht : tiny_ok tiny_code (m + 1). Proof. pose proof Hm1. apply tiny_code_ok. lia. Qed.
Lemma call_grid sg : sg_new (s_n PI cos tiny_code) (the_lu X) d mu lb ub = Ok sg -> smolyak_call X k "SmolyakGrid" (VInt d :: w :: vs) ks = Ok (vsg sg) /\ exists n, 0 < n /\ good_sg d mu m n lbl ubl sg.
Proof.
  intros H. destruct (sg_new_good tiny_code (the_lu X) lu_text d mu m lb ub lbl ubl Hd Hm Ht Hl Hu HW) as (sg' & n & E & Hn & HG).
  rewrite H in E. injection E as <-. split; [|exists n; auto]. rewrite call_text. pose proof HG as (_ & _ & _ & _ & _ & HC & _ & _ & _ & Hok & _). destruct (density_max d mu m Hm) as [Emu _].
  replace k with (S (S (S (S (k - 4))))) by lia. eapply run_grid; eauto; [rewrite sn_text; auto | apply Hm1 | lia].
Qed.
Lemma call_interp sg n f tl : good_sg d mu m n lbl ubl sg -> 0 < n -> outshape tl -> ashape f = n :: tl -> exists si, si_new (the_solve X) sg f = Ok si /\ si_sg si = sg /\ si_f si = f /\ ashape (si_theta si) = n :: tl /\
  smolyak_call X k "SmolyakInterp" [vsg sg; VArr (canon f)] [] = Ok (vsi si).
Proof.
  intros HG Hn Ho Hf. destruct (theta_spec (the_solve X) solve_text d mu m n lbl ubl sg Hn HG f tl Ho Hf) as (th & Eth & Sth & _).
  assert (E : si_new (the_solve X) sg f = Ok (mkSI sg f th)) by (unfold si_new; rewrite Eth; reflexivity).
  exists (mkSI sg f th). split; [exact E|]. split; [reflexivity|]. split; [reflexivity|]. split; [exact Sth|]. rewrite call_text. replace k with (S (S (k - 2))) by lia. apply run_interp. exact E.
Qed.
Lemma call_interpolate sg n si tl np pts ip dv dt dx rets vf kf : good_sg d mu m n lbl ubl sg -> si_sg si = sg -> outshape tl -> ashape (si_theta si) = n :: tl -> 0 <= np -> ashape pts = [np; d] ->
  si_interpolate (the_solve X) si pts ip dv dt dx = Ok rets -> flags_args ip dv dt dx vf kf ->
  smolyak_method X k (vsi si) "interpolate" (VArr (canon pts) :: vf) kf = Ok (packed rets, vsi si).
Proof.
  intros HG Hsg Ho Hth Hnp Hp H Hf. pose proof HG as (_ & Emu & El & Eu & HP & _ & _ & _ & _ & Hok & _). destruct (density_max d mu m Hm) as [Em _].
  pose proof (Forall2_widths lbl ubl d (proj1 Hl) (proj1 Hu) HW) as W. destruct (dom2cube_row lbl ubl d np pts ltac:(lia) W Hp) as (c & Ec & _).
  rewrite method_is. replace k with (S (S (k - 2))) by lia.
  eapply (run_interpolate X si pts c d m np tl (k - 2)); rewrite ?Hsg, ?Emu, ?El, ?Eu, ?HP; try assumption; first [lia | apply Hm1 | apply Hl | apply Hu | exact H | exact Hf].
Qed.
Lemma call_update sg n si f' tl : good_sg d mu m n lbl ubl sg -> 0 < n -> si_sg si = sg -> outshape tl -> ashape f' = n :: tl ->
  exists si', si_new (the_solve X) sg f' = Ok si' /\ smolyak_method X k (vsi si) "update_theta" [VArr (canon f')] [] = Ok (VNone, vsi si').
Proof.
  intros HG Hn Hsg Ho Hf. destruct (theta_spec (the_solve X) solve_text d mu m n lbl ubl sg Hn HG f' tl Ho Hf) as (th & Eth & Sth & _).
  exists (mkSI sg f' th). split; [unfold si_new; rewrite Eth; reflexivity|]. rewrite method_is. replace k with (S (k - 1)) by lia. apply run_update. unfold si_update. rewrite Hsg, Eth. reflexivity.
Qed.

(** ** Values at the nodes, at every point, gradients *)
Lemma si_new_theta sg n f tl si : good_sg d mu m n lbl ubl sg -> 0 < n -> outshape tl -> ashape f = n :: tl -> si_new (the_solve X) sg f = Ok si -> si_sg si = sg /\ ashape (si_theta si) = n :: tl.
Proof.
  intros HG Hn Ho Hf H. destruct (theta_spec (the_solve X) solve_text d mu m n lbl ubl sg Hn HG f tl Ho Hf) as (th & Eth & Sth & _). unfold si_new in H. rewrite Eth in H. injection H as <-. auto.
Qed.
Lemma interp_run sg n f tl si : good_sg d mu m n lbl ubl sg -> 0 < n -> outshape tl -> ashape f = n :: tl -> si_new (the_solve X) sg f = Ok si -> smolyak_call X k "SmolyakInterp" [vsg sg; VArr (canon f)] [] = Ok (vsi si).
Proof. intros HG Hn Ho Hf H. destruct (call_interp sg n f tl HG Hn Ho Hf) as (si' & E & _ & _ & _ & R). rewrite H in E. injection E as <-. exact R. Qed.
Lemma grid_shape sg n : good_sg d mu m n lbl ubl sg -> ashape (sg_grid sg) = [n; d].
Proof.
  intros (_ & _ & _ & _ & _ & SC & EG & _). pose proof (Forall2_widths lbl ubl d (proj1 Hl) (proj1 Hu) HW) as W. destruct (cube2dom_row lbl ubl d n (sg_cube sg) ltac:(lia) W SC) as (g & E & S & _). rewrite EG in E. injection E as <-. exact S.
Qed.
Theorem text_nodes tl : outshape tl -> exists g G n, smolyak_call X k "SmolyakGrid" (VInt d :: w :: vs) ks = Ok g /\ attribute g "grid" = Ok (VArr G) /\ 0 < n /\ ashape G = [n; d] /\
  forall f, ashape f = n :: tl -> exists s, smolyak_call X k "SmolyakInterp" [g; VArr (canon f)] [] = Ok s /\ attribute s "sg" = Ok g /\ attribute s "f_on_grid" = Ok (VArr (canon f)) /\
    forall vf kf, flags_args true false false false vf kf -> smolyak_method X k s "interpolate" (VArr G :: vf) kf = Ok (VArr (canon f), s).
Proof.
  intros Ho. destruct (interpolates tiny_code (the_lu X) (the_solve X) lu_text solve_text d mu m lb ub lbl ubl Hd Hm Ht Hl Hu HW tl Ho) as (sg & n & E & Hn & SG & SB & _ & HF).
  destruct (call_grid sg E) as (R1 & n0 & Hn0 & HG). assert (n = n0) by (rewrite (grid_shape sg n0 HG) in SG; congruence). subst n0.
  exists (vsg sg), (canon (sg_grid sg)), n. split; [exact R1|]. split; [reflexivity|]. split; [exact Hn|]. split; [now rewrite canon_shape|]. intros f Sf.
  destruct (HF f Sf) as (si & v & E1 & E2 & E3 & E4 & _). destruct (call_interp sg n f tl HG Hn Ho Sf) as (si' & E1' & Hsg & Hf & Hth & R2). rewrite E1 in E1'. injection E1' as <-.
  exists (vsi si). split; [exact R2|].
  split; [unfold vsi; rewrite Hsg; reflexivity|]. split; [unfold vsi; rewrite Hf; reflexivity|]. intros vf kf Hfl.
  rewrite (call_interpolate sg n si tl n (sg_grid sg) true false false false [v] vf kf HG Hsg Ho Hth ltac:(lia) SG E2 Hfl). cbn [packed]. unfold varr. rewrite (canon_aeq v f E3). reflexivity.
Qed.
Theorem text_polynomials tl : outshape tl -> exists g G n, smolyak_call X k "SmolyakGrid" (VInt d :: w :: vs) ks = Ok g /\ attribute g "grid" = Ok (VArr G) /\ 0 < n /\ ashape G = [n; d] /\
  forall f (F : list Z -> polynomial), ashape f = n :: tl -> (forall tail, inb tl tail = true -> in_space d mu m (F tail)) ->
    (forall p tail, 0 <= p < n -> inb tl tail = true -> acell f (p :: tail) = poly_value (F tail) (mrow d G p)) ->
  exists s, smolyak_call X k "SmolyakInterp" [g; VArr (canon f)] [] = Ok s /\
    forall np pts vf kf, 0 <= np -> ashape pts = [np; d] -> flags_args true false false false vf kf ->
    exists v, smolyak_method X k s "interpolate" (VArr (canon pts) :: vf) kf = Ok (VArr v, s) /\ ashape v = np :: tl /\
      forall p tail, 0 <= p < np -> inb tl tail = true -> acell v (p :: tail) = poly_value (F tail) (mrow d pts p).
Proof.
  intros Ho. destruct (polynomials_exact tiny_code (the_lu X) (the_solve X) lu_text solve_text d lb ub lbl ubl Hd Hl Hu HW mu m tl Hm Ht Ho) as (sg & n & E & Hn & SG & HF).
  destruct (call_grid sg E) as (R1 & n0 & Hn0 & HG). assert (n = n0) by (rewrite (grid_shape sg n0 HG) in SG; congruence). subst n0.
  exists (vsg sg), (canon (sg_grid sg)), n. split; [exact R1|]. split; [reflexivity|]. split; [exact Hn|]. split; [now rewrite canon_shape|]. intros f F Sf HF1 HF2.
  destruct (HF f F Sf HF1) as (si & E1 & E2).
  { intros p tail Hp Htl. rewrite HF2 by auto. f_equal. unfold mrow. apply map_ext_in. intros i Hi. apply zrange_In in Hi. apply canon_cell. rewrite SG. now apply inb2_. }
  destruct (si_new_theta sg n f tl si HG Hn Ho Sf E1) as [Hsg Hth]. pose proof (interp_run sg n f tl si HG Hn Ho Sf E1) as R2.
  exists (vsi si). split; [exact R2|]. intros np pts vf kf Hnp Sp Hfl. destruct (E2 np pts Hnp Sp) as (v & Ev & Sv & Vv). exists (canon v).
  split; [|split].
  - exact (call_interpolate sg n si tl np pts true false false false [v] vf kf HG Hsg Ho Hth Hnp Sp Ev Hfl).
  - now rewrite canon_shape.
  - intros p tail Hp Htl. rewrite canon_cell; [now apply Vv|]. rewrite Sv. cbn [inb]. rewrite Htl, andb_true_r. now apply in_bool.
Qed.
Theorem text_gradients : exists g G n, smolyak_call X k "SmolyakGrid" (VInt d :: w :: vs) ks = Ok g /\ attribute g "grid" = Ok (VArr G) /\ 0 < n /\ ashape G = [n; d] /\
  forall f (F : polynomial), ashape f = [n] -> in_space d mu m F -> (forall p, 0 <= p < n -> acell f [p] = poly_value F (mrow d G p)) ->
  exists s, smolyak_call X k "SmolyakInterp" [g; VArr (canon f)] [] = Ok s /\
    forall np pts vf kf, 0 <= np -> ashape pts = [np; d] -> flags_args true true false false vf kf ->
    exists v dv, smolyak_method X k s "interpolate" (VArr (canon pts) :: vf) kf = Ok (VList [VArr v; VArr dv], s) /\ ashape v = [np] /\ ashape dv = [np; d] /\
      (forall p, 0 <= p < np -> acell v [p] = poly_value F (mrow d pts p)) /\
      forall p i, 0 <= p < np -> 0 <= i < d -> is_derive (fun s : R => poly_value F (replace_at (mrow d pts p) i s)) (acell pts [p; i]) (acell dv [p; i]).
Proof.
  destruct (gradients_exact tiny_code (the_lu X) (the_solve X) lu_text solve_text d lb ub lbl ubl Hd Hl Hu HW mu m Hm Ht) as (sg & n & E & Hn & SG & HF).
  destruct (call_grid sg E) as (R1 & n0 & Hn0 & HG). assert (n = n0) by (rewrite (grid_shape sg n0 HG) in SG; congruence). subst n0.
  exists (vsg sg), (canon (sg_grid sg)), n. split; [exact R1|]. split; [reflexivity|]. split; [exact Hn|]. split; [now rewrite canon_shape|]. intros f F Sf HF1 HF2.
  destruct (HF f F Sf HF1) as (si & E1 & E2).
  { intros p Hp. rewrite HF2 by auto. f_equal. unfold mrow. apply map_ext_in. intros i Hi. apply zrange_In in Hi. apply canon_cell. rewrite SG. now apply inb2_. }
  destruct (si_new_theta sg n f [] si HG Hn (or_introl eq_refl) Sf E1) as [Hsg Hth]. pose proof (interp_run sg n f [] si HG Hn (or_introl eq_refl) Sf E1) as R2.
  exists (vsi si). split; [exact R2|]. intros np pts vf kf Hnp Sp Hfl. destruct (E2 np pts Hnp Sp) as (v & dv & Ev & Sv & Sdv & Vv & Vd). exists (canon v), (canon dv).
  split; [|split; [|split; [|split]]].
  - exact (call_interpolate sg n si [] np pts true true false false [v; dv] vf kf HG Hsg (or_introl eq_refl) Hth Hnp Sp Ev Hfl).
  - now rewrite canon_shape.
  - now rewrite canon_shape.
  - intros p Hp. rewrite canon_cell; [now apply Vv|]. rewrite Sv. now apply inb1_.
  - intros p i Hp Hi. rewrite canon_cell; [now apply Vd|]. rewrite Sdv. now apply inb2_.
Qed.
(** update_theta: the object behaves as one built from the new values. *)
Theorem text_update tl tl' : outshape tl -> outshape tl' -> exists g G n, smolyak_call X k "SmolyakGrid" (VInt d :: w :: vs) ks = Ok g /\ attribute g "grid" = Ok (VArr G) /\ 0 < n /\ ashape G = [n; d] /\
  forall f f', ashape f = n :: tl -> ashape f' = n :: tl' -> exists s s', smolyak_call X k "SmolyakInterp" [g; VArr (canon f)] [] = Ok s /\ smolyak_call X k "SmolyakInterp" [g; VArr (canon f')] [] = Ok s' /\
    smolyak_method X k s "update_theta" [VArr (canon f')] [] = Ok (VNone, s').
Proof.
  intros Ho Ho'. destruct (sg_new_good tiny_code (the_lu X) lu_text d mu m lb ub lbl ubl Hd Hm Ht Hl Hu HW) as (sg & n & E & Hn & HG).
  destruct (call_grid sg E) as (R1 & _). exists (vsg sg), (canon (sg_grid sg)), n. split; [exact R1|]. split; [reflexivity|]. split; [exact Hn|]. split; [rewrite canon_shape; now apply grid_shape|]. intros f f' Sf Sf'.
  destruct (call_interp sg n f tl HG Hn Ho Sf) as (si & E1 & Hsg & _ & _ & R2). destruct (call_update sg n si f' tl' HG Hn Hsg Ho' Sf') as (si' & E1' & R3).
  exists (vsi si), (vsi si'). split; [exact R2|]. split; [exact (interp_run sg n f' tl' si' HG Hn Ho' Sf' E1')|exact R3].
Qed.
(** Any combination of the flags: what the model returns. *)
Theorem text_flags tl : outshape tl -> exists g sg n, smolyak_call X k "SmolyakGrid" (VInt d :: w :: vs) ks = Ok g /\ sg_new (s_n PI cos tiny_code) (fun A => x_lu X (canon A)) d mu lb ub = Ok sg /\ 0 < n /\
  attribute g "grid" = Ok (VArr (canon (sg_grid sg))) /\ attribute g "cube_grid" = Ok (VArr (canon (sg_cube sg))) /\ attribute g "B" = Ok (VArr (canon (sg_B sg))) /\
  attribute g "inds" = Ok (VList (map (fun v => VList (map VInt v)) (sg_inds sg))) /\ attribute g "pinds" = Ok (VList (map (fun v => VTup (map VInt v)) (sg_pinds sg))) /\
  attribute g "lb" = Ok (fvec lbl) /\ attribute g "ub" = Ok (fvec ubl) /\ attribute g "mu" = Ok (vmu mu) /\ attribute g "d" = Ok (VInt d) /\
  forall f, ashape f = n :: tl -> exists s si, smolyak_call X k "SmolyakInterp" [g; VArr (canon f)] [] = Ok s /\ si_new (fun A b => x_solve X (canon A) (canon b)) sg f = Ok si /\ attribute s "theta" = Ok (VArr (canon (si_theta si))) /\
    forall np pts ip dv dt dx rets vf kf, 0 <= np -> ashape pts = [np; d] -> flags_args ip dv dt dx vf kf -> si_interpolate (fun A b => x_solve X (canon A) (canon b)) si pts ip dv dt dx = Ok rets ->
      smolyak_method X k s "interpolate" (VArr (canon pts) :: vf) kf = Ok (packed rets, s).
Proof.
  intros Ho. destruct (sg_new_good tiny_code (the_lu X) lu_text d mu m lb ub lbl ubl Hd Hm Ht Hl Hu HW) as (sg & n & E & Hn & HG).
  destruct (call_grid sg E) as (R1 & _). pose proof HG as (Gd & Gm & Gl & Gu & _). exists (vsg sg), sg, n. split; [exact R1|]. split; [exact E|]. split; [exact Hn|]. repeat (split; [cbn; rewrite ?Gl, ?Gu, ?Gm, ?Gd; reflexivity|]).
  intros f Sf. destruct (call_interp sg n f tl HG Hn Ho Sf) as (si & E1 & Hsg & _ & Hth & R2). exists (vsi si), si. split; [exact R2|]. split; [exact E1|]. split; [reflexivity|].
  intros np pts ip dv dt dx rets vf kf Hnp Sp Hfl H. exact (call_interpolate sg n si tl np pts ip dv dt dx rets vf kf HG Hsg Ho Hth Hnp Sp H Hfl).
Qed.
Theorem text_maps : exists g, smolyak_call X k "SmolyakGrid" (VInt d :: w :: vs) ks = Ok g /\
  forall N pts, ashape pts = [N; d] -> exists c x,
    smolyak_method X k g "dom2cube" [VArr (canon pts)] [] = Ok (VArr c, g) /\ smolyak_method X k g "cube2dom" [VArr c] [] = Ok (VArr (canon pts), g) /\
    smolyak_method X k g "cube2dom" [VArr (canon pts)] [] = Ok (VArr x, g) /\ smolyak_method X k g "dom2cube" [VArr x] [] = Ok (VArr (canon pts), g) /\
    ashape c = [N; d] /\ ashape x = [N; d] /\ forall p i, 0 <= p < N -> 0 <= i < d ->
      (acell c [p; i] = (2 * acell pts [p; i] - nth (Z.to_nat i) lbl 0 - nth (Z.to_nat i) ubl 0) / (nth (Z.to_nat i) ubl 0 - nth (Z.to_nat i) lbl 0) /\
       acell x [p; i] = nth (Z.to_nat i) lbl 0 + (acell pts [p; i] + 1) * (nth (Z.to_nat i) ubl 0 - nth (Z.to_nat i) lbl 0) / 2)%R.
Proof.
  destruct (sg_new_good tiny_code (the_lu X) lu_text d mu m lb ub lbl ubl Hd Hm Ht Hl Hu HW) as (sg & n & E & Hn & HG).
  destruct (call_grid sg E) as (R1 & _). exists (vsg sg). split; [exact R1|]. intros N pts Hp. pose proof HG as (Gd & Gm & Gl & Gu & _).
  pose proof (Forall2_widths lbl ubl d (proj1 Hl) (proj1 Hu) HW) as W.
  destruct (dom2cube_row lbl ubl d N pts ltac:(lia) W Hp) as (c & Ec & Sc & _ & Vc). destruct (cube2dom_row lbl ubl d N pts ltac:(lia) W Hp) as (x & Ex & Sx & _ & Vx).
  destruct (domain_maps lbl ubl d N pts ltac:(lia) (proj1 Hl) (proj1 Hu) HW Hp) as (c1 & x1 & Ec1 & Ex1 & _ & _ & (c' & Ec' & Sc' & Vc') & (x' & Ex' & Sx' & Vx') & _).
  rewrite Ec in Ec1. injection Ec1 as <-. rewrite Ex in Ex1. injection Ex1 as <-.
  assert (AE : forall a, ashape a = [N; d] -> (forall p i, 0 <= p < N -> 0 <= i < d -> acell a [p; i] = acell pts [p; i]) -> canon a = canon pts).
  { intros a Sa Va. apply canon_ext; [congruence|]. rewrite Sa. intros idx Hi. apply inb2 in Hi as (p & i & -> & Hi1 & Hi2). auto. }
  exists (canon c), (canon x). rewrite !method_is. unfold vsg. rewrite Gl, Gu.
  match goal with |- context [VObj "SmolyakGrid" ?l] => set (L := l) end. assert (A1 : attr L "lb" = Ok (fvec lbl)) by reflexivity. assert (A2 : attr L "ub" = Ok (fvec ubl)) by reflexivity.
  rewrite (method_dom2cube L lbl ubl N d pts A1 A2 (proj1 Hl) (proj1 Hu) Hp k c Ec), (method_cube2dom L lbl ubl N d c A1 A2 (proj1 Hl) (proj1 Hu) Sc k c' Ec').
  rewrite (method_cube2dom L lbl ubl N d pts A1 A2 (proj1 Hl) (proj1 Hu) Hp k x Ex), (method_dom2cube L lbl ubl N d x A1 A2 (proj1 Hl) (proj1 Hu) Sx k x' Ex').
  rewrite (AE c' Sc' Vc'), (AE x' Sx' Vx'). repeat (split; [first [reflexivity | assumption]|]). intros p i Hpp Hi. rewrite !canon_cell; [| rewrite Sx; now apply inb2_ | rewrite Sc; now apply inb2_]. auto.
Qed.
End Call.
Theorem text_refuses k d mu w lb ub vs ks : 0 <= d -> mu_arg mu w -> bounds_args lb ub vs ks -> (1 <= k)%nat ->
  bad_bound d lb \/ bad_bound d ub \/ d <= 1 \/ density_bad d mu = true -> smolyak_call X k "SmolyakGrid" (VInt d :: w :: vs) ks = Err ValueErr.
Proof. intros Hd Hw Ha Hk Hbad. rewrite call_text. replace k with (S (k - 1)) by lia. eapply run_grid_refuses; eauto. Qed.
End X.
