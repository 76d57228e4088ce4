(** C83: the modules of smolyak/ as they are written.  [smolyak_call] and [smolyak_method] parse the embedded
    texts of util.py, grid.py and interp.py and interpret them (PySyntax.v, NpSem.v). *)
From Coq Require Import ZArith List Bool String Lia Reals QArith Lra.
From Coquelicot Require Import Coquelicot.
From Verif Require Import Base CompleteModel SpecComplete SmolyakModel SpecSmolyak SmolyakGridR SmolyakProps SmolyakCases SpecExact SmolyakExact PySyntax NpSem SpecSmolText SrcSmolyakUtil SrcSmolyakGrid SrcSmolyakInterp SmolTextR.
Import ListNotations.
Open Scope list_scope.
Open Scope Z_scope.
Local Notation Forall := List.Forall.

(** The interpolant takes the given values at the points of the grid. *)
Theorem C83_text_nodes X d m mu lb ub lbl ubl w vs ks k tl : routines_ok X -> 2 <= d -> density_ok d mu m -> m <= 47 -> bound_list d (-1) lb lbl -> bound_list d 1 ub ubl -> Forall2 Rlt lbl ubl ->
  mu_arg mu w -> bounds_args lb ub vs ks -> (fact (Z.to_nat d) + Z.to_nat d + 4 <= k)%nat ->
  outshape tl -> exists g G n, smolyak_call X k "SmolyakGrid" (VInt d :: w :: vs) ks = Ok g /\ attribute g "grid" = Ok (VArr G) /\ 0 < n /\ ashape G = [n; d] /\
  forall f, ashape f = n :: tl -> exists s, smolyak_call X k "SmolyakInterp" [g; VArr (canon f)] [] = Ok s /\ attribute s "sg" = Ok g /\ attribute s "f_on_grid" = Ok (VArr (canon f)) /\
    forall vf kf, flags_args true false false false vf kf -> smolyak_method X k s "interpolate" (VArr G :: vf) kf = Ok (VArr (canon f), s).
Proof. intros HX H1 H2 H3 H4 H5 H6 H7 H8 H9. exact (text_nodes X HX d m mu lb ub lbl ubl w vs ks k H1 H2 H3 H4 H5 H6 H7 H8 H9 tl). Qed.
Print Assumptions C83_text_nodes.
(** The polynomials of the space of the grid are reproduced everywhere. *)
Theorem C83_text_polynomials X d m mu lb ub lbl ubl w vs ks k tl : routines_ok X -> 2 <= d -> density_ok d mu m -> m <= 47 -> bound_list d (-1) lb lbl -> bound_list d 1 ub ubl -> Forall2 Rlt lbl ubl ->
  mu_arg mu w -> bounds_args lb ub vs ks -> (fact (Z.to_nat d) + Z.to_nat d + 4 <= k)%nat ->
  outshape tl -> exists g G n, smolyak_call X k "SmolyakGrid" (VInt d :: w :: vs) ks = Ok g /\ attribute g "grid" = Ok (VArr G) /\ 0 < n /\ ashape G = [n; d] /\
  forall f (F : list Z -> polynomial), ashape f = n :: tl -> (forall tail, inb tl tail = true -> in_space d mu m (F tail)) ->
    (forall p tail, 0 <= p < n -> inb tl tail = true -> acell f (p :: tail) = poly_value (F tail) (mrow d G p)) ->
  exists s, smolyak_call X k "SmolyakInterp" [g; VArr (canon f)] [] = Ok s /\
    forall np pts vf kf, 0 <= np -> ashape pts = [np; d] -> flags_args true false false false vf kf ->
    exists v, smolyak_method X k s "interpolate" (VArr (canon pts) :: vf) kf = Ok (VArr v, s) /\ ashape v = np :: tl /\
      forall p tail, 0 <= p < np -> inb tl tail = true -> acell v (p :: tail) = poly_value (F tail) (mrow d pts p).
Proof. intros HX H1 H2 H3 H4 H5 H6 H7 H8 H9. exact (text_polynomials X HX d m mu lb ub lbl ubl w vs ks k H1 H2 H3 H4 H5 H6 H7 H8 H9 tl). Qed.
Print Assumptions C83_text_polynomials.
(** And so are their gradients. *)
Theorem C83_text_gradients X d m mu lb ub lbl ubl w vs ks k : routines_ok X -> 2 <= d -> density_ok d mu m -> m <= 47 -> bound_list d (-1) lb lbl -> bound_list d 1 ub ubl -> Forall2 Rlt lbl ubl ->
  mu_arg mu w -> bounds_args lb ub vs ks -> (fact (Z.to_nat d) + Z.to_nat d + 4 <= k)%nat ->
  exists g G n, smolyak_call X k "SmolyakGrid" (VInt d :: w :: vs) ks = Ok g /\ attribute g "grid" = Ok (VArr G) /\ 0 < n /\ ashape G = [n; d] /\
  forall f (F : polynomial), ashape f = [n] -> in_space d mu m F -> (forall p, 0 <= p < n -> acell f [p] = poly_value F (mrow d G p)) ->
  exists s, smolyak_call X k "SmolyakInterp" [g; VArr (canon f)] [] = Ok s /\
    forall np pts vf kf, 0 <= np -> ashape pts = [np; d] -> flags_args true true false false vf kf ->
    exists v dv, smolyak_method X k s "interpolate" (VArr (canon pts) :: vf) kf = Ok (VList [VArr v; VArr dv], s) /\ ashape v = [np] /\ ashape dv = [np; d] /\
      (forall p, 0 <= p < np -> acell v [p] = poly_value F (mrow d pts p)) /\
      forall p i, 0 <= p < np -> 0 <= i < d -> is_derive (fun s : R => poly_value F (replace_at (mrow d pts p) i s)) (acell pts [p; i]) (acell dv [p; i]).
Proof. intros HX H1 H2 H3 H4 H5 H6 H7 H8 H9. exact (text_gradients X HX d m mu lb ub lbl ubl w vs ks k H1 H2 H3 H4 H5 H6 H7 H8 H9). Qed.
Print Assumptions C83_text_gradients.
(** [update_theta] gives the object built from the new values. *)
Theorem C83_text_update X d m mu lb ub lbl ubl w vs ks k tl tl' : routines_ok X -> 2 <= d -> density_ok d mu m -> m <= 47 -> bound_list d (-1) lb lbl -> bound_list d 1 ub ubl -> Forall2 Rlt lbl ubl ->
  mu_arg mu w -> bounds_args lb ub vs ks -> (fact (Z.to_nat d) + Z.to_nat d + 4 <= k)%nat ->
  outshape tl -> outshape tl' -> exists g G n, smolyak_call X k "SmolyakGrid" (VInt d :: w :: vs) ks = Ok g /\ attribute g "grid" = Ok (VArr G) /\ 0 < n /\ ashape G = [n; d] /\
  forall f f', ashape f = n :: tl -> ashape f' = n :: tl' -> exists s s', smolyak_call X k "SmolyakInterp" [g; VArr (canon f)] [] = Ok s /\ smolyak_call X k "SmolyakInterp" [g; VArr (canon f')] [] = Ok s' /\
    smolyak_method X k s "update_theta" [VArr (canon f')] [] = Ok (VNone, s').
Proof. intros HX H1 H2 H3 H4 H5 H6 H7 H8 H9. exact (text_update X HX d m mu lb ub lbl ubl w vs ks k H1 H2 H3 H4 H5 H6 H7 H8 H9 tl tl'). Qed.
Print Assumptions C83_text_update.
(** The attributes, and the value of [interpolate] for any flags: those of the model. *)
Theorem C83_text_flags X d m mu lb ub lbl ubl w vs ks k tl : routines_ok X -> 2 <= d -> density_ok d mu m -> m <= 47 -> bound_list d (-1) lb lbl -> bound_list d 1 ub ubl -> Forall2 Rlt lbl ubl ->
  mu_arg mu w -> bounds_args lb ub vs ks -> (fact (Z.to_nat d) + Z.to_nat d + 4 <= k)%nat ->
  outshape tl -> exists g sg n, smolyak_call X k "SmolyakGrid" (VInt d :: w :: vs) ks = Ok g /\ sg_new (s_n PI cos tiny_code) (fun A => x_lu X (canon A)) d mu lb ub = Ok sg /\ 0 < n /\
  attribute g "grid" = Ok (VArr (canon (sg_grid sg))) /\ attribute g "cube_grid" = Ok (VArr (canon (sg_cube sg))) /\ attribute g "B" = Ok (VArr (canon (sg_B sg))) /\
  attribute g "inds" = Ok (VList (map (fun v => VList (map VInt v)) (sg_inds sg))) /\ attribute g "pinds" = Ok (VList (map (fun v => VTup (map VInt v)) (sg_pinds sg))) /\
  attribute g "lb" = Ok (fvec lbl) /\ attribute g "ub" = Ok (fvec ubl) /\ attribute g "mu" = Ok (vmu mu) /\ attribute g "d" = Ok (VInt d) /\
  forall f, ashape f = n :: tl -> exists s si, smolyak_call X k "SmolyakInterp" [g; VArr (canon f)] [] = Ok s /\ si_new (fun A b => x_solve X (canon A) (canon b)) sg f = Ok si /\ attribute s "theta" = Ok (VArr (canon (si_theta si))) /\
    forall np pts ip dv dt dx rets vf kf, 0 <= np -> ashape pts = [np; d] -> flags_args ip dv dt dx vf kf -> si_interpolate (fun A b => x_solve X (canon A) (canon b)) si pts ip dv dt dx = Ok rets ->
      smolyak_method X k s "interpolate" (VArr (canon pts) :: vf) kf = Ok (packed rets, s).
Proof. intros HX H1 H2 H3 H4 H5 H6 H7 H8 H9. exact (text_flags X HX d m mu lb ub lbl ubl w vs ks k H1 H2 H3 H4 H5 H6 H7 H8 H9 tl). Qed.
Print Assumptions C83_text_flags.
(** The maps between the domain and the cube. *)
Theorem C83_text_maps X d m mu lb ub lbl ubl w vs ks k : routines_ok X -> 2 <= d -> density_ok d mu m -> m <= 47 -> bound_list d (-1) lb lbl -> bound_list d 1 ub ubl -> Forall2 Rlt lbl ubl ->
  mu_arg mu w -> bounds_args lb ub vs ks -> (fact (Z.to_nat d) + Z.to_nat d + 4 <= k)%nat ->
  exists g, smolyak_call X k "SmolyakGrid" (VInt d :: w :: vs) ks = Ok g /\
  forall N pts, ashape pts = [N; d] -> exists c x,
    smolyak_method X k g "dom2cube" [VArr (canon pts)] [] = Ok (VArr c, g) /\ smolyak_method X k g "cube2dom" [VArr c] [] = Ok (VArr (canon pts), g) /\
    smolyak_method X k g "cube2dom" [VArr (canon pts)] [] = Ok (VArr x, g) /\ smolyak_method X k g "dom2cube" [VArr x] [] = Ok (VArr (canon pts), g) /\
    ashape c = [N; d] /\ ashape x = [N; d] /\ forall p i, 0 <= p < N -> 0 <= i < d ->
      (acell c [p; i] = (2 * acell pts [p; i] - nth (Z.to_nat i) lbl 0 - nth (Z.to_nat i) ubl 0) / (nth (Z.to_nat i) ubl 0 - nth (Z.to_nat i) lbl 0) /\
       acell x [p; i] = nth (Z.to_nat i) lbl 0 + (acell pts [p; i] + 1) * (nth (Z.to_nat i) ubl 0 - nth (Z.to_nat i) lbl 0) / 2)%R.
Proof. intros HX H1 H2 H3 H4 H5 H6 H7 H8 H9. exact (text_maps X HX d m mu lb ub lbl ubl w vs ks k H1 H2 H3 H4 H5 H6 H7 H8 H9). Qed.
Print Assumptions C83_text_maps.
(** The calls that raise ValueError. *)
Theorem C83_text_refuses X k d mu w lb ub vs ks : 0 <= d -> mu_arg mu w -> bounds_args lb ub vs ks -> (1 <= k)%nat ->
  bad_bound d lb \/ bad_bound d ub \/ d <= 1 \/ density_bad d mu = true -> smolyak_call X k "SmolyakGrid" (VInt d :: w :: vs) ks = Err ValueErr.
Proof. exact (text_refuses X k d mu w lb ub vs ks). Qed.
Print Assumptions C83_text_refuses.
(** The hypotheses are met: a grid of three dimensions with densities 1, 3 and 2, passed as a list, bounds by name. *)
Example C83_case : routines_ok (mkExt PI cos lu_triv solve_triv) /\ density_ok 3 (MuArr [1; 3; 2]) 3 /\
  bound_list 3 (-1) (BList [0; -2; 1]%R) [0; -2; 1]%R /\ bound_list 3 1 (BScalar 5%R) [5; 5; 5]%R /\ Forall2 Rlt [0; -2; 1]%R [5; 5; 5]%R /\
  mu_arg (MuArr [1; 3; 2]) (VList [VInt 1; VInt 3; VInt 2]) /\
  bounds_args (BList [0; -2; 1]%R) (BScalar 5%R) [] [("lb", VList [VFlt 0%R; VFlt (-2)%R; VFlt 1%R]); ("ub", VFlt 5%R)]%string /\
  flags_args true true false false [] [("deriv"%string, VBool true)] /\ flags_args true false false false [] [] /\
  density_bad 3 (MuArr [1; 0; 2]) = true /\ bad_bound 3 (BList [0%R; 1%R]).
Proof.
  split; [exact (conj eq_refl (conj eq_refl (conj lu_triv_ok solve_triv_ok)))|]. split; [exact density_case|]. split; [apply bounds_case|]. split; [apply bounds_case|]. split; [apply bounds_case|].
  split; [right; exists [1; 3; 2]; repeat split; discriminate|]. split; [right; left; split; reflexivity|].
  split; [right; repeat split|]. split; [right; repeat split|]. split; [reflexivity|]. exists [0%R; 1%R]. split; [reflexivity|]. cbv. discriminate.
Qed.
(** The texts run. *)
Definition run_in (o : option (list stmt)) (f : string) (vs : list (val Q)) (ks : list (string * val Q)) : res (val Q) :=
  match o with
  | Some P => run (mkExt 0%Q (fun x => x) (fun _ => Err TypeErr) (fun _ _ => Err TypeErr)) P 20 f vs ks
  | None => Err TypeErr
  end.
Definition run_q := run_in (modules util_py grid_py interp_py).
Definition cells (r : res (val Q)) (l : list (list Z)) : option (list Z * list Q) :=
  match r with Ok (VArr a) => Some (ashape a, map (fun i => Qred (acell a i)) l) | _ => None end.
Example C83_computed :
  run_q "smol_inds" [VInt 2; VInt 1] [] = Ok (VList [VList [VInt 1; VInt 2]; VList [VInt 2; VInt 1]; VList [VInt 1; VInt 1]]) /\
  run_q "phi_chain" [VInt 3] [] = Ok (VDict [(3, VList [VInt 4; VInt 5]); (2, VList [VInt 2; VInt 3]); (1, VList [VInt 1])]) /\
  cells (run_q "cheby2n" [farr [2] (fun idx => if hd 0 idx =? 0 then 3%Q else 1%Q); VInt 3] []) [[0; 0]; [1; 0]; [2; 0]; [3; 0]; [3; 1]] = Some ([4; 2], [1; 3; 17; 99; 1]%Q) /\
  cells (run_q "build_B" [VInt 2; VInt 1; farr [1; 2] (fun idx => if nth 1 idx 0 =? 0 then 3%Q else 2%Q); VList [VTup [VInt 1; VInt 3]; VTup [VInt 2; VInt 2]]] []) [[0; 0]; [0; 1]] = Some ([1; 2], [7; 6]%Q) /\
  run_q "SmolyakGrid" [VInt 1; VInt 2] [] = Err ValueErr.
Proof. vm_compute. repeat split. Qed.
