(** Properties of the Smolyak module: C37-C46, C53, C54. *)
From Coq Require Import ZArith List Reals Permutation Sorted.
From Coquelicot Require Import Coquelicot.
From Verif Require Import Base RSum CompleteModel SpecComplete SmolyakModel SpecSmolyak SmolyakPermute SmolyakInds SmolyakChains SmolyakB SmolyakNodes SmolyakGridR SmolyakInterpR SmolyakProps SmolyakCases.
Import ListNotations.
Open Scope Z_scope.

(** C37 *)
Theorem C37_permute a : (2 <= length a)%nat -> exists L,
  permute a = Ok L /\ StronglySorted lex_lt L /\ NoDup L /\ forall p, In p L <-> Permutation a p.
Proof. exact (permute_spec a). Qed.
Print Assumptions C37_permute.
Example C37_case : permute [2; 1; 2] = Ok [[1; 2; 2]; [2; 1; 2]; [2; 2; 1]]. Proof. exact permute_case. Qed.
Example C37_short : permute [1] = Err IndexErr. Proof. exact permute_short. Qed.

(** C38 *)
Theorem C38_smol_inds d mu m : 2 <= d -> density_ok d mu m ->
  exists L, smol_inds d mu = Ok L /\ NoDup L /\ forall v, In v L <-> smolyak_index d mu m v.
Proof. exact (smol_inds_all d mu m). Qed.
Print Assumptions C38_smol_inds.
Theorem C38_wrong_length d l : zlen l <> d -> smol_inds d (MuArr l) = Err ValueErr.
Proof. exact (smol_inds_wrong_length d l). Qed.
Print Assumptions C38_wrong_length.
Example C38_case : density_ok 3 (MuArr [1; 3; 2]) 3 /\ smol_inds 2 (MuArr [1; 2]) = Ok [[1; 2]; [2; 1]; [1; 3]; [2; 2]; [1; 1]].
Proof. exact (conj density_case smol_inds_case). Qed.

(** C39 (in any arithmetic) *)
Theorem C39_grid_size {T} {NT : Num T} (np_pi : T) (np_cos : T -> T) (tiny : T) d m : 2 <= d -> 1 <= m <= 3 -> exists g n,
  build_grid (s_n np_pi np_cos tiny) d (MuInt m) = Ok g /\ num_grid_points d m = Some n /\ ashape g = [n; d].
Proof. exact (grid_size_documented np_pi np_cos tiny d m). Qed.
Print Assumptions C39_grid_size.
(** The divisions in num_grid_points leave no remainder. *)
Theorem C39_exact d : 0 <= d -> (2 | 4 * d * (d - 1)) /\ (2 | 12 * d * (d - 1)) /\ (6 | 8 * d * (d - 1) * (d - 2)).
Proof. exact (num_grid_points_exact d). Qed.
Print Assumptions C39_exact.

(** C40 *)
Theorem C40_grid_distinct tiny d mu m : 2 <= d -> density_ok d mu m -> tiny_ok tiny (m + 1) -> exists g P,
  build_grid (s_n PI cos tiny) d mu = Ok g /\ poly_inds d mu = Ok P /\ ashape g = [zlen P; d] /\
  (forall p q, 0 <= p < zlen P -> 0 <= q < zlen P -> mrow d g p = mrow d g q -> p = q) /\
  (forall p k, 0 <= p < zlen P -> 0 <= k < d -> (-1 <= acell g [p; k] <= 1)%R) /\
  NoDup P /\ (forall b, In b P <-> exists v, smolyak_index d mu m v /\ Forall2 at_level v b).
Proof. exact (grid_distinct tiny d mu m). Qed.
Print Assumptions C40_grid_distinct.
(** With the threshold of the code. *)
Theorem C40_code_threshold n : 2 <= n <= 48 -> tiny_ok tiny_code n.
Proof. exact (tiny_code_ok n). Qed.
Print Assumptions C40_code_threshold.
(** For very large mu the clean-up of [s_n] makes points coincide. *)
Theorem C40_huge_mu_refuted d m : 2 <= d -> 49 <= m -> exists g p q n,
  build_grid (s_n PI cos tiny_code) d (MuInt m) = Ok g /\ ashape g = [n; d] /\ 0 <= p < n /\ 0 <= q < n /\ p <> q /\ mrow d g p = mrow d g q.
Proof. exact (grid_collapse d m). Qed.
Print Assumptions C40_huge_mu_refuted.
Example C40_case : density_ok 3 (MuArr [1; 3; 2]) 3 /\ tiny_ok tiny_code (3 + 1) /\ poly_inds 2 (MuInt 1) = Ok [[1; 2]; [1; 3]; [2; 1]; [3; 1]; [1; 1]].
Proof. exact (conj density_case (conj tiny_case pinds_case)). Qed.

(** C41 *)
Theorem C41_nested_extrema tiny n i : 2 <= n -> tiny_ok tiny n -> 1 <= i <= n -> exists Ai,
  dget (a_chain (s_n PI cos tiny n) n) i = Ok Ai /\ NoDup Ai /\
  (exists a b ph, m_i i = Ok a /\ m_i (i - 1) = Ok b /\ dget (phi_chain n) i = Ok ph /\ zlen Ai = a - b /\ zlen Ai = zlen ph) /\
  (forall k Ak x, 1 <= k <= n -> dget (a_chain (s_n PI cos tiny n) n) k = Ok Ak -> In x Ai -> In x Ak -> k = i) /\
  (forall x, (exists k Ak, 1 <= k <= i /\ dget (a_chain (s_n PI cos tiny n) n) k = Ok Ak /\ In x Ak) <-> In x (s_n PI cos tiny i)) /\
  (forall x, In x (s_n PI cos tiny i) <-> is_extremum i x).
Proof. exact (nodes_nested tiny n i). Qed.
Print Assumptions C41_nested_extrema.
Theorem C41_huge_n_refuted n : 50 <= n -> exists A1 An,
  dget (a_chain (s_n PI cos tiny_code n) n) 1 = Ok A1 /\ dget (a_chain (s_n PI cos tiny_code n) n) n = Ok An /\ In 0%R A1 /\ In 0%R An.
Proof. exact (nodes_collapse n). Qed.
Print Assumptions C41_huge_n_refuted.
Example C41_case : 2 <= 4 /\ tiny_ok tiny_code 4 /\ 1 <= 3 <= 4.
Proof. split; [|split]; [discriminate|exact tiny_case|split; discriminate]. Qed.

(** C42 *)
Theorem C42_build_B d m npts (pts : arr R) b_inds mu : 1 <= d -> 0 <= npts -> ashape pts = [npts; d] ->
  indices_ok d m b_inds -> 1 <= m -> max_mu mu = Ok m ->
  exists B, build_B d mu pts b_inds false = Ok (B, None) /\ ashape B = [npts; zlen b_inds] /\
    forall p j, 0 <= p < npts -> 0 <= j < zlen b_inds -> acell B [p; j] = basis (nth (Z.to_nat j) b_inds []) (mrow d pts p).
Proof. exact (fun Hd Hn Hs Hb Hm Hmu => build_B_spec d m npts pts b_inds Hd Hn Hs Hb Hm mu Hmu). Qed.
Print Assumptions C42_build_B.
Theorem C42_chebyshev n t : cheb n (cos t) = cos (INR n * t).
Proof. exact (cheb_cos n t). Qed.
Print Assumptions C42_chebyshev.
Example C42_case : indices_ok 2 1 [[1; 2]; [1; 3]; [2; 1]; [3; 1]; [1; 1]] /\ max_mu (MuInt 1) = Ok 1.
Proof. exact (conj indices_case eq_refl). Qed.

(** C43 *)
Theorem C43_build_B_gradient d m npts (pts : arr R) b_inds mu : 1 <= d -> 0 <= npts -> ashape pts = [npts; d] ->
  indices_ok d m b_inds -> 1 <= m -> max_mu mu = Ok m ->
  exists B D, build_B d mu pts b_inds true = Ok (B, Some D) /\ ashape B = [npts; zlen b_inds] /\ ashape D = [zlen b_inds; d; npts] /\
    (forall p j, 0 <= p < npts -> 0 <= j < zlen b_inds -> acell B [p; j] = basis (nth (Z.to_nat j) b_inds []) (mrow d pts p)) /\
    forall p j i, 0 <= p < npts -> 0 <= j < zlen b_inds -> 0 <= i < d ->
      is_derive (fun s : R => basis (nth (Z.to_nat j) b_inds []) (replace_at (mrow d pts p) i s)) (acell pts [p; i]) (acell D [j; i; p]).
Proof. exact (build_B_gradient d m npts pts b_inds mu). Qed.
Print Assumptions C43_build_B_gradient.
Example C43_case : indices_ok 2 1 [[1; 2]; [1; 3]; [2; 1]; [3; 1]; [1; 1]] /\ max_mu (MuInt 1) = Ok 1.
Proof. exact (conj indices_case eq_refl). Qed.

(** C44 *)
Theorem C44_interpolates tiny lu solve d mu m lb ub lbl ubl tl : lu_ok lu -> solve_ok solve ->
  2 <= d -> density_ok d mu m -> tiny_ok tiny (m + 1) ->
  bound_list d (-1) lb lbl -> bound_list d 1 ub ubl -> Forall2 Rlt lbl ubl -> outshape tl ->
  exists sg n, sg_new (s_n PI cos tiny) lu d mu lb ub = Ok sg /\ 0 < n /\ ashape (sg_grid sg) = [n; d] /\ ashape (sg_B sg) = [n; n] /\ nonsingular (sg_B sg) n /\
  forall f, ashape f = n :: tl -> exists si v, si_new solve sg f = Ok si /\ si_interpolate solve si (sg_grid sg) true false false false = Ok [v] /\
    aeq v f /\ ashape (si_theta si) = n :: tl /\
    forall x : Z -> R, forall tail, inb tl tail = true ->
      (forall i, 0 <= i < n -> zsum n (fun j => acell (sg_B sg) [i; j] * x j)%R = acell f (i :: tail)) <->
      (forall j, 0 <= j < n -> x j = acell (si_theta si) (j :: tail)).
Proof. exact (fun Hlu Hs Hd Hm Ht Hl Hu HW => interpolates tiny lu solve Hlu Hs d mu m lb ub lbl ubl Hd Hm Ht Hl Hu HW tl). Qed.
Print Assumptions C44_interpolates.
(** The contracts of the two library routines can be met, and so can the other hypotheses. *)
Example C44_case : lu_ok lu_triv /\ solve_ok solve_triv /\ density_ok 3 (MuArr [1; 3; 2]) 3 /\ tiny_ok tiny_code (3 + 1) /\
  bound_list 3 (-1) (BList [0; -2; 1]%R) [0; -2; 1]%R /\ bound_list 3 1 (BScalar 5%R) [5; 5; 5]%R /\ Forall2 Rlt [0; -2; 1]%R [5; 5; 5]%R.
Proof. exact (conj lu_triv_ok (conj solve_triv_ok (conj density_case (conj tiny_case bounds_case)))). Qed.
Print Assumptions C44_case.

(** C45 *)
Theorem C45_domain_maps lb ub d N (pts : arr R) : 0 <= d -> zlen lb = d -> zlen ub = d -> Forall2 Rlt lb ub -> ashape pts = [N; d] ->
  exists c w, dom2cube lb ub pts = Ok c /\ cube2dom lb ub pts = Ok w /\ ashape c = [N; d] /\ ashape w = [N; d] /\
  (exists c', cube2dom lb ub c = Ok c' /\ ashape c' = [N; d] /\ forall p k, 0 <= p < N -> 0 <= k < d -> acell c' [p; k] = acell pts [p; k]) /\
  (exists w', dom2cube lb ub w = Ok w' /\ ashape w' = [N; d] /\ forall p k, 0 <= p < N -> 0 <= k < d -> acell w' [p; k] = acell pts [p; k]) /\
  forall p k, 0 <= p < N -> 0 <= k < d ->
    ((nth (Z.to_nat k) lb 0 <= acell pts [p; k] <= nth (Z.to_nat k) ub 0 <-> -1 <= acell c [p; k] <= 1) /\
     (-1 <= acell pts [p; k] <= 1 <-> nth (Z.to_nat k) lb 0 <= acell w [p; k] <= nth (Z.to_nat k) ub 0) /\
     (acell pts [p; k] = nth (Z.to_nat k) lb 0 -> acell c [p; k] = -1) /\ (acell pts [p; k] = nth (Z.to_nat k) ub 0 -> acell c [p; k] = 1))%R.
Proof. exact (domain_maps lb ub d N pts). Qed.
Print Assumptions C45_domain_maps.
Theorem C45_grid_in_bounds tiny lu d mu m lb ub lbl ubl : lu_ok lu ->
  2 <= d -> density_ok d mu m -> tiny_ok tiny (m + 1) ->
  bound_list d (-1) lb lbl -> bound_list d 1 ub ubl -> Forall2 Rlt lbl ubl ->
  exists sg n, sg_new (s_n PI cos tiny) lu d mu lb ub = Ok sg /\ ashape (sg_grid sg) = [n; d] /\ 0 < n /\
  (forall p k, 0 <= p < n -> 0 <= k < d -> (nth (Z.to_nat k) lbl 0 <= acell (sg_grid sg) [p; k] <= nth (Z.to_nat k) ubl 0)%R) /\
  (forall p q, 0 <= p < n -> 0 <= q < n -> mrow d (sg_grid sg) p = mrow d (sg_grid sg) q -> p = q).
Proof. exact (fun Hlu => grid_in_bounds tiny lu Hlu d mu m lb ub lbl ubl). Qed.
Print Assumptions C45_grid_in_bounds.
Example C45_case : bound_list 3 (-1) (BList [0; -2; 1]%R) [0; -2; 1]%R /\ bound_list 3 1 (BScalar 5%R) [5; 5; 5]%R /\ Forall2 Rlt [0; -2; 1]%R [5; 5; 5]%R.
Proof. exact bounds_case. Qed.

(** C46 *)
Theorem C46_gradient tiny lu solve d mu m lb ub lbl ubl : lu_ok lu -> solve_ok solve ->
  2 <= d -> density_ok d mu m -> tiny_ok tiny (m + 1) ->
  bound_list d (-1) lb lbl -> bound_list d 1 ub ubl -> Forall2 Rlt lbl ubl ->
  exists sg n, sg_new (s_n PI cos tiny) lu d mu lb ub = Ok sg /\ 0 < n /\
  forall f, ashape f = [n] -> exists si, si_new solve sg f = Ok si /\
  forall k pts, 0 <= k -> ashape pts = [k; d] -> exists v dv, si_interpolate solve si pts true true false false = Ok [v; dv] /\
    si_interpolate solve si pts false true false false = Ok [dv] /\ ashape v = [k] /\ ashape dv = [k; d] /\
    let F := smolyak_value lbl ubl (sg_pinds sg) (fun j => acell (si_theta si) [j]) in
    (forall p, 0 <= p < k -> acell v [p] = F (mrow d pts p)) /\
    forall p i, 0 <= p < k -> 0 <= i < d -> is_derive (fun s : R => F (replace_at (mrow d pts p) i s)) (acell pts [p; i]) (acell dv [p; i]).
Proof. exact (fun Hlu Hs => gradient tiny lu solve Hlu Hs d mu m lb ub lbl ubl). Qed.
Print Assumptions C46_gradient.
(** Vectors of q numbers as values: an error, unless q is 1 or the number d of dimensions; then
    entry (point, i, c) is the i-th partial derivative (of component c, of the only one if q = 1)
    times (length of side i) / (length of side c). *)
Theorem C46_vector_values tiny lu solve d mu m lb ub lbl ubl : lu_ok lu -> solve_ok solve ->
  2 <= d -> density_ok d mu m -> tiny_ok tiny (m + 1) ->
  bound_list d (-1) lb lbl -> bound_list d 1 ub ubl -> Forall2 Rlt lbl ubl ->
  exists sg n, sg_new (s_n PI cos tiny) lu d mu lb ub = Ok sg /\ 0 < n /\
  forall q f, 0 <= q -> ashape f = [n; q] -> exists si, si_new solve sg f = Ok si /\
  forall k pts, 0 <= k -> ashape pts = [k; d] ->
    let F := fun c => smolyak_value lbl ubl (sg_pinds sg) (fun j => acell (si_theta si) [j; c]) in
    let width := fun i => (nth (Z.to_nat i) ubl 0 - nth (Z.to_nat i) lbl 0)%R in
    (q <> d -> q <> 1 -> si_interpolate solve si pts true true false false = Err ValueErr) /\
    (q = d \/ q = 1 -> exists v dv, si_interpolate solve si pts true true false false = Ok [v; dv] /\ ashape v = [k; q] /\ ashape dv = [k; d; d] /\
      (forall p c, 0 <= p < k -> 0 <= c < q -> acell v [p; c] = F c (mrow d pts p)) /\
      forall p i c, 0 <= p < k -> 0 <= i < d -> 0 <= c < d ->
        is_derive (fun s : R => F (if q =? d then c else 0) (replace_at (mrow d pts p) i s)) (acell pts [p; i]) (acell dv [p; i; c] * (width c / width i))%R).
Proof. exact (fun Hlu Hs => gradient_vector_values tiny lu solve Hlu Hs d mu m lb ub lbl ubl). Qed.
Print Assumptions C46_vector_values.
(** With vectors as values the claim fails as soon as two sides of the domain differ in length. *)
Theorem C46_vector_values_refuted tiny lu solve d mu m lb ub lbl ubl : lu_ok lu -> solve_ok solve ->
  2 <= d -> density_ok d mu m -> tiny_ok tiny (m + 1) ->
  bound_list d (-1) lb lbl -> bound_list d 1 ub ubl -> Forall2 Rlt lbl ubl ->
  forall a b, 0 <= a < d -> 0 <= b < d ->
  (nth (Z.to_nat a) ubl 0 - nth (Z.to_nat a) lbl 0 <> nth (Z.to_nat b) ubl 0 - nth (Z.to_nat b) lbl 0)%R ->
  exists sg n f si, sg_new (s_n PI cos tiny) lu d mu lb ub = Ok sg /\ ashape f = [n; d] /\ si_new solve sg f = Ok si /\
  forall k pts, 0 <= k -> ashape pts = [k; d] -> exists v dv, si_interpolate solve si pts true true false false = Ok [v; dv] /\ ashape dv = [k; d; d] /\
    let F := smolyak_value lbl ubl (sg_pinds sg) (fun j => acell (si_theta si) [j; b]) in
    (forall p, 0 <= p < k -> acell v [p; b] = F (mrow d pts p)) /\
    forall p, 0 <= p < k -> ~ is_derive (fun s : R => F (replace_at (mrow d pts p) a s)) (acell pts [p; a]) (acell dv [p; a; b]).
Proof. exact (fun Hlu Hs Hd Hm Ht Hl Hu HW => gradient_vector_wrong tiny lu solve Hlu Hs d mu m lb ub lbl ubl Hd Hm Ht Hl Hu HW). Qed.
Print Assumptions C46_vector_values_refuted.
Example C46_case : lu_ok lu_triv /\ solve_ok solve_triv /\ density_ok 3 (MuArr [1; 3; 2]) 3 /\ tiny_ok tiny_code (3 + 1) /\
  bound_list 3 (-1) (BList [0; -2; 1]%R) [0; -2; 1]%R /\ bound_list 3 1 (BScalar 5%R) [5; 5; 5]%R /\ Forall2 Rlt [0; -2; 1]%R [5; 5; 5]%R.
Proof. exact C44_case. Qed.

(** C53 *)
Theorem C53_accepts_only {T} {NT : Num T} (sn : Z -> list T) lu d mu (lb ub : bound T) sg : sg_new sn lu d mu lb ub = Ok sg ->
  2 <= d /\ (exists m, density_ok d mu m) /\
  (forall b, b = lb \/ b = ub -> match b with BList l => zlen l = d | BOther => False | _ => True end).
Proof. exact (sg_new_accepts_only sn lu d mu lb ub sg). Qed.
Print Assumptions C53_accepts_only.
Theorem C53_accepts_all tiny lu d mu m lb ub lbl ubl : lu_ok lu ->
  2 <= d -> density_ok d mu m -> tiny_ok tiny (m + 1) ->
  bound_list d (-1) lb lbl -> bound_list d 1 ub ubl -> Forall2 Rlt lbl ubl ->
  exists sg, sg_new (s_n PI cos tiny) lu d mu lb ub = Ok sg /\ sg_lb sg = lbl /\ sg_ub sg = ubl.
Proof. exact (fun Hlu => sg_new_accepts tiny lu Hlu d mu m lb ub lbl ubl). Qed.
Print Assumptions C53_accepts_all.

(** C54 *)
Theorem C54_sensitivities tiny lu solve d mu m lb ub lbl ubl tl : lu_ok lu -> solve_ok solve ->
  2 <= d -> density_ok d mu m -> tiny_ok tiny (m + 1) ->
  bound_list d (-1) lb lbl -> bound_list d 1 ub ubl -> Forall2 Rlt lbl ubl -> outshape tl ->
  exists sg n, sg_new (s_n PI cos tiny) lu d mu lb ub = Ok sg /\ 0 < n /\
  forall f, ashape f = n :: tl -> exists si, si_new solve sg f = Ok si /\
  forall k pts, 0 <= k -> ashape pts = [k; d] -> exists v dth dX,
    si_interpolate solve si pts true false true true = Ok [v; dth; dX] /\ ashape v = k :: tl /\ ashape dth = [k; n] /\ ashape dX = [k; n] /\
    (forall p tail, 0 <= p < k -> inb tl tail = true ->
       acell v (p :: tail) = zsum n (fun j => acell dth [p; j] * acell (si_theta si) (j :: tail))%R /\
       acell v (p :: tail) = zsum n (fun i => acell dX [p; i] * acell f (i :: tail))%R).
Proof. exact (fun Hlu Hs Hd Hm Ht Hl Hu HW => sensitivities tiny lu solve Hlu Hs d mu m lb ub lbl ubl Hd Hm Ht Hl Hu HW tl). Qed.
Print Assumptions C54_sensitivities.
