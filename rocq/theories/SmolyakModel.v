(** Model of interpolation/smolyak/util.py, grid.py and interp.py.  Definitions only. *)
From Coq Require Import ZArith List Bool.
From Verif Require Import Base CompleteModel.
Import ListNotations.
Open Scope Z_scope.
Open Scope num_scope.

(** ** util.py *)

(** [a.sort()] on integers (insertion sort; the result does not depend on the algorithm). *)
Fixpoint insert (x : Z) (l : list Z) : list Z :=
  match l with [] => [x] | y :: r => if x <=? y then x :: l else y :: insert x r end.
Fixpoint sort (l : list Z) : list Z := match l with [] => [] | x :: r => insert x (sort r) end.

(** [l[i] = v] for a list. *)
Fixpoint lset {A} (l : list A) (i : nat) (v : A) : list A :=
  match l, i with
  | [], _ => []
  | _ :: r, O => v :: r
  | x :: r, S i' => x :: lset r i' v
  end.

(** util.py 31-34 [while not (a[i] < a[j]): j -= 1]; reaching j < 0 is not possible when
    a[i] < a[i+1] and is mapped to an error. *)
Fixpoint find_j (a : list Z) (x : Z) (j : nat) : res nat :=
  if x <? nth j a 0 then Ok j else match j with O => Err FuelErr | S j' => find_j a x j' end.

(** util.py 27-50: the inner [while True] from i (already decremented) down to [first] = 0:
    the next list, or None when the generator returns. *)
Fixpoint scan (a : list Z) (i : nat) : res (option (list Z)) :=
  if nth i a 0 <? nth (S i) a 0 then
    j <- find_j a (nth i a 0) (length a - 1) ;;
    let a' := lset (lset a i (nth j a 0)) j (nth i a 0) in
    Ok (Some (firstn (S i) a' ++ rev (skipn (S i) a')))
  else match i with O => Ok None | S i' => scan a i' end.

(** util.py 24-50: the outer [while True]; [fuel] bounds the number of rounds. *)
Fixpoint permute_loop (fuel : nat) (a : list Z) : res (list (list Z)) :=
  match fuel with
  | O => Err FuelErr
  | S f =>
      r <- scan a (length a - 2) ;;
      match r with
      | None => Ok []
      | Some a' => rest <- permute_loop f a' ;; Ok (a' :: rest)
      end
  end.

(** util.py 6-50 [list(permute(a))]; on fewer than two elements [a[i]] runs off the list.
    The in-place changes of the argument are not modelled (the only caller passes a copy). *)
Definition permute (a : list Z) : res (list (list Z)) :=
  let a := sort a in
  if (length a <? 2)%nat then Err IndexErr
  else rest <- permute_loop (fact (length a)) a ;; Ok (a :: rest).

(** ** grid.py *)

(** [itertools.combinations_with_replacement(pool, d)] *)
Fixpoint cwr (d : nat) (pool : list Z) : list (list Z) :=
  match d with
  | O => [[]]
  | S d' =>
      (fix go (pool : list Z) : list (list Z) :=
         match pool with
         | [] => []
         | x :: r => map (cons x) (cwr d' pool) ++ go r
         end) pool
  end.

(** [itertools.product( *l)] as a list. *)
Fixpoint iproduct {A} (l : list (list A)) : list (list A) :=
  match l with
  | [] => [[]]
  | x :: r => flat_map (fun a => map (cons a) (iproduct r)) x
  end.

Definition zsum_list (l : list Z) : Z := fold_left Z.add l 0.

(** The argument [mu]: an int or a 1-d array of ints. *)
Inductive mu_t := MuInt (m : Z) | MuArr (l : list Z).

(** [max(mu)], [np.max(mu)] *)
Definition max_list (l : list Z) : res Z :=
  match l with [] => Err ValueErr | a :: r => Ok (fold_left Z.max r a) end.
Definition max_mu (mu : mu_t) : res Z := match mu with MuInt m => Ok m | MuArr l => max_list l end.

(** grid.py 53-79 [num_grid_points(d, mu)], [None] for other mu.  Simplification: the divisions
    are exact and the results integers (the code returns floats for mu = 2, 3). *)
Definition num_grid_points (d mu : Z) : option Z :=
  if mu =? 1 then Some (2 * d + 1)
  else if mu =? 2 then Some (1 + 4 * d + 4 * d * (d - 1) / 2)
  else if mu =? 3 then Some (1 + 8 * d + 12 * d * (d - 1) / 2 + 8 * d * (d - 1) * (d - 2) / 6)
  else None.

(** grid.py 82-113 [m_i(i)] *)
Definition m_i (i : Z) : res Z :=
  if i <? 0 then Err ValueErr
  else if i =? 0 then Ok 0
  else if i =? 1 then Ok 1
  else Ok (2 ^ (i - 1) + 1).

(** A dict with integer keys, the latest binding first; a missing key is a KeyError (IndexErr). *)
Definition dict (A : Type) := list (Z * A).
Fixpoint dget {A} (d : dict A) (k : Z) : res A :=
  match d with [] => Err IndexErr | (k', v) :: r => if k' =? k then Ok v else dget r k end.

(** grid.py 279-313 [phi_chain(n)] *)
Definition phi_chain (n : Z) : dict (list Z) :=
  fst (fold_left (fun s i =>
         let '(chain, curr_val) := s in
         let end_val := 2 ^ (i - 1) + 1 in
         ((i, zrange2 curr_val (end_val + 1)) :: chain, end_val + 1))
       (zrange2 3 (n + 1)) ([(2, [2; 3]); (1, [1])], 4)).

(** grid.py 321-377 [smol_inds(d, mu)] *)
Definition smol_inds (d : Z) (mu : mu_t) : res (list (list Z)) :=
  max_mu <- match mu with
            | MuInt m => Ok m
            | MuArr l => if negb (zlen l =? d) then Err ValueErr else max_list l
            end ;;
  let possible_values := zrange2 1 (max_mu + 2) in
  let poss_inds := filter (fun el => (d <? zsum_list el) && (zsum_list el <=? d + max_mu))
                          (cwr (Z.to_nat d) possible_values) in
  true_inds <- match mu with
               | MuInt _ => mapM permute poss_inds
               | MuArr l => mapM (fun val => ps <- permute val ;;
                                    Ok (filter (fun el => forallb (fun b => b) (map2 (fun e m => e <=? m + 1) el l)) ps)) poss_inds
               end ;;
  Ok (concat (true_inds ++ [[repeat 1 (Z.to_nat d)]])).

(** grid.py 380-429 [poly_inds(d, mu, inds)], [inds] given. *)
Definition poly_inds_of (mu : mu_t) (inds : list (list Z)) : res (list (list Z)) :=
  mm <- max_mu mu ;;
  let aphi := phi_chain (mm + 1) in
  l <- mapM (fun el => temp <- mapM (dget aphi) el ;; Ok (iproduct temp)) inds ;;
  Ok (concat l).
Definition poly_inds (d : Z) (mu : mu_t) : res (list (list Z)) :=
  inds <- smol_inds d mu ;; poly_inds_of mu inds.

Section Model.
Context {T : Type} {NT : Num T}.

(** [-x], |x| *)
Definition nabs (x : T) : T := if x <?! n_ofZ 0 then n_ofZ 0 -! x else x.

(** grid.py 203-235 [s_n(n)].  [np_pi], [np_cos]: numpy's constant and function; [tiny]: 1e-14.
    Simplification: n >= 1 (for smaller n the code computes with the float 2 ** (n-1)). *)
Definition s_n (np_pi : T) (np_cos : T -> T) (tiny : T) (n : Z) : list T :=
  if n =? 1 then [n_ofZ 0]
  else
    let m_i := 2 ^ (n - 1) + 1 in
    map (fun j =>
           let v := n_ofZ (-1) *! np_cos (np_pi *! (n_ofZ j -! n_ofZ 1) /! (n_ofZ m_i -! n_ofZ 1)) in
           if nabs v <?! tiny then n_ofZ 0 else v)
        (zrange2 1 (m_i + 1)).

(** [l[range(0, num, 2)]] and [l[range(1, num, 2)]] *)
Fixpoint evens {A} (l : list A) : list A := match l with [] => [] | x :: r => x :: odds r end
with odds {A} (l : list A) : list A := match l with [] => [] | _ :: r => evens r end.

(** grid.py 238-276 [a_chain(n)], with [Sn] = s_n(n). *)
Definition a_chain (Sn : list T) (n : Z) : dict (list T) :=
  fst (fold_left (fun s seq =>
         let '(chain, Sn) := s in
         ((seq, odds Sn) :: chain, evens Sn))
       (zrange_down n 2) ([(2, [n_ofZ (-1); n_ofZ 1]); (1, [n_ofZ 0])], Sn)).

(** [np.array(rows)] for a list of rows of equal length. *)
Definition of_rows (rows : list (list T)) : arr T :=
  mkArr [zlen rows; zlen (hd [] rows)]
        (fun idx => nth (Z.to_nat (nth 1 idx 0)) (nth (Z.to_nat (nth 0 idx 0)) rows []) (n_ofZ 0)).

(** grid.py 432-481 [build_grid(d, mu, inds)]; [sn n] is s_n(n). *)
Definition build_points (sn : Z -> list T) (mu : mu_t) (inds : list (list Z)) : res (list (list T)) :=
  mm <- max_mu mu ;;
  let An := a_chain (sn (mm + 1)) (mm + 1) in
  l <- mapM (fun el => temp <- mapM (dget An) el ;; Ok (iproduct temp)) inds ;;
  Ok (concat l).
Definition build_grid_of (sn : Z -> list T) (mu : mu_t) (inds : list (list Z)) : res (arr T) :=
  points <- build_points sn mu inds ;; Ok (of_rows points).
Definition build_grid (sn : Z -> list T) (d : Z) (mu : mu_t) : res (arr T) :=
  inds <- smol_inds d mu ;; build_grid_of sn mu inds.

(** [a[i, ...] = f], checked against the first dimension. *)
Definition aset_row (a : arr T) (i : Z) (f : list Z -> T) : res (arr T) :=
  match ashape a with
  | n :: _ =>
      if (0 <=? i) && (i <? n)
      then Ok (mkArr (ashape a) (fun idx => match idx with j :: r => if j =? i then f r else acell a idx | [] => acell a idx end))
      else Err IndexErr
  | [] => Err IndexErr
  end.

(** grid.py 164-200 [cheby2n(x, n, kind)] *)
Definition cheby2n (x : arr T) (n : Z) (kind : T) : res (arr T) :=
  let results := azeros ((n + 1) :: ashape x) in
  results <- aset_row results 0 (fun _ => n_ofZ 1) ;;
  results <- aset_row results 1 (fun r => acell x r *! kind) ;;
  foldM (fun results i =>
           aset_row results i (fun r => n_ofZ 2 *! acell x r *! acell results ((i - 1) :: r) -! acell results ((i - 2) :: r)))
        (zrange2 2 (n + 1)) results.

(** [reduce(mul, l)] *)
Definition reduce_mul (l : list T) : res T :=
  match l with [] => Err TypeErr | a :: r => Ok (fold_left n_mul r a) end.

(** [(concatenate([zeros((1, d, npts)), Us]))[i] * i], grid.py 541-544 *)
Definition scale_us (us : arr T) : arr T :=
  mkArr (match ashape us with n :: r => (n + 1) :: r | [] => [] end)
        (fun idx => match idx with
                    | i :: r => if i =? 0 then n_ofZ 0 *! n_ofZ 0 else acell us ((i - 1) :: r) *! n_ofZ i
                    | [] => n_ofZ 0
                    end).

(** grid.py 529-537: the matrix B from the table [Ts].  np.empty's content is taken to be 0. *)
Definition build_B_values (d : Z) (Ts : arr T) (npts : Z) (b_inds : list (list Z)) : res (arr T) :=
  let npolys := zlen b_inds in
  foldM (fun B ind =>
    comb <- lget b_inds ind ;;
    foldM (fun B p =>
      fs <- mapM (fun i => c <- lget comb i ;; aget Ts [c - 1; i; p]) (zrange d) ;;
      v <- reduce_mul fs ;;
      aset B [p; ind] v) (zrange npts) B) (zrange npolys) (azeros [npts; npolys]).

(** grid.py 546-556: the array der_B. *)
Definition build_B_deriv (d : Z) (Ts Us : arr T) (npts : Z) (b_inds : list (list Z)) : res (arr T) :=
  let npolys := zlen b_inds in
  foldM (fun D i =>
    foldM (fun D ind =>
      comb <- lget b_inds ind ;;
      foldM (fun D p =>
        fs <- mapM (fun k => c <- lget comb k ;; if i =? k then aget Us [c - 1; k; p] else aget Ts [c - 1; k; p]) (zrange d) ;;
        v <- reduce_mul fs ;;
        aset D [ind; i; p] v) (zrange npts) D) (zrange npolys) D) (zrange d) (azeros [npolys; d; npts]).

(** grid.py 484-559 [build_B(d, mu, pts, b_inds, deriv)], [b_inds] given; the second result is
    der_B when [deriv]. *)
Definition build_B (d : Z) (mu : mu_t) (pts : arr T) (b_inds : list (list Z)) (deriv : bool) : res (arr T * option (arr T)) :=
  mm <- max_mu mu ;;
  m <- m_i (mm + 1) ;;
  Ts <- cheby2n (atranspose pts) m (n_ofZ 1) ;;
  npts <- adim pts 0 ;;
  B <- build_B_values d Ts npts b_inds ;;
  if deriv then
    Us <- cheby2n (atranspose pts) m (n_ofZ 2) ;;
    D <- build_B_deriv d Ts (scale_us Us) npts b_inds ;;
    Ok (B, Some D)
  else Ok (B, None).

(** ** class SmolyakGrid *)
(** lb / ub arguments: None, a number, a list or array, anything else (a tuple, say). *)
Inductive bound := BNone | BScalar (x : T) | BList (l : list T) | BOther.
(** grid.py 725-749: anything else leaves the attribute unset, which is an AttributeError
    (NameErr) when it is first read. *)
Definition read_bound (d : Z) (dflt : T) (b : bound) : res (option (list T)) :=
  match b with
  | BNone => Ok (Some (repeat dflt (Z.to_nat d)))
  | BScalar x => Ok (Some (repeat x (Z.to_nat d)))
  | BList l => if zlen l =? d then Ok (Some l) else Err ValueErr
  | BOther => Ok None
  end.

Record sgrid := mkSG {
  sg_d : Z; sg_mu : mu_t; sg_lb : list T; sg_ub : list T; sg_inds : list (list Z); sg_pinds : list (list Z);
  sg_cube : arr T; sg_grid : arr T; sg_B : arr T; sg_BL : arr T; sg_BU : arr T }.

(** grid.py 805-820 [dom2cube(pts)] and 822-838 [cube2dom(pts)] for points given as rows.
    Simplification: the number of columns must be the number of bounds (numpy would also
    broadcast a single column). *)
Definition center (l u : T) : T := l +! (u -! l) /! n_ofZ 2.
Definition radius (l u : T) : T := (u -! l) /! n_ofZ 2.
Definition per_column (f : T -> T -> T -> T) (lb ub : list T) (pts : arr T) : res (arr T) :=
  match ashape pts with
  | [N; c] =>
      if (c =? zlen lb) && (c =? zlen ub)
      then Ok (mkArr [N; c] (fun idx => let j := Z.to_nat (nth 1 idx 0) in f (nth j lb (n_ofZ 0)) (nth j ub (n_ofZ 0)) (acell pts idx)))
      else Err ValueErr
  | _ => Err ValueErr
  end.
Definition dom2cube (lb ub : list T) (pts : arr T) : res (arr T) :=
  per_column (fun l u x => (x -! center l u) /! radius l u) lb ub pts.
Definition cube2dom (lb ub : list T) (pts : arr T) : res (arr T) :=
  per_column (fun l u x => x *! radius l u +! center l u) lb ub pts.

(** grid.py 722-784 [SmolyakGrid(d, mu, lb, ub)]; [lu]: scipy's lu(B, permute_l=True). *)
Definition sg_new (sn : Z -> list T) (lu : arr T -> res (arr T * arr T)) (d : Z) (mu : mu_t) (lb ub : bound) : res sgrid :=
  olb <- read_bound d (n_ofZ (-1)) lb ;;
  oub <- read_bound d (n_ofZ 1) ub ;;
  if d <=? 1 then Err ValueErr
  else
    _ <- match mu with
         | MuInt m => if m <? 1 then Err ValueErr else Ok tt
         | MuArr l => if existsb (fun m => m <? 1) l then Err ValueErr
                      else if negb (zlen l =? d) then Err ValueErr else Ok tt
         end ;;
    inds <- smol_inds d mu ;;
    pinds <- poly_inds_of mu inds ;;
    cube <- build_grid_of sn mu inds ;;
    match olb, oub with
    | Some lb, Some ub =>
        grid <- cube2dom lb ub cube ;;
        '(B, _) <- build_B d mu cube pinds false ;;
        '(L, U) <- lu B ;;
        Ok (mkSG d mu lb ub inds pinds cube grid B L U)
    | _, _ => Err NameErr
    end.

(** ** interp.py *)
(** numpy.linalg.solve *)
Definition solver := arr T -> arr T -> res (arr T).

(** interp.py 15-20 [find_theta(sg, f_on_grid)] *)
Definition find_theta (solve : solver) (sg : sgrid) (f : arr T) : res (arr T) :=
  y <- solve (sg_BL sg) f ;; solve (sg_BU sg) y.

(** interp.py 23-37 [SmolyakInterp]: attributes sg, f_on_grid, theta.  [update_theta] assigns
    f_on_grid before solving. *)
Record sinterp := mkSI { si_sg : sgrid; si_f : arr T; si_theta : arr T }.
Definition si_new (solve : solver) (sg : sgrid) (f : arr T) : res sinterp :=
  theta <- find_theta solve sg f ;; Ok (mkSI sg f theta).
Definition si_update (solve : solver) (si : sinterp) (f : arr T) : sinterp * res unit :=
  match find_theta solve (si_sg si) f with
  | Ok theta => (mkSI (si_sg si) f theta, Ok tt)
  | Err e => (mkSI (si_sg si) f (si_theta si), Err e)
  end.

(** [np.tensordot(theta, der_B, (0, 0)).T] for theta of one or two dimensions. *)
Definition tensordot0_T (theta D : arr T) : res (arr T) :=
  match ashape theta, ashape D with
  | [m], [m'; d; n] => if m =? m' then Ok (mkArr [n; d] (fun idx => asum m (fun j => acell theta [j] *! acell D (j :: rev idx)))) else Err ValueErr
  | [m; q], [m'; d; n] =>
      if m =? m' then Ok (mkArr [n; d; q] (fun idx => asum m (fun j => acell theta [j; nth 2 idx 0] *! acell D [j; nth 1 idx 0; nth 0 idx 0]))) else Err ValueErr
  | _, _ => Err ValueErr
  end.
(** [d_vals * radii[None, :]]: numpy matches the last axis of [d_vals] with [radii]; an axis of
    length 1 is broadcast. *)
Definition scale_last (dv : arr T) (radii : list T) : res (arr T) :=
  match rev (ashape dv) with
  | q :: r =>
      if q =? zlen radii
      then Ok (mkArr (ashape dv) (fun idx => acell dv idx *! nth (Z.to_nat (last idx 0)) radii (n_ofZ 0)))
      else if q =? 1
      then Ok (mkArr (rev r ++ [zlen radii]) (fun idx => acell dv (removelast idx ++ [0]) *! nth (Z.to_nat (last idx 0)) radii (n_ofZ 0)))
      else if zlen radii =? 1
      then Ok (mkArr (ashape dv) (fun idx => acell dv idx *! nth 0 radii (n_ofZ 0)))
      else Err ValueErr
  | [] => Err ValueErr
  end.

(** interp.py 39-133 [interpolate(pts, interp, deriv, deriv_th, deriv_X)]: the list [rets]
    (a list of one element is returned as that element, which is not modelled). *)
Definition si_interpolate (solve : solver) (si : sinterp) (pts : arr T) (interp deriv deriv_th deriv_X : bool) : res (list (arr T)) :=
  d <- adim pts 1 ;;
  let sg := si_sg si in
  let theta := si_theta si in
  tp <- dom2cube (sg_lb sg) (sg_ub sg) pts ;;
  let bb dv := build_B d (sg_mu sg) tp (sg_pinds sg) dv in
  '(newB, rets) <-
    (if deriv then
       '(nB, oD) <- bb true ;;
       vals <- adot nB theta ;;
       D <- match oD with Some D => Ok D | None => Err NameErr end ;;
       dv <- tensordot0_T theta D ;;
       dv <- scale_last dv (map2 (fun l u => n_ofZ 2 /! (u -! l)) (sg_lb sg) (sg_ub sg)) ;;
       Ok (Some nB, (if interp then [vals] else []) ++ [dv])
     else if interp then
       '(nB, _) <- bb false ;; vals <- adot nB theta ;; Ok (Some nB, [vals])
     else Ok (None, [])) ;;
  '(newB, rets) <-
    (if deriv_th then
       nB <- match newB with Some B => Ok B | None => '(B, _) <- bb false ;; Ok B end ;;
       Ok (Some nB, rets ++ [nB])
     else Ok (newB, rets)) ;;
  if deriv_X then
    nB <- match newB with Some B => Ok B | None => '(B, _) <- bb false ;; Ok B end ;;
    y <- solve (atranspose (sg_BU sg)) (atranspose nB) ;;
    x <- solve (atranspose (sg_BL sg)) y ;;
    Ok (rets ++ [atranspose x])
  else Ok rets.
End Model.
Arguments bound : clear implicits.
Arguments sgrid : clear implicits.
Arguments sinterp : clear implicits.
