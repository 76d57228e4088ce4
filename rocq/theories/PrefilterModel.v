(** Model of interpolation/splines/prefilter_cubic.py and of the older
    interpolation/splines/filter_cubic.py.  Definitions only.

    1-d views such as [C[ix, :, iz]] are modelled as a pair (array, line) where the line maps
    a position on the view to the full index; writes through the view update the array. *)
From Coq Require Import ZArith List Bool.
From Verif Require Import Base SplineModel.
Import ListNotations.
Open Scope Z_scope.
Open Scope num_scope.

Section Model.
Context {T : Type} {NT : Num T}.

(** Statements on the band matrix used by the solver. *)
Definition bget (b : arr T) (r c : Z) : res T := aget b [r; c].
(** [b[r,c] = v] *)
Definition bset (b : arr T) (r c : Z) (v : T) : res (arr T) := aset b [r; c] v.
(** [b[r,c] /= b[r',c']] *)
Definition bidiv (b : arr T) (r c r' c' : Z) : res (arr T) :=
  x <- bget b r c ;; y <- bget b r' c' ;; q <- divE x y ;; bset b r c q.
(** [b[r,c] -= b[r1,c1] * b[r2,c2]] *)
Definition bisubmul (b : arr T) (r c r1 c1 r2 c2 : Z) : res (arr T) :=
  x <- bget b r c ;; y <- bget b r1 c1 ;; z <- bget b r2 c2 ;; bset b r c (x -! y *! z).

(** prefilter_cubic.py 26-36 / filter_cubic.py 18-28: rows 0 and 1. *)
Definition solve_first (b : arr T) : res (arr T) :=
  b <- bidiv b 0 1 0 0 ;;
  b <- bidiv b 0 2 0 0 ;;
  b <- bidiv b 0 3 0 0 ;;
  b <- bset b 0 0 (n_ofZ 1) ;;
  b <- bisubmul b 1 1 1 0 0 1 ;;
  b <- bisubmul b 1 2 1 0 0 2 ;;
  b <- bisubmul b 1 3 1 0 0 3 ;;
  b <- bset b 0 0 (n_ofZ 0) ;;
  b <- bidiv b 1 2 1 1 ;;
  b <- bidiv b 1 3 1 1 ;;
  bset b 1 1 (n_ofZ 1).

(** prefilter_cubic.py 40-45 / filter_cubic.py 32-37: body of the forward sweep. *)
Definition solve_row (b : arr T) (row : Z) : res (arr T) :=
  b <- bisubmul b row 1 row 0 (row - 1) 2 ;;
  b <- bisubmul b row 3 row 0 (row - 1) 3 ;;
  b <- bidiv b row 2 row 1 ;;
  b <- bidiv b row 3 row 1 ;;
  b <- bset b row 0 (n_ofZ 0) ;;
  bset b row 1 (n_ofZ 1).

(** prefilter_cubic.py 48-53 / filter_cubic.py 40-45: last row. *)
Definition solve_last (M : Z) (b : arr T) : res (arr T) :=
  b <- bisubmul b (M + 1) 1 (M + 1) 0 (M - 1) 2 ;;
  b <- bisubmul b (M + 1) 3 (M + 1) 0 (M - 1) 3 ;;
  b <- bisubmul b (M + 1) 2 (M + 1) 1 M 2 ;;
  b <- bisubmul b (M + 1) 3 (M + 1) 1 M 3 ;;
  b <- bidiv b (M + 1) 3 (M + 1) 2 ;;
  bset b (M + 1) 2 (n_ofZ 1).

(** prefilter_cubic.py 57-58 / filter_cubic.py 49-50: back substitution on the view
    [coefs = (C, ln)]. *)
Definition back_row (b : arr T) (ln : Z -> list Z) (C : arr T) (row : Z) : res (arr T) :=
  x <- bget b row 3 ;; y <- bget b row 2 ;; c <- aget C (ln (row + 1)) ;;
  aset C (ln row) (x -! y *! c).

(** prefilter_cubic.py 19-61 / filter_cubic.py 11-53 [solve_deriv_interp_1d(bands, coefs)];
    [nc] is [coefs.shape[0]].  Returns the final bands and the final array [C]. *)
Definition solve_deriv_interp_1d (b : arr T) (C : arr T) (ln : Z -> list Z) (nc : Z)
  : res (arr T * arr T) :=
  let M := nc - 2 in
  b <- solve_first b ;;
  b <- foldM solve_row (zrange2 2 (M + 1)) b ;;
  b <- solve_last M b ;;
  v <- bget b (M + 1) 3 ;;
  C <- aset C (ln (M + 1)) v ;;
  C <- foldM (back_row b ln) (zrange_down M 0) C ;;
  b03 <- bget b 0 3 ;; b01 <- bget b 0 1 ;; b02 <- bget b 0 2 ;;
  c1 <- aget C (ln 1) ;; c2 <- aget C (ln 2) ;;
  C <- aset C (ln 0) (b03 -! b01 *! c1 -! b02 *! c2) ;;
  Ok (b, C).

(** prefilter_cubic.py 15 [basis]. *)
Definition basis (j : Z) : T :=
  match j with
  | 0 => n_ofZ 1 /! n_ofZ 6 | 1 => n_ofZ 2 /! n_ofZ 3 | 2 => n_ofZ 1 /! n_ofZ 6 | _ => n_ofZ 0
  end.

(** prefilter_cubic.py 71, 74: [abcd_left], [abcd_right]. *)
Definition abcd (del : T) (i : Z) : T :=
  match i with
  | 0 => n_ofZ 1 *! del *! del | 1 => n_ofZ (-2) *! del *! del | 2 => n_ofZ 1 *! del *! del
  | _ => n_ofZ 0
  end.

(** prefilter_cubic.py 76-83: fill the bands; [data] reads the data view. *)
Definition fill_bands (del : T) (data : Z -> res T) (M : Z) (b : arr T) : res (arr T) :=
  b <- foldM (fun b i =>
                b <- bset b 0 i (abcd del i) ;; bset b (M + 1) i (abcd del i))
             (zrange 4) b ;;
  foldM (fun b i =>
           foldM (fun b j =>
                    b <- bset b (i + 1) j (basis j) ;;
                    v <- data i ;;
                    bset b (i + 1) 3 v)
                 (zrange 3) b)
        (zrange M) b.

(** prefilter_cubic.py 64-85 [find_coefs_1d(δ, data, coefs, bands)]. *)
Definition find_coefs_1d (del : T) (data : Z -> res T) (C : arr T) (ln : Z -> list Z) (nc : Z)
  (b : arr T) : res (arr T * arr T) :=
  M <- adim b 0 ;;
  let M := M - 2 in
  b <- fill_bands del data M b ;;
  solve_deriv_interp_1d b C ln nc.

(** Nested loops [for i0 in range(n0): for i1 in range(n1): ...], innermost last. *)
Fixpoint nest {S} (sizes : list Z) (body : list Z -> S -> res S) (s : S) : res S :=
  match sizes with
  | [] => body [] s
  | n :: q => foldM (fun s i => nest q (fun r => body (i :: r)) s) (zrange n) s
  end.

(** prefilter_cubic.py 109, 124-125, 148-150, 182-185:
    [dinv_i = (grid[i][1] - grid[i][0]) / grid[i][2]] (taken literally on arrays too). *)
Definition dinv (g : gdim T) : res T :=
  match g with
  | Unif a b n => divE (b -! a) (n_ofZ n)
  | Nonunif gc => g1 <- lget gc 1 ;; g0 <- lget gc 0 ;; g2 <- lget gc 2 ;; divE (g1 -! g0) g2
  end.

(** Which dinv is used by the pass over dimension k: prefilter_cubic.py 136 and 141 use
    dinv_0 twice when d = 2; otherwise pass k uses dinv_k. *)
Definition pass_dinv (d k : Z) : Z := if d =? 2 then 0 else k.

(** One pass "solve in direction k": loops over the indices of the directions before k
    (sizes N_j = M_j + 2) and after k (sizes M_j); the view is
    [pre, :, post] (plus the trailing indices [suf] of a component of vector-valued data).
    prefilter_cubic.py 133-136, 138-141, 160-163, 165-169, 171-175, 197-229.  In the first pass
    data is a view of D (134-136 ..), in the others of C itself.  The 1-d code (115-117)
    is the same pass with no surrounding loop. *)
Definition filter_pass (del : T) (M : Z) (src : option (arr T)) (pre post suf : list Z) (nc : Z)
  (C : arr T) : res (arr T) :=
  let ns := length pre in
  r <- nest (map (fun m => m + 2) pre ++ post)
         (fun idx (s : arr T * arr T) =>
            let '(b, C) := s in
            let ln i := firstn ns idx ++ [i] ++ skipn ns idx ++ suf in
            let data i := aget (match src with Some D => D | None => C end) (ln i) in
            find_coefs_1d del data C ln nc b)
         (azeros [M + 2; 4], C) ;;
  Ok (snd r).

(** All passes.  [done] = sizes of the directions already treated. *)
Fixpoint filter_passes (d : Z) (dinvs : list T) (D : arr T) (suf : list Z)
  (don todo : list Z) (C : arr T) : res (arr T) :=
  match todo with
  | [] => Ok C
  | M :: rest =>
      let k := zlen don in
      del <- lget dinvs (pass_dinv d k) ;;
      nc <- adim C k ;;
      C <- filter_pass del M (match don with [] => Some D | _ => None end) don rest suf nc C ;;
      filter_passes d dinvs D suf (don ++ [M]) rest C
  end.

(** prefilter_cubic.py 106-231: the in-place filter for data with d indices
    (D[..., suf] when called from the vector-valued recursion 97-104). *)
Definition filter_scalar (grid : list (gdim T)) (D : arr T) (suf : list Z) (C : arr T)
  : res (arr T) :=
  let d := zlen grid in
  if (d <? 1) || (4 <? d) then Err TypeErr
  else
    dinvs <- mapM dinv grid ;;
    filter_passes d dinvs D suf [] (firstn (length grid) (ashape D)) C.

(** prefilter_cubic.py 97-104: one trailing dimension per recursion. *)
Fixpoint filter_vv (extra : nat) (grid : list (gdim T)) (D : arr T) (suf : list Z) (C : arr T)
  : res (arr T) :=
  match extra with
  | O => filter_scalar grid D suf C
  | S e =>
      n_x <- adim C (zlen grid + Z.of_nat e) ;;
      foldM (fun C ix => filter_vv e grid D (ix :: suf) C) (zrange n_x) C
  end.

(** prefilter_cubic.py 93-231 [_filter_cubic(grid, D, C)].
    Views of D and C must have the same number of dimensions. *)
Definition filter_inplace (grid : list (gdim T)) (D C : arr T) : res (arr T) :=
  if negb (andim D =? andim C) || (andim D <? zlen grid) then Err TypeErr
  else filter_vv (length (ashape D) - length grid) grid D [] C.

(** prefilter_cubic.py 235-309 [_filter_cubic(grid, D)]: allocate and filter. *)
Definition coef_shape (d : nat) (sh : list Z) : list Z :=
  map (fun n => n + 2) (firstn d sh) ++ skipn d sh.
Definition filter_alloc (grid : list (gdim T)) (D : arr T) : res (arr T) :=
  let d := zlen grid in
  if (d <? 1) || (4 <? d) then Err TypeErr
  else if (andim D =? d) || (andim D =? d + 1)
  then filter_inplace grid D (azeros (coef_shape (length grid) (ashape D)))
  else Err TypeErr.

(** prefilter_cubic.py 312-317 [filter_cubic(grid, D[, C])]: value returned, final [C]. *)
Definition filter_cubic (grid : list (gdim T)) (D : arr T) (out : option (arr T))
  : res (pyval T * option (arr T)) :=
  match out with
  | None => C <- filter_alloc grid D ;; Ok (VArr C, None)
  | Some C => C <- filter_inplace grid D C ;; Ok (VNone, Some C)
  end.

(** prefilter_cubic.py 329-356 [prefilter(grid, V, out=None, k=3)]; k other than 1, 3 is
    rejected (the overload returns None). *)
Definition prefilter (grid : list (gdim T)) (V : arr T) (out : option (arr T)) (k : Z)
  : res (pyval T * option (arr T)) :=
  if k =? 1 then Ok (VArr V, out)
  else if k =? 3 then filter_cubic grid V out
  else Err TypeErr.

(** ** The older filter_cubic.py *)

(** filter_cubic.py 56-85 [find_coefs_1d(delta_inv, M, data, coefs)]: fresh bands. *)
Definition find_coefs_1d_old (del : T) (M : Z) (data : Z -> res T) (C : arr T)
  (ln : Z -> list Z) (nc : Z) : res (arr T) :=
  b <- fill_bands del data M (azeros [M + 2; 4]) ;;
  r <- solve_deriv_interp_1d b C ln nc ;;
  Ok (snd r).

(** filter_cubic.py 94, 109-117, 134-146, 165-187: same passes, [dinv[k]] in direction k. *)
Definition filter_pass_old (del : T) (M : Z) (src : option (arr T)) (pre post : list Z) (nc : Z)
  (C : arr T) : res (arr T) :=
  let ns := length pre in
  nest (map (fun m => m + 2) pre ++ post)
    (fun idx C =>
       let ln i := firstn ns idx ++ [i] ++ skipn ns idx in
       let data i := aget (match src with Some D => D | None => C end) (ln i) in
       find_coefs_1d_old del M data C ln nc) C.

Fixpoint filter_passes_old (dinvs : list T) (D : arr T) (don todo : list Z) (C : arr T)
  : res (arr T) :=
  match todo with
  | [] => Ok C
  | M :: rest =>
      del <- lget dinvs (zlen don) ;;
      nc <- adim C (zlen don) ;;
      C <- filter_pass_old del M (match don with [] => Some D | _ => None end) don rest nc C ;;
      filter_passes_old dinvs D (don ++ [M]) rest C
  end.

(** filter_cubic.py 88-189, 209-217 [filter_data(dinv, data)]: [None] for d >= 5. *)
Definition filter_data (dinvs : list T) (D : arr T) : res (option (arr T)) :=
  let d := zlen dinvs in
  if (d <? 1) || (4 <? d) then Ok None
  else if negb (andim D =? d) then Err TypeErr
  else
    C <- filter_passes_old dinvs D [] (ashape D) (azeros (map (fun n => n + 2) (ashape D))) ;;
    Ok (Some C).

End Model.
