(** Model of interpolation/splines/eval_splines.py and of the code generated by
    interpolation/splines/codegen.py.  Definitions only.

    The generator fills two text templates (one point / many points).  The model gives the
    meaning of the generated text for any number of dimensions: a loop unrolled by the
    template over [range(d)] becomes a recursion over the list of dimensions. *)
From Coq Require Import ZArith List Bool.
From Verif Require Import Base.
Import ListNotations.
Open Scope Z_scope.
Open Scope num_scope.

(** One dimension of a grid.  splines/__init__.py 12-36, eval_splines.py 113-115:
    a tuple [(a,b,n)] is 'uniform', an array is 'nonuniform'. *)
Inductive gdim (T : Type) := Unif (a b : T) (n : Z) | Nonunif (gc : list T).
Arguments Unif {T} a b n.
Arguments Nonunif {T} gc.

(** option_types.py 29-31, 44-47; the strings of codegen.py 188, 191. *)
Inductive extrap := XConstant | XLinear | XNearest.

(** The argument [points]: a vector/tuple, or a 2-d array of rows (eval_splines.py 105). *)
Inductive pts (T : Type) := P1 (x : list T) | P2 (a : arr T).
Arguments P1 {T} x.
Arguments P2 {T} a.

(** Values returned by the API. *)
Inductive pyval (T : Type) := VNone | VNum (x : T) | VTuple (l : list T) | VArr (a : arr T).
Arguments VNone {T}.
Arguments VNum {T} x.
Arguments VTuple {T} l.
Arguments VArr {T} a.

Section Model.
Context {T : Type} {NT : Num T}.

(** codegen.py 10-28 [gen_trex]: the value of the generated expression
    [h0*(..) + h1*(..) + ...] (left associative). [c] is the leaf expression. *)
Definition add_left (l : list T) : T :=
  match l with
  | [] => n_ofZ 0                     (* unreachable: k+1 >= 2 terms *)
  | e :: l' => fold_left n_add l' e
  end.

Fixpoint enum_from {A} (i : Z) (l : list A) : list (Z * A) :=
  match l with [] => [] | a :: l' => (i, a) :: enum_from (i + 1) l' end.

Fixpoint trex (l : list (list T)) (c : list Z -> res T) (inds : list Z) : res T :=
  match l with
  | [] => c inds
  | h :: q =>
      exprs <- mapM (fun ih => v <- trex q c (inds ++ [fst ih]) ;; Ok (snd ih *! v))
                    (enum_from 0 h) ;;
      Ok (add_left exprs)
  end.

(** eval_splines.py 28-36 [Ad] (named [Cd] in the generated code, 131). *)
Definition frac6 (z : Z) : T := n_ofZ z /! n_ofZ 6.
Definition Cd (j m : Z) : T :=
  match j, m with
  | 0, 0 => frac6 (-1) | 0, 1 => frac6 3 | 0, 2 => frac6 (-3) | 0, 3 => frac6 1
  | 1, 0 => frac6 3 | 1, 1 => frac6 (-6) | 1, 2 => frac6 0 | 1, 3 => frac6 4
  | 2, 0 => frac6 (-3) | 2, 1 => frac6 3 | 2, 2 => frac6 3 | 2, 3 => frac6 1
  | 3, 0 => frac6 1 | 3, 1 => frac6 0 | 3, 2 => frac6 0 | 3, 3 => frac6 0
  | _, _ => n_ofZ 0
  end.
(** eval_splines.py 37-39 [dAd] ([dCd]): column i is [Ad[:, i-1] * (4 - i)], column 0 is 0. *)
Definition dCd (j m : Z) : T :=
  match m with
  | 0 => n_ofZ 0
  | _ => Cd j (m - 1) *! n_ofZ (4 - m)
  end.

(** codegen.py 82-141 [blending_formula]: the weights Phi_i_0 .. Phi_i_k of one dimension.
    [l] is the derivative order; [lam], [del] are the variables λ_i and δ_i. *)
Definition blend_linear (l : Z) (lam del : T) : res (list T) :=
  if l =? 0 then Ok [n_ofZ 1 -! lam; lam]                                   (* 89-92 *)
  else if l =? 1 then                                                       (* 93-96 *)
    p0 <- divE (n_ofZ (-1)) del ;; p1 <- divE (n_ofZ 1) del ;; Ok [p0; p1]
  else Ok [n_ofZ 0; n_ofZ 0].                                               (* 97-100 *)

Definition blend_cubic_j (lam m0 m1 m2 m3 : T) (j : Z) : T :=
  if lam <?! n_ofZ 0 then                                                   (* 123-126 *)
    dCd j 3 *! m2 +! Cd j 3 *! m3
  else if n_ofZ 1 <?! lam then                                              (* 127-130 *)
    (n_ofZ 3 *! Cd j 0 +! n_ofZ 2 *! Cd j 1 +! Cd j 2) *! (m2 -! m3)
    +! (Cd j 0 +! Cd j 1 +! Cd j 2 +! Cd j 3) *! m3
  else                                                                      (* 131-134 *)
    Cd j 0 *! m0 +! Cd j 1 *! m1 +! Cd j 2 *! m2 +! Cd j 3 *! m3.

Definition blend_cubic (l : Z) (lam del : T) : res (list T) :=
  if l =? 0 then                                                            (* 105-109 *)
    Ok (map (blend_cubic_j lam (lam *! lam *! lam) (lam *! lam) lam (n_ofZ 1)) [0; 1; 2; 3])
  else if l =? 1 then                                                       (* 110-114 *)
    Ok (map (blend_cubic_j lam (n_ofZ 3 *! lam *! lam *! del) (n_ofZ 2 *! lam *! del) del (n_ofZ 0))
            [0; 1; 2; 3])
  else Err NotImplErr.                                                      (* 115-116 *)

Definition blend (k l : Z) (lam del : T) : res (list T) :=
  if k =? 1 then blend_linear l lam del
  else if k =? 3 then blend_cubic l lam del
  else Err NotImplErr.                                                      (* 139-140 *)

(** codegen.py 170-183 (one point) and 307-322 (many points): "recover grid parameters".
    For a nonuniform dimension the one-point template defines neither a_i nor b_i. *)
Inductive gpar := PU (a b : T) (n : Z) (del : T) | PN (gc : list T) (N : Z) (ab : option (T * T)).

Definition recover1 (g : gdim T) : res gpar :=
  match g with
  | Unif a b n => del <- divE (n_ofZ n -! n_ofZ 1) (b -! a) ;; Ok (PU a b n del)
  | Nonunif gc => Ok (PN gc (zlen gc) None)
  end.
Definition recoverN (g : gdim T) : res gpar :=
  match g with
  | Unif a b n => del <- divE (n_ofZ n -! n_ofZ 1) (b -! a) ;; Ok (PU a b n del)
  | Nonunif gc =>
      a <- lget gc 0 ;; b <- lget gc (zlen gc - 1) ;; Ok (PN gc (zlen gc) (Some (a, b)))
  end.

(** The names a_i, b_i; using them when undefined is a NameError at compile time. *)
Definition bounds (gp : gpar) : res (T * T) :=
  match gp with
  | PU a b _ _ => Ok (a, b)
  | PN _ _ (Some ab) => Ok ab
  | PN _ _ None => Err NameErr
  end.

(** [np.searchsorted(gc, x)] (side='left'): number of leading entries smaller than [x].
    numpy uses a binary search; the two agree on sorted arrays. *)
Fixpoint searchsorted (gc : list T) (x : T) : Z :=
  match gc with
  | [] => 0
  | g :: gc' => if g <?! x then 1 + searchsorted gc' x else 0
  end.

(** codegen.py 206-222 / 344-359: cell index, barycentric coordinate and δ. *)
Definition bracket (gp : gpar) (x : T) : res (Z * T * T) :=
  match gp with
  | PU a b n del =>
      let u := (x -! a) *! del in
      let i := n_floor u in
      let i := Z.max (Z.min i (n - 2)) 0 in
      Ok (i, u -! n_ofZ i, del)
  | PN gc N _ =>
      let i := searchsorted gc x - 1 in
      let i := Z.min (Z.max i 0) (N - 2) in
      g1 <- lget gc (i + 1) ;;
      g0 <- lget gc i ;;
      let del := g1 -! g0 in
      lam <- divE (x -! g0) del ;;
      Ok (i, lam, del)
  end.

(** codegen.py 31-57 [get_values]: tensor reduction of the coefficients around cell
    [i_0, .., i_{d-1}] with the weights of derivative orders [oo]; [ix] is [] or [i_x]. *)
Definition get_value (k : Z) (brs : list (Z * T * T)) (oo : list Z) (C : arr T) (ix : list Z)
  : res T :=
  phis <- mapM2 (fun br l => let '(_, lam, del) := br in blend k l lam del) brs oo ;;
  trex phis (fun inds => aget C (map2 Z.add (map (fun br => fst (fst br)) brs) inds ++ ix)) [].

(** [orders = eval(diffs)] (eval_splines.py 109): None or a tuple of tuples. *)
Definition zeros_like (brs : list (Z * T * T)) : list Z := map (fun _ => 0) brs.

(** codegen.py 332-333: outside of [a,b]. *)
Definition outside (a b x : T) : bool := (x <?! a) || (b <?! x).

(** Result of the "extract coordinates" block of the one-point template (185-203):
    go on with coordinates [xs], or return early. *)
Inductive coords1 := Go1 (xs : list T) (out : option (arr T)) | Ret1 (v : pyval T) (out : option (arr T)).

Fixpoint extract1 (xm : extrap) (vv alloc : bool) (gps : list gpar) (pt : list T)
  (out : option (arr T)) : res coords1 :=
  match gps with
  | [] => Ok (Go1 [] out)
  | gp :: gps' =>
      match pt with
      | [] => Err IndexErr
      | x :: pt' =>
          let continue x out :=
            r <- extract1 xm vv alloc gps' pt' out ;;
            match r with
            | Go1 xs out' => Ok (Go1 (x :: xs) out')
            | Ret1 v out' => Ok (Ret1 v out')
            end in
          match xm with
          | XLinear => continue x out
          | XNearest => '(a, b) <- bounds gp ;; continue (pymax a (pymin x b)) out
          | XConstant =>
              '(a, b) <- bounds gp ;;
              if outside a b x then
                if vv then
                  match out with
                  | None => Err NameErr
                  | Some o =>
                      let o := afill0 o in                                  (* 194 *)
                      if alloc then Ok (Ret1 (VArr o) None)                 (* 195-197 *)
                      else continue x (Some o)          (* no return: falls through *)
                  end
                else Ok (Ret1 (VNum (n_ofZ 0)) out)                         (* 199-200 *)
              else continue x out
          end
      end
  end.

(** [out[i_x] = v], [out[i_x, j] = v], ... for consecutive assignments *)
Definition store_all (pre : list Z) (vals : list T) (out : arr T) : res (arr T) :=
  foldM (fun o jv => aset o (pre ++ [fst jv]) (snd jv)) (enum_from 0 vals) out.

(** Compile-time checks shared by both templates.
    codegen.py 437-438 (nonuniform only if k = 1), 139-140, 115-116; [bases_orders[i]]
    (432) needs at least one multi-index; each multi-index must have d entries. *)
Definition is_nonunif (g : gdim T) : bool := match g with Unif _ _ _ => false | _ => true end.
Definition compile_check (k : Z) (grid : list (gdim T)) (orders : option (list (list Z))) : res unit :=
  if existsb is_nonunif grid && (1 <? k) then Err ValueErr
  else if negb ((k =? 1) || (k =? 3)) then Err NotImplErr
  else match orders with
       | None => Ok tt
       | Some [] => Err IndexErr
       | Some os =>
           if negb (forallb (fun o => zlen o =? zlen grid) os) then Err IndexErr
           else if (k =? 3) && existsb (existsb (fun l => 1 <? l)) os then Err NotImplErr
           else Ok tt
       end.

(** The one-point template, codegen.py 149-291.  [alloc] is [out is None].
    Returns the value and the final content of the caller's [out] array (if any). *)
Definition eval_point (k : Z) (orders : option (list (list Z))) (xm : extrap)
  (grid : list (gdim T)) (C : arr T) (pt : list T) (out : option (arr T))
  : res (pyval T * option (arr T)) :=
  let d := zlen grid in
  let alloc := match out with None => true | Some _ => false end in
  let vv := andim C =? d + 1 in
  _ <- compile_check k grid orders ;;
  (* codegen.py 188-192: a_i and b_i are undefined for nonuniform dimensions *)
  _ <- (if existsb is_nonunif grid && match xm with XLinear => false | _ => true end
        then Err NameErr else Ok tt) ;;
  (* returning 0.0 on one path and a tuple on another cannot be typed (199-200, 268-273) *)
  _ <- (match xm, orders with
        | XConstant, Some _ => if negb vv && alloc then Err TypeErr else Ok tt
        | _, _ => Ok tt end) ;;
  n_vals <- (if vv then adim C d else Ok 0) ;;                               (* 153-154 *)
  let out0 :=                                                               (* 155-168 *)
    if alloc then
      if vv then
        match orders with
        | None => Some (azeros [n_vals])
        | Some os => Some (azeros [n_vals; zlen os])
        end
      else match orders with None => None | Some os => Some (azeros [zlen os]) end
    else out in
  gps <- mapM recover1 grid ;;                                              (* 170-183 *)
  co <- extract1 xm vv alloc gps pt out0 ;;                                 (* 185-203 *)
  match co with
  | Ret1 v o => Ok (v, if alloc then None else o)
  | Go1 xs out1 =>
      brs <- mapM2 bracket gps xs ;;                                        (* 205-222 *)
      if vv then                                                            (* 232-256 *)
        match out1 with
        | None => Err NameErr
        | Some o =>
            o' <- (match orders with
                   | None =>
                       foldM (fun o ix =>
                                v <- get_value k brs (zeros_like brs) C [ix] ;; aset o [ix] v)
                             (zrange n_vals) o
                   | Some os =>
                       foldM (fun o ix =>
                                vals <- mapM (fun oo => get_value k brs oo C [ix]) os ;;
                                store_all [ix] vals o)
                             (zrange n_vals) o
                   end) ;;
            if alloc then Ok (VArr o', None) else Ok (VNone, Some o')
        end
      else
        match orders with
        | Some os =>                                                        (* 260-281 *)
            vals <- mapM (fun oo => get_value k brs oo C []) os ;;
            if alloc then Ok (VTuple vals, None)
            else match out1 with
                 | None => Err NameErr
                 | Some o => o' <- store_all [] vals o ;; Ok (VNone, Some o')
                 end
        | None =>                                                           (* 283-288 *)
            v <- get_value k brs (zeros_like brs) C [] ;;
            Ok (VNum v, if alloc then None else out1)
        end
  end.

(** Coordinates of row [nn] in the many-points template (326-341): [None] = [continue]. *)
Fixpoint extractN (xm : extrap) (gps : list gpar) (pt : list T) : res (option (list T)) :=
  match gps with
  | [] => Ok (Some [])
  | gp :: gps' =>
      match pt with
      | [] => Err IndexErr
      | x :: pt' =>
          let continue x :=
            r <- extractN xm gps' pt' ;;
            match r with Some xs => Ok (Some (x :: xs)) | None => Ok None end in
          match xm with
          | XLinear => continue x
          | XNearest => '(a, b) <- bounds gp ;; continue (pymax a (pymin x b))
          | XConstant =>
              '(a, b) <- bounds gp ;;
              if outside a b x then Ok None else continue x
          end
      end
  end.

(** Row [nn] of a 2-d array as a list of its first [d] entries ([points[nn, i]], 328). *)
Definition row (d : Z) (p : arr T) (nn : Z) : res (list T) :=
  mapM (fun i => aget p [nn; i]) (zrange d).

(** eval_splines.py 51-91 [allocate_output] for 2-d points (the only call, codegen.py 304). *)
Definition allocate_output (d : Z) (C : arr T) (N : Z) (orders : option (list (list Z))) : res (arr T) :=
  if andim C =? d + 1 then
    nx <- adim C (andim C - 1) ;;
    match orders with
    | None => Ok (azeros [N; nx])
    | Some os => Ok (azeros [N; nx; zlen os])
    end
  else
    match orders with
    | None => Ok (azeros [N])
    | Some os => Ok (azeros [N; zlen os])
    end.

(** The loop body of the many-points template, codegen.py 324-411. *)
Definition eval_row (k : Z) (orders : option (list (list Z))) (xm : extrap) (vv : bool) (n_vals d : Z)
  (gps : list gpar) (C points : arr T) (o : arr T) (nn : Z) : res (arr T) :=
  pt <- row d points nn ;;
  co <- extractN xm gps pt ;;
  match co with
  | None => afill_row0 o nn                                                 (* 333-339 *)
  | Some xs =>
      brs <- mapM2 bracket gps xs ;;                                        (* 343-359 *)
      if vv then
        match orders with
        | None =>                                                           (* 371-375 *)
            foldM (fun o ix =>
                     v <- get_value k brs (zeros_like brs) C [ix] ;; aset o [nn; ix] v)
                  (zrange n_vals) o
        | Some os =>                                                        (* 377-389 *)
            foldM (fun o ix =>
                     vals <- mapM (fun oo => get_value k brs oo C [ix]) os ;;
                     store_all [nn; ix] vals o)
                  (zrange n_vals) o
        end
      else
        match orders with
        | Some os =>                                                        (* 394-402 *)
            vals <- mapM (fun oo => get_value k brs oo C []) os ;;
            store_all [nn] vals o
        | None =>                                                           (* 404-406 *)
            v <- get_value k brs (zeros_like brs) C [] ;; aset o [nn] v
        end
  end.

(** The many-points template, codegen.py 293-416. *)
Definition eval_rows (k : Z) (orders : option (list (list Z))) (xm : extrap)
  (grid : list (gdim T)) (C : arr T) (points : arr T) (out : option (arr T))
  : res (pyval T * option (arr T)) :=
  let d := zlen grid in
  let vv := andim C =? d + 1 in
  _ <- compile_check k grid orders ;;
  N <- adim points 0 ;;                                                     (* 297 *)
  n_vals <- (if vv then adim C d else Ok 0) ;;                               (* 299-301 *)
  o <- (match out with Some o => Ok o | None => allocate_output d C N orders end) ;;
  gps <- mapM recoverN grid ;;                                              (* 307-322 *)
  o' <- foldM (eval_row k orders xm vv n_vals d gps C points) (zrange N) o ;;
  match out with
  | None => Ok (VArr o', None)                                              (* 413-415 *)
  | Some _ => Ok (VNone, Some o')
  end.

(** eval_splines.py 98-147 [eval_spline(grid, C, points, out, k, diff, extrap_mode)]. *)
Definition eval_spline (k : Z) (orders : option (list (list Z))) (xm : extrap)
  (grid : list (gdim T)) (C : arr T) (points : pts T) (out : option (arr T))
  : res (pyval T * option (arr T)) :=
  match points with
  | P1 x => eval_point k orders xm grid C x out
  | P2 a => eval_rows k orders xm grid C a out
  end.

(** eval_splines.py 155-215 [eval_linear]: the four call forms
    [(grid,C,points[,out][,extrap_mode])]; the default mode is "linear". *)
Definition eval_linear (grid : list (gdim T)) (C : arr T) (points : pts T)
  (out : option (arr T)) (mode : option extrap) : res (pyval T * option (arr T)) :=
  match mode with
  | None => eval_spline 1 None XLinear grid C points out                    (* 164-169, 205-209 *)
  | Some m => eval_spline 1 None m grid C points out                        (* 172-186, 189-202 *)
  end.

(** eval_splines.py 221-298 [eval_cubic]. *)
Definition eval_cubic (grid : list (gdim T)) (C : arr T) (points : pts T)
  (out : option (arr T)) (mode : option extrap) : res (pyval T * option (arr T)) :=
  match mode with
  | None => eval_spline 3 None XLinear grid C points out                    (* 228-238, 282-292 *)
  | Some m => eval_spline 3 None m grid C points out                        (* 241-276 *)
  end.

End Model.
