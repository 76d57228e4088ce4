(** Model of interpolation/cartesian.py and of UCGrid, CGrid, nodes in
    interpolation/splines/__init__.py.  Definitions only. *)
From Coq Require Import ZArith List Bool.
From Verif Require Import Base ArrayModel SplineModel.
Import ListNotations.
Open Scope Z_scope.
Open Scope num_scope.

(** [numpy.cumprod(l)] *)
Fixpoint cumprod_from (acc : Z) (l : list Z) : list Z :=
  match l with [] => [] | x :: r => acc * x :: cumprod_from (acc * x) r end.
Definition cumprod (l : list Z) : list Z := cumprod_from 1 l.

Section Model.
Context {T : Type} {NT : Num T}.

(** cartesian.py 73-100 [_repeat_1d(x, K, out)] where [out] is the column [i] of a 2-d array.
    The integer division by zero raises. *)
Definition repeat_1d (x : list T) (K : Z) (i : Z) (out : arr T) : res (arr T) :=
  let N := zlen x in
  rows <- adim out 0 ;;
  if K * N =? 0 then Err ZeroDivErr
  else
    let L := rows / (K * N) in
    foldM (fun out n =>
      val <- lget x n ;;
      foldM (fun out k =>
        foldM (fun out l =>
          let ind := k * N * L + n * L + l in
          aset out [ind; i] val) (zrange L) out) (zrange K) out) (zrange N) out.

Inductive order := OrderC | OrderF.

(** cartesian.py 13-46 [cartesian(nodes, order)]: any string other than "C" means F.  With no
    node at all numpy.prod returns a float, which is not accepted as a size. *)
Definition cartesian (nodes : list (list T)) (ord : order) : res (arr T) :=
  let shapes := map zlen nodes in
  let n := zlen nodes in
  match nodes with
  | [] => Err TypeErr
  | _ =>
      let l := zprod shapes in
      let out := azeros [l; n] in
      let repetitions :=
        match ord with
        | OrderC => cumprod (1 :: removelast shapes)
        | OrderF => rev (cumprod (1 :: removelast (rev shapes)))
        end in
      foldM (fun out i => x <- lget nodes i ;; K <- lget repetitions i ;; repeat_1d x K i out)
            (zrange n) out
  end.

(** [numpy.linspace(a, b, num)] (numpy's function_base.py): a negative [num] raises; the last
    value is set to [b] when num > 1. *)
Definition linspace (a b : T) (num : Z) : res (list T) :=
  if num <? 0 then Err ValueErr
  else
    let div := num - 1 in
    let delta := b -! a in
    if 0 <? div then
      let step := delta /! n_ofZ div in
      Ok (map (fun i => if i =? div then b
                        else if n_is0 step then n_ofZ i /! n_ofZ div *! delta +! a
                        else n_ofZ i *! step +! a) (zrange num))
    else Ok (map (fun i => n_ofZ i *! delta +! a) (zrange num)).

(** cartesian.py 49-70 [mlinspace(a, b, nums, order)]. *)
Definition mlinspace (a b : list T) (nums : list Z) (ord : order) : res (arr T) :=
  nodes <- mapM (fun i => x <- lget a i ;; y <- lget b i ;; k <- lget nums i ;; linspace x y k)
                (zrange (zlen nums)) ;;
  cartesian nodes ord.

(** [numpy.array(x, dtype="int64")] of a float: truncation towards zero. *)
Definition trunc (x : T) : Z := if x <?! n_ofZ 0 then - n_floor (n_ofZ 0 -! x) else n_floor x.

(** splines/__init__.py 39-42 [nodes(grid)]: the entries 0, 1, 2 of a dimension, be it a tuple
    (a, b, n) or an array of nodes. *)
Definition nodes (grid : list (gdim T)) : res (arr T) :=
  abn <- mapM (fun g => match g with
                        | Unif a b n => Ok (a, b, n)
                        | Nonunif gc => x <- lget gc 0 ;; y <- lget gc 1 ;; z <- lget gc 2 ;; Ok (x, y, trunc z)
                        end) grid ;;
  mlinspace (map (fun t => fst (fst t)) abn) (map (fun t => snd (fst t)) abn) (map snd abn) OrderC.

(** Arguments of UCGrid and CGrid: a tuple (float, float, int), an array, anything else. *)
Inductive gspec := STuple (a b : T) (n : Z) | SArr (a : arr T) | SOther.

(** splines/__init__.py 12-20 [UCGrid( *args)]. *)
Definition ucgrid (args : list gspec) : res (list gspec) :=
  _ <- mapM (fun s => match s with
                      | STuple a b n => if negb (a <?! b) then Err AssertErr
                                        else if negb (1 <? n) then Err AssertErr else Ok tt
                      | _ => Err AssertErr
                      end) args ;;
  Ok args.

(** splines/__init__.py 23-36 [CGrid( *args)]. *)
Definition cgrid (args : list gspec) : res (list gspec) :=
  _ <- mapM (fun s => match s with
                      | SArr x => if negb (andim x =? 1) then Err AssertErr
                                  else n <- adim x 0 ;; if negb (2 <=? n) then Err AssertErr else Ok tt
                      | STuple a b n => if negb (a <?! b) then Err AssertErr
                                        else if negb (1 <? n) then Err AssertErr else Ok tt
                      | SOther => Err ValueErr
                      end) args ;;
  Ok args.

(** A returned grid as the evaluation functions see it. *)
Definition spec_dim (s : gspec) : option (gdim T) :=
  match s with
  | STuple a b n => Some (Unif a b n)
  | SArr x => match ashape x with [n] => Some (Nonunif (map (fun i => acell x [i]) (zrange n))) | _ => None end
  | SOther => None
  end.
End Model.
Arguments gspec : clear implicits.
