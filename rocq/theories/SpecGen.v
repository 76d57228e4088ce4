(** What it means that a generated function does what [eval_spline] of SplineModel.v says: how arrays, grids and
    points are passed to it, and what it returns and leaves in memory. *)
From Coq Require Import ZArith List Bool String.
From Verif Require Import Base SplineModel PySyntax PySem SpecText GenModel GenCall.
Import ListNotations.
Open Scope list_scope.
Open Scope Z_scope.

Section SpecGen.
Context {T : Type} {NT : Num T}.

(** [v] is the array [a] of floats. *)
Definition holds_array (h : heap T) (v : val T) (a : arr T) : Prop :=
  match v with
  | PArr l w => w = [] /\ nth_error h l = Some (OF a)
  | PLit o => o = OF a
  | _ => False
  end.
(** A dimension of the grid: a triple (a, b, n), or the array of the nodes. *)
Definition is_dim (h : heap T) (v : val T) (g : gdim T) : Prop :=
  match g with Unif a b n => v = PTup [PFlt a; PFlt b; PInt n] | Nonunif l => holds_array h v (vecT l) end.
(** One point: a tuple or a vector; many points: a matrix. *)
Definition are_points (h : heap T) (v : val T) (p : pts T) : Prop :=
  match p with P1 x => v = PTup (map PFlt x) \/ holds_array h v (vecT x) | P2 a => holds_array h v a /\ andim a = 2 end.
(** [out]: [None], or an array that is none of the other arguments. *)
Definition elsewhere (l : nat) (v : val T) : Prop := match v with PArr l' _ => l' <> l | _ => True end.
Definition is_out (h : heap T) (v : val T) (out : option (arr T)) (others : list (val T)) : Prop :=
  match out with
  | None => v = PNone
  | Some o => exists l, v = PArr l [] /\ nth_error h l = Some (OF o) /\ Forall (elsewhere l) others
  end.

(** The choices of [__eval_spline] (eval_splines.py 98-128) from the types of the arguments. *)
Definition many (p : pts T) : bool := match p with P1 _ => false | P2 _ => true end.
Definition vectors (grid : list (gdim T)) (C : arr T) : bool := andim C =? zlen grid + 1.
Definition fresh (out : option (arr T)) : bool := match out with None => true | Some _ => false end.
Definition kinds (grid : list (gdim T)) : list bool := map (fun g => match g with Unif _ _ _ => true | Nonunif _ => false end) grid.
Definition generated (k : Z) (orders : option (list (list Z))) (xm : extrap) (grid : list (gdim T)) (C : arr T) (p : pts T)
  (out : option (arr T)) : list stmt :=
  gen_body k (many p) (vectors grid C) (fresh out) (kinds grid) xm orders.
(** Derivative orders of one digit. *)
Definition small_orders (orders : option (list (list Z))) : Prop :=
  match orders with None => True | Some os => Forall (Forall (fun l => 0 <= l < 10)) os end.

(** The result [w] and the memory [h'] after the call, when the model gives the value [v] and leaves [o] in [out]. *)
Definition outcome (h : heap T) (outv : val T) (v : pyval T) (o : option (arr T)) (w : val T) (h' : heap T) : Prop :=
  match outv with
  | PArr l _ =>
      (exists om o', o = Some om /\ aeq o' om /\ h' = hset h l (OF o')) /\
      match v with VNone => w = PNone | VNum x => w = PFlt x | _ => False end
  | _ =>
      match v with
      | VArr a => exists a', aeq a' a /\ w = PArr (List.length h) [] /\ h' = h ++ [OF a']
      | VNum x => w = PFlt x /\ h' = h
      | VTuple l => w = PTup (map PFlt l) /\ exists a, h' = h ++ [OF a]
      | VNone => False
      end
  end.

(** Calling the function of a program, in the namespace of eval_splines.py. *)
Definition call_code (p : option (list stmt)) (fuel : nat) (args : list (val T)) (h : heap T) : res (val T * heap T) :=
  match p with
  | Some p => match find_def p "eval_spline" with
              | Some (ps, b) => call_body namespace library fuel ps b args [] h
              | None => Err NameErr
              end
  | None => Err TypeErr
  end.
End SpecGen.
