(** Model of the names a generated function sees: interpolation/splines/eval_splines.py 28-39, 50-91 and 130-137.
    Definitions only. *)
From Coq Require Import ZArith List Bool String.
From Verif Require Import Base SplineModel PySyntax PySem.
Import ListNotations.
Open Scope list_scope.
Open Scope Z_scope.

Section Call.
Context {T : Type} {NT : Num T}.

(** [Cd] and [dCd] of the namespace (eval_splines.py 130-137): the arrays [Ad] and [dAd] of 28-39, whose
    entries are those of SplineModel.v. *)
Definition table4 (f : Z -> Z -> T) : obj T :=
  OF (mkArr [4; 4] (fun idx => match idx with [i; j] => f i j | _ => n_ofZ 0 end)).
Definition namespace : env T :=
  fun x => if String.eqb x "Cd" then Some (PLit (table4 Cd))
           else if String.eqb x "dCd" then Some (PLit (table4 dCd)) else None.

(** eval_splines.py 50-91 [allocate_output(G, C, P, O)].  The overload chooses a lambda from the types of the
    arguments; here the choice and the call are one step.  71-72 and 84-85 do not occur in generated programs. *)
Definition length_of (v : val T) : res Z := match v with PTup l => Ok (zlen l) | _ => Err TypeErr end.
Definition allocate_call (G C P od : val T) (h : heap T) : res (val T * heap T) :=
  c <- vdims h C ;; p <- vdims h P ;; d <- length_of G ;; N <- lget p 0 ;;
  if zlen c =? d + 1 then
    if zlen p =? 2 then
      n <- lget c (zlen c - 1) ;;
      match od with
      | PNone => Ok (alloc h (OF (azeros [N; n])))
      | _ => m <- length_of od ;; Ok (alloc h (OF (azeros [N; n; m])))
      end
    else
      match od with
      | PNone => Ok (alloc h (OF (azeros [N])))
      | _ => n <- lget c (zlen c - 1) ;; m <- length_of od ;; Ok (alloc h (OF (azeros [N; n; m])))
      end
  else
    if zlen p =? 2 then
      match od with
      | PNone => Ok (alloc h (OF (azeros [N])))
      | _ => m <- length_of od ;; Ok (alloc h (OF (azeros [N; m])))
      end
    else
      match od with
      | PNone => Err NotImplErr
      | _ => m <- length_of od ;; Ok (alloc h (OF (azeros [m])))
      end.
Definition library (f : string) (vs : list (val T)) (ks : list (string * val T)) (h : heap T) : res (val T * heap T) :=
  if String.eqb f "allocate_output" then
    match vs, ks with [G; C; P; od], [] => allocate_call G C P od h | _, _ => Err TypeErr end
  else Err NameErr.
End Call.
