(** The second stage of MlSem.v with continuations, for computing with unknown numbers, and its equality with the
    interpreter. *)
From Coq Require Import ZArith List Bool Ascii String.
From Verif Require Import Base SplineModel PySyntax StrSem MlSem.
Import ListNotations.
Open Scope string_scope.
Open Scope list_scope.
Open Scope Z_scope.

Section Cps.
Context {T B : Type}.
Variable W : ops T.
Variable P : list stmt.
(** A loop [for x in range(z): body], and then. *)
Variable F : nat -> list (string * rv T) -> string -> Z -> list stmt -> (option (rv T) -> list (string * rv T) -> res B) -> res B.
Notation rv := (rv T).
Notation renv := (list (string * rv)).

Definition numberk (v : rv) (k : T -> res B) : res B := match v with RI z => k (o_num W z) | RF x => k x | _ => Err TypeErr end.
Definition arithk (o : string) (a b : rv) (k : rv -> res B) : res B :=
  match a, b with
  | RI x, RI y => if String.eqb o "+" then k (RI (o_add W x y)) else if String.eqb o "-" then k (RI (o_sub W x y)) else Err TypeErr
  | _, _ =>
      numberk a (fun x => numberk b (fun y =>
      if String.eqb o "+" then k (RF (o_fadd W x y)) else if String.eqb o "-" then k (RF (o_fsub W x y))
      else if String.eqb o "*" then k (RF (o_fmul W x y)) else if String.eqb o "/" then bind (o_div W x y) (fun q => k (RF q))
      else if String.eqb o "//" then bind (o_floordiv W x y) (fun z => k (RZ z)) else Err TypeErr))
  end.
Definition indexk (v : rv) (l : list rv) (k : rv -> res B) : res B :=
  match v with
  | RT r => match l with [RI z] => bind (lget r (if z <? 0 then z + zlen r else z)) k | _ => Err TypeErr end
  | RA a => bind (indices l) (fun idx => bind (o_get W a idx) (fun x => k (RF x)))
  | _ => Err TypeErr
  end.

Fixpoint revk (n : nat) (E : renv) (e : expr) (k : rv -> res B) {struct n} : res B :=
  match n with
  | O => Err FuelErr
  | S n =>
      match e with
      | EName x =>
          match look E x with
          | Some v => k v
          | None => match binding P x None with Some (SDef _ _ _) => k (RFn x) | _ => Err NameErr end
          end
      | EInt z => k (RI z)
      | EBin o a b => revk n E a (fun x => revk n E b (fun y => arithk o x y k))
      | ETup l => revsk n E l (fun vs => k (RT vs))
      | ESub a l => revk n E a (fun v => revsk n E l (fun vs => indexk v vs k))
      | EAttr a s => revk n E a (fun v => match v with RA a => if String.eqb s "shape" then k (RT (map RI (ashape a))) else Err TypeErr | _ => Err TypeErr end)
      | ECall f args [] =>
          revsk n E args (fun vs =>
          match fun_name f with
          | Some s =>
              match look E s with
              | Some (RFn g) => rcallk n g vs k
              | Some _ => Err TypeErr
              | None => match r_library W s vs with Some r => bind r k | None => rcallk n s vs k end
              end
          | None => Err TypeErr
          end)
      | _ => Err TypeErr
      end
  end
with revsk (n : nat) (E : renv) (l : list expr) (k : list rv -> res B) {struct n} : res B :=
  match n with
  | O => Err FuelErr
  | S n =>
      match l with
      | [] => k []
      | EStar a :: r => revk n E a (fun v => match v with RT l => revsk n E r (fun vs => k (l ++ vs)) | _ => Err TypeErr end)
      | a :: r => revk n E a (fun v => revsk n E r (fun vs => k (v :: vs)))
      end
  end
with rcallk (n : nat) (f : string) (vs : list rv) (k : rv -> res B) {struct n} : res B :=
  match n with
  | O => Err FuelErr
  | S n =>
      bind (types vs) (fun ts =>
      bind (match resolve P f ts with
               | Some r => r
               | None => match binding P f None with Some (SDef _ ps b) => Ok (ps, b) | _ => Err NameErr end
               end) (fun pb =>
      bind (bindps (fst pb) vs) (fun E =>
      rexk n E (snd pb) (fun r _ => match r with Some v => k v | None => k RNone end))))
  end
with rexk (n : nat) (E : renv) (b : list stmt) (k : option rv -> renv -> res B) {struct n} : res B :=
  match n with
  | O => Err FuelErr
  | S n =>
      match b with
      | [] => k None E
      | s :: b =>
          let next (r : option rv) (E : renv) := match r with Some v => k (Some v) E | None => rexk n E b k end in
          match s with
          | SAssign [EName x] e => revk n E e (fun v => next None (bindv E x v))
          | SAssign [ETup [EName x; EName y]] e =>
              revk n E e (fun v => match v with RT [p; q] => next None (bindv (bindv E x p) y q) | _ => Err TypeErr end)
          | SAssign [ESub (EName x) l] e =>
              revk n E e (fun v => revsk n E l (fun vs => bind (indices vs) (fun idx =>
              match look E x, v with
              | Some (RA a), RF y => bind (o_set W a idx y) (fun a => next None (bindv E x (RA a)))
              | _, _ => Err TypeErr
              end)))
          | SFor (EName x) (ECall (EName f) [e] []) body =>
              if String.eqb f "range" then
                revk n E e (fun v => match v with RI z => F n E x z body next | _ => Err TypeErr end)
              else Err TypeErr
          | SRet (Some e) => revk n E e (fun v => next (Some v) E)
          | SImport | SPass => next None E
          | _ => Err TypeErr
          end
      end
  end.

Lemma numberk_ok v k : numberk v k = bind (number W v) k.
Proof. destruct v; reflexivity. Qed.
Lemma arithk_ok o a b k : arithk o a b k = bind (r_arith W o a b) k.
Proof.
  unfold arithk, r_arith, numberk, number, bind.
  destruct a, b; cbn; try reflexivity; repeat match goal with |- context [if ?c then _ else _] => destruct c; cbn end; try reflexivity;
    match goal with |- context [match ?m with Ok _ => _ | Err _ => _ end] => destruct m; reflexivity end.
Qed.
Lemma indexk_ok v l k : indexk v l k = bind (r_index W v l) k.
Proof.
  unfold indexk, r_index, bind. destruct v; try reflexivity.
  - destruct l as [|[z| | | | | |] [|]]; reflexivity.
  - destruct (indices l); cbn; [|reflexivity]. destruct (o_get W a a0); reflexivity.
Qed.
Lemma r_call n E f args : rev_ W P (S n) E (ECall f args []) =
  (vs <- revs W P n E args ;;
   match fun_name f with
   | Some s => match look E s with Some (RFn g) => rcall W P n g vs | Some _ => Err TypeErr | None => match r_library W s vs with Some r => r | None => rcall W P n s vs end end
   | None => Err TypeErr
   end).
Proof. reflexivity. Qed.
Lemma r_sub n E a l : rev_ W P (S n) E (ESub a l) = (v <- rev_ W P n E a ;; vs <- revs W P n E l ;; r_index W v vs).
Proof. reflexivity. Qed.
Lemma r_tup n E l : rev_ W P (S n) E (ETup l) = (vs <- revs W P n E l ;; Ok (RT vs)).
Proof. reflexivity. Qed.
Lemma r_star n E a r : revs W P (S n) E (EStar a :: r) = (v <- rev_ W P n E a ;; match v with RT l => vs <- revs W P n E r ;; Ok (l ++ vs) | _ => Err TypeErr end).
Proof. reflexivity. Qed.
Definition starred (e : expr) : bool := match e with EStar _ => true | _ => false end.
Lemma r_cons n E a r : starred a = false -> revs W P (S n) E (a :: r) = (v <- rev_ W P n E a ;; vs <- revs W P n E r ;; Ok (v :: vs)).
Proof. destruct a; try discriminate; reflexivity. Qed.
Lemma rk_cons n E a r k : starred a = false -> revsk (S n) E (a :: r) k = revk n E a (fun v => revsk n E r (fun vs => k (v :: vs))).
Proof. destruct a; try discriminate; reflexivity. Qed.
Definition target (P : list stmt) (f : string) (ts : list ty) : res (list (string * option expr) * list stmt) :=
  match resolve P f ts with Some r => r | None => match binding P f None with Some (SDef _ ps b) => Ok (ps, b) | _ => Err NameErr end end.
Lemma r_fun n f vs : rcall W P (S n) f vs =
  (ts <- types vs ;; '(ps, b) <- target P f ts ;; E <- bindps ps vs ;; '(r, _) <- rex W P n E b ;; match r with Some v => Ok v | None => Ok RNone end).
Proof. reflexivity. Qed.
Lemma rk_fun n f vs k : rcallk (S n) f vs k =
  bind (types vs) (fun ts => bind (target P f ts) (fun pb => bind (bindps (fst pb) vs) (fun E =>
    rexk n E (snd pb) (fun r _ => match r with Some v => k v | None => k RNone end)))).
Proof. reflexivity. Qed.
Definition r_stmt (n : nat) (E : renv) (s : stmt) : res (option rv * renv) :=
  match s with
  | SAssign [EName x] e => v <- rev_ W P n E e ;; Ok (None, bindv E x v)
  | SAssign [ETup [EName x; EName y]] e =>
      v <- rev_ W P n E e ;; match v with RT [p; q] => Ok (None, bindv (bindv E x p) y q) | _ => Err TypeErr end
  | SAssign [ESub (EName x) l] e =>
      v <- rev_ W P n E e ;; vs <- revs W P n E l ;; idx <- indices vs ;;
      match look E x, v with
      | Some (RA a), RF y => a <- o_set W a idx y ;; Ok (None, bindv E x (RA a))
      | _, _ => Err TypeErr
      end
  | SFor (EName x) (ECall (EName f) [e] []) body =>
      if String.eqb f "range" then
        v <- rev_ W P n E e ;; match v with RI z => rloop (fun E => rex W P n E body) x (zrange z) E | _ => Err TypeErr end
      else Err TypeErr
  | SRet (Some e) => v <- rev_ W P n E e ;; Ok (Some v, E)
  | SImport | SPass => Ok (None, E)
  | _ => Err TypeErr
  end.
Lemma r_block n E s b : rex W P (S n) E (s :: b) = ('(r, E) <- r_stmt n E s ;; match r with Some v => Ok (Some v, E) | None => rex W P n E b end).
Proof. reflexivity. Qed.
Definition rk_stmt (n : nat) (E : renv) (s : stmt) (next : option rv -> renv -> res B) : res B :=
  match s with
  | SAssign [EName x] e => revk n E e (fun v => next None (bindv E x v))
  | SAssign [ETup [EName x; EName y]] e =>
      revk n E e (fun v => match v with RT [p; q] => next None (bindv (bindv E x p) y q) | _ => Err TypeErr end)
  | SAssign [ESub (EName x) l] e =>
      revk n E e (fun v => revsk n E l (fun vs => bind (indices vs) (fun idx =>
      match look E x, v with
      | Some (RA a), RF y => bind (o_set W a idx y) (fun a => next None (bindv E x (RA a)))
      | _, _ => Err TypeErr
      end)))
  | SFor (EName x) (ECall (EName f) [e] []) body =>
      if String.eqb f "range" then
        revk n E e (fun v => match v with RI z => F n E x z body next | _ => Err TypeErr end)
      else Err TypeErr
  | SRet (Some e) => revk n E e (fun v => next (Some v) E)
  | SImport | SPass => next None E
  | _ => Err TypeErr
  end.
Lemma rk_block n E s b k : rexk (S n) E (s :: b) k = rk_stmt n E s (fun r E => match r with Some v => k (Some v) E | None => rexk n E b k end).
Proof. reflexivity. Qed.
Definition is_loop : Prop := forall n E x z body k, F n E x z body k = bind (rloop (fun E => rex W P n E body) x (zrange z) E) (fun p => k (fst p) (snd p)).
Definition agree n :=
  (forall E e k, revk n E e k = bind (rev_ W P n E e) k) /\ (forall E l k, revsk n E l k = bind (revs W P n E l) k) /\
  (forall f vs k, rcallk n f vs k = bind (rcall W P n f vs) k) /\
  (forall E b k, rexk n E b k = bind (rex W P n E b) (fun p => k (fst p) (snd p))).
Lemma agrees n : is_loop -> agree n.
Proof.
  intros HF. induction n as [|n (Ie & Is & Ic & Ix)]; [repeat split|]. split; [|split; [|split]].
  - intros E e k. destruct e; try reflexivity.
    + cbn [revk rev_]. destruct (look E s); [reflexivity|]. destruct (binding P s None) as [[]|]; reflexivity.
    + cbn [revk rev_]. rewrite Ie. destruct (rev_ W P n E e1); cbn beta iota delta [bind]; [|reflexivity]. rewrite Ie. destruct (rev_ W P n E e2); cbn beta iota delta [bind]; [|reflexivity]. apply arithk_ok.
    + destruct kws; [|reflexivity]. rewrite r_call.
      transitivity (revsk n E args (fun vs => match fun_name e with Some s => match look E s with Some (RFn g) => rcallk n g vs k | Some _ => Err TypeErr | None => match r_library W s vs with Some r => bind r k | None => rcallk n s vs k end end | None => Err TypeErr end)); [reflexivity|].
      rewrite Is. destruct (revs W P n E args) as [vs|]; cbn beta iota delta [bind]; [|reflexivity].
      destruct (fun_name e); [|reflexivity]. destruct (look E s) as [[]|]; try reflexivity; [apply Ic|]. destruct (r_library W s vs); [reflexivity|apply Ic].
    + cbn [revk rev_]. rewrite Ie. destruct (rev_ W P n E e) as [v|]; cbn beta iota delta [bind]; [|reflexivity]. destruct v; try reflexivity. destruct (String.eqb s "shape"); reflexivity.
    + rewrite r_sub. transitivity (revk n E e (fun v => revsk n E l (fun vs => indexk v vs k))); [reflexivity|].
      rewrite Ie. destruct (rev_ W P n E e); cbn beta iota delta [bind]; [|reflexivity]. rewrite Is. destruct (revs W P n E l); cbn beta iota delta [bind]; [|reflexivity]. apply indexk_ok.
    + rewrite r_tup. transitivity (revsk n E l (fun vs => k (RT vs))); [reflexivity|]. rewrite Is. destruct (revs W P n E l); reflexivity.
  - intros E l k. destruct l as [|e l]; [reflexivity|]. destruct (starred e) eqn:S.
    + destruct e; try discriminate. rewrite r_star.
      transitivity (revk n E e (fun v => match v with RT l' => revsk n E l (fun vs => k (l' ++ vs)) | _ => Err TypeErr end)); [reflexivity|].
      rewrite Ie. destruct (rev_ W P n E e) as [v|]; cbn beta iota delta [bind]; [|reflexivity]. destruct v; try reflexivity. rewrite Is. destruct (revs W P n E l); reflexivity.
    + rewrite r_cons, rk_cons by exact S. rewrite Ie. destruct (rev_ W P n E e); cbn beta iota delta [bind]; [|reflexivity]. rewrite Is. destruct (revs W P n E l); reflexivity.
  - intros f vs k. rewrite r_fun, rk_fun. destruct (types vs) as [ts|]; cbn beta iota delta [bind]; [|reflexivity].
    destruct (target P f ts) as [[ps b]|]; cbn beta iota delta [bind fst snd]; [|reflexivity].
    destruct (bindps ps vs) as [E|]; cbn beta iota delta [bind]; [|reflexivity]. rewrite Ix. destruct (rex W P n E b) as [[[v|] E']|]; reflexivity.
  - intros E b k. destruct b as [|s b]; [reflexivity|]. rewrite r_block, rk_block.
    assert (N : forall (m : res (option rv * renv)),
      bind ('(r, E0) <- m ;; match r with Some v => Ok (Some v, E0) | None => rex W P n E0 b end) (fun p => k (fst p) (snd p)) =
      bind m (fun p => match fst p with Some v => k (Some v) (snd p) | None => rexk n (snd p) b k end)).
    { intros [[[v|] E']|]; try reflexivity. cbn [bind fst snd]. now rewrite Ix. }
    rewrite N. clear N. set (next := fun (r : option rv) (E : renv) => match r with Some v => k (Some v) E | None => rexk n E b k end).
    destruct s; try reflexivity; unfold rk_stmt, r_stmt.
    + destruct ts as [|t ts]; [reflexivity|]. destruct t; try (destruct ts; reflexivity).
      * destruct ts; [|reflexivity]. rewrite Ie. destruct (rev_ W P n E e); reflexivity.
      * destruct t; try (destruct ts; reflexivity). destruct ts; [|reflexivity]. rewrite Ie. destruct (rev_ W P n E e) as [v|]; cbn beta iota delta [bind]; [|reflexivity].
        rewrite Is. destruct (revs W P n E l) as [vs|]; cbn beta iota delta [bind]; [|reflexivity]. destruct (indices vs) as [idx|]; cbn beta iota delta [bind]; [|reflexivity].
        destruct (look E s) as [[]|]; try reflexivity. destruct v; try reflexivity. destruct (o_set W a idx x); reflexivity.
      * destruct l as [|[] [|[] [|]]]; try (destruct ts; reflexivity). destruct ts; [|reflexivity]. rewrite Ie. destruct (rev_ W P n E e) as [v|]; cbn beta iota delta [bind]; [|reflexivity].
        destruct v; try reflexivity. destruct l as [|? [|? [|]]]; reflexivity.
    + destruct x; try reflexivity. destruct it; try reflexivity. destruct it; try reflexivity. destruct args as [|e [|]]; try reflexivity. destruct kws; [|reflexivity].
      destruct (String.eqb s0 "range"); [|reflexivity]. rewrite Ie. destruct (rev_ W P n E e) as [v|]; cbn beta iota delta [bind]; [|reflexivity]. destruct v; try reflexivity.
      rewrite HF. reflexivity.
    + destruct e; [|reflexivity]. rewrite Ie. destruct (rev_ W P n E e); reflexivity.
Qed.
End Cps.
Definition loop_then {T B} (W : ops T) (P : list stmt) (n : nat) (E : list (string * rv T)) (x : string) (z : Z) (body : list stmt)
  (k : option (rv T) -> list (string * rv T) -> res B) : res B :=
  bind (rloop (fun E => rex W P n E body) x (zrange z) E) (fun p => k (fst p) (snd p)).
Lemma rcall_cps {T} (W : ops T) P n f vs : rcall W P n f vs = rcallk W P (loop_then W P) n f vs Ok.
Proof. rewrite (proj1 (proj2 (proj2 (agrees W P (loop_then W P) n (fun _ _ _ _ _ _ => eq_refl))))). destruct (rcall W P n f vs); reflexivity. Qed.
Lemma rex_cps {T} (W : ops T) P n E b : rex W P n E b = rexk W P (loop_then W P) n E b (fun r E => Ok (r, E)).
Proof. rewrite (proj2 (proj2 (proj2 (agrees W P (loop_then W P) n (fun _ _ _ _ _ _ => eq_refl))))). destruct (rex W P n E b) as [[]|]; reflexivity. Qed.
