(** Model of interpolation/complete_poly.py.  Definitions only. *)
From Coq Require Import ZArith List Bool.
From Verif Require Import Base.
Import ListNotations.
Open Scope Z_scope.
Open Scope num_scope.

(** complete_poly.py 39-73 [n_complete(n, d)].  Simplification: unbounded integers instead of
    64-bit ones. *)
Definition n_complete (n d : Z) : Z :=
  fst (fold_left (fun s i =>
         let '(out, denom) := s in
         let denom := denom * (i + 1) in
         let tmp := fold_left (fun tmp j => tmp * (n + j)) (zrange (i + 1)) 1 in
         (out + tmp / denom, denom)) (zrange d) (1, 1)).

Section Model.
Context {T : Type} {NT : Num T}.

(** [for i in range(lo, hi): body] over a loop state that may raise. *)
Definition for_ {S} (lo hi : Z) (body : Z -> S -> res S) (s : S) : res S :=
  foldM (fun s i => body i s) (zrange2 lo hi) s.

(** State of the enumeration loops: the output and [ix]. *)
Definition cstate := (arr T * Z)%type.

(** [ix += 1; out[ix] = v] *)
Definition put (v : res T) (s : cstate) : res cstate :=
  let '(out, ix) := s in
  let ix := ix + 1 in
  v <- v ;; out <- aset out [ix] v ;; Ok (out, ix).

(** [ix += 1; for k in range(nobs): out[ix, k] = v(k)] *)
Definition put_row (nobs : Z) (v : Z -> res T) (s : cstate) : res cstate :=
  let '(out, ix) := s in
  let ix := ix + 1 in
  out <- for_ 0 nobs (fun k out => w <- v k ;; aset out [ix; k] w) out ;; Ok (out, ix).

Definition out_of (s : res cstate) : res (arr T) := s <- s ;; Ok (fst s).

(** [return] in the middle of a function: later code is skipped. *)

(** complete_poly.py 126-197 [_complete_poly_impl_vec(z, d, out)]; returns the updated [out]. *)
Definition complete_poly_impl_vec (z : arr T) (d : Z) (out : arr T) : res (arr T) :=
  nvar <- adim z 0 ;;
  out <- aset out [0] (n_ofZ 1) ;;
  out <- (if 1 <=? d then for_ 1 (nvar + 1) (fun i out => v <- aget z [i - 1] ;; aset out [i] v) out else Ok out) ;;
  if d =? 1 then Ok out
  else
    let p2 i1 i2 := a <- aget z [i1] ;; b <- aget z [i2] ;; Ok (a *! b) in
    let p3 i1 i2 i3 := a <- aget z [i1] ;; b <- aget z [i2] ;; c <- aget z [i3] ;; Ok (a *! b *! c) in
    let p4 i1 i2 i3 i4 := a <- aget z [i1] ;; b <- aget z [i2] ;; c <- aget z [i3] ;; e <- aget z [i4] ;; Ok (a *! b *! c *! e) in
    let p5 i1 i2 i3 i4 i5 :=
      a <- aget z [i1] ;; b <- aget z [i2] ;; c <- aget z [i3] ;; e <- aget z [i4] ;; f <- aget z [i5] ;; Ok (a *! b *! c *! e *! f) in
    let s := (out, nvar) in
    if d =? 2 then
      out_of (for_ 0 nvar (fun i1 s => for_ i1 nvar (fun i2 s => put (p2 i1 i2) s) s) s)
    else if d =? 3 then
      out_of (for_ 0 nvar (fun i1 s => for_ i1 nvar (fun i2 s =>
        s <- put (p2 i1 i2) s ;;
        for_ i2 nvar (fun i3 s => put (p3 i1 i2 i3) s) s) s) s)
    else if d =? 4 then
      out_of (for_ 0 nvar (fun i1 s => for_ i1 nvar (fun i2 s =>
        s <- put (p2 i1 i2) s ;;
        for_ i2 nvar (fun i3 s =>
          s <- put (p3 i1 i2 i3) s ;;
          for_ i3 nvar (fun i4 s => put (p4 i1 i2 i3 i4) s) s) s) s) s)
    else if d =? 5 then
      out_of (for_ 0 nvar (fun i1 s => for_ i1 nvar (fun i2 s =>
        s <- put (p2 i1 i2) s ;;
        for_ i2 nvar (fun i3 s =>
          s <- put (p3 i1 i2 i3) s ;;
          for_ i3 nvar (fun i4 s =>
            s <- put (p4 i1 i2 i3 i4) s ;;
            for_ i4 nvar (fun i5 s => put (p5 i1 i2 i3 i4 i5) s) s) s) s) s) s)
    else Ok out.

(** complete_poly.py 201-286 [_complete_poly_impl(z, d, out)]. *)
Definition complete_poly_impl (z : arr T) (d : Z) (out : arr T) : res (arr T) :=
  nvar <- adim z 0 ;;
  nobs <- adim z 1 ;;
  out <- for_ 0 nobs (fun k out => aset out [0; k] (n_ofZ 1)) out ;;
  out <- (if 1 <=? d
          then for_ 1 (nvar + 1) (fun i out => for_ 0 nobs (fun k out => v <- aget z [i - 1; k] ;; aset out [i; k] v) out) out
          else Ok out) ;;
  if d =? 1 then Ok out
  else
    let p2 i1 i2 k := a <- aget z [i1; k] ;; b <- aget z [i2; k] ;; Ok (a *! b) in
    let p3 i1 i2 i3 k := a <- aget z [i1; k] ;; b <- aget z [i2; k] ;; c <- aget z [i3; k] ;; Ok (a *! b *! c) in
    let p4 i1 i2 i3 i4 k := a <- aget z [i1; k] ;; b <- aget z [i2; k] ;; c <- aget z [i3; k] ;; e <- aget z [i4; k] ;; Ok (a *! b *! c *! e) in
    let p5 i1 i2 i3 i4 i5 k :=
      a <- aget z [i1; k] ;; b <- aget z [i2; k] ;; c <- aget z [i3; k] ;; e <- aget z [i4; k] ;; f <- aget z [i5; k] ;; Ok (a *! b *! c *! e *! f) in
    let s := (out, nvar) in
    if d =? 2 then
      out_of (for_ 0 nvar (fun i1 s => for_ i1 nvar (fun i2 s => put_row nobs (p2 i1 i2) s) s) s)
    else if d =? 3 then
      out_of (for_ 0 nvar (fun i1 s => for_ i1 nvar (fun i2 s =>
        s <- put_row nobs (p2 i1 i2) s ;;
        for_ i2 nvar (fun i3 s => put_row nobs (p3 i1 i2 i3) s) s) s) s)
    else if d =? 4 then
      out_of (for_ 0 nvar (fun i1 s => for_ i1 nvar (fun i2 s =>
        s <- put_row nobs (p2 i1 i2) s ;;
        for_ i2 nvar (fun i3 s =>
          s <- put_row nobs (p3 i1 i2 i3) s ;;
          for_ i3 nvar (fun i4 s => put_row nobs (p4 i1 i2 i3 i4) s) s) s) s) s)
    else if d =? 5 then
      out_of (for_ 0 nvar (fun i1 s => for_ i1 nvar (fun i2 s =>
        s <- put_row nobs (p2 i1 i2) s ;;
        for_ i2 nvar (fun i3 s =>
          s <- put_row nobs (p3 i1 i2 i3) s ;;
          for_ i3 nvar (fun i4 s =>
            s <- put_row nobs (p4 i1 i2 i3 i4) s ;;
            for_ i4 nvar (fun i5 s => put_row nobs (p5 i1 i2 i3 i4 i5) s) s) s) s) s) s)
    else Ok out.

(** complete_poly.py 79-120 [complete_polynomial(z, d)]; [z] is an array already. *)
Definition complete_polynomial (z : arr T) (d : Z) : res (arr T) :=
  if negb (0 <=? d) then Err AssertErr
  else if 5 <? d then Err ValueErr
  else
    match ashape z with
    | [nvar] => complete_poly_impl_vec z d (azeros [n_complete nvar d])
    | [nvar; nobs] => complete_poly_impl z d (azeros [n_complete nvar d; nobs])
    | _ => Err ValueErr
    end.

(** [x ** k] for an integer k >= 0, as a repeated product. *)
Definition npow (x : T) (k : Z) : T := Nat.iter (Z.to_nat k) (fun a => a *! x) (n_ofZ 1).

(** [(c+1, 1.0) if i == der else (c, z[i])] *)
Definition der_step (zi : res T) (i der c : Z) : res (Z * T) :=
  if i =? der then Ok (c + 1, n_ofZ 1) else v <- zi ;; Ok (c, v).
(** [c * t * z[der] ** (c - 1) if c > 0 else 0.0], [t] being the function of the leading
    factor c that multiplies it by t1, t2, ... *)
Definition der_term (zder : res T) (c : Z) (t : T -> T) : res T :=
  if 0 <? c then w <- zder ;; Ok (t (n_ofZ c) *! npow w (c - 1)) else Ok (n_ofZ 0).

(** complete_poly.py 345-450 [_complete_poly_der_impl_vec(z, d, der, out)]. *)
Definition complete_poly_der_impl_vec (z : arr T) (d der : Z) (out : arr T) : res (arr T) :=
  nvar <- adim z 0 ;;
  out <- aset out [0] (n_ofZ 0) ;;
  out <- (if 1 <=? d
          then out <- for_ 0 nvar (fun i out => aset out [i + 1] (n_ofZ 0)) out ;; aset out [der + 1] (n_ofZ 1)
          else Ok out) ;;
  if d =? 1 then Ok out
  else
    let zd := aget z [der] in
    let step i c := der_step (aget z [i]) i der c in
    let s := (out, nvar) in
    if d =? 2 then
      out_of (for_ 0 nvar (fun i1 s => '(c1, t1) <- step i1 0 ;; for_ i1 nvar (fun i2 s =>
        '(c2, t2) <- step i2 c1 ;;
        put (der_term zd c2 (fun c => c *! t1 *! t2)) s) s) s)
    else if d =? 3 then
      out_of (for_ 0 nvar (fun i1 s => '(c1, t1) <- step i1 0 ;; for_ i1 nvar (fun i2 s =>
        '(c2, t2) <- step i2 c1 ;;
        s <- put (der_term zd c2 (fun c => c *! t1 *! t2)) s ;;
        for_ i2 nvar (fun i3 s =>
          '(c3, t3) <- step i3 c2 ;;
          put (der_term zd c3 (fun c => c *! t1 *! t2 *! t3)) s) s) s) s)
    else if d =? 4 then
      out_of (for_ 0 nvar (fun i1 s => '(c1, t1) <- step i1 0 ;; for_ i1 nvar (fun i2 s =>
        '(c2, t2) <- step i2 c1 ;;
        s <- put (der_term zd c2 (fun c => c *! t1 *! t2)) s ;;
        for_ i2 nvar (fun i3 s =>
          '(c3, t3) <- step i3 c2 ;;
          s <- put (der_term zd c3 (fun c => c *! t1 *! t2 *! t3)) s ;;
          for_ i3 nvar (fun i4 s =>
            '(c4, t4) <- step i4 c3 ;;
            put (der_term zd c4 (fun c => c *! t1 *! t2 *! t3 *! t4)) s) s) s) s) s)
    else if d =? 5 then
      out_of (for_ 0 nvar (fun i1 s => '(c1, t1) <- step i1 0 ;; for_ i1 nvar (fun i2 s =>
        '(c2, t2) <- step i2 c1 ;;
        s <- put (der_term zd c2 (fun c => c *! t1 *! t2)) s ;;
        for_ i2 nvar (fun i3 s =>
          '(c3, t3) <- step i3 c2 ;;
          s <- put (der_term zd c3 (fun c => c *! t1 *! t2 *! t3)) s ;;
          for_ i3 nvar (fun i4 s =>
            '(c4, t4) <- step i4 c3 ;;
            s <- put (der_term zd c4 (fun c => c *! t1 *! t2 *! t3 *! t4)) s ;;
            for_ i4 nvar (fun i5 s =>
              '(c5, t5) <- step i5 c4 ;;
              put (der_term zd c5 (fun c => c *! t1 *! t2 *! t3 *! t4 *! t5)) s) s) s) s) s) s)
    else Ok out.

(** complete_poly.py 454-590 [_complete_poly_der_impl(z, d, der, out)]. *)
Definition complete_poly_der_impl (z : arr T) (d der : Z) (out : arr T) : res (arr T) :=
  nvar <- adim z 0 ;;
  nobs <- adim z 1 ;;
  out <- for_ 0 nobs (fun k out => aset out [0; k] (n_ofZ 0)) out ;;
  out <- (if 1 <=? d
          then out <- for_ 0 nvar (fun i out => for_ 0 nobs (fun k out => aset out [i + 1; k] (n_ofZ 0)) out) out ;;
               for_ 0 nobs (fun k out => aset out [der + 1; k] (n_ofZ 1)) out
          else Ok out) ;;
  if d =? 1 then Ok out
  else
    let step k i c := der_step (aget z [i; k]) i der c in
    let term2 i1 i2 k :=
      '(c1, t1) <- step k i1 0 ;; '(c2, t2) <- step k i2 c1 ;;
      der_term (aget z [der; k]) c2 (fun c => c *! t1 *! t2) in
    let term3 i1 i2 i3 k :=
      '(c1, t1) <- step k i1 0 ;; '(c2, t2) <- step k i2 c1 ;; '(c3, t3) <- step k i3 c2 ;;
      der_term (aget z [der; k]) c3 (fun c => c *! t1 *! t2 *! t3) in
    let term4 i1 i2 i3 i4 k :=
      '(c1, t1) <- step k i1 0 ;; '(c2, t2) <- step k i2 c1 ;; '(c3, t3) <- step k i3 c2 ;; '(c4, t4) <- step k i4 c3 ;;
      der_term (aget z [der; k]) c4 (fun c => c *! t1 *! t2 *! t3 *! t4) in
    let term5 i1 i2 i3 i4 i5 k :=
      '(c1, t1) <- step k i1 0 ;; '(c2, t2) <- step k i2 c1 ;; '(c3, t3) <- step k i3 c2 ;; '(c4, t4) <- step k i4 c3 ;;
      '(c5, t5) <- step k i5 c4 ;;
      der_term (aget z [der; k]) c5 (fun c => c *! t1 *! t2 *! t3 *! t4 *! t5) in
    let s := (out, nvar) in
    if d =? 2 then
      out_of (for_ 0 nvar (fun i1 s => for_ i1 nvar (fun i2 s => put_row nobs (term2 i1 i2) s) s) s)
    else if d =? 3 then
      out_of (for_ 0 nvar (fun i1 s => for_ i1 nvar (fun i2 s =>
        s <- put_row nobs (term2 i1 i2) s ;;
        for_ i2 nvar (fun i3 s => put_row nobs (term3 i1 i2 i3) s) s) s) s)
    else if d =? 4 then
      out_of (for_ 0 nvar (fun i1 s => for_ i1 nvar (fun i2 s =>
        s <- put_row nobs (term2 i1 i2) s ;;
        for_ i2 nvar (fun i3 s =>
          s <- put_row nobs (term3 i1 i2 i3) s ;;
          for_ i3 nvar (fun i4 s => put_row nobs (term4 i1 i2 i3 i4) s) s) s) s) s)
    else if d =? 5 then
      out_of (for_ 0 nvar (fun i1 s => for_ i1 nvar (fun i2 s =>
        s <- put_row nobs (term2 i1 i2) s ;;
        for_ i2 nvar (fun i3 s =>
          s <- put_row nobs (term3 i1 i2 i3) s ;;
          for_ i3 nvar (fun i4 s =>
            s <- put_row nobs (term4 i1 i2 i3 i4) s ;;
            for_ i4 nvar (fun i5 s => put_row nobs (term5 i1 i2 i3 i4 i5) s) s) s) s) s) s)
    else Ok out.

(** complete_poly.py 292-341 [complete_polynomial_der(z, d, der)]. *)
Definition complete_polynomial_der (z : arr T) (d der : Z) : res (arr T) :=
  if negb (0 <=? d) then Err AssertErr
  else if negb (0 <=? der) then Err AssertErr
  else if 5 <? d then Err ValueErr
  else
    match ashape z with
    | [nvar] => if negb (der <? nvar) then Err AssertErr
                else complete_poly_der_impl_vec z d der (azeros [n_complete nvar d])
    | [nvar; nobs] => if negb (der <? nvar) then Err AssertErr
                else complete_poly_der_impl z d der (azeros [n_complete nvar d; nobs])
    | _ => Err ValueErr
    end.

(** ** numpy helpers used by the class *)
(** [a.T] *)
Definition atranspose (a : arr T) : arr T := mkArr (rev (ashape a)) (fun idx => acell a (rev idx)).
Definition asum (n : Z) (f : Z -> T) : T := fold_left (fun s i => s +! f i) (zrange n) (n_ofZ 0).
(** [np.dot(a, b)] for arrays of one or two dimensions; a 0-d result is an array of shape [[]]. *)
Definition adot (a b : arr T) : res (arr T) :=
  match ashape a, ashape b with
  | [m], [m'] => if m =? m' then Ok (mkArr [] (fun _ => asum m (fun j => acell a [j] *! acell b [j]))) else Err ValueErr
  | [m], [m'; q] => if m =? m' then Ok (mkArr [q] (fun idx => asum m (fun j => acell a [j] *! acell b (j :: idx)))) else Err ValueErr
  | [p; m], [m'] => if m =? m' then Ok (mkArr [p] (fun idx => asum m (fun j => acell a (idx ++ [j]) *! acell b [j]))) else Err ValueErr
  | [p; m], [m'; q] =>
      if m =? m' then Ok (mkArr [p; q] (fun idx => asum m (fun j => acell a [nth 0 idx 0; j] *! acell b [j; nth 1 idx 0]))) else Err ValueErr
  | _, _ => Err ValueErr
  end.

(** complete_poly.py 593-613 [CompletePolynomial]: the attributes that are ever read; [None] before
    the first fit.  [n] is stored and never read. *)
Record cpoly := mkCP { cp_n : Z; cp_d : Z; cp_Phi : option (arr T); cp_coefs : option (arr T) }.
(** 594-596 *)
Definition cp_new (n d : Z) : cpoly := mkCP n d None None.

(** 598-605 [fit_values(s, x, damp=0.0)].  scipy's [lstsq] is a parameter.  The new state is
    returned also when an exception is raised.  Reading [self.coefs] before any fit is an
    AttributeError, modelled as NameErr.  Simplification: adding coefficient arrays of
    different shapes is an error (numpy would broadcast some of them). *)
Definition cp_fit (lstsq : arr T -> arr T -> res (arr T)) (cp : cpoly) (s x : arr T) (damp : T) : cpoly * res unit :=
  match complete_polynomial (atranspose s) (cp_d cp) with
  | Err e => (cp, Err e)
  | Ok P =>
      let Phi := atranspose P in
      let cp := mkCP (cp_n cp) (cp_d cp) (Some Phi) (cp_coefs cp) in
      match lstsq Phi x with
      | Err e => (cp, Err e)
      | Ok new =>
          if n_is0 damp then (mkCP (cp_n cp) (cp_d cp) (Some Phi) (Some new), Ok tt)
          else match cp_coefs cp with
               | None => (cp, Err NameErr)
               | Some old =>
                   if list_eq_dec Z.eq_dec (ashape new) (ashape old) then
                     (mkCP (cp_n cp) (cp_d cp) (Some Phi)
                        (Some (mkArr (ashape new)
                           (fun idx => (n_ofZ 1 -! damp) *! acell new idx +! damp *! acell old idx))), Ok tt)
                   else (cp, Err ValueErr)
               end
      end
  end.

(** 607-609 [der(s, der)] *)
Definition cp_der (cp : cpoly) (s : arr T) (der : Z) : res (arr T) :=
  dP <- complete_polynomial_der (atranspose s) (cp_d cp) der ;;
  match cp_coefs cp with None => Err NameErr | Some c => adot (atranspose dP) c end.
(** 611-613 [__call__(s)] *)
Definition cp_call (cp : cpoly) (s : arr T) : res (arr T) :=
  P <- complete_polynomial (atranspose s) (cp_d cp) ;;
  match cp_coefs cp with None => Err NameErr | Some c => adot (atranspose P) c end.
End Model.
Arguments cpoly : clear implicits.
