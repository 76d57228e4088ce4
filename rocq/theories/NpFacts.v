(** General facts about the interpreter of NpSem.v. *)
From Coq Require Import ZArith List Bool String Lia FunctionalExtensionality.
From Verif Require Import Base BaseFacts CompleteModel SmolyakModel PySyntax NpSem.
Import ListNotations.
Open Scope Z_scope.
Open Scope num_scope.

(** ** Arrays *)
Lemma tab_ext {A} (z : A) sh f g : (forall idx, inb sh idx = true -> f idx = g idx) -> tab z sh f = tab z sh g.
Proof.
  intros H. unfold tab. f_equal. apply functional_extensionality. intros idx. destruct (inb sh idx) eqn:E; auto.
Qed.
Lemma tab_cell {A} (z : A) sh f idx : inb sh idx = true -> acell (tab z sh f) idx = f idx.
Proof. intros H. cbn. now rewrite H. Qed.
Lemma tab_shape {A} (z : A) sh f : ashape (tab z sh f) = sh.
Proof. reflexivity. Qed.
Lemma canon_ext {T} {NT : Num T} (a b : arr T) : ashape a = ashape b -> (forall idx, inb (ashape a) idx = true -> acell a idx = acell b idx) -> canon a = canon b.
Proof. intros H E. unfold canon. rewrite <- H. apply tab_ext. auto. Qed.
Lemma canon_tab {T} {NT : Num T} sh f : canon (tab (n_ofZ 0) sh f) = tab (n_ofZ 0) sh f.
Proof. unfold canon. cbn [ashape]. apply tab_ext. intros idx H. now rewrite tab_cell. Qed.
Lemma canon_canon {T} {NT : Num T} (a : arr T) : canon (canon a) = canon a.
Proof. apply canon_tab. Qed.
Lemma canon_cell {T} {NT : Num T} (a : arr T) idx : inb (ashape a) idx = true -> acell (canon a) idx = acell a idx.
Proof. apply tab_cell. Qed.
Lemma canon_shape {T} {NT : Num T} (a : arr T) : ashape (canon a) = ashape a.
Proof. reflexivity. Qed.

Lemma bidx_id sh : forall idx, inb sh idx = true -> bidx sh idx = idx.
Proof.
  intros idx H. unfold bidx. assert (L : List.length idx = List.length sh).
  { revert idx H. induction sh as [|n sh IH]; intros [|i idx] H; try discriminate; auto. cbn in *. apply andb_true_iff in H as [_ H]. f_equal. auto. }
  rewrite L, Nat.sub_diag. cbn [skipn]. clear L. revert idx H. induction sh as [|n sh IH]; intros [|i idx] H; try discriminate; auto.
  cbn in *. apply andb_true_iff in H as [H1 H]. f_equal; auto. destruct (Z.eqb_spec n 1); auto.
  apply andb_true_iff in H1 as [A B]. apply Z.leb_le in A. apply Z.ltb_lt in B. lia.
Qed.
Lemma bzip_same l : bzip l l = Some l.
Proof. induction l as [|x l IH]; auto. cbn. rewrite IH, Z.eqb_refl. auto. Qed.
Lemma bshape_same l : bshape l l = Some l.
Proof. unfold bshape. now rewrite bzip_same, rev_involutive. Qed.
Lemma bshape_nil_l l : bshape [] l = Some l.
Proof. unfold bshape. cbn [rev]. replace (bzip [] (rev l)) with (Some (rev l)) by (now destruct (rev l)). now rewrite rev_involutive. Qed.
Lemma bshape_nil_r l : bshape l [] = Some l.
Proof. unfold bshape. cbn [rev]. replace (bzip (rev l) []) with (Some (rev l)) by (now destruct (rev l)). now rewrite rev_involutive. Qed.
Lemma bidx_nil idx : bidx [] idx = [].
Proof. reflexivity. Qed.
Lemma inb1 a idx : inb [a] idx = true -> exists p, idx = [p] /\ 0 <= p < a.
Proof. intros H. apply inb_spec in H. inversion H as [|? p ? ? H1 H2]; subst. inversion H2; subst. eauto. Qed.
Lemma inb2 a b idx : inb [a; b] idx = true -> exists p q, idx = [p; q] /\ 0 <= p < a /\ 0 <= q < b.
Proof. intros H. apply inb_spec in H. inversion H as [|? p ? ? H1 H2]; subst. apply inb_spec, inb1 in H2 as (q & -> & Hq). eauto. Qed.
Lemma inb3 a b c idx : inb [a; b; c] idx = true -> exists p q r, idx = [p; q; r] /\ 0 <= p < a /\ 0 <= q < b /\ 0 <= r < c.
Proof. intros H. apply inb_spec in H. inversion H as [|? p ? ? H1 H2]; subst. apply inb_spec, inb2 in H2 as (q & r & -> & Hq). eauto 6. Qed.
Lemma inb1_ a p : 0 <= p < a -> inb [a] [p] = true.
Proof. intros. apply inb_spec. repeat constructor; lia. Qed.
Lemma inb2_ a b p q : 0 <= p < a -> 0 <= q < b -> inb [a; b] [p; q] = true.
Proof. intros. apply inb_spec. repeat constructor; lia. Qed.
Lemma inb3_ a b c p q r : 0 <= p < a -> 0 <= q < b -> 0 <= r < c -> inb [a; b; c] [p; q; r] = true.
Proof. intros. apply inb_spec. repeat constructor; lia. Qed.
Lemma zipa_same {A B C} (z : C) (f : A -> B -> C) a b sh : ashape a = sh -> ashape b = sh ->
  zipa z f a b = Ok (tab z sh (fun idx => f (acell a idx) (acell b idx))).
Proof. intros Ha Hb. unfold zipa. rewrite Ha, Hb, bshape_same. f_equal. apply tab_ext. intros idx H. cbv beta. now rewrite !bidx_id. Qed.
Lemma zipa_l {A B C} (z : C) (f : A -> B -> C) x b :
  zipa z f (mkArr [] x) b = Ok (tab z (ashape b) (fun idx => f (x []) (acell b idx))).
Proof. unfold zipa. cbn [ashape]. rewrite bshape_nil_l. f_equal. apply tab_ext. intros idx H. cbn [acell]. rewrite bidx_nil. now rewrite (bidx_id (ashape b)). Qed.
Lemma zipa_r {A B C} (z : C) (f : A -> B -> C) a x :
  zipa z f a (mkArr [] x) = Ok (tab z (ashape a) (fun idx => f (acell a idx) (x []))).
Proof. unfold zipa. cbn [ashape]. rewrite bshape_nil_r. f_equal. apply tab_ext. intros idx H. cbn [acell]. rewrite bidx_nil. now rewrite (bidx_id (ashape a)). Qed.

Section Facts.
Context {T : Type} {NT : Num T}.
Variable X : externals T.
Implicit Types E : env T.

Lemma upd_same E x v : upd E x v x = Some v.
Proof. unfold upd. now rewrite String.eqb_refl. Qed.
Lemma upd_other E x v y : y <> x -> upd E x v y = E y.
Proof. intros H. unfold upd. destruct (String.eqb_spec y x); congruence. Qed.

(** Known variables. *)
Definition K (L : list (string * val T)) E : Prop := Forall (fun p => E (fst p) = Some (snd p)) L.
Fixpoint at_ (L : list (string * val T)) (x : string) : option (val T) :=
  match L with [] => None | (y, v) :: L => if String.eqb x y then Some v else at_ L x end.
Lemma K_at L E x v : K L E -> at_ L x = Some v -> E x = Some v.
Proof.
  induction 1 as [|[y w] L H HL IH]; cbn; [discriminate|]. destruct (String.eqb_spec x y); auto. cbn in H. congruence.
Qed.
Lemma K_look L E x v : K L E -> at_ L x = Some v -> lookup E x = Ok v.
Proof. intros H H'. unfold lookup. now rewrite (K_at _ _ _ _ H H'). Qed.

Variable call : string -> list (val T) -> list (string * val T) -> res (val T).
Variable invoke : val T -> string -> list (val T) -> list (string * val T) -> res (val T).
Variable fuel : nat.
Notation eval := (eval X call invoke).
Notation exec := (exec X call invoke fuel).
Notation block := (block X call invoke fuel).

Lemma block_nil E : block [] E = Ok (Nxt, E).
Proof. reflexivity. Qed.
Lemma block_cons s l E : block (s :: l) E = ('(g, E) <- exec s E ;; match g with Nxt => block l E | _ => Ok (g, E) end).
Proof. reflexivity. Qed.
Lemma block_next s l E E' : exec s E = Ok (Nxt, E') -> block (s :: l) E = block l E'.
Proof. intros H. now rewrite block_cons, H. Qed.
Lemma block_ret s l E E' v : exec s E = Ok (Ret v, E') -> block (s :: l) E = Ok (Ret v, E').
Proof. intros H. now rewrite block_cons, H. Qed.
Lemma block_err s l E e : exec s E = Err e -> block (s :: l) E = Err e.
Proof. intros H. now rewrite block_cons, H. Qed.
Lemma exec_set E x e v : eval E e = Ok v -> exec (SAssign [EName x] e) E = Ok (Nxt, upd E x v).
Proof. intros H. cbn [NpSem.exec]. now rewrite H. Qed.
Lemma exec_if E c b1 b2 (t : bool) : eval E c = Ok (VBool t) -> exec (SIf c b1 b2) E = block (if t then b1 else b2) E.
Proof. intros H. cbn [NpSem.exec]. rewrite H. cbn [bind truth]. now destruct t. Qed.
Lemma exec_for E t it b v l : eval E it = Ok v -> items v = Ok l ->
  exec (SFor t it b) E = iterate (fun v E => E <- bind_target E t v ;; block b E) l E.
Proof. intros H H'. cbn [NpSem.exec]. rewrite H. cbn [bind]. now rewrite H'. Qed.
Lemma exec_while E c b : exec (SWhile c b) E = repeat_while fuel (fun E => x <- eval E c ;; truth x) (block b) E.
Proof. reflexivity. Qed.

Lemma exec_set_ E t e v E' : eval E e = Ok v -> assign X call invoke E t v = Ok E' -> exec (SAssign [t] e) E = Ok (Nxt, E').
Proof. intros H H'. cbn [NpSem.exec]. rewrite H. cbn [bind]. now rewrite H'. Qed.
Lemma exec_aug E o t e x y v E' : eval E t = Ok x -> eval E e = Ok y -> binop o x y = Ok v -> assign X call invoke E t v = Ok E' ->
  exec (SAug o t e) E = Ok (Nxt, E').
Proof. intros H H1 H2 H3. cbn [NpSem.exec]. rewrite H. cbn [bind]. rewrite H1. cbn [bind]. rewrite H2. cbn [bind]. now rewrite H3. Qed.
Lemma exec_ret E e v : eval E e = Ok v -> exec (SRet (Some e)) E = Ok (Ret v, E).
Proof. intros H. cbn [NpSem.exec]. now rewrite H. Qed.
Lemma exec_yield E e v l : eval E e = Ok v -> E yielded = Some (VList l) -> exec (SExpr (EYield e)) E = Ok (Nxt, upd E yielded (VList (l ++ [v]))).
Proof. intros H H'. cbn [NpSem.exec]. rewrite H. cbn [bind]. now rewrite H'. Qed.
Lemma exec_mut E x m args l vs r :
  existsb (String.eqb m) ["append"; "extend"; "reverse"; "sort"]%string = true ->
  E x = Some (VList l) -> evals X call invoke E args = Ok vs -> change m l vs = Some (Ok r) ->
  exec (SExpr (ECall (EAttr (EName x) m) args [])) E = Ok (Nxt, upd E x (VList r)).
Proof.
  intros H0 H1 H2 H3. cbn [NpSem.exec mutation]. rewrite H0. unfold lookup. rewrite H1. cbn [bind]. rewrite H2. cbn [bind]. now rewrite H3.
Qed.
Lemma assign_sub E x l i w w' v : subs X call invoke E l = Ok i -> E x = Some w -> store w i v = Ok w' ->
  assign X call invoke E (ESub (EName x) l) v = Ok (upd E x w').
Proof. intros H H1 H2. cbn [assign set_target]. rewrite H. cbn [bind]. unfold lookup. rewrite H1. cbn [bind]. now rewrite H2. Qed.
Lemma assign_attr E x s c l v : E x = Some (VObj c l) -> assign X call invoke E (EAttr (EName x) s) v = Ok (upd E x (VObj c (set_attr l s v))).
Proof. intros H. cbn [assign set_target]. unfold lookup. now rewrite H. Qed.

(** Expressions *)
Definition evalk E l := evalk_ (eval E) l.
Definition pick E a t c l := pick_ eval E a t c l.
Lemma ev_name E x v : E x = Some v -> eval E (EName x) = Ok v.
Proof. intros H. cbn [NpSem.eval]. unfold lookup. now rewrite H. Qed.
Lemma ev_bin E o a b x y : eval E a = Ok x -> eval E b = Ok y -> eval E (EBin o a b) = binop o x y.
Proof. intros H H'. cbn [NpSem.eval]. rewrite H. cbn [bind]. now rewrite H'. Qed.
Lemma ev_not E a b : eval E a = Ok (VBool b) -> eval E (ENot a) = Ok (VBool (negb b)).
Proof. intros H. cbn [NpSem.eval]. now rewrite H. Qed.
Lemma ev_cmp E o a b x y : eval E a = Ok x -> eval E b = Ok y -> eval E (ECmp a [(o, b)]) = compare o x y.
Proof. intros H H'. cbn [NpSem.eval]. rewrite H. cbn [bind]. now rewrite H'. Qed.
Lemma ev_cmp2 E o o' a b c x y z p q : eval E a = Ok x -> eval E b = Ok y -> eval E c = Ok z ->
  compare o x y = Ok (VBool p) -> compare o' y z = Ok (VBool q) -> eval E (ECmp a [(o, b); (o', c)]) = Ok (VBool (p && q)).
Proof.
  intros H H1 H2 H3 H4. cbn [NpSem.eval]. rewrite H. cbn [bind chain_]. rewrite H1. cbn [bind]. rewrite H3. cbn [bind truth].
  destruct p; [|reflexivity]. rewrite H2. cbn [bind]. rewrite H4. cbn [bind truth]. now destruct q.
Qed.
Lemma ev_and E a b (t : bool) v : eval E a = Ok (VBool t) -> (t = true -> eval E b = Ok v) -> eval E (EAnd a b) = Ok (if t then v else VBool false).
Proof. intros H H'. cbn [NpSem.eval]. rewrite H. cbn [bind truth]. destruct t; auto. Qed.
Lemma ev_or E a b (t : bool) v : eval E a = Ok (VBool t) -> (t = false -> eval E b = Ok v) -> eval E (EOr a b) = Ok (if t then VBool true else v).
Proof. intros H H'. cbn [NpSem.eval]. rewrite H. cbn [bind truth]. destruct t; auto. Qed.
Lemma ev_ife E c a b (t : bool) : eval E c = Ok (VBool t) -> eval E (EIfE c a b) = if t then eval E a else eval E b.
Proof. intros H. cbn [NpSem.eval]. now rewrite H. Qed.
Lemma ev_attr E a s x : match a with EName m => module_name m | _ => false end = false -> eval E a = Ok x -> eval E (EAttr a s) = attribute x s.
Proof. intros H0 H. cbn [NpSem.eval]. destruct a; try (rewrite H; reflexivity). rewrite H0. rewrite H. reflexivity. Qed.
Lemma ev_sub E a l x i : eval E a = Ok x -> subs X call invoke E l = Ok i -> eval E (ESub a l) = subscript x i.
Proof. unfold subs. intros H H'. cbn [NpSem.eval]. rewrite H. cbn [bind]. now rewrite H'. Qed.
Lemma ev_tup E l vs : evals X call invoke E l = Ok vs -> eval E (ETup l) = Ok (VTup vs).
Proof. unfold evals. intros H. cbn [NpSem.eval]. now rewrite H. Qed.
Lemma ev_list E l vs : evals X call invoke E l = Ok vs -> eval E (EList l) = Ok (VList vs).
Proof. unfold evals. intros H. cbn [NpSem.eval]. now rewrite H. Qed.
Lemma evs_nil E : evals X call invoke E [] = Ok [].
Proof. reflexivity. Qed.
Lemma evals_eq E a l : evals X call invoke E (a :: l) =
  match a with EStar a => v <- eval E a ;; x <- items v ;; y <- evals X call invoke E l ;; Ok (x ++ y)
  | _ => v <- eval E a ;; y <- evals X call invoke E l ;; Ok (v :: y) end.
Proof. reflexivity. Qed.
Lemma evs_cons E a l v vs : match a with EStar _ => false | _ => true end = true -> eval E a = Ok v -> evals X call invoke E l = Ok vs -> evals X call invoke E (a :: l) = Ok (v :: vs).
Proof. intros H0 H H'. rewrite evals_eq, H, H'. clear H H'. destruct a; try reflexivity. discriminate H0. Qed.
Lemma evs_star E a v x : eval E a = Ok v -> items v = Ok x -> evals X call invoke E [EStar a] = Ok x.
Proof. intros H H'. rewrite evals_eq, H. cbn [bind]. rewrite H'. cbn [bind]. rewrite evs_nil. cbn [bind]. now rewrite app_nil_r. Qed.
Lemma sub_nil E : subs X call invoke E [] = Ok [].
Proof. reflexivity. Qed.
Lemma subs_eq E a l : subs X call invoke E (a :: l) = (s <- sub_ (eval E) a ;; q <- subs X call invoke E l ;; Ok (s :: q)).
Proof. reflexivity. Qed.
Lemma sub_all E l i : subs X call invoke E l = Ok i -> subs X call invoke E (ESlice None None None :: l) = Ok (SAll :: i).
Proof. intros H. rewrite subs_eq, H. reflexivity. Qed.
Lemma sub_dots E l i : subs X call invoke E l = Ok i -> subs X call invoke E (EEllipsis :: l) = Ok (SDots :: i).
Proof. intros H. rewrite subs_eq, H. reflexivity. Qed.
Lemma sub_range E x y l i a b : eval E x = Ok (VInt a) -> eval E y = Ok (VInt b) -> subs X call invoke E l = Ok i ->
  subs X call invoke E (ESlice (Some x) (Some y) None :: l) = Ok (SRange a b :: i).
Proof. intros H1 H2 H. rewrite subs_eq, H. cbn [sub_]. now rewrite H1, H2. Qed.
Lemma sub_val E a l v s i : match a with ESlice _ _ _ | EEllipsis => false | _ => true end = true -> eval E a = Ok v -> to_sidx v = Ok s ->
  subs X call invoke E l = Ok i -> subs X call invoke E (a :: l) = Ok (s :: i).
Proof.
  intros H0 H1 H2 H. rewrite subs_eq, H. clear H.
  assert (G : sub_ (eval E) a = (v <- eval E a ;; to_sidx v)). { clear -H0. destruct a; try reflexivity; discriminate H0. }
  rewrite G, H1. cbn [bind]. now rewrite H2.
Qed.
Lemma ev_comp E a t it c v l r : eval E it = Ok v -> items v = Ok l -> pick E a t c l = Ok r -> eval E (EComp a t it c) = Ok (VList r).
Proof. unfold pick. intros H1 H2 H3. cbn [NpSem.eval]. rewrite H1. cbn [bind]. rewrite H2. cbn [bind]. now rewrite H3. Qed.
Lemma evk_nil E : evalk E [] = Ok [].
Proof. reflexivity. Qed.
Lemma evk_cons E s a l v vs : eval E a = Ok v -> evalk E l = Ok vs -> evalk E ((s, a) :: l) = Ok ((s, v) :: vs).
Proof. unfold evalk. intros H H'. cbn [evalk_]. rewrite H. cbn [bind]. now rewrite H'. Qed.
Lemma ev_call_eq E f args kws : eval E (ECall f args kws) =
  match f, args with
  | EName s, [a; t] =>
      if String.eqb s "isinstance" then v <- eval E a ;; b <- instance v t ;; Ok (VBool b)
      else if String.eqb s "reduce" then
        match a with
        | EName m => if String.eqb m "mul" then
                       v <- eval E t ;; l <- items v ;; match l with [] => Err TypeErr | x :: l => reduce_ x l end
                     else Err TypeErr
        | _ => Err TypeErr
        end
      else vs <- evals X call invoke E args ;; ks <- evalk E kws ;; call_ X call s vs ks
  | _, _ =>
      match callee f with
      | Some s => vs <- evals X call invoke E args ;; ks <- evalk E kws ;; call_ X call s vs ks
      | None =>
          match f with
          | EAttr o m => v <- eval E o ;; vs <- evals X call invoke E args ;; ks <- evalk E kws ;; method_ invoke v m vs ks
          | _ => Err TypeErr
          end
      end
  end.
Proof. unfold evals, evalk. cbn [NpSem.eval]. reflexivity. Qed.
Lemma ev_call E f s args kws vs ks : callee f = Some s -> (String.eqb s "isinstance" || String.eqb s "reduce")%string = false ->
  evals X call invoke E args = Ok vs -> evalk E kws = Ok ks ->
  eval E (ECall f args kws) = call_ X call s vs ks.
Proof.
  intros H0 H1 H2 H3. apply orb_false_iff in H1 as [H1 H1'].
  assert (G : (vs <- evals X call invoke E args ;; ks <- evalk E kws ;; call_ X call s vs ks) = call_ X call s vs ks) by now rewrite H2, H3.
  rewrite ev_call_eq. clear H2 H3. destruct f; try discriminate H0.
  - injection H0 as ->. destruct args as [|a [|t [|? ?]]]; try exact G. rewrite H1, H1'. exact G.
  - rewrite H0. exact G.
Qed.
Lemma ev_lib E f s args kws vs ks v : callee f = Some s -> (String.eqb s "isinstance" || String.eqb s "reduce")%string = false ->
  evals X call invoke E args = Ok vs -> evalk E kws = Ok ks -> ignored s ks = true -> library X s vs = Some (Ok v) -> eval E (ECall f args kws) = Ok v.
Proof. intros. erewrite ev_call by eassumption. unfold call_. rewrite H4. now rewrite H3. Qed.
Lemma ev_fun E s args kws vs ks : (String.eqb s "isinstance" || String.eqb s "reduce")%string = false ->
  evals X call invoke E args = Ok vs -> evalk E kws = Ok ks -> library X s vs = None -> eval E (ECall (EName s) args kws) = call s vs ks.
Proof. intros. erewrite (ev_call E (EName s) s) by (reflexivity || eassumption). unfold call_. now rewrite H2. Qed.
Lemma ev_isinstance E a t v b : eval E a = Ok v -> instance v t = Ok b -> eval E (ECall (EName "isinstance") [a; t] []) = Ok (VBool b).
Proof. intros H H'. rewrite ev_call_eq. change (String.eqb "isinstance" "isinstance") with true. cbv iota. rewrite H. cbn [bind]. now rewrite H'. Qed.
Lemma ev_reduce E t v x l : eval E t = Ok v -> items v = Ok (x :: l) -> eval E (ECall (EName "reduce") [EName "mul"; t] []) = reduce_ x l.
Proof.
  intros H H'. rewrite ev_call_eq. change (String.eqb "reduce" "isinstance") with false. change (String.eqb "reduce" "reduce") with true.
  change (String.eqb "mul" "mul") with true. cbv iota. rewrite H. cbn [bind]. now rewrite H'.
Qed.
Lemma ev_method E o m args kws c l vs ks : callee (EAttr o m) = None -> eval E o = Ok (VObj c l) -> evals X call invoke E args = Ok vs -> evalk E kws = Ok ks ->
  eval E (ECall (EAttr o m) args kws) = invoke (VObj c l) m vs ks.
Proof. intros H0 H1 H2 H3. rewrite ev_call_eq, H0, H1, H2, H3. reflexivity. Qed.
Lemma ev_dot E o t a b : match t with EStar _ => false | _ => true end = true -> callee (EAttr o "dot") = None -> eval E o = Ok (VArr a) -> eval E t = Ok (VArr b) ->
  eval E (ECall (EAttr o "dot") [t] []) = (r <- adot a b ;; Ok (VArr (canon r))).
Proof.
  intros H H0 H1 H2. rewrite ev_call_eq, H0, H1. rewrite (evs_cons _ _ _ _ _ H H2 (evs_nil E)). reflexivity.
Qed.

(** A loop that goes through its list follows a computation [f] of the model, with the invariant [I]. *)
Lemma iterate_fold {A S} (body : val T -> env T -> res (state T)) (g : A -> val T) (f : S -> A -> res S) (I : S -> env T -> Prop) (l : list A) :
  (forall s a E, In a l -> I s E -> match f s a with Ok s' => exists E', body (g a) E = Ok (Nxt, E') /\ I s' E' | Err e => body (g a) E = Err e end) ->
  forall s E, I s E -> match foldM f l s with Ok s' => exists E', iterate body (map g l) E = Ok (Nxt, E') /\ I s' E' | Err e => iterate body (map g l) E = Err e end.
Proof.
  induction l as [|a l IH]; intros HB s E HI; cbn [foldM map iterate]; eauto.
  pose proof (HB s a E (or_introl eq_refl) HI) as Ha. destruct (f s a) as [s'|e]; cbn [bind].
  - destruct Ha as (E' & -> & HI'). cbn [bind]. apply IH; auto. intros. apply HB; auto. now right.
  - now rewrite Ha.
Qed.
Lemma iterate_ok {A S} (body : val T -> env T -> res (state T)) (g : A -> val T) (f : S -> A -> res S) (I : S -> env T -> Prop) (l : list A) s E s' :
  foldM f l s = Ok s' -> I s E ->
  (forall s a E s', In a l -> I s E -> f s a = Ok s' -> exists E', body (g a) E = Ok (Nxt, E') /\ I s' E') ->
  exists E', iterate body (map g l) E = Ok (Nxt, E') /\ I s' E'.
Proof.
  revert s E. induction l as [|a l IH]; intros s E H HI HB; cbn [foldM map iterate] in *; [injection H as <-; eauto|].
  destruct (f s a) as [s1|] eqn:Es; [|discriminate]. destruct (HB s a E s1 (or_introl eq_refl) HI Es) as (E' & -> & HI'). cbn [bind] in *.
  apply (IH s1); auto. intros. eapply HB; eauto. now right.
Qed.
(** The same when every round succeeds. *)
Lemma iterate_pure {A S} (body : val T -> env T -> res (state T)) (g : A -> val T) (f : S -> A -> S) (I : S -> env T -> Prop) (l : list A) :
  (forall s a E, In a l -> I s E -> exists E', body (g a) E = Ok (Nxt, E') /\ I (f s a) E') ->
  forall s E, I s E -> exists E', iterate body (map g l) E = Ok (Nxt, E') /\ I (fold_left f l s) E'.
Proof.
  induction l as [|a l IH]; intros HB s E HI; cbn [fold_left map iterate]; eauto.
  destruct (HB s a E (or_introl eq_refl) HI) as (E' & -> & HI'). cbn [bind]. apply IH; auto. intros. apply HB; auto. now right.
Qed.

Lemma ints_map l : ints (map (VInt (T := T)) l) = Ok l.
Proof. induction l as [|x l IH]; auto. cbn. now rewrite IH. Qed.
Lemma floats_map (l : list T) : floats (map VFlt l) = Ok l.
Proof. induction l as [|x l IH]; auto. cbn. now rewrite IH. Qed.
End Facts.

(** ** Operations on arrays given by a shape and a function *)
Section Arrays.
Context {T : Type} {NT : Num T}.
Variable X : externals T.
Lemma farr_ext sh (f g : list Z -> T) : (forall idx, inb sh idx = true -> f idx = g idx) -> farr sh f = farr sh g.
Proof. intros H. unfold farr. f_equal. now apply tab_ext. Qed.
Lemma farr_canon (a : arr T) : VArr (canon a) = farr (ashape a) (acell a).
Proof. reflexivity. Qed.
Definition fop (o : string) : option (T -> T -> T) :=
  if String.eqb o "+" then Some n_add else if String.eqb o "-" then Some n_sub else if String.eqb o "*" then Some n_mul
  else if String.eqb o "/" then Some n_div else None.
Definition fops (o : string) (g : T -> T -> T) (a b : val T) : Prop :=
  binop o a b = match as_floats a, as_floats b with Some x, Some y => r <- zipa (n_ofZ 0) g x y ;; Ok (VArr r) | _, _ => Err TypeErr end.
Lemma fop_spec o g a b : fop o = Some g -> is_arr a || is_arr b = true -> (as_ints a = None \/ as_ints b = None) ->
  (forall l, a <> VList l) -> fops o g a b.
Proof.
  unfold fop, fops. intros H0 H1 H2 H3.
  assert (A : forall f g, arith f g a b = match as_floats a, as_floats b with Some x, Some y => r <- zipa (n_ofZ 0) g x y ;; Ok (VArr r) | _, _ => Err TypeErr end).
  { intros f g'. unfold arith. rewrite H1. unfold arith_arr. destruct H2 as [-> | ->]; auto. destruct (as_ints a); auto. }
  assert (Hb : is_arr a = true \/ is_arr b = true) by (now apply orb_true_iff in H1).
  unfold binop. destruct (String.eqb o "+").
  { injection H0 as <-. rewrite <- (A Z.add n_add). destruct a; auto; destruct b; auto; destruct Hb; discriminate. }
  destruct (String.eqb o "-"). { injection H0 as <-. apply A. }
  destruct (String.eqb o "*").
  { injection H0 as <-. rewrite <- (A Z.mul n_mul). destruct a; auto; destruct b; auto; destruct Hb; discriminate. }
  destruct (String.eqb o "/"); [|discriminate]. injection H0 as <-. unfold divide. now rewrite H1.
Qed.
Lemma bin_xf o g x sh f : fop o = Some g -> binop o (VFlt x) (farr sh f) = Ok (farr sh (fun idx => g x (f idx))).
Proof.
  intros H. rewrite (fop_spec o g) by (auto; discriminate). cbn [as_floats as_ints farr]. rewrite zipa_l. cbn [bind ashape]. f_equal.
  apply farr_ext. intros idx Hi. now rewrite tab_cell.
Qed.
Lemma bin_zf o g z sh f : fop o = Some g -> binop o (VInt z) (farr sh f) = Ok (farr sh (fun idx => g (n_ofZ z) (f idx))).
Proof.
  intros H. rewrite (fop_spec o g) by (auto; discriminate). cbn [as_floats as_ints farr]. rewrite zipa_l. cbn [bind ashape acell]. f_equal.
  apply farr_ext. intros idx Hi. now rewrite tab_cell.
Qed.
Lemma bin_fx o g x sh f : fop o = Some g -> binop o (farr sh f) (VFlt x) = Ok (farr sh (fun idx => g (f idx) x)).
Proof.
  intros H. rewrite (fop_spec o g) by (auto; discriminate). cbn [as_floats as_ints farr]. rewrite zipa_r. cbn [bind ashape]. f_equal.
  apply farr_ext. intros idx Hi. now rewrite tab_cell.
Qed.
Lemma bin_fz o g z sh f : fop o = Some g -> binop o (farr sh f) (VInt z) = Ok (farr sh (fun idx => g (f idx) (n_ofZ z))).
Proof.
  intros H. rewrite (fop_spec o g) by (auto; discriminate). cbn [as_floats as_ints farr]. rewrite zipa_r. cbn [bind ashape acell]. f_equal.
  apply farr_ext. intros idx Hi. now rewrite tab_cell.
Qed.
Lemma bin_ff o g sh f h : fop o = Some g -> binop o (farr sh f) (farr sh h) = Ok (farr sh (fun idx => g (f idx) (h idx))).
Proof.
  intros H. rewrite (fop_spec o g) by (auto; discriminate). cbn [as_floats as_ints farr]. rewrite (zipa_same _ _ _ _ sh) by reflexivity. cbn [bind]. f_equal.
  apply farr_ext. intros idx Hi. now rewrite !tab_cell.
Qed.
(** A row against every row of a matrix. *)
Lemma zipa_row {A B C} (z : C) (f : A -> B -> C) (a : arr A) (b : arr B) N c : ashape a = [N; c] -> ashape b = [c] ->
  zipa z f a b = Ok (tab z [N; c] (fun idx => f (acell a idx) (acell b [nth 1 idx 0]))).
Proof.
  intros Ha Hb. unfold zipa. rewrite Ha, Hb. unfold bshape. cbn [rev List.app bzip]. rewrite Z.eqb_refl. cbn [rev List.app]. f_equal.
  apply tab_ext. intros idx Hi. rewrite (bidx_id [N; c]) by auto. f_equal. f_equal. apply inb2 in Hi as (p & q & -> & Hp & Hq).
  unfold bidx. cbn. destruct (Z.eqb_spec c 1); auto. f_equal. lia.
Qed.
Lemma inb_row N c idx : inb [N; c] idx = true -> inb [c] [nth 1 idx 0] = true.
Proof. intros H. apply inb2 in H as (p & q & -> & Hp & Hq). now apply inb1_. Qed.
Lemma bin_row o g N c f h : fop o = Some g -> binop o (farr [N; c] f) (farr [c] h) = Ok (farr [N; c] (fun idx => g (f idx) (h [nth 1 idx 0]))).
Proof.
  intros H. rewrite (fop_spec o g) by (auto; discriminate). cbn [as_floats as_ints farr]. rewrite (zipa_row _ _ _ _ N c) by reflexivity. cbn [bind]. f_equal.
  apply farr_ext. intros idx Hi. rewrite !tab_cell; auto. eapply inb_row; eauto.
Qed.
Lemma lib_cos sh f : library X "np.cos" [farr sh f] = Some (Ok (farr sh (fun idx => x_cos X (f idx)))).
Proof. cbv [library String.eqb Ascii.eqb Bool.eqb orb farr]. cbn [ashape]. do 2 f_equal. apply farr_ext. intros idx Hi. now rewrite tab_cell. Qed.
Lemma lib_abs sh f : library X "np.abs" [farr sh f] = Some (Ok (farr sh (fun idx => nabs (f idx)))).
Proof. cbv [library String.eqb Ascii.eqb Bool.eqb orb farr]. cbn [ashape]. do 2 f_equal. apply farr_ext. intros idx Hi. now rewrite tab_cell. Qed.
Lemma lib_asarray sh f : library X "np.asarray" [farr sh f] = Some (Ok (farr sh f)).
Proof. reflexivity. Qed.
Lemma attr_shape sh (f : list Z -> T) : attribute (farr sh f) "shape" = Ok (VTup (map VInt sh)).
Proof. reflexivity. Qed.
Lemma attr_size sh (f : list Z -> T) : attribute (farr sh f) "size" = Ok (VInt (fold_right Z.mul 1 sh)).
Proof. reflexivity. Qed.
Lemma inb_rev sh idx : inb (rev sh) idx = true -> inb sh (rev idx) = true.
Proof.
  intros H. rewrite <- (rev_involutive idx) in H. set (i := rev idx) in *. assert (L : List.length sh = List.length i).
  { apply inb_length in H. now rewrite !rev_length in H. } clearbody i. revert i L H. induction sh as [|n sh IH]; intros [|j i] L H; try discriminate; auto.
  cbn in H, L. rewrite inb_app in H by (rewrite !rev_length; lia). apply andb_true_iff in H as [H1 H2]. cbn in H2. rewrite andb_true_r in H2. cbn. rewrite H2. cbn. apply IH; auto.
Qed.
Lemma attr_T sh (f : list Z -> T) : attribute (farr sh f) "T" = Ok (farr (rev sh) (fun idx => f (rev idx))).
Proof.
  unfold farr at 1. cbn [attribute String.eqb Ascii.eqb Bool.eqb]. f_equal. unfold transpose, canon, atranspose. cbn [ashape acell tab]. apply farr_ext. intros idx Hi.
  cbn [acell tab]. now rewrite (inb_rev sh idx Hi).
Qed.
Lemma store_fancy n (f : list Z -> T) zs w : (forall z, In z zs -> 0 <= z < n) ->
  store (farr [n] f) [SFancy zs] (VFlt w) = Ok (farr [n] (fun idx => if existsb (Z.eqb (hd 0 idx)) zs then w else f idx)).
Proof.
  intros H. unfold farr at 1. cbn [store as_floats tab ashape]. replace (forallb _ zs) with true.
  2:{ symmetry. apply forallb_forall. intros z Hz. apply H in Hz. unfold wrap. destruct (Z.ltb_spec z 0); [lia|]. apply andb_true_iff. split; [apply Z.leb_le | apply Z.ltb_lt]; lia. }
  f_equal. apply farr_ext. intros idx Hi. cbn [acell tab]. rewrite Hi.
  replace (existsb (fun z => wrap n z =? hd 0 idx) zs) with (existsb (Z.eqb (hd 0 idx)) zs); auto.
  clear Hi. induction zs as [|z zs IH]; auto. cbn. rewrite IH by (intros; apply H; now right). f_equal. rewrite Z.eqb_sym. f_equal. unfold wrap.
  specialize (H z (or_introl eq_refl)). destruct (Z.ltb_spec z 0); lia.
Qed.
Lemma map_nth_zrange {A B} (g : A -> B) (l : list A) d : map (fun i => g (nth (Z.to_nat i) l d)) (zrange (zlen l)) = map g l.
Proof.
  unfold zrange, zlen. rewrite Nat2Z.id, map_map. induction l as [|x l IH]; auto. cbn [List.length seq map]. f_equal.
  rewrite <- seq_shift, map_map. rewrite <- IH. apply map_ext. intros i. now rewrite !Nat2Z.id.
Qed.
Lemma nth_zrange_ n i d : 0 <= i < n -> nth (Z.to_nat i) (zrange n) d = i.
Proof.
  intros H. unfold zrange. rewrite (nth_indep _ _ (Z.of_nat 0)) by (rewrite map_length, seq_length; lia). rewrite map_nth, seq_nth by lia. lia.
Qed.
Notation ivec := (NpSem.ivec (T := T)).
Lemma items_ivec l : items (ivec l) = Ok (map VInt l).
Proof.
  unfold ivec, iarr, items. cbn [ashape tab]. f_equal. rewrite <- (map_nth_zrange VInt l 0). apply map_ext_in. intros i Hi. apply zrange_In in Hi.
  rewrite tab_cell by now apply inb1_. reflexivity.
Qed.
Lemma items_fvec l : items (fvec l) = Ok (map VFlt l).
Proof.
  unfold fvec, farr, items. cbn [ashape tab]. f_equal. rewrite <- (map_nth_zrange VFlt l (n_ofZ 0)). apply map_ext_in. intros i Hi. apply zrange_In in Hi.
  rewrite tab_cell by now apply inb1_. reflexivity.
Qed.
Lemma make_farr n f : 0 <= n -> farr [n] f = fvec (map (fun i => f [i]) (zrange n)).
Proof.
  intros Hn. unfold fvec. rewrite zlen_map, zlen_zrange by auto. apply farr_ext. intros idx Hi. apply inb1 in Hi as (p & -> & Hp). unfold vec. cbn [hd].
  rewrite (nth_indep _ _ (f [0])) by (rewrite map_length; unfold zrange; rewrite map_length, seq_length; lia).
  rewrite (map_nth (fun i => f [i]) _ 0). now rewrite nth_zrange_ by lia.
Qed.
Lemma cmp_fx sh f x : compare "<" (farr sh f) (VFlt x) = Ok (barr sh (fun idx => n_ltb (f idx) x)).
Proof.
  cbv [compare String.eqb Ascii.eqb Bool.eqb order_ is_arr orb farr cmp_arr as_ints as_floats]. rewrite zipa_r. cbn [bind ashape tab]. f_equal. unfold barr. f_equal.
  apply tab_ext. intros idx Hi. now rewrite tab_cell.
Qed.
Lemma lib_where n g : library X "np.where" [barr [n] g] = Some (Ok (VTup [ivec (filter (fun i => g [i]) (zrange n))])).
Proof.
  cbv [library String.eqb Ascii.eqb Bool.eqb orb barr]. unfold nzero. cbn [ashape tab].
  replace (filter (fun i => acell (tab false [n] g) [i]) (zrange n)) with (filter (fun i => g [i]) (zrange n)); auto.
  apply filter_ext_in. intros i Hi. apply zrange_In in Hi. symmetry. apply tab_cell. now apply inb1_.
Qed.
Lemma to_sidx_where l : to_sidx (VTup [ivec l]) = Ok (SFancy l).
Proof. cbn [to_sidx]. rewrite items_ivec. cbn [bind]. rewrite ints_map. reflexivity. Qed.
Lemma wrap_in n i : 0 <= i < n -> wrap n i = i.
Proof. intros H. unfold wrap. destruct (Z.ltb_spec i 0); lia. Qed.
Lemma mapM_map {A B} (g : A -> B) (f : A -> res B) l : (forall a, In a l -> f a = Ok (g a)) -> mapM f l = Ok (map g l).
Proof. induction l as [|a l IH]; intros H; auto. cbn. rewrite H by now left. cbn. rewrite IH; auto. intros. apply H. now right. Qed.
Lemma to_sidx_list l : to_sidx (T := T) (VList (map VInt l)) = Ok (SFancy l).
Proof. cbn [to_sidx]. rewrite ints_map. reflexivity. Qed.
Lemma subscript_fancy (l : list T) zs : (forall z, In z zs -> 0 <= z < zlen l) ->
  subscript (fvec l) [SFancy zs] = Ok (fvec (map (fun z => nth (Z.to_nat z) l (n_ofZ 0)) zs)).
Proof.
  intros H. unfold fvec at 1, farr, subscript. rewrite tab_shape.
  rewrite (mapM_map (fun z => nth (Z.to_nat z) l (n_ofZ 0))). { reflexivity. }
  intros z Hz. apply H in Hz. rewrite wrap_in by auto. rewrite aget_ok by (rewrite tab_shape; now apply inb1_). rewrite tab_cell by now apply inb1_. reflexivity.
Qed.
Lemma lib_tuple (l : list T) : library X "tuple" [fvec l] = Some (Ok (VTup (map VFlt l))).
Proof. cbv [library String.eqb Ascii.eqb Bool.eqb orb]. now rewrite items_fvec. Qed.
Lemma lib_max l : library X "max" [ivec l] = Some (m <- max_list l ;; Ok (VInt m)).
Proof. cbv [library String.eqb Ascii.eqb Bool.eqb orb]. rewrite items_ivec. cbn [bind]. now rewrite ints_map. Qed.
Lemma lib_npmax l : library X "np.max" [ivec l] = Some (m <- max_list l ;; Ok (VInt m)).
Proof. cbv [library String.eqb Ascii.eqb Bool.eqb orb]. rewrite items_ivec. cbn [bind]. now rewrite ints_map. Qed.
Lemma existsb_filter p n i : 0 <= i < n -> existsb (Z.eqb i) (filter p (zrange n)) = p i.
Proof.
  intros H. destruct (p i) eqn:Ep.
  - apply existsb_exists. exists i. split; [|apply Z.eqb_refl]. apply filter_In. split; auto. now apply zrange_In.
  - apply not_true_iff_false. intros G. apply existsb_exists in G as (j & Hj & Ej). apply Z.eqb_eq in Ej as <-. apply filter_In in Hj as [_ Hj]. congruence.
Qed.
(** [a[i, ...]] *)
Lemma fill_i n sh z : fill_dots (List.length (n :: sh : list Z)) [SI z; SDots] = SI z :: repeat SAll (List.length sh).
Proof. cbn [fill_dots List.length pred filter]. now rewrite Nat.sub_0_r, app_nil_r. Qed.
Lemma sub_shape_all sh : sub_shape sh (repeat SAll (List.length sh)) = Ok sh.
Proof. induction sh as [|n sh IH]; auto. cbn. now rewrite IH. Qed.
Lemma sub_idx_all sh idx : inb sh idx = true -> sub_idx sh (repeat SAll (List.length sh)) idx = idx.
Proof. revert idx. induction sh as [|n sh IH]; intros [|i idx] H; try discriminate; auto. cbn in *. apply andb_true_iff in H as [_ H]. f_equal; auto. Qed.
Lemma sub_inv_all sh idx : inb sh idx = true -> sub_inv sh (repeat SAll (List.length sh)) idx = Some idx.
Proof. revert idx. induction sh as [|n sh IH]; intros [|i idx] H; try discriminate; auto. cbn in *. apply andb_true_iff in H as [_ H]. rewrite IH; auto. Qed.
Lemma in_bool n i : 0 <= i < n -> (0 <=? i) && (i <? n) = true.
Proof. intros H. apply andb_true_iff. split; [apply Z.leb_le | apply Z.ltb_lt]; lia. Qed.
Lemma in_bool_inv n i : (0 <=? i) && (i <? n) = true -> 0 <= i < n.
Proof. intros H. apply andb_true_iff in H as [A B]. apply Z.leb_le in A. apply Z.ltb_lt in B. lia. Qed.
Lemma subscript_first n m sh (f : list Z -> T) i : 0 <= i < n ->
  subscript (farr (n :: m :: sh) f) [SI i; SDots] = Ok (farr (m :: sh) (fun idx => f (i :: idx))).
Proof.
  intros H. unfold farr at 1. unfold subscript, get_sub. rewrite tab_shape. rewrite (fill_i n (m :: sh) i).
  cbn [sub_shape]. rewrite wrap_in by auto. rewrite in_bool by auto. rewrite sub_shape_all. cbn [bind ashape tab]. f_equal.
  apply farr_ext. intros idx Hi. cbn [sub_idx]. rewrite wrap_in by auto. rewrite (sub_idx_all (m :: sh)) by auto. cbn [acell tab].
  cbn [inb] in *. now rewrite in_bool, Hi by auto.
Qed.
Lemma sub_inv_i n sh z l i idx : sub_inv (n :: sh) (SI z :: l) (i :: idx) = if i =? wrap n z then sub_inv sh l idx else None.
Proof. reflexivity. Qed.
Lemma set_first n m sh (f h : list Z -> T) i : 0 <= i < n ->
  store (farr (n :: m :: sh) f) [SI i; SDots] (farr (m :: sh) h) =
  Ok (farr (n :: m :: sh) (fun idx => if hd 0 idx =? i then h (tl idx) else f idx)).
Proof.
  intros H. unfold farr at 1 2. unfold store, as_floats, set_sub. rewrite !tab_shape. rewrite (fill_i n (m :: sh) i).
  cbn [sub_shape]. rewrite wrap_in by auto. rewrite in_bool by auto. rewrite sub_shape_all. cbn [bind].
  rewrite bshape_same. rewrite idx_eqb_refl. cbn [bind]. f_equal. apply farr_ext. intros idx Hi. destruct idx as [|j idx]; [discriminate|].
  rewrite sub_inv_i. cbn [hd tl]. rewrite wrap_in by auto. assert (Hr : inb (m :: sh) idx = true). { cbn [inb] in Hi. now apply andb_true_iff in Hi. }
  destruct (Z.eqb_spec j i).
  - rewrite (sub_inv_all (m :: sh)) by auto. rewrite bidx_id by auto. now apply tab_cell.
  - now apply tab_cell.
Qed.
End Arrays.

(** ** Calls *)
Section Calls.
Context {T : Type} {NT : Num T}.
Variable X : externals T.
Variable P : list stmt.
Definition inv (n : nat) (v : val T) (m : string) (vs : list (val T)) (ks : list (string * val T)) : res (val T) :=
  match method_def P v m with
  | Some (ps, b) => '(r, _) <- call_body X (run X P n) (fun _ _ _ _ => Err TypeErr) n ps b (v :: vs) ks ;; Ok r
  | None => Err NameErr
  end.
Lemma run_fun n f ps b vs ks : find_class P f = None -> find_def P f = Some (ps, b) ->
  run X P (S n) f vs ks = ('(r, _) <- call_body X (run X P n) (inv n) n ps b vs ks ;; Ok r).
Proof. intros H1 H2. cbn [run]. rewrite H1, H2. reflexivity. Qed.
Lemma run_class n c b ps bi vs ks : find_class P c = Some b -> find_def b "__init__" = Some (ps, bi) ->
  run X P (S n) c vs ks = ('(_, E) <- call_body X (run X P n) (inv n) n ps bi (VObj c [] :: vs) ks ;;
    match E "self"%string with Some v => Ok v | None => Err TypeErr end).
Proof. intros H1 H2. cbn [run]. rewrite H1, H2. reflexivity. Qed.
(** A function without [yield]. *)
Lemma call_plain call invoke fuel ps b vs ks E : existsb has_yield b = false -> bind_params X call invoke ps vs ks = Ok E ->
  call_body X call invoke fuel ps b vs ks =
  ('(s, E) <- block X call invoke fuel b E ;; match s with Ret v => Ok (v, E) | Nxt => Ok (VNone, E) | _ => Err TypeErr end).
Proof. intros H1 H2. unfold call_body. rewrite H2. cbn [bind]. now rewrite H1. Qed.
(** The body without its documentation string. *)
Definition nodoc (b : list stmt) : list stmt := match b with SExpr (EStr _) :: b => b | _ => b end.
Lemma block_nodoc call invoke fuel b E : block X call invoke fuel b E = block X call invoke fuel (nodoc b) E.
Proof. destruct b as [|[] b]; try reflexivity. destruct e; reflexivity. Qed.
Definition ends (r : res (state T)) : res (val T) := '(s, _) <- r ;; match s with Ret v => Ok v | Nxt => Ok VNone | _ => Err TypeErr end.
Lemma run_def n f ps b b' vs ks E : find_class P f = None -> find_def P f = Some (ps, b) -> existsb has_yield b = false -> nodoc b = b' ->
  bind_params X (run X P n) (inv n) ps vs ks = Ok E -> run X P (S n) f vs ks = ends (block X (run X P n) (inv n) n b' E).
Proof.
  intros H1 H2 H3 <- H4. rewrite (run_fun n f ps b) by auto. rewrite (call_plain _ _ _ _ _ _ _ E) by auto. rewrite block_nodoc.
  destruct (block X (run X P n) (inv n) n (nodoc b) E) as [[[] ?]|]; reflexivity.
Qed.
Lemma ends_ret call invoke n b E E' v : block X call invoke n b E = Ok (Ret v, E') -> ends (block X call invoke n b E) = Ok v.
Proof. intros ->. reflexivity. Qed.
End Calls.

(** ** Tactics: run a statement, evaluate an expression. *)
Definition is_lib (s : string) : bool := existsb (String.eqb s)
  ["range"; "len"; "list"; "tuple"; "sum"; "max"; "np.max"; "int"; "all"; "any"; "enumerate"; "product"; "combinations_with_replacement";
   "chain.from_iterable"; "lu"; "la.solve"; "np.asarray"; "np.array"; "np.zeros"; "np.empty"; "np.ones"; "np.arange"; "np.cos"; "np.abs";
   "np.where"; "np.concatenate"; "np.tensordot"]%string.
Ltac look := lazymatch goal with
  | |- upd _ _ _ _ = Some _ => first [apply upd_same | rewrite upd_other by (intro; discriminate); look]
  | |- empty _ = Some _ => fail
  | |- _ => first [eassumption | eapply K_at; [eassumption | reflexivity]]
  end.
Ltac lib := first [apply lib_tuple | apply lib_cos | apply lib_where | apply lib_abs | apply lib_asarray |
  cbv [library String.eqb Ascii.eqb Bool.eqb orb]; cbn [bind items ints shape_arg make_array floats];
  rewrite ?ints_map, ?floats_map; cbn [bind]; reflexivity].
Ltac ops := first [eapply bin_xf; reflexivity | eapply bin_fx; reflexivity | eapply bin_zf; reflexivity | eapply bin_fz; reflexivity |
  eapply bin_ff; reflexivity | eapply bin_row; reflexivity |
  cbv [binop String.eqb Ascii.eqb Bool.eqb]; cbv [arith divide is_arr orb arith_arr as_ints as_floats num ashape];
  rewrite ?zipa_l, ?zipa_r; cbn [bind ashape tab List.app]; reflexivity].
Ltac cmps := first [apply cmp_fx |
  cbv [compare String.eqb Ascii.eqb Bool.eqb]; cbv [order_ is_arr orb cmp_arr as_ints as_floats num ashape];
  rewrite ?zipa_l, ?zipa_r; cbn [bind ashape tab]; reflexivity].
Ltac attrs := first [apply attr_shape | apply attr_size | apply attr_T | reflexivity].
Tactic Notation "noev" tactic3(t) := lazymatch goal with |- ?l = _ => tryif has_evar l then idtac else (first [t | idtac]) end.
Ltac eve := lazymatch goal with
  | |- eval _ _ _ _ (EName _) = _ => eapply ev_name; look
  | |- eval _ _ _ _ (EBin _ _ _) = _ => eapply eq_trans; [eapply ev_bin; [eve | eve] | noev ops]
  | |- eval _ _ _ _ (ENot _) = _ => eapply ev_not; eve
  | |- eval _ _ _ _ (ECmp _ [_]) = _ => eapply eq_trans; [eapply ev_cmp; [eve | eve] | noev cmps]
  | |- eval _ _ _ _ (ECmp _ [_; _]) = _ => eapply ev_cmp2; [eve | eve | eve | noev cmps | noev cmps]
  | |- eval _ _ _ _ (EAttr (EName "np") "pi") = _ => reflexivity
  | |- eval _ _ _ _ (EAttr _ _) = _ => eapply eq_trans; [eapply ev_attr; [reflexivity | eve] | noev attrs]
  | |- eval _ _ _ _ (ESub _ _) = _ => eapply eq_trans; [eapply ev_sub; [eve | evsub] | noev eassumption]
  | |- eval _ _ _ _ (ETup _) = _ => eapply ev_tup; evs
  | |- eval _ _ _ _ (EList _) = _ => eapply ev_list; evs
  | |- eval _ _ _ _ (ECall (EName "isinstance") _ _) = _ => eapply ev_isinstance; [eve | noev reflexivity]
  | |- eval _ _ _ _ (ECall (EName "reduce") _ _) = _ => eapply eq_trans; [eapply ev_reduce; [eve |] |]
  | |- eval _ _ _ _ (ECall (EAttr ?o "dot") _ _) = _ => eapply eq_trans; [eapply ev_dot; [reflexivity | reflexivity | eve | eve] |]
  | |- eval _ _ _ _ (ECall ?f _ _) = _ =>
      let c := eval cbv in (callee f) in
      lazymatch c with
      | None => eapply eq_trans; [eapply ev_method; [reflexivity | eve | evs | evk] | noev eassumption]
      | Some ?s =>
          let k := eval cbv in (is_lib s) in
          lazymatch k with
          | true => eapply ev_lib; [reflexivity | reflexivity | evs | evk | reflexivity | noev lib]
          | false => eapply eq_trans; [eapply ev_fun; [reflexivity | evs | evk | reflexivity] | noev eassumption]
          end
      end
  | |- _ => try reflexivity
  end
with evs := lazymatch goal with
  | |- evals _ _ _ _ [] = _ => apply evs_nil
  | |- evals _ _ _ _ [EStar _] = _ => eapply evs_star; [eve |]
  | |- evals _ _ _ _ (_ :: _) = _ => eapply evs_cons; [reflexivity | eve | evs]
  end
with evk := lazymatch goal with
  | |- evalk _ _ _ _ [] = _ => apply evk_nil
  | |- evalk _ _ _ _ (_ :: _) = _ => eapply evk_cons; [eve | evk]
  end
with evsub := lazymatch goal with
  | |- subs _ _ _ _ [] = _ => apply sub_nil
  | |- subs _ _ _ _ (ESlice None None None :: _) = _ => eapply sub_all; evsub
  | |- subs _ _ _ _ (EEllipsis :: _) = _ => eapply sub_dots; evsub
  | |- subs _ _ _ _ (ESlice (Some _) (Some _) None :: _) = _ => eapply sub_range; [eve | eve | evsub]
  | |- subs _ _ _ _ (_ :: _) = _ => eapply sub_val; [reflexivity | eve | noev (first [apply to_sidx_where | apply to_sidx_list | reflexivity]) | evsub]
  end.

(** Known variables after an assignment. *)
Ltac kk := repeat (apply Forall_cons; [cbn [fst snd]; look |]); apply Forall_nil.
Ltac step := erewrite block_next; [| eapply exec_set; eve].

Ltac loop I H HI := lazymatch goal with |- context [iterate ?b (map ?g ?l) ?E] => edestruct (iterate_ok b g _ I l _ E _ H HI) as (?E & ?HE & ?HI) end.
