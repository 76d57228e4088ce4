(** The text of prefilter_cubic.py computes what PrefilterModel.v computes. *)
From Coq Require Import ZArith List Bool String Lia.
From Verif Require Import Base BaseFacts SplineModel PrefilterModel PySyntax PySem SpecText PySemFacts PyArr SrcPrefilterCubic PrefCore PrefPass.
Import ListNotations.
Open Scope list_scope.
Open Scope Z_scope.
Open Scope num_scope.

(** ** Views [a[..., suf]] and their lines *)
Section Views.
Definition vsuf (d : nat) (suf : list Z) : list (option Z) := repeat None d ++ map Some suf.
Definition is_view (w : list (option Z)) (d : nat) (suf : list Z) : Prop := w = vsuf d suf \/ (w = [] /\ suf = []).
Lemma vshape_somes : forall suf comps, List.length comps = List.length suf -> vshape (map Some suf) comps = [].
Proof. induction suf as [|i suf IH]; intros [|n comps] H; cbn in *; try lia; auto. Qed.
Lemma vshape_vsuf suf comps : List.length comps = List.length suf -> forall dims, vshape (vsuf (List.length dims) suf) (dims ++ comps) = dims.
Proof. intros H. unfold vsuf. induction dims as [|n dims IH]; cbn; [now apply vshape_somes|now rewrite IH]. Qed.
Lemma view_shape w suf dims comps : is_view w (List.length dims) suf -> List.length comps = List.length suf -> vshape w (dims ++ comps) = dims.
Proof.
  intros [->|[-> ->]] H; [now apply vshape_vsuf|]. destruct comps; [|discriminate H]. rewrite vshape_nil. apply app_nil_r.
Qed.
Lemma view_full w suf dims comps : is_view w (List.length dims) suf -> List.length comps = List.length suf ->
  full w (dims ++ comps) = vsuf (List.length dims) suf.
Proof.
  intros [->|[-> ->]] H.
  - unfold vsuf. destruct dims as [|n dims]; [|reflexivity]. cbn. destruct suf; [|reflexivity]. destruct comps; [reflexivity|discriminate H].
  - destruct comps; [|discriminate H]. rewrite app_nil_r. unfold vsuf, full. cbn. now rewrite app_nil_r.
Qed.
Lemma vsub_somes : forall suf comps l, List.length comps = List.length suf -> vsub (map Some suf) comps l = map Some suf.
Proof. induction suf as [|i suf IH]; intros [|n comps] l H; cbn in *; try lia; auto. rewrite IH; auto. Qed.
Lemma vsub_ix suf comps : List.length comps = List.length suf -> forall dq iq, inb dq iq = true ->
  vsub (vsuf (List.length dq) suf) (dq ++ comps) (expand (List.length dq) (map SIx iq)) = map Some (iq ++ suf).
Proof.
  intros H. unfold vsuf. induction dq as [|n dq IH]; intros [|i iq] Hi; cbn in Hi; try discriminate; cbn [List.length repeat app map expand].
  - apply vsub_somes; auto.
  - apply andb_prop in Hi as [Hi Hq]. cbn [vsub pred]. rewrite wrap_pos by lia. rewrite IH by auto. reflexivity.
Qed.
Lemma vsub_line suf comps : List.length comps = List.length suf -> forall dp ip m dq iq, inb dp ip = true -> inb dq iq = true ->
  vsub (vsuf (List.length (dp ++ m :: dq)) suf) (dp ++ m :: dq ++ comps) (expand (List.length (dp ++ m :: dq)) (map SIx ip ++ SAll :: map SIx iq))
  = map Some ip ++ None :: map Some (iq ++ suf).
Proof.
  intros H. induction dp as [|n dp IH]; intros [|i ip] m dq iq Hp Hq; cbn in Hp; try discriminate.
  - cbn [app List.length map expand pred vsuf repeat vsub]. f_equal. now apply vsub_ix.
  - apply andb_prop in Hp as [Hi Hp]. cbn [app List.length map expand pred vsuf repeat vsub]. rewrite wrap_pos by lia. f_equal. now apply IH.
Qed.
Lemma vok_somes : forall sh idx, inb sh idx = true -> vok (map Some idx) sh = true.
Proof. induction sh as [|n sh IH]; intros [|i idx] H; cbn in *; try discriminate; auto. apply andb_prop in H as [H1 H2]. now rewrite H1, IH. Qed.
Lemma vok_line : forall dp ip m q iq, inb dp ip = true -> inb q iq = true -> vok (map Some ip ++ None :: map Some iq) (dp ++ m :: q) = true.
Proof.
  induction dp as [|n dp IH]; intros [|i ip] m q iq Hp Hq; cbn in *; try discriminate; [now apply vok_somes|].
  apply andb_prop in Hp as [H1 H2]. rewrite H1. now apply IH.
Qed.
Lemma vmerge_somes idx i : vmerge (map Some idx) i = idx ++ i.
Proof. induction idx; cbn; congruence. Qed.
Lemma vmerge_line ip iq i : vmerge (map Some ip ++ None :: map Some iq) [i] = ip ++ i :: iq.
Proof. induction ip; cbn; [|congruence]. f_equal. rewrite vmerge_somes. apply app_nil_r. Qed.
Lemma vshape_line : forall dp ip m q iq, inb dp ip = true -> inb q iq = true -> vshape (map Some ip ++ None :: map Some iq) (dp ++ m :: q) = [m].
Proof.
  induction dp as [|n dp IH]; intros [|i ip] m q iq Hp Hq; cbn in *; try discriminate.
  - f_equal. apply vshape_somes. symmetry. now apply inb_length.
  - apply andb_prop in Hp as [H1 H2]. now apply IH.
Qed.
Lemma all_ix_line ip iq : all_ix (map SIx ip ++ SAll :: map SIx iq) = None.
Proof. induction ip; cbn; auto. now rewrite IHip. Qed.
Lemma inb_cat : forall s1 i1 s2 i2, inb s1 i1 = true -> inb s2 i2 = true -> inb (s1 ++ s2) (i1 ++ i2) = true.
Proof. induction s1 as [|n s1 IH]; intros [|i i1] s2 i2 H1 H2; cbn in *; try discriminate; auto. apply andb_prop in H1 as [A B]. rewrite A. now apply IH. Qed.

Context {T : Type} {NT : Num T}.
Lemma subscript_line (h : heap T) k w a suf dp m dq comps ip iq : nth_error h k = Some (OF a) ->
  is_view w (List.length (dp ++ m :: dq)) suf -> ashape a = (dp ++ m :: dq) ++ comps -> inb comps suf = true ->
  inb dp ip = true -> inb dq iq = true ->
  subscript h (PArr k w) (map SIx ip ++ SAll :: map SIx iq) = Ok (PArr k (map Some ip ++ None :: map Some (iq ++ suf))).
Proof.
  intros Hk Hw Sa Hc Hp Hq. assert (L : List.length comps = List.length suf) by (symmetry; now apply inb_length).
  cbn [subscript array_of]. rewrite (hget_nth _ _ _ Hk). cbn [bind oshape]. rewrite all_ix_line, Sa.
  rewrite (view_shape w suf) by auto. rewrite (view_full w suf) by auto.
  rewrite <- app_assoc. cbn [app]. rewrite vsub_line by auto.
  rewrite vok_line; auto using inb_cat.
Qed.
(** [a[..., i]] *)
Lemma subscript_dots (h : heap T) k w a suf dims n comps i : nth_error h k = Some (OF a) ->
  is_view w (List.length (dims ++ [n])) suf -> ashape a = (dims ++ [n]) ++ comps -> inb comps suf = true -> 0 <= i < n ->
  subscript h (PArr k w) [SDots; SIx i] = Ok (PArr k (vsuf (List.length dims) (i :: suf))).
Proof.
  intros Hk Hw Sa Hc Hi. assert (L : List.length comps = List.length suf) by (symmetry; now apply inb_length).
  cbn [subscript array_of]. rewrite (hget_nth _ _ _ Hk). cbn [bind oshape all_ix]. rewrite Sa.
  rewrite (view_shape w suf) by auto. rewrite (view_full w suf) by auto.
  assert (X : vsub (vsuf (List.length (dims ++ [n])) suf) ((dims ++ [n]) ++ comps) (expand (List.length (dims ++ [n])) [SDots; SIx i])
    = vsuf (List.length dims) (i :: suf)).
  { cbn [expand List.length pred repeat]. rewrite app_length. cbn [List.length].
    replace (List.length dims + 1 - 1)%nat with (List.length dims) by lia. unfold vsuf. rewrite <- app_assoc. cbn [app].
    clear Sa Hw Hk. induction dims as [|m dims IH]; cbn.
    - rewrite wrap_pos by lia. f_equal. now apply vsub_somes.
    - f_equal. apply IH. }
  rewrite X. assert (Y : vok (vsuf (List.length dims) (i :: suf)) ((dims ++ [n]) ++ comps) = true).
  { clear X Sa Hw Hk. rewrite <- app_assoc. cbn [app]. unfold vsuf. induction dims as [|m dims IH]; cbn; auto.
    rewrite vok_somes by auto. rewrite andb_true_r. apply andb_true_intro. split; [apply Z.leb_le|apply Z.ltb_lt]; lia. }
  now rewrite Y.
Qed.
End Views.

(** ** One pass, with the views of the text *)
Section Lines.
Context {T : Type} {NT : Num T}.
Variable G : env T.
Variable call : string -> list (val T) -> list (string * val T) -> heap T -> res (val T * heap T).
Variable fuel : nat.
Notation eval := (eval G call).
Notation exec := (exec G call fuel).
Notation block := (block G call fuel).

Lemma bound_app (E : env T) xp xq : forall idx, bound E (xp ++ xq) idx ->
  bound E xp (firstn (List.length xp) idx) /\ bound E xq (skipn (List.length xp) idx).
Proof.
  induction xp as [|x xp IH]; intros idx H; cbn; [auto|]. destruct idx as [|i idx]; cbn in H; [easy|]. destruct H as [H1 H2].
  apply IH in H2. cbn. tauto.
Qed.
Lemma subs_names (E : env T) h xs : forall ip rest l, bound E xs ip -> subs G call E rest h = Ok (l, h) ->
  subs G call E (map EName xs ++ rest) h = Ok (map SIx ip ++ l, h).
Proof.
  induction xs as [|x xs IH]; intros [|i ip] rest l HB Hr; cbn in HB; try easy. destruct HB as [H1 H2].
  specialize (IH ip rest l H2 Hr). cbn [map app]. unfold subs in *. cbn [PySem.eval]. rewrite (lookup_in G _ _ _ H1). cbn [bind to_sidx].
  rewrite IH. reflexivity.
Qed.
Definition line_expr (a : string) (xp xq : list string) (e : expr) : Prop :=
  e = ESub (EName a) (map EName xp ++ ESlice None None None :: map EName xq) \/ (xp = [] /\ xq = [] /\ e = EName a).
Lemma eval_line (E : env T) h e a xp xq k w A dp m dq comps suf ip iq :
  line_expr a xp xq e -> E a = Some (PArr k w) -> bound E xp ip -> bound E xq iq -> nth_error h k = Some (OF A) ->
  is_view w (List.length (dp ++ m :: dq)) suf -> ashape A = (dp ++ m :: dq) ++ comps -> inb comps suf = true ->
  inb dp ip = true -> inb dq iq = true ->
  exists w', eval E e h = Ok (PArr k w', h) /\ (forall i, vmerge w' [i] = ip ++ [i] ++ iq ++ suf) /\ vshape w' (ashape A) = [m].
Proof.
  intros He Ha Hxp Hxq Hk Hw Sa Hc Hp Hq. destruct He as [->|(-> & -> & ->)].
  - assert (S1 : subs G call E (map EName xp ++ ESlice None None None :: map EName xq) h = Ok (map SIx ip ++ SAll :: map SIx iq, h)).
    { apply subs_names; auto. assert (X : subs G call E (map EName xq) h = Ok (map SIx iq, h)).
      { rewrite <- (app_nil_r (map EName xq)), <- (app_nil_r (map SIx iq)). apply subs_names; auto. }
      change (subs G call E (ESlice None None None :: map EName xq) h) with ('(q, h) <- subs G call E (map EName xq) h ;; Ok (SAll :: q, h)).
      rewrite X. reflexivity. }
    exists (map Some ip ++ None :: map Some (iq ++ suf)). split; [|split].
    + rewrite (eval_sub G call _ _ _ _ _ _ Ha S1). rewrite (subscript_line h k w A suf dp m dq comps ip iq) by auto. reflexivity.
    + intros i. now rewrite vmerge_line.
    + rewrite Sa, <- app_assoc. cbn [app]. apply vshape_line; auto using inb_cat.
  - destruct ip; [|easy]. destruct iq; [|easy]. destruct dp; [|easy]. destruct dq; [|easy]. cbn [app List.length] in *.
    exists w. split; [|split].
    + cbn [PySem.eval]. rewrite (lookup_in G _ _ _ Ha). reflexivity.
    + intros i. destruct Hw as [->|[-> ->]]; [|reflexivity]. unfold vsuf. cbn. f_equal. rewrite vmerge_somes. apply app_nil_r.
    + rewrite Sa. change (m :: comps) with ([m] ++ comps). apply (view_shape w suf); auto. symmetry. now apply inb_length.
Qed.
Lemma inb_firstn : forall s1 s2 idx, inb (s1 ++ s2) idx = true -> inb s1 (firstn (List.length s1) idx) = true /\ inb s2 (skipn (List.length s1) idx) = true.
Proof.
  induction s1 as [|n s1 IH]; intros s2 idx H; cbn; [auto|]. destruct idx as [|i idx]; cbn in *; [easy|].
  apply andb_prop in H as [A B]. apply IH in B as [B1 B2]. rewrite A. auto.
Qed.
Lemma inb_plus2 : forall s idx, inb s idx = true -> inb (map (fun m => m + 2) s) idx = true.
Proof.
  induction s as [|n s IH]; intros [|i idx] H; cbn in *; auto. apply andb_prop in H as [A B]. rewrite (IH _ B). lia.
Qed.

Definition find_ok : Prop := forall (M : Z) del (h : heap T) kb kc kd wd wc D C b m, 1 <= M ->
  kb <> kc -> kb <> kd -> nth_error h kd = Some (OF D) -> nth_error h kc = Some (OF C) -> nth_error h kb = Some (OF b) ->
  vshape wd (ashape D) = [m] -> vshape wc (ashape C) = [M + 2] -> ashape b = [M + 2; 4] ->
  call "find_coefs_1d"%string [PFlt del; PArr kd wd; PArr kc wc; PArr kb []] [] h
  = (p <- find_coefs_1d del (fun i => aget D (vmerge wd [i])) C (fun i => vmerge wc [i]) (M + 2) b ;;
     Ok (PNone, hset (hset h kb (OF (fst p))) kc (OF (snd p)))).
Hypothesis Hfind : find_ok.

Variable h0 : heap T.
Variables kd kc : nat.
Variables wd wc : list (option Z).
Variables D C0 : arr T.
Variables dims comps suf : list Z.
Hypothesis Hne : kd <> kc.
Hypothesis HD : nth_error h0 kd = Some (OF D).
Hypothesis HC : nth_error h0 kc = Some (OF C0).
Hypothesis SD : ashape D = dims ++ comps.
Hypothesis SC : ashape C0 = map (fun m => m + 2) dims ++ comps.
Hypothesis Hsuf : inb comps suf = true.
Hypothesis Hwd : is_view wd (List.length dims) suf.
Hypothesis Hwc : is_view wc (List.length dims) suf.

Definition temps : list string := ["bands"; "ix"; "iy"; "iz"; "iz4"]%string.
Definition inv (E0 : env T) (C : arr T) (E : env T) (h : heap T) : Prop :=
  agree temps E0 E /\ ashape C = ashape C0 /\ exists junk, h = hset h0 kc (OF C) ++ junk.

Lemma line_pass (E0 : env T) mname dn vsp vsq eS eC del M pre post own :
  let xp := map fst (vsp : list (string * string)) in let xq := map fst (vsq : list (string * string)) in let xs := xp ++ xq in
  1 <= M -> dims = pre ++ M :: post -> List.length vsp = List.length pre -> (own = false -> pre = []) ->
  incl xs (tl temps) -> NoDup xs ->
  E0 "D"%string = Some (PArr kd wd) -> E0 "C"%string = Some (PArr kc wc) ->
  E0 mname = Some (PInt M) -> E0 dn = Some (PFlt del) -> ~ In mname temps -> ~ In dn temps ->
  Forall2 (fun v n => E0 (snd v) = Some (PInt n) /\ ~ In (snd v) temps) (vsp ++ vsq) (map (fun m => m + 2) pre ++ post) ->
  line_expr (if own : bool then "C" else "D")%string xp xq eS -> line_expr "C" xp xq eC ->
  forall C E h, inv E0 C E h ->
  sim (filter_pass del M (if own then None else Some D) pre post suf (M + 2) C)
      (block (SAssign [EName "bands"] (ECall (EAttr (EName "np") "zeros") [ETup [EBin "+" (EName mname) (EInt 2); EInt 4]] []) ::
              loops (vsp ++ vsq) [SExpr (ECall (EName "find_coefs_1d") [EName dn; eS; eC; EName "bands"] [])]) E h)
      (inv E0).
Proof.
  intros xp xq xs HM Hdims Hlp Hown Hincl Hnd ED EC EM Ed Hm1 Hd1 HF HeS HeC C E h (HA & SC' & junk & Hh).
  assert (Hkc : (kc < List.length h0)%nat) by (apply nth_error_Some; congruence).
  assert (Hkd : (kd < List.length h0)%nat) by (apply nth_error_Some; congruence).
  assert (Lh : (List.length h0 <= List.length h)%nat) by (subst h; rewrite app_length, hset_length; lia).
  assert (NC : nth_error h kc = Some (OF C)) by (subst h; rewrite nth_error_app1 by (rewrite hset_length; auto); now apply nth_hset_same).
  assert (ND : nth_error h kd = Some (OF D)) by (subst h; rewrite nth_error_app1 by (rewrite hset_length; auto); rewrite nth_hset_other; auto).
  assert (Xvs : map fst (vsp ++ vsq) = xs) by apply map_app.
  assert (Hxt : incl xs temps) by (intros x Hx; right; now apply Hincl).
  assert (Hnb : ~ In "bands"%string xs).
  { intros Hx. apply Hincl in Hx. cbn in Hx. repeat destruct Hx as [Hx|Hx]; try discriminate; auto. }
  pose proof (text_pass G call fuel h kc (if own then kc else kd) mname dn (vsp ++ vsq) eS eC M del (map (fun m => m + 2) pre ++ post)
    (List.length pre) suf C D own) as TP. rewrite Xvs in TP.
  unfold filter_pass.
  assert (X : forall (r : res (arr T * arr T)) (x : res (state T)) (Q : arr T * arr T -> env T -> heap T -> Prop) (R : arr T -> env T -> heap T -> Prop), sim r x Q ->
    (forall s E h, Q s E h -> R (snd s) E h) -> sim (r <- r ;; Ok (snd r)) x R).
  { intros r x Q R H1 H2. destruct r as [s|]; cbn in *; auto. destruct H1 as (E1 & h1 & -> & H1). eauto. }
  eapply X.
  - assert (Y : forall idx (b c : arr T), find_coefs_1d del (fun i => aget match (if own then None else Some D) with Some D => D | None => c end
        (firstn (List.length pre) idx ++ [i] ++ skipn (List.length pre) idx ++ suf)) c
        (fun i => firstn (List.length pre) idx ++ [i] ++ skipn (List.length pre) idx ++ suf) (M + 2) b
      = find_coefs_1d del (fun i => aget (if own then c else D) (firstn (List.length pre) idx ++ [i] ++ skipn (List.length pre) idx ++ suf)) c
        (fun i => firstn (List.length pre) idx ++ [i] ++ skipn (List.length pre) idx ++ suf) (M + 2) b).
    { intros. destruct own; reflexivity. }
    assert (ZZ : nest (map (fun m => m + 2) pre ++ post) (fun idx (s : arr T * arr T) => let '(b, C) := s in
         let ln i := firstn (List.length pre) idx ++ [i] ++ skipn (List.length pre) idx ++ suf in
         let data i := aget (match (if own then None else Some D) with Some D => D | None => C end) (ln i) in
         find_coefs_1d del data C ln (M + 2) b) (azeros [M + 2; 4], C)
      = nest (map (fun m => m + 2) pre ++ post) (fun idx (s : arr T * arr T) => let '(b, C) := s in
         find_coefs_1d del (fun i => aget (if own then C else D) (firstn (List.length pre) idx ++ [i] ++ skipn (List.length pre) idx ++ suf)) C
         (fun i => firstn (List.length pre) idx ++ [i] ++ skipn (List.length pre) idx ++ suf) (M + 2) b) (azeros [M + 2; 4], C)).
    { clear. destruct own; reflexivity. }
    cbv zeta in ZZ |- *. rewrite ZZ. apply TP; clear TP X Y ZZ; auto.
    + lia.
    + destruct own; lia.
    + destruct own; auto.
    + intros h1 kd1 wd1 wc1 D1 C1 b1 m1. intros. apply (Hfind M del h1 (List.length h) kc kd1 wd1 wc1 D1 C1 b1 m1); auto.
    + rewrite HA; auto.
    + rewrite HA; auto.
    + intros H. apply Hd1. rewrite H. now left.
    + eapply Forall2_imp; [|exact HF]. intros [x n] z [H1 H2]. cbn [snd] in *. split; [rewrite HA; auto|].
      intros [H|H]; apply H2; [left; auto|auto].
    + intros idx C1 h1 E1 Hidx HA1 HB SC1 NC1 ND1.
      assert (HB' := bound_app E1 xp xq idx HB). assert (Lxp : List.length xp = List.length pre) by (unfold xp; rewrite map_length; auto). rewrite Lxp in HB'. destruct HB' as [B1 B2].
      assert (HI := inb_firstn _ _ _ Hidx). rewrite map_length in HI. destruct HI as [I1 I2].
      assert (E1C : E1 "C"%string = Some (PArr kc wc)).
      { rewrite HA1, HA; auto; cbn; intuition; try discriminate. apply Hxt in H0. cbn in H0. intuition; discriminate. }
      assert (E1D : E1 "D"%string = Some (PArr kd wd)).
      { rewrite HA1, HA; auto; cbn; intuition; try discriminate. apply Hxt in H0. cbn in H0. intuition; discriminate. }
      assert (SC2 : ashape C1 = (map (fun m => m + 2) pre ++ (M + 2) :: map (fun m => m + 2) post) ++ comps).
      { rewrite SC1, SC', SC, Hdims, map_app. reflexivity. }
      assert (LC : List.length (map (fun m => m + 2) pre ++ (M + 2) :: map (fun m => m + 2) post) = List.length dims).
      { rewrite Hdims, !app_length. cbn. now rewrite !map_length. }
      destruct (eval_line E1 h1 eC "C" xp xq kc wc C1 (map (fun m => m + 2) pre) (M + 2) (map (fun m => m + 2) post) comps suf _ _ HeC E1C B1 B2 NC1)
        as (w & V1 & V2 & V3); auto using inb_plus2; [now rewrite LC|].
      exists w. destruct own.
      * destruct (eval_line E1 h1 eS "C" xp xq kc wc C1 (map (fun m => m + 2) pre) (M + 2) (map (fun m => m + 2) post) comps suf _ _ HeS E1C B1 B2 NC1)
          as (w' & V4 & V5 & V6); auto using inb_plus2; [now rewrite LC|].
        exists w'. repeat (split; auto). exists (M + 2). auto.
      * specialize (Hown eq_refl). subst pre. cbn [app map List.length] in *.
        destruct (eval_line E1 h1 eS "D" xp xq kd wd D [] M post comps suf [] idx HeS E1D) as (w' & V4 & V5 & V6); auto.
        -- rewrite <- Hdims. auto.
        -- rewrite SD, Hdims. reflexivity.
        -- exists w'. repeat (split; auto). exists M. auto.
  - intros s E1 h1 (A1 & Hh1 & S1). split; [|split].
    + eapply agree_trans; [exact HA|]. eapply agree_sub; [|exact A1]. intros x [<-|Hx]; [now left|auto].
    + congruence.
    + exists (junk ++ [OF (fst s)]). rewrite Hh1, Hh. rewrite hset_app1 by (rewrite hset_length; auto). rewrite hset_hset. now rewrite <- app_assoc.
Qed.
End Lines.
