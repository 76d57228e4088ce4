(** From brackets and weights to [value_at]: one lemma used by all numeric theorems. *)
From Coq Require Import ZArith List Bool Lia ZifyBool.
From Verif Require Import Base BaseFacts SplineModel Spec EvalGeneric EvalMaster EvalProps.
Import ListNotations.
Open Scope Z_scope.

Section Gen.
Context {T : Type} {NT : Num T}.
Implicit Types (grid : list (gdim T)) (C : arr T) (gps : list (@gpar T)) (pt : list T) (orders : option (list (list Z))).
Notation gdim := (gdim T).
Notation arr := (arr T).

Lemma value_at_intro k orders xm grid comps C pt suf v gps
  (V : option (list (Z * T * T)) -> list Z -> T) (PR : list T -> option (list (Z * T * T))) :
  coefs_ok k grid comps C -> compile_check k grid orders = Ok tt ->
  mapM recoverN grid = Ok gps ->
  (forall p, zlen p = zlen grid -> prep xm gps p = Ok (PR p)) ->
  (forall p suf, zlen p = zlen grid -> inb (result_shape comps orders) suf = true ->
     valp k C (PR p) (sel_oo (zlen grid) orders suf) (sel_ix (match comps with [] => false | _ => true end) suf)
     = Ok (V (PR p) suf)) ->
  zlen pt = zlen grid -> inb (result_shape comps orders) suf = true -> v = V (PR pt) suf ->
  value_at k orders xm grid comps C pt suf v.
Proof.
  intros HC Hcc Hg Hpr HV Hpt Hsuf ->.
  destruct (comps_nvals k grid comps C orders HC) as [E1 [E2 [E3 E4]]].
  assert (Lg : zlen gps = zlen grid). { apply mapM_length in Hg. unfold zlen; lia. }
  split.
  - intros points N n Hp Hn Hrow. cbn [eval_spline].
    assert (Lr : forall n, zlen (row_of (zlen grid) points n) = zlen grid).
    { intros m. unfold row_of. rewrite zlen_map, zlen_zrange; auto. apply zlen_nonneg. }
    destruct (eval_rows_loop_ok k orders xm grid C points (nvals comps) N gps Lg (azeros (N :: result_shape comps orders))
              (fun idx => V (PR (row_of (zlen grid) points (hd 0 idx))) (tl idx))
              (fun n => PR (row_of (zlen grid) points n))) as [o1 [F1 [S1 C1]]]; auto; try lia.
    + now rewrite E3.
    + intros m Hm. exists (row_of (zlen grid) points m). split; [eapply row_value; eauto; lia|]. auto.
    + intros m suf' Hm Hs. rewrite E3 in Hs. rewrite E4. cbn [hd tl]. auto.
    + exists o1. split; [|split].
      * unfold eval_rows. rewrite Hcc; cbn [bind]. unfold adim at 1. rewrite Hp.
        change (lget [N; zlen grid] 0) with (@Ok Z N). cbn [bind].
        rewrite E1; cbn [bind]. unfold allocate_output.
        assert (Ea : (if andim C =? zlen grid + 1
            then bind (adim C (andim C - 1)) (fun nx => match orders with None => Ok (azeros [N; nx]) | Some os => Ok (azeros [N; nx; zlen os]) end)
            else match orders with None => Ok (azeros [N]) | Some os => Ok (azeros [N; zlen os]) end)
            = Ok (azeros (N :: result_shape comps orders))).
        { destruct (comps_facts _ _ _ _ HC) as [[-> E]|[nx [-> [Hx [E [E5 E6]]]]]]; rewrite E.
          - destruct orders; reflexivity.
          - rewrite E6. destruct orders; reflexivity. }
        rewrite Ea; cbn [bind]. rewrite Hg; cbn [bind]. now rewrite F1.
      * rewrite S1. reflexivity.
      * rewrite C1. { cbn [hd tl]. now rewrite Hrow. }
        cbn. rewrite Hsuf. rewrite !andb_true_iff; lia.
  - intros [X1 X2]. cbn [eval_spline].
    destruct (eval_point_ok k orders xm grid C pt None gps (PR pt) (nvals comps) (V (PR pt))) as [r [R1 Q1]]; auto.
    + rewrite E4. split.
      * destruct X1; auto. right. now apply all_uniform_existsb.
      * intros (Y1&Y2&Y3&_). apply X2. destruct comps; [auto|discriminate].
    + discriminate.
    + intros suf' Hs. rewrite E3 in Hs. rewrite E4. auto.
    + rewrite E3, E4 in Q1. unfold point_result in Q1.
      destruct comps as [|c cs].
      * destruct orders as [os|]; subst r; eexists; split; eauto.
        -- destruct suf as [|j [|]]; cbn in Hsuf; try lia. cbn.
           apply (nth_error_zmap (fun j => V (PR pt) [j])). lia.
        -- destruct suf; [reflexivity|discriminate].
      * assert (Q : exists o', r = (VArr o', None) /\ ashape o' = result_shape (c :: cs) orders /\
             (forall suf, inb (result_shape (c :: cs) orders) suf = true -> acell o' suf = V (PR pt) suf)).
        { destruct orders; exact Q1. }
        destruct Q as [a [-> [S1 C1]]]. eexists; split; eauto. cbn. f_equal. auto.
Qed.

(** [value_at] determines the value. *)
Definition row_array pt : arr := mkArr [1; zlen pt] (fun idx => nth (Z.to_nat (nth 1 idx 0)) pt (n_ofZ 0)).
Lemma row_array_row pt : row_of (zlen pt) (row_array pt) 0 = pt.
Proof. unfold row_of, row_array. cbn [acell nth]. apply map_nth_zrange. Qed.

Lemma value_at_fun k orders xm grid comps C pt suf v v' :
  zlen pt = zlen grid ->
  value_at k orders xm grid comps C pt suf v -> value_at k orders xm grid comps C pt suf v' -> v = v'.
Proof.
  intros Hl [H1 _] [H2 _].
  destruct (H1 (row_array pt) 1 0) as [o [E [_ F0]]]; try lia.
  { cbn. now rewrite Hl. } { rewrite <- Hl. apply row_array_row. }
  destruct (H2 (row_array pt) 1 0) as [o' [E' [_ F]]]; try lia.
  { cbn. now rewrite Hl. } { rewrite <- Hl. apply row_array_row. }
  congruence.
Qed.

End Gen.
