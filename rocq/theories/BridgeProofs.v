(** * BridgeProofs: the interval registry. *)
From Verif Require Import Base MapSum Ledger AmmModel BridgeModel BridgeSpec.

(** sorted disjoint non-adjacent intervals, all starts above [lo] *)
Fixpoint iv_ok (lo : Z) (l : list (Z * Z)) : Prop :=
  match l with [] => True | i :: r => lo < i.1 /\ i.1 <= i.2 /\ iv_ok (i.2 + 1) r end.
Fixpoint inl (l : list (Z * Z)) (n : Z) : Prop :=
  match l with [] => False | i :: r => i.1 <= n <= i.2 \/ inl r n end.

Lemma in_intervals_inl l n : in_intervals l n = true <-> inl l n.
Proof.
  induction l as [|i l IH]; cbn; [split; [discriminate|tauto]|]. unfold in_intervals in IH. rewrite <- IH.
  rewrite orb_true_iff, andb_true_iff, !Z.leb_le. tauto.
Qed.
Lemma in_intervals_false l n : ~ inl l n -> in_intervals l n = false.
Proof. rewrite <- in_intervals_inl. destruct (in_intervals l n); tauto. Qed.
Lemma iv_ok_lo lo l n : iv_ok lo l -> inl l n -> lo < n.
Proof.
  revert lo. induction l as [|i l IH]; cbn; intros lo H N; [tauto|].
  destruct N as [N|N]; [lia|]. apply (IH (i.2 + 1)) in N; [|apply H]. lia.
Qed.
Lemma iv_ok_weak lo lo' l : lo' <= lo -> iv_ok lo l -> iv_ok lo' l.
Proof. destruct l; cbn; intros; intuition lia. Qed.

(** what adding the (absent) point [n] should give *)
Fixpoint addn (n : Z) (l : list (Z * Z)) : list (Z * Z) :=
  match l with
  | [] => [(n, n)]
  | i :: r =>
      if i.2 <? n - 1 then i :: addn n r
      else if i.2 =? n - 1 then
        match r with
        | j :: r' => if j.1 =? n + 1 then (i.1, j.2) :: r' else (i.1, n) :: r
        | [] => [(i.1, n)]
        end
      else if i.1 =? n + 1 then (n, i.2) :: r
      else (n, n) :: i :: r
  end.
Lemma addn_ok n l lo : iv_ok lo l -> lo < n -> ~ inl l n -> iv_ok lo (addn n l).
Proof.
  revert lo. induction l as [|i l IH]; cbn; intros lo H L N; [lia|]. destruct H as (H1 & H2 & H3).
  destruct (i.2 <? n - 1) eqn:E1; cbn.
  { split; [lia|]. split; [lia|]. apply IH; auto. lia. }
  destruct (i.2 =? n - 1) eqn:E2.
  { assert (i.2 = n - 1) by lia. destruct l as [|j r]; cbn; [lia|]. cbn in H3. destruct H3 as (A & B & D).
    destruct (j.1 =? n + 1) eqn:E3; cbn; repeat split; try lia; auto. }
  destruct (i.1 =? n + 1) eqn:E3; cbn; repeat split; try lia; auto.
Qed.
Lemma addn_inl n l lo m : iv_ok lo l -> inl (addn n l) m <-> m = n \/ inl l m.
Proof.
  revert lo. induction l as [|i l IH]; cbn; intros lo H; [lia|]. destruct H as (H1 & H2 & H3).
  destruct (i.2 <? n - 1) eqn:E1; cbn; [rewrite (IH _ H3); tauto|].
  destruct (i.2 =? n - 1) eqn:E2.
  { destruct l as [|j r]; cbn; [lia|]. cbn in H3. destruct H3 as (A & B & D).
    destruct (j.1 =? n + 1) eqn:E3; cbn; intuition lia. }
  destruct (i.1 =? n + 1) eqn:E3; cbn; intuition lia.
Qed.

Definition tch (n : Z) (i : Z * Z) : Z * Z :=
  if i.1 =? n + 1 then (n, i.2) else if i.2 =? n - 1 then (i.1, n) else i.
Lemma touch_all_ok n l l' : touch_all n l = Ok l' -> l' = map (tch n) l /\ (l <> [] -> n < U64MAX).
Proof.
  revert l'. induction l as [|i l IH]; cbn; intros l' H; [injection H as <-; split; congruence|].
  bstep H i' Ei. bstep H r' Er. injection H as <-. destruct (IH _ Er) as [-> _]. split.
  - f_equal. unfold touch_iv in Ei. unfold raw_u64 in Ei. unfold tch.
    destruct (_ && _); [|discriminate]. cbn in Ei. destruct (i.1 =? n + 1); [congruence|].
    destruct (_ && _); [|discriminate]. cbn in Ei. destruct (i.2 =? n - 1); congruence.
  - intros _. unfold touch_iv, raw_u64 in Ei. destruct ((0 <=? n + 1) && (n + 1 <=? U64MAX)) eqn:E; [lia|discriminate].
Qed.
(** the update does not fail on nonces strictly between 0 and the maximum, nor on an empty registry *)
Lemma touch_all_total n l : (l = [] \/ 0 < n < U64MAX) -> exists l', touch_all n l = Ok l'.
Proof.
  intros [->|H]; [eexists; reflexivity|]. induction l as [|i l [l' IH]]; [eexists; reflexivity|].
  cbn. unfold touch_iv, raw_u64. replace (_ && _) with true by lia. cbn.
  destruct (i.1 =? n + 1); cbn; [rewrite IH; eexists; reflexivity|].
  replace (_ && _) with true by lia. cbn. destruct (i.2 =? n - 1); cbn; rewrite IH; eexists; reflexivity.
Qed.

(** starts strictly increasing above [lo] *)
Fixpoint starts_ok (lo : Z) (l : list (Z * Z)) : Prop :=
  match l with [] => True | i :: r => lo < i.1 /\ starts_ok i.1 r end.
Lemma starts_weak lo lo' l : lo' <= lo -> starts_ok lo l -> starts_ok lo' l.
Proof. destruct l; cbn; intros; intuition lia. Qed.
Lemma sort_starts lo l : starts_ok lo l -> sort_iv l = l.
Proof.
  revert lo. induction l as [|i l IH]; intros lo H; auto. cbn in *. fold (sort_iv l).
  destruct H as (H1 & H3). rewrite (IH _ H3). destruct l as [|j l]; auto. cbn in *.
  replace (i.1 <=? j.1) with true by lia. auto.
Qed.
Lemma iv_starts lo l : iv_ok lo l -> starts_ok lo l.
Proof.
  revert lo. induction l as [|i l IH]; cbn; intros lo H; auto. split; [lia|].
  apply starts_weak with (i.2 + 1); [lia|]. apply IH, H.
Qed.

Lemma tch_above n z l : iv_ok z l -> n < z -> map (tch n) l = l.
Proof.
  revert z. induction l as [|k l IH]; cbn; intros z H G; auto. destruct H as (A & B & D). f_equal.
  - unfold tch. replace (k.1 =? n + 1) with false by lia. replace (k.2 =? n - 1) with false by lia. auto.
  - apply (IH (k.2 + 1)); auto. lia.
Qed.
Definition mrg (l : list (Z * Z)) : list (Z * Z) := match l with [] => [] | r :: l' => merge_from r l' end.
Lemma merge_from_sep cur l : (match l with [] => True | j :: _ => cur.2 < j.1 end) -> merge_from cur l = cur :: mrg l.
Proof. destruct l as [|j l]; cbn; auto. intros H. replace (cur.2 <? j.1) with true by lia. auto. Qed.
Lemma mrg_ok z l : iv_ok z l -> mrg l = l.
Proof.
  revert z. induction l as [|j l IH]; cbn; intros z H; auto. destruct H as (A & B & D).
  rewrite merge_from_sep; [f_equal; eauto|]. destruct l; cbn in *; auto. lia.
Qed.
Lemma tch_head n l lo : iv_ok lo l -> lo < n -> ~ inl l n ->
  match map (tch n) l with [] => True | j :: _ => lo < j.1 end.
Proof.
  destruct l as [|i l]; cbn; auto. intros (A & B & D) L N. unfold tch.
  destruct (i.1 =? n + 1); cbn; [lia|]. destruct (i.2 =? n - 1); cbn; lia.
Qed.
Lemma tch_main n l lo : iv_ok lo l -> lo < n -> ~ inl l n ->
  starts_ok lo (map (tch n) l) /\
  (mrg (map (tch n) l) = addn n l /\ inl (mrg (map (tch n) l)) n \/
   mrg (map (tch n) l) = l /\ sort_iv (l ++ [(n, n)]) = addn n l).
Proof.
  revert lo. induction l as [|i l IH]; cbn [map inl iv_ok]; intros lo H L N; [cbn; auto|].
  destruct H as (A & B & D). cbn [starts_ok mrg addn].
  destruct (i.2 <? n - 1) eqn:E1.
  { assert (n > i.2 + 1) by lia. destruct (IH (i.2 + 1)) as [IH1 IH2]; auto; [lia|].
    assert (tch n i = i) as ->.
    { unfold tch. replace (i.1 =? n + 1) with false by lia. replace (i.2 =? n - 1) with false by lia. auto. }
    assert (starts_ok i.1 (map (tch n) l)) by (apply starts_weak with (i.2 + 1); [lia|auto]).
    split; [split; [lia|auto]|].
    rewrite merge_from_sep.
    2:{ pose proof (tch_head n l (i.2 + 1) D). destruct (map (tch n) l); auto.
        assert (i.2 + 1 < p.1) by (apply H1; auto; lia). lia. }
    destruct IH2 as [[-> I]|[I1 I2]]; [left|right].
    - split; [auto|]. cbn. rewrite (addn_inl n l (i.2 + 1)) by auto. auto.
    - split; [rewrite I1; auto|]. cbn. fold (sort_iv (l ++ [(n, n)])). rewrite I2.
      pose proof (addn_ok n l (i.2 + 1) D ltac:(lia) ltac:(auto)) as O. destruct (addn n l); cbn; auto. cbn in O.
      replace (i.1 <=? p.1) with true by lia. auto. }
  destruct (i.2 =? n - 1) eqn:E2.
  { assert (i.2 = n - 1) by lia. assert (tch n i = (i.1, n)) as ->.
    { unfold tch. replace (i.1 =? n + 1) with false by lia. rewrite E2. auto. }
    cbn [fst]. destruct l as [|j l]; cbn [map]; [cbn; split; [auto|left; split; [auto|cbn; lia]]|].
    cbn in D. destruct D as (D1 & D2 & D3).
    rewrite (tch_above n (j.2 + 1)) by (auto; lia).
    destruct (j.1 =? n + 1) eqn:E3.
    - assert (tch n j = (n, j.2)) as -> by (unfold tch; rewrite E3; auto). split.
      + cbn. split; [lia|]. split; [lia|]. apply starts_weak with (j.2 + 1); [lia|]. apply iv_starts; auto.
      + left. cbn. replace (n <? n) with false by lia. cbn. replace (j.2 `max` n) with j.2 by lia.
        rewrite merge_from_sep; [|destruct l; cbn in *; auto; lia]. rewrite (mrg_ok (j.2 + 1)) by auto.
        split; [auto|]. cbn. lia.
    - assert (tch n j = j) as ->.
      { unfold tch. rewrite E3. replace (j.2 =? n - 1) with false by lia. auto. }
      split.
      + cbn. split; [lia|]. split; [lia|]. apply starts_weak with (j.2 + 1); [lia|]. apply iv_starts; auto.
      + left. rewrite merge_from_sep by (cbn; lia). rewrite (mrg_ok (n - 1)) by (cbn; repeat split; auto; lia).
        split; [auto|]. cbn. lia. }
  assert (n < i.1) by lia. rewrite (tch_above n (i.2 + 1)) by (auto; lia).
  destruct (i.1 =? n + 1) eqn:E3.
  { assert (tch n i = (n, i.2)) as -> by (unfold tch; rewrite E3; auto). cbn [fst]. split.
    - split; [lia|]. apply starts_weak with (i.2 + 1); [lia|]. apply iv_starts; auto.
    - left. rewrite merge_from_sep; [|destruct l; cbn in *; auto; lia]. rewrite (mrg_ok (i.2 + 1)) by auto.
      split; [auto|]. cbn. lia. }
  assert (tch n i = i) as -> by (unfold tch; rewrite E2, E3; auto). split.
  - split; [lia|]. apply starts_weak with (i.2 + 1); [lia|]. apply iv_starts; auto.
  - right. rewrite merge_from_sep; [|destruct l; cbn in *; auto; lia]. rewrite (mrg_ok (i.2 + 1)) by auto.
    split; [auto|].
    assert (HS : forall z l, iv_ok z l -> n < z -> sort_iv (l ++ [(n, n)]) = (n, n) :: l).
    { clear. intros z l. revert z. induction l as [|k l IH]; cbn; intros z H G; auto.
      fold (sort_iv (l ++ [(n, n)])). destruct H as (A & B & D). rewrite (IH (k.2 + 1)) by (auto; lia).
      cbn. replace (k.1 <=? n) with false by lia. f_equal. destruct l as [|j l]; cbn in *; auto.
      replace (k.1 <=? j.1) with true by lia. auto. }
    apply (HS (i.1 - 1)); [|lia]. cbn. repeat split; auto; lia.
Qed.

Theorem update_registry_ok lo r n r' :
  iv_ok lo r -> lo < n -> ~ inl r n -> update_registry r n = Ok r' ->
  iv_ok lo r' /\ forall m, inl r' m <-> m = n \/ inl r m.
Proof.
  intros H L N E. unfold update_registry in E. bstep E r1 E1. injection E as <-.
  apply touch_all_ok in E1 as [-> _]. destruct (tch_main n r lo H L N) as [S M].
  assert (merge_iv (map (tch n) r) = mrg (map (tch n) r)) as ->.
  { unfold merge_iv. rewrite (sort_starts lo) by auto. reflexivity. }
  assert (R : sort_iv (if in_intervals (mrg (map (tch n) r)) n then mrg (map (tch n) r)
                       else mrg (map (tch n) r) ++ [(n, n)]) = addn n r).
  { destruct M as [[M I]|[M I]].
    - apply in_intervals_inl in I. rewrite I, M. apply (sort_starts lo), iv_starts, addn_ok; auto.
    - rewrite M, in_intervals_false by auto. auto. }
  rewrite R. split; [apply addn_ok; auto|]. intros m. apply (addn_inl n r lo m); auto.
Qed.
Lemma update_registry_total r n : (r = [] \/ 0 < n < U64MAX) -> exists r', update_registry r n = Ok r'.
Proof.
  intros H. destruct (touch_all_total n r H) as [l E]. unfold update_registry. rewrite E. eexists; reflexivity.
Qed.
