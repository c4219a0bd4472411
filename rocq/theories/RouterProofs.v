From Verif Require Import Base MapSum Ledger AmmModel AmmSpec AmmProofs AmmInv AmmProofs2 AmmProofs3 AmmProofs4 RouterModel RouterSpec.

Lemma contains_duplicate_false r : contains_duplicate r = false -> NoDup r.
Proof.
  induction r as [|a r IH]; cbn; [constructor|].
  intros H. apply orb_false_elim in H as [H1 H2]. apply bool_decide_eq_false in H1. constructor; auto.
Qed.

Lemma get_reserves_spec ps a b ri ro :
  get_reserves ps a b = Ok (ri, ro) ->
  exists p, ps !! pair_key a b = Some p /\ a <> b /\ ri = reserve (pair_key a b) p a /\ ro = reserve (pair_key a b) p b.
Proof.
  unfold get_reserves. intros H. bstep H x E. destruct x as [[inv u] v].
  apply sort_assets_spec in E. destruct E as (Hne & Hk & Hinv). bstep H p Ep. rewrite Hk in *.
  exists p. repeat split; auto; pose proof (reserve_in_out inv a b p Hne Hinv) as E; rewrite E in H; congruence.
Qed.

(** balance effect of a chain of hops: hop i pays [amounts i] of token i and receives [outs i] of token i+1 *)
Fixpoint moves (route amounts outs : list Z) (a : Z) : Z :=
  match route, amounts, outs with
  | t :: ((u :: _) as rest), x :: amts, y :: os =>
      (if bool_decide (a = u) then y else 0) - (if bool_decide (a = t) then x else 0) + moves rest amts os a
  | _, _, _ => 0
  end.

Lemma moves_cons t u rest x amts y os a :
  moves (t :: u :: rest) (x :: amts) (y :: os) a =
  (if bool_decide (a = u) then y else 0) - (if bool_decide (a = t) then x else 0) + moves (u :: rest) amts os a.
Proof. reflexivity. Qed.

Section proofs.
  Context (R : router_cfg) (P : policy).
  Let C := r_amm R.

  Lemma route_checks_ok r u : route_checks R r = Ok u -> r <> [] /\ Z.of_nat (length r) <= max_len R /\ NoDup r.
  Proof.
    unfold route_checks. intros H. bstep H x E. bstep H y E1. apply ensure_ok in H.
    apply negb_true_iff, bool_decide_eq_false in E. apply negb_true_iff, contains_duplicate_false in H.
    repeat split; auto; lia.
  Qed.

  Lemma get_amounts_out_len ps x r l : get_amounts_out C ps x r = Ok l -> length l = length r /\ head l = Some x.
  Proof.
    revert x l. induction r as [|a r IH]; intros x l H; [discriminate|].
    cbn in H. destruct r as [|b r]; [injection H as <-; auto|].
    bstep H y E. destruct y as [ri ro]. bstep H o Eo. bstep H os Eos. injection H as <-.
    apply IH in Eos. destruct Eos as [Hl _]. cbn in *. auto.
  Qed.

  Lemma get_amounts_in_len ps x r l : get_amounts_in C ps x r = Ok l -> length l = length r /\ last l = Some x.
  Proof.
    revert l. induction r as [|a r IH]; intros l H; [discriminate|].
    cbn in H. destruct r as [|b r]; [injection H as <-; auto|].
    bstep H ins Ei. bstep H y E. destruct y as [ri ro]. bstep H i Eo. injection H as <-.
    apply IH in Ei. destruct Ei as [Hl Hla]. cbn in Hl |- *. split; [congruence|].
    destruct ins; [discriminate|]. cbn in *. auto.
  Qed.

  Lemma get_amount_out_u128 x ri ro o : get_amount_out C x ri ro = Ok o -> u128_ok o.
  Proof.
    unfold get_amount_out. intros H. bstep H a Ea. bstep H b Eb. apply ok_or_ok, chk_some in H. unfold u128_ok. lia.
  Qed.
  Lemma get_amount_in_u128 x ri ro o : get_amount_in C x ri ro = Ok o -> u128_ok o.
  Proof.
    unfold get_amount_in. intros H. bstep H u Eu. bstep H a Ea. bstep H b Eb. bstep H c Ec. bstep H r Er.
    apply ok_or_ok, checked_add_some in H. unfold u128_ok. lia.
  Qed.

  Lemma get_amounts_out_u128 ps x r l : u128_ok x -> get_amounts_out C ps x r = Ok l -> Forall u128_ok l.
  Proof.
    revert x l. induction r as [|a r IH]; intros x l Hx H; [discriminate|].
    cbn in H. destruct r as [|b r]; [injection H as <-; auto|].
    bstep H y E. destruct y as [ri ro]. bstep H o Eo. bstep H os Eos. injection H as <-.
    apply get_amount_out_u128 in Eo. constructor; eauto.
  Qed.
  Lemma get_amounts_in_u128 ps x r l : u128_ok x -> get_amounts_in C ps x r = Ok l -> Forall u128_ok l.
  Proof.
    revert l. induction r as [|a r IH]; intros l Hx H; [discriminate|].
    cbn in H. destruct r as [|b r]; [injection H as <-; auto|].
    bstep H ins Ei. bstep H y E. destruct y as [ri ro]. bstep H i Eo. injection H as <-.
    apply get_amount_in_u128 in Eo. constructor; eauto.
  Qed.

  (** a routed trade is a sequence of AMM swaps: it preserves reachability *)
  Lemma swap_route_reachable now s who r amts s' :
    cfg_ok C -> amm_reachable C P s -> user C who -> 0 <= now -> Forall u128_ok amts ->
    swap_route R P now s who r amts = Ok s' -> amm_reachable C P s'.
  Proof.
    intros HC. revert s amts. induction r as [|a r IH]; intros s amts HR Hu Hn Hf H; cbn [swap_route] in H; [congruence|].
    destruct r as [|b r]; [congruence|]. destruct amts as [|x amts]; [discriminate|].
    bstep H y E. destruct y as [o s1]. inversion Hf; subst.
    eapply IH; [| | |eassumption|exact H]; auto.
    replace s1 with (amm_exec C P s (OSwap now who (a, b) x)).
    - apply amm_reach_step; auto. cbn. auto.
    - unfold amm_exec, amm_step. fold C in E. rewrite E. reflexivity.
  Qed.

  (** full effect of a chain of swaps on a route without repeated tokens; reserves quoted from [ps] *)
  Lemma swap_route_effect now ps who r : forall s amts s',
    who <> amm_acct C -> NoDup r ->
    (forall i a b, r !! i = Some a -> r !! S i = Some b -> pools s !! pair_key a b = ps !! pair_key a b) ->
    swap_route R P now s who r amts = Ok s' ->
    exists outs,
      length outs = pred (length r) /\
      (forall i a b x, r !! i = Some a -> r !! S i = Some b -> amts !! i = Some x ->
         exists y ri ro, outs !! i = Some y /\ get_reserves ps a b = Ok (ri, ro) /\ get_amount_out C x ri ro = Ok y) /\
      (forall a, bal (led s') a who = bal (led s) a who + moves r amts outs a) /\
      (forall a, bal (led s') a (amm_acct C) = bal (led s) a (amm_acct C) - moves r amts outs a) /\
      (forall a w, w <> who -> w <> amm_acct C -> bal (led s') a w = bal (led s) a w) /\
      (forall a, iss (led s') a = iss (led s) a) /\
      (forall k, (forall i a b, r !! i = Some a -> r !! S i = Some b -> k <> pair_key a b) ->
         pools s' !! k = pools s !! k).
  Proof.
    induction r as [|a r IH]; intros s amts s' Hw Hnd Hag H.
    { cbn in H. injection H as <-. exists []. cbn. repeat split; auto; intros; try lia; discriminate. }
    destruct r as [|b r].
    { cbn in H. injection H as <-. exists []. cbn. repeat split; auto; intros; try lia; destruct i; discriminate. }
    cbn [swap_route] in H. destruct amts as [|x amts]; [discriminate|].
    bstep H y E. destruct y as [o s1]. fold C in E. apply do_swap_spec in E.
    destruct E as (p & p1 & p2 & L1 & L2 & Hne & Hp & -> & _ & Ho & _ & _ & _ & T1 & T2 & _).
    cbn [led set_pool] in *.
    apply transfer_spec in T1, T2. destruct T1 as (T1 & I1 & _), T2 as (T2 & I2 & _).
    apply NoDup_cons in Hnd as [Hna Hnd].
    assert (Hsep : forall i c d, (b :: r) !! i = Some c -> (b :: r) !! S i = Some d -> pair_key a b <> pair_key c d).
    { intros i c d Hc Hd E. unfold pair_key in E. injection E as E1 E2.
      apply elem_of_list_lookup_2 in Hc, Hd.
      assert (a = c \/ a = d) as [->| ->] by lia; auto. }
    destruct (IH (set_pool s (pair_key a b) p2 L2) amts s') as (outs & Hlen & Hq & Hb1 & Hb2 & Hb3 & Hi & Hk); auto.
    { intros i c d Hc Hd. cbn. rewrite lookup_insert_ne by eauto. apply (Hag (S i)); auto. }
    cbn [led pools set_pool] in *.
    exists (o :: outs). split; [cbn in *; lia|].
    assert (Hbal : forall z w, bal L2 z w = bal (led s) z w - at_ a who z w x + at_ a (amm_acct C) z w x
       - at_ b (amm_acct C) z w o + at_ b who z w o).
    { intros z w. rewrite T2, T1. lia. }
    split.
    { intros i c d z Hc Hd Hz. destruct i as [|i].
      - cbn in Hc, Hd, Hz. injection Hc as <-. injection Hd as <-. injection Hz as <-.
        exists o, (reserve (pair_key a b) p a), (reserve (pair_key a b) p b). split; [reflexivity|]. split; [|exact Ho].
        rewrite (Hag 0%nat a b eq_refl eq_refl) in Hp.
        unfold get_reserves. rewrite sort_assets_ok by auto. cbn [rbind]. fold (pair_key a b). rewrite Hp. cbn.
        rewrite (reserve_in_out (a <? b) a b p Hne eq_refl). reflexivity.
      - apply (Hq i); auto. }
    split; [|split; [|split; [|split]]].
    - intros z. rewrite moves_cons, Hb1, Hbal. unfold at_. repeat case_bool_decide; destruct_and?; try congruence; try tauto; try lia.
    - intros z. rewrite moves_cons, Hb2, Hbal. unfold at_. repeat case_bool_decide; destruct_and?; try congruence; try tauto; try lia.
    - intros z w H1 H2. rewrite Hb3, Hbal by auto. unfold at_. repeat case_bool_decide; destruct_and?; try congruence; try tauto; try lia.
    - intros z. rewrite Hi, I2, I1. auto.
    - intros k Hk'. rewrite Hk.
      + rewrite lookup_insert_ne; auto. intros E. apply (Hk' 0%nat a b); auto.
      + intros i c d Hc Hd. apply (Hk' (S i)); auto.
  Qed.

  Lemma moves_exact ps r : forall x amts outs,
    get_amounts_out C ps x r = Ok amts -> length outs = pred (length r) -> NoDup r ->
    (forall i a b x, r !! i = Some a -> r !! S i = Some b -> amts !! i = Some x ->
         exists y ri ro, outs !! i = Some y /\ get_reserves ps a b = Ok (ri, ro) /\ get_amount_out C x ri ro = Ok y) ->
    forall out, last amts = Some out -> forall a, moves r amts outs a = route_delta r x out a.
  Proof.
    induction r as [|t r IH]; intros x amts outs H Hlen Hnd Hq out Hl a; [discriminate|].
    cbn [get_amounts_out] in H. destruct r as [|u r].
    { injection H as <-. injection Hl as <-. cbn. unfold route_delta; cbn. repeat case_bool_decide; try congruence; lia. }
    bstep H y E. destruct y as [ri ro]. bstep H o Eo. bstep H os Eos. injection H as <-.
    destruct outs as [|y outs]; [discriminate|].
    destruct (Hq 0%nat t u x eq_refl eq_refl eq_refl) as (y' & ri' & ro' & Hy & Hr & Hg).
    injection Hy as <-. rewrite E in Hr. injection Hr as <- <-. rewrite Eo in Hg. injection Hg as <-.
    apply NoDup_cons in Hnd as [Hna Hnd].
    destruct (get_amounts_out_len _ _ _ _ Eos) as [Hlos Hhd].
    assert (IHr : moves (u :: r) os outs a = route_delta (u :: r) o out a).
    { apply IH; auto.
      - intros i c d z Hc Hd Hz. apply (Hq (S i)); auto.
      - destruct os; [discriminate|]. exact Hl. }
    rewrite moves_cons, IHr.
    { unfold route_delta. cbn [head last]. change (last (t :: u :: r)) with (last (u :: r)).
      assert (Ht : last (u :: r) <> Some t).
      { intros E'. apply Hna. apply last_Some in E' as [l' ->]. apply elem_of_app. right. apply elem_of_list_singleton. auto. }
      repeat case_bool_decide; subst; try congruence; try lia; exfalso; apply Hna; constructor. }
  Qed.
End proofs.
