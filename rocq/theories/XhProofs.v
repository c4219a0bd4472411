(** * XhProofs: messages to the relay chain. *)
From Verif Require Import Base MapSum Ledger AmmModel AmmProofs5 XcmModel XhModel XhSpec.

Section xh.
  Context (C : xh_cfg) (P : policy).

  (** what a request did *)
  Definition sent_state (s : xh) (L : ledger) (m : list instr) (n : Z) : xh :=
    mkXh L (h_fee s) (h_qid s + 1) (<[h_qid s := n]> (h_q s)) (h_sent s ++ [m]).
  Lemma one_inv s k c n s' id : one C P s k c n = Ok (s', id) ->
    id = h_qid s /\ hc_net C <> OtherNet /\ exists L, burn_from P (h_led s) (hc_relay C) (hc_acct C) (fee_of s k).2 = Ok L /\
    hc_send C (message C (fee_of s k).1 (fee_of s k).2 [c] (h_qid s)) = true /\
    s' = sent_state s L (message C (fee_of s k).1 (fee_of s k).2 [c] (h_qid s)) n.
  Proof.
    unfold one, ump_transact, switch. intros H. bstep H x E.
    destruct (burn_from _ _ _ _ _) as [L| |] eqn:EB; cbn [rbind] in H; try discriminate. cbn [report_notify] in H.
    unfold send in H. bstep H s3 E3. bstep E3 y E4. injection E3 as <-. injection H as <- <-.
    split; [reflexivity|]. split; [destruct (hc_net C); congruence|]. exists L. split; [reflexivity|]. split; [exact E4|reflexivity].
  Qed.
  Lemma two_inv s k c c' n s' id : two C P s k c c' n = Ok (s', id) ->
    id = h_qid s /\ hc_net C <> OtherNet /\ exists L, burn_from P (h_led s) (hc_relay C) (hc_acct C) (fee_of s k).2 = Ok L /\
    hc_send C (message C (fee_of s k).1 (fee_of s k).2 [c; c'] (h_qid s)) = true /\
    s' = sent_state s L (message C (fee_of s k).1 (fee_of s k).2 [c; c'] (h_qid s)) n.
  Proof.
    unfold two, ump_transact, switch. intros H. bstep H x E.
    destruct (burn_from _ _ _ _ _) as [L| |] eqn:EB; cbn [rbind] in H; try discriminate. cbn [report_notify] in H.
    unfold send in H. bstep H s3 E3. bstep E3 y E4. injection E3 as <-. injection H as <- <-.
    split; [reflexivity|]. split; [destruct (hc_net C); congruence|]. exists L. split; [reflexivity|]. split; [exact E4|reflexivity].
  Qed.
  Lemma request_inv s q n s' id : request C P s q n = Ok (s', id) ->
    let f := fee_of s (fee_kind q) in let m := message C f.1 f.2 (wanted q) (h_qid s) in
    id = h_qid s /\ hc_net C <> OtherNet /\ exists L, burn_from P (h_led s) (hc_relay C) (hc_acct C) f.2 = Ok L /\
    hc_send C m = true /\ s' = sent_state s L m n.
  Proof.
    cbn zeta. destruct q; cbn [request]; intros H; first [apply one_inv in H|apply two_inv in H]; exact H.
  Qed.
  Lemma one_prog s k c n L : hc_net C <> OtherNet -> burn_from P (h_led s) (hc_relay C) (hc_acct C) (fee_of s k).2 = Ok L ->
    hc_send C (message C (fee_of s k).1 (fee_of s k).2 [c] (h_qid s)) = true -> exists s', one C P s k c n = Ok (s', h_qid s).
  Proof.
    intros H1 H2 H3. unfold one, ump_transact, switch. assert (Q : match hc_net C with OtherNet => Panic | _ => Ok tt end = Ok tt) by (destruct (hc_net C); congruence).
    rewrite Q, H2. cbn [rbind report_notify]. unfold send. 
    match goal with |- context [hc_send C ?m] => change m with (message C (fee_of s k).1 (fee_of s k).2 [c] (h_qid s)) end. rewrite H3. cbn. eauto.
  Qed.
  Lemma two_prog s k c c' n L : hc_net C <> OtherNet -> burn_from P (h_led s) (hc_relay C) (hc_acct C) (fee_of s k).2 = Ok L ->
    hc_send C (message C (fee_of s k).1 (fee_of s k).2 [c; c'] (h_qid s)) = true -> exists s', two C P s k c c' n = Ok (s', h_qid s).
  Proof.
    intros H1 H2 H3. unfold two, ump_transact, switch. assert (Q : match hc_net C with OtherNet => Panic | _ => Ok tt end = Ok tt) by (destruct (hc_net C); congruence).
    rewrite Q, H2. cbn [rbind report_notify]. unfold send.
    match goal with |- context [hc_send C ?m] => change m with (message C (fee_of s k).1 (fee_of s k).2 [c; c'] (h_qid s)) end. rewrite H3. cbn. eauto.
  Qed.
  Lemma request_prog s q n L : hc_net C <> OtherNet -> burn_from P (h_led s) (hc_relay C) (hc_acct C) (fee_of s (fee_kind q)).2 = Ok L ->
    hc_send C (message C (fee_of s (fee_kind q)).1 (fee_of s (fee_kind q)).2 (wanted q) (h_qid s)) = true -> exists s', request C P s q n = Ok (s', h_qid s).
  Proof. intros H1 H2 H3. destruct q; cbn [request]; first [eapply one_prog; eassumption|eapply two_prog; eassumption]. Qed.

  (** ** Histories *)
  Lemma queries_message w f l id : queries (message C w f l id) = [id].
  Proof.
    unfold queries, message. rewrite flat_map_app. cbn [flat_map app]. rewrite flat_map_app. cbn [flat_map app].
    induction l as [|c l IH]; cbn; auto.
  Qed.
  Lemma takes_message w f l id : takes (message C w f l id) = f.
  Proof. unfold takes, message. cbn [foldr app]. assert (E : foldr (fun i n => match i with IWithdraw a => a + n | _ => n end) 0 (map (fun c => ITransact w (enc (hc_net C) c)) l ++ [IReport (mkLoc 0 [JPara (hc_self C)]) id; IRefund; IDeposit f (hc_refund C)]) = 0).
    { induction l as [|c l IH]; cbn; auto. } rewrite E. lia.
  Qed.
  Lemma total_app a b : total (a ++ b) = total a + total b.
  Proof. unfold total. induction a as [|m a IH]; cbn [app foldr]; lia. Qed.

  Lemma total_one m : total [m] = takes m.
  Proof. unfold total. cbn [foldr]. lia. Qed.

  Definition ids (s : xh) : list Z := flat_map queries (h_sent s).
  Lemma step_ids s o s' : xh_step C P s o = Ok s' ->
    (h_qid s' = h_qid s /\ h_q s' = h_q s /\ h_sent s' = h_sent s) \/
    (exists m n, h_qid s' = h_qid s + 1 /\ h_q s' = <[h_qid s := n]> (h_q s) /\ h_sent s' = h_sent s ++ [m] /\ queries m = [h_qid s]).
  Proof.
    destruct o as [q n|o k w f|p a|a w v|a w v|a f t v]; cbn [xh_step]; intros H.
    - apply rbind_ok in H. destruct H as ((s1 & id) & H & H1). injection H1 as <-. apply request_inv in H. cbn zeta in H. destruct H as (_ & _ & L & _ & _ & ->).
      right. eexists _, n. split; [reflexivity|]. split; [reflexivity|]. split; [reflexivity|]. apply queries_message.
    - unfold update_fee in H. bstep H x1 E1. bstep H x2 E2. bstep H x3 E3. injection H as <-. auto.
    - unfold add_fees in H. bstep H L E. injection H as <-. auto.
    - bstep H L E. injection H as <-. auto.
    - bstep H L E. injection H as <-. auto.
    - bstep H L E. injection H as <-. auto.
  Qed.
  Definition h_inv (s : xh) : Prop :=
    0 <= h_qid s /\ NoDup (ids s) /\ (forall i, i ∈ ids s <-> 0 <= i < h_qid s) /\ (forall i, is_Some (h_q s !! i) <-> 0 <= i < h_qid s).
  Lemma h_inv_reach s : xh_reachable C P s -> h_inv s.
  Proof.
    induction 1 as [L|s o s' _ (I0 & I1 & I2 & I3) H].
    - unfold h_inv, ids. cbn. split; [lia|]. split; [constructor|]. split; intros i.
      + split; [intros K; inversion K|lia].
      + rewrite lookup_empty. split; [intros [? [=]]|lia].
    - apply step_ids in H. destruct H as [(E1 & E2 & E3)|(m & n & E1 & E2 & E3 & E4)].
      + unfold h_inv, ids in *. rewrite E1, E2, E3. auto.
      + unfold h_inv. assert (E5 : ids s' = ids s ++ [h_qid s]).
        { unfold ids. rewrite E3, flat_map_app. cbn [flat_map]. rewrite E4. cbn. reflexivity. }
        rewrite E1, E2, E5. split; [lia|]. split.
        { apply NoDup_app. split; [exact I1|]. split.
          - intros x Hx. rewrite elem_of_list_singleton. apply I2 in Hx. lia.
          - apply NoDup_singleton. }
        split; intros i.
        * rewrite elem_of_app, elem_of_list_singleton, I2. lia.
        * destruct (decide (i = h_qid s)) as [->|N]; [rewrite lookup_insert; split; [lia|eauto]|]. rewrite lookup_insert_ne by auto. rewrite I3. lia.
  Qed.
End xh.
