(** * StreamProofs3: every call preserves the invariant; effects of cancel and withdraw. *)
From Verif Require Import Base MapSum Ledger AmmModel StreamModel StreamSpec StreamProofs StreamProofs2.

Section steps.
  Context (C : str_cfg) (P : policy).
  Hypothesis HC : str_cfg_ok C.

  Lemma do_create_inv s sender recipient deposit asset start stop c id s1 :
    str_inv C s -> sender <> str_acct C -> 0 <= deposit <= U128MAX -> 0 <= start ->
    do_create C P s sender recipient deposit asset start stop c = Ok (id, s1) ->
    inv0 C id s1 /\ fin_ok C s1 /\ id = next_id s /\ sender <> recipient /\
    streams s1 !! id = Some (stream_new deposit asset (deposit / (stop - start)) sender recipient start stop c) /\
    (forall a k, id ∉ lib_get (slib s1) a k) /\
    prunes (<[id := stream_new deposit asset (deposit / (stop - start)) sender recipient start stop c]> (streams s)) (slib s) (streams s1) (slib s1) /\
    s_now s1 = s_now s /\ start < stop /\
    s_log s1 = ECreated id sender recipient deposit asset start stop true :: s_log s /\
    transfer P (s_led s) asset sender (str_acct C) deposit false = Ok (s_led s1).
  Proof.
    intros [HI HF] Hs Hd Hst H. unfold do_create in H.
    bstep H u0 E0. bstep H dur E1. bstep H rate E2. bstep H u1 E3. bstep H L E4. bstep H nid E5.
    apply rbind_ok in H as ([ss l] & E6 & H). injection H as <- <-.
    destruct E1 as [-> E1]. destruct E2 as [-> E2]. destruct E5 as [-> E5].
    assert (start < stop) as Hlt by lia.
    set (st := stream_new deposit asset (deposit / (stop - start)) sender recipient start stop c) in *.
    set (id := next_id s) in *.
    pose proof HI as [].
    pose proof (transfer_spec _ _ _ _ _ _ _ _ E4) as (T1 & T2 & T3).
    assert (0 < deposit / (stop - start)) as Hrate.
    { assert (0 <= deposit / (stop - start)) by (apply Z.div_pos; lia). lia. }
    assert (0 < deposit) as Hdpos.
    { destruct (Z.eq_dec deposit 0) as [->|]; [|lia]. rewrite Z.div_0_l in Hrate; lia. }
    assert (streams s !! id = None) as Hnone.
    { destruct (streams s !! id) as [x|] eqn:E; auto. apply i_streams in E as ((? & ?) & _). lia. }
    assert (forall a k, id ∉ lib_get (slib s) a k) as Hnot.
    { intros a k Hin. destruct (i_sound _ _ _ Hin) as (x & E & _). congruence. }
    assert (forall x, In x (s_log s) -> ev_id x <> id) as Hfresh.
    { intros x Hx. apply i_log in Hx. lia. }
    assert (forall l, (forall x, In x l -> ev_id x <> id) -> lsum (ev_paid id) l = 0 /\ lsum (ev_refunded id) l = 0) as Hzero.
    { clear. induction l as [|x l IH]; intros Hl; [split; reflexivity|].
      destruct (IH (fun y Hy => Hl y (or_intror Hy))) as [I1 I2].
      change (ev_paid id x + lsum (ev_paid id) l = 0 /\ ev_refunded id x + lsum (ev_refunded id) l = 0).
      rewrite I1, I2. pose proof (Hl x (or_introl eq_refl)) as Hx.
      destruct x; cbn in *; split; auto; rewrite bool_decide_false by auto; reflexivity. }
    destruct (Hzero (s_log s) Hfresh) as [HZ1 HZ2].
    set (s0 := mkStr (<[id := st]> (streams s)) (slib s) (id + 1) (min_deposit s) L (s_now s)
                 (ECreated id sender recipient deposit asset start stop true :: s_log s)).
    assert (inv0 C id s0) as HI0.
    { split; cbn [s_led s_now next_id slib streams s_log s0]; auto.
      - eapply transfer_wf; [|eauto|eauto]. lia.
      - lia.
      - intros a k x Hx. destruct (i_sound _ _ _ Hx) as (st0 & E & Hl).
        exists st0. rewrite lookup_insert_ne; auto. intros <-. eapply Hnot; eauto.
      - intros x st0. destruct (decide (x = id)) as [->|Hne].
        + rewrite lookup_insert. intros [= <-]. split; [lia|]. split.
          * unfold stream_ok, st, stream_new; cbn. repeat split; auto; try lia.
            left. pose proof (scheduled_nonneg deposit start stop (s_now s) ltac:(lia) ltac:(lia)). lia.
          * split; [auto|]. split; [intros [=]|]. left. reflexivity.
        + rewrite lookup_insert_ne by auto. intros E. destruct (i_streams x st0 E) as (D1 & D2 & D3 & D4 & D5).
          split; [lia|]. split; [auto|]. split; [|split; [auto|right; auto]]. destruct D3; [lia|auto].
      - intros e [<-|Hin]; [cbn; lia|]. apply i_log in Hin. lia.
      - intros i snd rcp dep a b e c' [Heq|Hin].
        + injection Heq as <- <- <- <- <- <- <- <-. split.
          * assert (paid s0 id = 0) as HP0 by (change (paid s0 id) with (0 + lsum (ev_paid id) (s_log s)); lia).
            assert (refunded s0 id = 0) as HR0 by (change (refunded s0 id) with (0 + lsum (ev_refunded id) (s_log s)); lia).
            assert (outstanding s0 id = deposit) as HO0 by (unfold outstanding, s0; cbn [streams]; rewrite lookup_insert; reflexivity).
            split; rewrite ?HP0, ?HR0, ?HO0; auto; try lia.
            intros _. pose proof (scheduled_nonneg deposit start stop (s_now s0) ltac:(lia) ltac:(lia)).
            unfold slack. destruct HC as (_ & _ & ?). case_bool_decide; lia.
          * intros st0. rewrite lookup_insert. intros [= <-]. repeat split.
        + assert (i <> id) as Hne by (apply (Hfresh _ Hin)).
          destruct (i_created _ _ _ _ _ _ _ _ Hin) as [[] HM]. split.
          * assert (outstanding s0 i = outstanding s i) as HO0 by (unfold outstanding, s0; cbn [streams]; rewrite lookup_insert_ne by auto; reflexivity).
            split; auto; rewrite ?HO0; auto.
            intros st0. cbn [streams s0]. rewrite lookup_insert_ne by auto. apply co_noref.
          * intros st0. rewrite lookup_insert_ne by auto. apply HM.
      - intros a. unfold total_owed, s0. cbn [streams s_led]. rewrite msum_insert, Hnone, T1.
        pose proof (i_solv a) as HS0. unfold total_owed in HS0.
        change (owed a st) with (if bool_decide (asset = a) then deposit else 0). unfold at_.
        repeat case_bool_decide; destruct_and?; subst; try tauto; lia. }
    destruct (inv0_update_finished C id s0 sender recipient ss l HC HI0) as (R1 & R2 & R3).
    - intros a. pose proof (HF a). cbn [slib s0]. lia.
    - intros a _ _. apply HF.
    - exact E6.
    - cbn [s0 streams slib next_id min_deposit s_led s_now s_log] in *.
      assert (negb (sender =? recipient) = true) by auto.
      split; [exact R1|]. split; [exact R2|]. split; [auto|]. split; [lia|].
      pose proof R3 as (A1 & A2 & _).
      split.
      { destruct (A1 id) as [->|(_ & st0 & Hc & Hf)].
        - rewrite lookup_insert. auto.
        - rewrite lookup_insert in Hc. injection Hc as <-. discriminate Hf. }
      split; [intros a k Hin; apply A2 in Hin as [Hin _]; eapply Hnot; eauto|].
      split; [exact R3|]. auto.
  Qed.

  (** pushing a new id to a Send or Receive list of its owner *)
  Lemma inv0_push ex ex' s acct id kind l' st :
    inv0 C ex s -> fin_ok C s -> streams s !! id = Some st ->
    (kind = KSend /\ acct = st_sender st /\ ex' = ex) \/ (kind = KReceive /\ acct = st_recipient st /\ ex = id /\ ex' = -1) ->
    try_push C (slib s) acct id kind = Ok l' -> inv0 C ex' (set_lib s l') /\ fin_ok C (set_lib s l').
  Proof.
    intros HI HF Hst Hk H. destruct (try_push_spec C _ _ _ _ _ (i_desc _ _ _ HI) H) as (Q1 & Q2 & Q3 & Q4).
    destruct HI. split; [split; cbn; auto|].
    - intros a k x. rewrite Q2. intros [Hx|(-> & -> & ->)]; [auto|]. exists st. split; auto. unfold listed.
      destruct Hk as [(-> & -> & _)|(-> & -> & _)]; auto.
    - intros x st0 E. destruct (i_streams x st0 E) as (D1 & D2 & D3 & D4 & D5).
      split; [auto|]. split; [auto|]. split; [|split; [|auto]].
      + destruct Hk as [(-> & -> & ->)|(-> & -> & -> & ->)].
        * destruct D3; auto. right. apply Q2. auto.
        * right. apply Q2. destruct D3 as [->|]; auto. right. rewrite Hst in E. injection E as <-. auto.
      + intros F. destruct (D4 F). split; apply Q2; auto.
    - intros i snd rcp dep a b e c Hin. destruct (i_created _ _ _ _ _ _ _ _ Hin) as [[] ?]. split; [split; auto|auto].
    - intros a. cbn. pose proof (HF a). pose proof (Q3 a KFinish) as Hq. rewrite bool_decide_false in Hq; [lia|].
      destruct Hk as [(-> & _)|(-> & _)]; intros [_ [=]].
  Qed.

  Lemma create_inv s who recipient deposit asset start stop c s' :
    str_inv C s -> who <> str_acct C -> 0 <= deposit <= U128MAX -> 0 <= start ->
    create C P s who recipient deposit asset start stop c = Ok s' -> str_inv C s'.
  Proof.
    intros HI Hw Hd Hs H. unfold create in H. bstep H m E0. bstep H u0 E1. bstep H u1 E2.
    apply rbind_ok in H as ([id s1] & E3 & H). bstep H l1 E4. bstep H l2 E5. injection H as <-.
    destruct (do_create_inv _ _ _ _ _ _ _ _ _ _ HI Hw Hd Hs E3) as (R1 & R2 & R3 & R4 & R5 & R6 & R7).
    destruct (inv0_push id id s1 who id KSend l1 _ R1 R2 R5) as (S1 & S2); auto.
    destruct (inv0_push id (-1) (set_lib s1 l1) recipient id KReceive l2 _ S1 S2 R5) as (S3 & S4); auto.
    split; auto.
  Qed.
  Lemma trait_create_inv s who recipient deposit asset start stop c s' :
    str_inv C s -> who <> str_acct C -> 0 <= deposit <= U128MAX -> 0 <= start ->
    trait_create C P s who recipient deposit asset start stop c = Ok s' -> str_inv C s'.
  Proof.
    intros HI Hw Hd Hs H. unfold trait_create in H. bstep H u1 E2.
    apply rbind_ok in H as ([id s1] & E3 & H). bstep H l1 E4. injection H as <-.
    destruct (do_create_inv _ _ _ _ _ _ _ _ _ _ HI Hw Hd Hs E3) as (R1 & R2 & R3 & R4 & R5 & R6 & R7).
    destruct (inv0_push id (-1) s1 recipient id KReceive l1 _ R1 R2 R5) as (S3 & S4); auto.
    split; auto.
  Qed.

  (** pushing to the two Finish lists *)
  Lemma push_finish s id st st' l1 l2 :
    str_inv C s -> streams s !! id = Some st -> has_finished st = false -> has_finished st' = true ->
    try_push C (slib s) (st_sender st) id KFinish = Ok l1 -> try_push C l1 (st_recipient st) id KFinish = Ok l2 ->
    lib_desc l2 /\
    (forall a k x, x ∈ lib_get l2 a k <-> x ∈ lib_get (slib s) a k \/
       (has_finished st' = true /\ k = KFinish /\ x = id /\ (a = st_sender st \/ a = st_recipient st))) /\
    (forall a k, Z.of_nat (length (lib_get l2 a k)) <= max_streams C) /\
    (forall a, Z.of_nat (length (lib_get l2 a KFinish)) <= max_finished C + 1) /\
    (forall a, a <> st_sender st -> a <> st_recipient st -> Z.of_nat (length (lib_get l2 a KFinish)) <= max_finished C).
  Proof.
    intros [HI HF] Hst Hnf Hf E1 E2.
    destruct (try_push_spec C _ _ _ _ _ (i_desc _ _ _ HI) E1) as (Q1 & Q2 & Q3 & Q4).
    destruct (try_push_spec C _ _ _ _ _ Q1 E2) as (Q1' & Q2' & Q3' & Q4').
    destruct (i_streams _ _ _ HI id st Hst) as (_ & (Hne & _) & _).
    split; [auto|]. split; [|split; [|split]].
    - intros a k x. rewrite Q2', Q2. rewrite Hf. naive_solver.
    - intros a k. apply Q4'. intros. apply Q4. apply (i_len _ _ _ HI).
    - intros a. pose proof (HF a). pose proof (Q3 a KFinish). pose proof (Q3' a KFinish).
      repeat case_bool_decide; destruct_and?; subst; try congruence; lia.
    - intros a N1 N2. pose proof (HF a). pose proof (Q3 a KFinish). pose proof (Q3' a KFinish).
      repeat case_bool_decide; destruct_and?; subst; try congruence; lia.
  Qed.

  Lemma cancel_full s who id s' :
    str_inv C s -> cancel C P s who id = Ok s' ->
    exists st, let acc := accrued st (s_now s) in
      streams s !! id = Some st /\ who = st_sender st /\ has_finished st = false /\ st_cancellable st = true /\
      0 <= acc <= st_remaining st /\
      (forall a w, bal (s_led s') a w = bal (s_led s) a w
          - at_ (st_asset st) (str_acct C) a w (st_remaining st)
          + at_ (st_asset st) (st_sender st) a w (st_remaining st - acc)
          + at_ (st_asset st) (st_recipient st) a w acc) /\
      (forall a, iss (s_led s') a = iss (s_led s) a) /\
      s_log s' = ECancelled id (st_sender st) (st_recipient st) (st_asset st) (st_remaining st - acc) acc :: s_log s /\
      (forall x st0, x <> id -> streams s !! x = Some st0 -> has_finished st0 = false -> streams s' !! x = Some st0) /\
      (forall x st0, x <> id -> streams s' !! x = Some st0 -> streams s !! x = Some st0) /\
      outstanding s' id = 0 /\ (forall st0, streams s' !! id = Some st0 -> has_finished st0 = true) /\
      s_now s' = s_now s /\ next_id s' = next_id s /\ min_deposit s' = min_deposit s /\
      str_inv C s'.
  Proof.
    intros HI H. unfold cancel in H. bstep H st Est. bstep H u0 E0. bstep H u1 E1. bstep H u2 E2.
    bstep H sb E3. bstep H rb E4. bstep H L1 E5. bstep H L2 E6.
    apply rbind_ok in H as ([ss l] & E7 & H). injection H as <-.
    assert (has_finished st = false) as Hnf by (destruct (has_finished st); auto; discriminate).
    assert (who = st_sender st) as -> by lia.
    pose proof HI as [HI0 HF].
    destruct (i_streams _ _ _ HI0 id st Est) as (B1 & B2 & B3 & B4 & B5).
    pose proof (accrued_range C _ _ B2 Hnf) as HA.
    destruct (balances_ok C _ _ B2 Hnf) as [Hrb Hsb].
    rewrite Hsb in E3. rewrite Hrb in E4. injection E3 as <-. injection E4 as <-.
    set (acc := accrued st (s_now s)) in *.
    pose proof (transfer_spec _ _ _ _ _ _ _ _ E5) as (T1 & T2 & T3).
    pose proof (transfer_spec _ _ _ _ _ _ _ _ E6) as (T1' & T2' & T3').
    exists st. cbn zeta. fold acc.
    unfold finish_lib in E7. bstep E7 l1 Ep1. bstep E7 l2 Ep2.
    set (st' := try_cancel st (st_remaining st - acc)) in *.
    assert (has_finished st' = true) as Hf' by reflexivity.
    destruct (push_finish s id st st' l1 l2 HI Est Hnf Hf' Ep1 Ep2) as (K1 & K2 & K3 & K4 & K5).
    set (s2 := mkStr (<[id := st']> (streams s)) l2 (next_id s) (min_deposit s) L2 (s_now s)
                (ECancelled id (st_sender st) (st_recipient st) (st_asset st) (st_remaining st - acc) acc :: s_log s)).
    assert (inv0 C (-1) s2) as HI2.
    { apply (inv0_pay C s id st (st_remaining st - acc) (Completed true) L2 l2 _ acc (st_remaining st - acc)); auto; try lia.
      - refine (transfer_wf _ _ _ _ _ _ _ _ _ _ E6); [lia|]. refine (transfer_wf _ _ _ _ _ _ _ _ _ _ E5); [lia|]. apply (i_wf _ _ _ HI0).
      - intros a. rewrite T1', T1. unfold at_. destruct B2 as (_ & B2 & _).
        repeat case_bool_decide; destruct_and?; subst; try congruence; try tauto; lia.
      - cbn. lia.
      - discriminate.
      - intros Ht. unfold acc, accrued. destruct (st_end st <=? s_now s) eqn:E; [lia|].
        unfold slack. destruct HC as (_ & _ & ?). case_bool_decide; lia.
      - cbn. rewrite bool_decide_true; auto.
      - cbn. rewrite bool_decide_true; auto. }
    destruct (inv0_update_finished C (-1) s2 (st_sender st) (st_recipient st) ss l HC HI2 K4 K5 E7) as (R1 & R2 & R3).
    pose proof R3 as (A1 & A2 & _). cbn [s2 streams slib s_led] in *.
    repeat (split; [solve [auto]|]).
    split.
    { cbn [s_led]. intros a w. rewrite T1', T1. unfold at_. repeat case_bool_decide; destruct_and?; subst; try congruence; try tauto; lia. }
    split; [intros a; cbn [s_led]; rewrite T2', T2; auto|].
    split; [reflexivity|].
    split.
    { intros x st0 Hne E Hnf0. cbn [streams]. destruct (A1 x) as [->|(_ & st1 & E1' & Hf1)]; rewrite ?lookup_insert_ne in * by auto; auto.
      rewrite E in E1'. injection E1' as <-. congruence. }
    split.
    { intros x st0 Hne E. cbn [streams] in E. destruct (A1 x) as [Heq|(Heq & _)]; rewrite Heq in E; [|discriminate].
      rewrite lookup_insert_ne in E by auto. auto. }
    assert (forall st0, ss !! id = Some st0 -> st0 = st') as Hid.
    { intros st0 E. destruct (A1 id) as [Heq|(Heq & _)]; rewrite Heq in E; [|discriminate].
      rewrite lookup_insert in E. congruence. }
    split.
    { unfold outstanding. cbn [streams]. destruct (ss !! id) as [st0|] eqn:E; auto. rewrite (Hid _ eq_refl). reflexivity. }
    split; [intros st0 E; rewrite (Hid _ E); reflexivity|].
    repeat (split; [reflexivity|]). split; auto.
  Qed.

  Lemma withdraw_full s who id amount s' :
    str_inv C s -> who <> str_acct C -> 0 <= amount <= U128MAX -> withdraw C P s who id amount = Ok s' ->
    exists st paid_amt, let acc := accrued st (s_now s) in
      streams s !! id = Some st /\ who = st_recipient st /\ has_finished st = false /\ st_start st < s_now s /\
      amount <= acc /\ 0 <= acc <= st_remaining st /\
      paid_amt = (if bool_decide (st_asset st = str_native C /\ st_remaining st <= amount + native_ed C) then st_remaining st else amount) /\
      (forall a w, bal (s_led s') a w = bal (s_led s) a w
          - at_ (st_asset st) (str_acct C) a w paid_amt + at_ (st_asset st) (st_recipient st) a w paid_amt) /\
      (forall a, iss (s_led s') a = iss (s_led s) a) /\
      s_log s' = EWithdrawn id (st_recipient st) (st_asset st) paid_amt :: s_log s /\
      (forall x st0, x <> id -> streams s !! x = Some st0 -> has_finished st0 = false -> streams s' !! x = Some st0) /\
      (forall x st0, x <> id -> streams s' !! x = Some st0 -> streams s !! x = Some st0) /\
      outstanding s' id = st_remaining st - paid_amt /\
      (paid_amt <> st_remaining st -> streams s' !! id = Some (set_rs st (st_remaining st - paid_amt) (st_status st)) /\ slib s' = slib s) /\
      (paid_amt = st_remaining st -> forall st0, streams s' !! id = Some st0 -> has_finished st0 = true) /\
      s_now s' = s_now s /\ next_id s' = next_id s /\ min_deposit s' = min_deposit s /\
      str_inv C s'.
  Proof.
    intros HI Hw Ham H. unfold withdraw in H. bstep H st Est. bstep H u0 E0. bstep H u1 E1. bstep H started E2. bstep H u2 E3.
    bstep H rb E4. bstep H u3 E5.
    assert (has_finished st = false) as Hnf by (destruct (has_finished st); auto; discriminate).
    assert (who = st_recipient st) as -> by lia.
    pose proof HI as [HI0 HF].
    destruct (i_streams _ _ _ HI0 id st Est) as (B1 & B2 & B3 & B4 & B5).
    pose proof (accrued_range C _ _ B2 Hnf) as HA.
    destruct (balances_ok C _ _ B2 Hnf) as [Hrb Hsb].
    rewrite Hrb in E4. injection E4 as <-.
    set (acc := accrued st (s_now s)) in *.
    assert (st_start st < s_now s) as Hstarted.
    { unfold has_started in E2. rewrite (delta_ok C _ _ B2) in E2. cbn in E2. injection E2 as <-.
      destruct (_ =? 0) eqn:E in E3; [discriminate|]. lia. }
    pose proof B2 as (C1 & C2 & C3 & C4 & C5 & C6 & C7 & C8 & C9).
    set (amt := if (st_asset st =? str_native C) && (st_remaining st <=? saturating_add amount (native_ed C)) then st_remaining st else amount) in *.
    assert (amt = if bool_decide (st_asset st = str_native C /\ st_remaining st <= amount + native_ed C) then st_remaining st else amount) as Hamt.
    { unfold amt, saturating_add, sat128. destruct HC as (_ & _ & ?). case_bool_decide as Hb.
      - destruct Hb. assert ((st_asset st =? str_native C) = true) as -> by lia.
        assert ((st_remaining st <=? Z.max 0 (Z.min (amount + native_ed C) U128MAX)) = true) as -> by lia. auto.
      - destruct (st_asset st =? str_native C) eqn:Ea; auto. cbn.
        destruct (st_remaining st <=? Z.max 0 (Z.min (amount + native_ed C) U128MAX)) eqn:Eb; auto.
        exfalso. apply Hb. lia. }
    assert (0 <= amt <= st_remaining st) as Hamtr by (rewrite Hamt; case_bool_decide; lia).
    assert (s_now s < st_end st -> st_deposit st - st_remaining st + amt <=
       scheduled (st_deposit st) (st_start st) (st_end st) (s_now s) + slack C (st_asset st)) as Hsch.
    { intros Ht. assert (acc = scheduled (st_deposit st) (st_start st) (st_end st) (s_now s) - (st_deposit st - st_remaining st)) as Hacc.
      { unfold acc, accrued. destruct (st_end st <=? s_now s) eqn:E; [lia|auto]. }
      unfold slack. destruct HC as (_ & _ & ?). rewrite Hamt. repeat case_bool_decide; destruct_and?; try tauto; lia. }
    clearbody amt.
    bstep H st1 E6. unfold try_deduct in E6. bstep E6 r0 E7. injection E6 as <-. destruct E7 as [-> E7].
    apply rbind_ok in H as ([ss l] & E8 & H). bstep H L E9. injection H as <-.
    pose proof (transfer_spec _ _ _ _ _ _ _ _ E9) as (T1 & T2 & T3).
    assert (ledger_wf L) as HWL by (eapply transfer_wf; [|apply (i_wf _ _ _ HI0)|eauto]; lia).
    set (ev := EWithdrawn id (st_recipient st) (st_asset st) amt).
    exists st, amt. cbn zeta. fold acc.
    assert (forall a, bal (s_led s) a (str_acct C) - (if bool_decide (st_asset st = a) then amt + 0 else 0) <= bal L a (str_acct C)) as HbL.
    { intros a. rewrite T1. unfold at_. repeat case_bool_decide; destruct_and?; subst; try congruence; try tauto; lia. }
    assert (ev_paid id ev = amt) as Hev by (cbn; rewrite bool_decide_true; auto).
    unfold try_complete in E8. cbn [st_remaining set_rs] in E8.
    destruct (st_remaining st - amt =? 0) eqn:Ez.
    - (* completed *)
      assert (amt = st_remaining st) as Heq by lia.
      set (st' := set_rs (set_rs st (st_remaining st - amt) (st_status st)) (st_remaining st - amt) (Completed false)) in *.
      assert (has_finished st' = true) as Hf' by reflexivity. rewrite Hf' in E8.
      unfold finish_lib in E8. bstep E8 l1 Ep1. bstep E8 l2 Ep2.
      destruct (push_finish s id st st' l1 l2 HI Est Hnf Hf' Ep1 Ep2) as (K1 & K2 & K3 & K4 & K5).
      set (s2 := mkStr (<[id := st']> (streams s)) l2 (next_id s) (min_deposit s) L (s_now s) (ev :: s_log s)).
      assert (inv0 C (-1) s2) as HI2.
      { apply (inv0_pay C s id st (st_remaining st - amt) (Completed false) L l2 ev amt 0); auto; try lia.
        - cbn. lia.
        - discriminate. }
      destruct (inv0_update_finished C (-1) s2 (st_sender st) (st_recipient st) ss l HC HI2 K4 K5 E8) as (R1 & R2 & R3).
      pose proof R3 as (A1 & A2 & _). cbn [s2 streams slib s_led] in *.
      do 7 (split; [solve [auto; lia]|]).
      split; [cbn [s_led]; intros a w; rewrite T1; auto|].
      split; [intros a; cbn [s_led]; rewrite T2; auto|].
      split; [reflexivity|].
      split.
      { intros x st0 Hne E Hnf0. cbn [streams]. destruct (A1 x) as [->|(_ & st1 & E1' & Hf1)]; rewrite ?lookup_insert_ne in * by auto; auto.
        rewrite E in E1'. injection E1' as <-. congruence. }
      split.
      { intros x st0 Hne E. cbn [streams] in E. destruct (A1 x) as [Hx|(Hx & _)]; rewrite Hx in E; [|discriminate].
        rewrite lookup_insert_ne in E by auto. auto. }
      assert (forall st0, ss !! id = Some st0 -> st0 = st') as Hid.
      { intros st0 E. destruct (A1 id) as [Hx|(Hx & _)]; rewrite Hx in E; [|discriminate].
        rewrite lookup_insert in E. congruence. }
      split.
      { unfold outstanding. cbn [streams]. destruct (ss !! id) as [st0|] eqn:E; [rewrite (Hid _ eq_refl), Hf'|]; lia. }
      split; [tauto|].
      split; [intros _ st0 E; rewrite (Hid _ E); reflexivity|].
      repeat (split; [reflexivity|]). split; auto.
    - (* still running *)
      change (has_finished (set_rs st (st_remaining st - amt) (st_status st))) with (has_finished st) in E8.
      rewrite Hnf in E8. injection E8 as <- <-.
      assert (inv0 C (-1) (mkStr (<[id := set_rs st (st_remaining st - amt) (st_status st)]> (streams s)) (slib s) (next_id s) (min_deposit s) L (s_now s) (ev :: s_log s))) as HI2.
      { apply (inv0_pay C s id st (st_remaining st - amt) (st_status st) L (slib s) ev amt 0); auto; try lia.
        - change (has_finished (set_rs st (st_remaining st - amt) (st_status st))) with (has_finished st). rewrite Hnf. lia.
        - intros _. split; [lia|]. split; [lia|].
          destruct (Z_lt_le_dec (s_now s) (st_end st)) as [Ht|Ht]; [|auto]. left.
          assert (amt <= acc) as Hle by (case_bool_decide; lia).
          unfold acc, accrued in Hle. destruct (st_end st <=? s_now s) eqn:E; lia.
        - apply (i_desc _ _ _ HI0).
        - intros a k x. change (has_finished (set_rs st (st_remaining st - amt) (st_status st))) with (has_finished st). rewrite Hnf.
          split; auto. intros [?|(? & _)]; auto. discriminate.
        - apply (i_len _ _ _ HI0). }
      cbn [streams slib s_led] in *.
      do 7 (split; [solve [auto; lia]|]).
      split; [cbn [s_led]; intros a w; rewrite T1; auto|].
      split; [intros a; cbn [s_led]; rewrite T2; auto|].
      split; [reflexivity|].
      split; [intros x st0 Hne E _; cbn [streams]; rewrite lookup_insert_ne by auto; auto|].
      split; [intros x st0 Hne E; cbn [streams] in E; rewrite lookup_insert_ne in E by auto; auto|].
      split.
      { unfold outstanding. cbn [streams]. rewrite lookup_insert.
        change (has_finished (set_rs st (st_remaining st - amt) (st_status st))) with (has_finished st). rewrite Hnf. reflexivity. }
      split; [intros _; rewrite lookup_insert; auto|].
      split; [intros Heq; lia|].
      repeat (split; [reflexivity|]). split; auto.
  Qed.

  Lemma step_inv s o : str_inv C s -> str_op_ok C o -> str_inv C (str_exec C P s o).
  Proof.
    intros HI HO. unfold str_exec. destruct (str_step C P s o) as [s'| |] eqn:E; auto.
    destruct o as [w r d a b e c|w r d a b e c|w id|w id amt|o a v|t|a f t amt|a w amt|a w amt]; cbn [str_step str_op_ok] in *.
    - destruct HO as (? & ? & ? & ?). exact (create_inv s w r d a b e c s' HI H H0 H1 E).
    - destruct HO as (? & ? & ? & ?). exact (trait_create_inv s w r d a b e c s' HI H H0 H1 E).
    - destruct (cancel_full _ _ _ _ HI E) as (st & H). cbn zeta in H. tauto.
    - destruct HO. destruct (withdraw_full _ _ _ _ _ HI H H0 E) as (st & amt' & H'). cbn zeta in H'. tauto.
    - unfold set_minimum_deposit in E. bstep E u0 E0. injection E as <-. destruct HI as [[] HF]. split; auto.
      split; cbn; auto.
      intros i snd rcp dep a0 b e c Hin. destruct (i_created _ _ _ _ _ _ _ _ Hin) as [[] ?]. split; [split; auto|auto].
    - injection E as <-. destruct HI as [[] HF]. split; auto. split; cbn; auto; try lia.
      + intros id st Hst. destruct (i_streams id st Hst) as (B1 & B2 & B3 & B4 & B5).
        split; [auto|]. split; [|auto].
        destruct B2 as (C1 & C2 & C3 & C4 & C5 & C6 & C7 & C8 & C9). unfold stream_ok.
        repeat (split; [solve [auto; lia]|]). intros F. destruct (C9 F) as [? [?|?]]; split; auto; [|right; lia].
        left. etransitivity; [eassumption|]. apply scheduled_mono; lia.
      + intros i snd rcp dep a0 b e c Hin. destruct (i_created _ _ _ _ _ _ _ _ Hin) as [[] HM]. split; [|auto]. split; auto.
        cbn. intros Ht. change (paid s i <= scheduled dep b e (Z.max (s_now s) t) + slack C a0).
        assert (s_now s < e) as Ht' by lia. specialize (co_sched Ht').
        pose proof (scheduled_mono dep b e (s_now s) (Z.max (s_now s) t) ltac:(lia) ltac:(lia) ltac:(lia)). lia.
    - bstep E L E0. injection E as <-. destruct HI as [HI0 HF]. split; auto.
      apply inv0_led; auto.
      + eapply transfer_wf; [|apply (i_wf _ _ _ HI0)|eauto]. lia.
      + intros a'. pose proof (transfer_spec _ _ _ _ _ _ _ _ E0) as (T1 & _). rewrite T1. unfold at_.
        destruct HO. repeat case_bool_decide; destruct_and?; subst; try congruence; try tauto; lia.
    - bstep E L E0. injection E as <-. destruct HI as [HI0 HF]. split; auto.
      apply inv0_led; auto.
      + eapply mint_wf; [apply (i_wf _ _ _ HI0)|eauto].
      + intros a'. pose proof (mint_spec _ _ _ _ _ _ E0) as (T0 & T1 & _). rewrite T1. unfold at_. case_bool_decide; lia.
    - bstep E L E0. injection E as <-. destruct HI as [HI0 HF]. split; auto.
      apply inv0_led; auto.
      + eapply burn_wf; [apply (i_wf _ _ _ HI0)|eauto].
      + intros a'. pose proof (burn_spec _ _ _ _ _ _ E0) as (T0 & T3 & T1 & _). rewrite T1. unfold at_.
        case_bool_decide; destruct_and?; subst; try congruence; try tauto; lia.
  Qed.

  Lemma reachable_str_inv s : str_reachable C P s -> str_inv C s.
  Proof. induction 1; [apply inv_init; auto|apply step_inv; auto]. Qed.
End steps.
