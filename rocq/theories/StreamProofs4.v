(** * StreamProofs4: frame and liveness facts derived from the invariant. *)
From Verif Require Import Base MapSum Ledger AmmModel StreamModel StreamSpec StreamProofs StreamProofs2 StreamProofs3.

Section more.
  Context (C : str_cfg) (P : policy).
  Hypothesis HC : str_cfg_ok C.

  (** an unfinished stream is only touched by its own cancel/withdraw *)
  Lemma unfinished_frame s o id st :
    str_inv C s -> str_op_ok C o -> streams s !! id = Some st -> has_finished st = false ->
    streams (str_exec C P s o) !! id = Some st \/
    (o = SCancel (st_sender st) id /\ st_cancellable st = true) \/ (exists amt, o = SWithdraw (st_recipient st) id amt).
  Proof.
    intros HI HO Hst Hnf. unfold str_exec. destruct (str_step C P s o) as [s'| |] eqn:E; auto.
    assert (forall w r d a b e c i s1, w <> str_acct C -> 0 <= d <= U128MAX -> 0 <= b ->
      do_create C P s w r d a b e c = Ok (i, s1) -> streams s1 !! id = Some st) as Hdc.
    { intros w r d a b e c i s1 H1 H2 H3 H4.
      destruct (do_create_inv C P HC _ _ _ _ _ _ _ _ _ _ HI H1 H2 H3 H4) as (_ & _ & -> & _ & _ & _ & (A1 & _) & _).
      assert (id <> next_id s) as Hne.
      { intros ->. destruct HI as [HI _]. apply (i_streams _ _ _ HI) in Hst. lia. }
      destruct (A1 id) as [->|(_ & st1 & E1 & F1)]; rewrite lookup_insert_ne in * by auto; auto. congruence. }
    destruct o as [w r d a b e c|w r d a b e c|w i|w i amt|o a v|t|a f t amt|a w amt|a w amt]; cbn [str_step str_op_ok] in *.
    - left. unfold create in E. bstep E m E0. bstep E u0 E1. bstep E u1 E2. apply rbind_ok in E as ([i s1] & E3 & E).
      bstep E l1 E4. bstep E l2 E5. injection E as <-. cbn. destruct HO as (J1 & J2 & J3 & J4). exact (Hdc _ _ _ _ _ _ _ _ _ J1 J2 J3 E3).
    - left. unfold trait_create in E. bstep E m E0. apply rbind_ok in E as ([i s1] & E3 & E).
      bstep E l1 E4. injection E as <-. cbn. destruct HO as (J1 & J2 & J3 & J4). exact (Hdc _ _ _ _ _ _ _ _ _ J1 J2 J3 E3).
    - destruct (cancel_full C P HC _ _ _ _ HI E) as (st0 & H). cbn zeta in H.
      destruct H as (H1 & H2 & H3 & H4 & _ & _ & _ & _ & H5 & _).
      destruct (decide (id = i)) as [->|Hne]; [|left; eapply H5; eauto].
      right; left. assert (st0 = st) as -> by congruence. subst. auto.
    - destruct HO as [HO1 HO2]. destruct (withdraw_full C P HC _ _ _ _ _ HI HO1 HO2 E) as (st0 & amt' & H). cbn zeta in H.
      destruct H as (H1 & H2 & H3 & _ & _ & _ & _ & _ & _ & _ & H5 & _).
      destruct (decide (id = i)) as [->|Hne]; [|left; eapply H5; eauto].
      right; right. assert (st0 = st) as -> by congruence. subst. eauto.
    - left. unfold set_minimum_deposit in E. bstep E u0 E0. injection E as <-. auto.
    - injection E as <-. auto.
    - bstep E L E0. injection E as <-. auto.
    - bstep E L E0. injection E as <-. auto.
    - bstep E L E0. injection E as <-. auto.
  Qed.

  Lemma owed_le_bal s id st :
    str_inv C s -> streams s !! id = Some st -> has_finished st = false ->
    st_remaining st <= bal (s_led s) (st_asset st) (str_acct C).
  Proof.
    intros [HI HF] Hst Hnf. etransitivity; [|apply (i_solv _ _ _ HI)]. unfold total_owed.
    pose proof (msum_ge_elem (fun _ st0 => owed (st_asset st) st0) (streams s) id st) as M. cbn in M.
    unfold owed at 2 in M. rewrite Hnf, bool_decide_true in M by auto. apply M; auto.
    intros k v Hv. destruct (i_streams _ _ _ HI k v Hv) as (_ & (_ & _ & _ & _ & _ & _ & ? & _) & _).
    unfold owed. destruct (has_finished v); [lia|]. case_bool_decide; lia.
  Qed.

  Definition permits (P : policy) : Prop := forall ka L a f t v, allow_transfer P ka L a f t v = true.

  Lemma transfer_ok L a f t v ka : permits P -> 0 <= v <= bal L a f -> exists L', transfer P L a f t v ka = Ok L'.
  Proof.
    intros HP Hv. unfold transfer. destruct (v =? 0) eqn:E0; [eauto|]. rewrite HP. cbn.
    destruct (f =? t); [eauto|]. assert ((0 <? v) && (v <=? bal L a f) = true) as -> by lia. eauto.
  Qed.

  Lemma finish_lib_ok s id st st' :
    str_inv C s -> streams s !! id = Some st -> has_finished st = false -> has_finished st' = true ->
    st_sender st' = st_sender st -> st_recipient st' = st_recipient st ->
    exists r, finish_lib C (<[id := st']> (streams s)) (slib s) id (st_sender st) (st_recipient st) = Ok r.
  Proof.
    intros HI Hst Hnf Hf Es Er. pose proof HI as [HI0 HF]. unfold finish_lib.
    destruct (i_streams _ _ _ HI0 id st Hst) as (_ & (Hne & _) & _).
    destruct HC as (H1 & H2 & _).
    destruct (try_push_ok C (slib s) (st_sender st) id KFinish) as [l1 E1]; [pose proof (HF (st_sender st)); lia|].
    rewrite E1. cbn.
    destruct (try_push_spec C _ _ _ _ _ (i_desc _ _ _ HI0) E1) as (Q1 & Q2 & Q3 & Q4).
    destruct (try_push_ok C l1 (st_recipient st) id KFinish) as [l2 E2].
    { pose proof (HF (st_recipient st)). pose proof (Q3 (st_recipient st) KFinish) as Hq.
      rewrite bool_decide_false in Hq by (intros [? _]; congruence). lia. }
    rewrite E2. cbn.
    destruct (push_finish C s id st st' l1 l2 HI Hst Hnf Hf E1 E2) as (K1 & K2 & _).
    apply update_finished_ok; auto. intros a k x Hx. apply K2 in Hx as [Hx|(_ & -> & -> & Hx)].
    - destruct (i_sound _ _ _ HI0 _ _ _ Hx) as (st0 & E0 & Hl). destruct (decide (x = id)) as [->|].
      + rewrite lookup_insert. exists st'. split; auto. assert (st0 = st) as -> by congruence.
        unfold listed in *. rewrite Es, Er, Hf. destruct Hl as [?|[?|(? & ? & ?)]]; auto.
      + rewrite lookup_insert_ne by auto. eauto.
    - rewrite lookup_insert. exists st'. split; auto. unfold listed. rewrite Es, Er. auto.
  Qed.

  Lemma withdraw_live s id st amount :
    str_inv C s -> permits P -> streams s !! id = Some st -> has_finished st = false -> st_start st < s_now s ->
    0 <= amount <= accrued st (s_now s) -> exists s', withdraw C P s (st_recipient st) id amount = Ok s'.
  Proof.
    intros HI HP Hst Hnf Ht Ham. pose proof HI as [HI0 HF].
    destruct (i_streams _ _ _ HI0 id st Hst) as (B1 & B2 & B3 & B4 & B5).
    pose proof (accrued_range C _ _ B2 Hnf) as HA.
    destruct (balances_ok C _ _ B2 Hnf) as [Hrb Hsb].
    pose proof (owed_le_bal _ _ _ HI Hst Hnf) as Hbal.
    unfold withdraw. rewrite Hst. cbn [ok_or rbind]. rewrite Z.eqb_refl, Hnf. cbn [negb ensure rbind].
    unfold has_started. rewrite (delta_ok C _ _ B2). cbn [rbind].
    pose proof B2 as (C1 & C2 & C3 & C4 & C5 & C6 & C7 & C8 & C9).
    assert (Z.max 0 (Z.min (s_now s) (st_end st) - st_start st) =? 0 = false) as -> by lia.
    cbn [negb ensure rbind]. rewrite Hrb. cbn [rbind].
    assert (amount <=? accrued st (s_now s) = true) as -> by lia. cbn [ensure rbind].
    match goal with |- context [try_deduct st ?x] => set (amt := x) end.
    assert (0 <= amt <= st_remaining st) as Hamt by (unfold amt; destruct (_ && _); lia). clearbody amt.
    unfold try_deduct. unfold checked_sub. rewrite chk_ok by lia. cbn [ok_or rbind].
    destruct (transfer_ok (s_led s) (st_asset st) (str_acct C) (st_recipient st) amt false HP ltac:(lia)) as [L EL].
    set (st2 := try_complete _). destruct (has_finished st2) eqn:E2.
    - destruct (finish_lib_ok s id st st2 HI Hst Hnf E2) as [[ss l] Hfl].
      { unfold st2, try_complete. destruct (_ =? _); reflexivity. }
      { unfold st2, try_complete. destruct (_ =? _); reflexivity. }
      rewrite Hfl. cbn [rbind]. rewrite EL. cbn [rbind]. eauto.
    - cbn [rbind]. rewrite EL. cbn [rbind]. eauto.
  Qed.

  Lemma cancel_live s id st :
    str_inv C s -> permits P -> streams s !! id = Some st -> has_finished st = false -> st_cancellable st = true ->
    exists s', cancel C P s (st_sender st) id = Ok s'.
  Proof.
    intros HI HP Hst Hnf Hc. pose proof HI as [HI0 HF].
    destruct (i_streams _ _ _ HI0 id st Hst) as (B1 & B2 & B3 & B4 & B5).
    pose proof (accrued_range C _ _ B2 Hnf) as HA.
    destruct (balances_ok C _ _ B2 Hnf) as [Hrb Hsb].
    pose proof (owed_le_bal _ _ _ HI Hst Hnf) as Hbal.
    unfold cancel. rewrite Hst. cbn [ok_or rbind]. rewrite Z.eqb_refl, Hnf, Hc. cbn [negb ensure rbind].
    rewrite Hrb, Hsb. cbn [rbind].
    destruct (transfer_ok (s_led s) (st_asset st) (str_acct C) (st_sender st) (st_remaining st - accrued st (s_now s)) false HP ltac:(lia)) as [L EL].
    rewrite EL. cbn [rbind].
    pose proof (transfer_spec _ _ _ _ _ _ _ _ EL) as (T1 & _).
    assert (accrued st (s_now s) <= bal L (st_asset st) (str_acct C)) as HbL.
    { rewrite T1. unfold at_. destruct B2 as (_ & B2 & _). repeat case_bool_decide; destruct_and?; try congruence; try tauto; lia. }
    destruct (transfer_ok L (st_asset st) (str_acct C) (st_recipient st) (accrued st (s_now s)) false HP ltac:(lia)) as [L2 EL2].
    rewrite EL2. cbn [rbind].
    destruct (finish_lib_ok s id st (try_cancel st (st_remaining st - accrued st (s_now s))) HI Hst Hnf eq_refl eq_refl eq_refl) as [[ss l] Hfl].
    rewrite Hfl. cbn [rbind]. eauto.
  Qed.

  (** create: effects *)
  Lemma create_full s who recipient deposit asset start stop c s' :
    str_inv C s -> who <> str_acct C -> 0 <= deposit <= U128MAX -> 0 <= start ->
    create C P s who recipient deposit asset start stop c = Ok s' ->
    let id := next_id s in
    (exists m, min_deposit s !! asset = Some m /\ m <= deposit) /\
    s_now s <= start < stop /\ who <> recipient /\ 0 < deposit / (stop - start) /\
    streams s' !! id = Some (stream_new deposit asset (deposit / (stop - start)) who recipient start stop c) /\
    next_id s' = id + 1 /\ streams s !! id = None /\
    id ∈ lib_get (slib s') who KSend /\ id ∈ lib_get (slib s') recipient KReceive /\
    (forall a w, bal (s_led s') a w = bal (s_led s) a w - at_ asset who a w deposit + at_ asset (str_acct C) a w deposit).
  Proof.
    intros HI Hw Hd Hs H. unfold create in H. bstep H m E0. bstep H u0 E1. bstep H u1 E2.
    apply rbind_ok in H as ([id s1] & E3 & H). bstep H l1 E4. bstep H l2 E5. injection H as <-.
    destruct (do_create_inv C P HC _ _ _ _ _ _ _ _ _ _ HI Hw Hd Hs E3) as (R1 & R2 & R3 & R4 & R5 & R6 & R7 & R8 & R9 & R10 & R11).
    subst id. cbn zeta. unfold ensure_valid_duration in E2. bstep E2 u2 E6. apply ensure_ok in E2.
    split; [exists m; split; auto; lia|]. split; [lia|]. split; [auto|]. split.
    { destruct (i_streams _ _ _ R1 _ _ R5) as (_ & (_ & _ & _ & _ & Hr & _) & _). exact Hr. }
    cbn [set_lib streams next_id slib s_led].
    split; [exact R5|]. split.
    { unfold do_create in E3. bstep E3 v0 F0. bstep E3 v1 F1. bstep E3 v2 F2. bstep E3 v3 F3. bstep E3 v4 F4. bstep E3 v5 F5.
      apply rbind_ok in E3 as ([ss l] & F6 & E3). injection E3 as <-. cbn. lia. }
    split.
    { destruct (streams s !! next_id s) as [x|] eqn:E; auto. destruct HI as [HI _]. apply (i_streams _ _ _ HI) in E. lia. }
    destruct (try_push_spec C _ _ _ _ _ (i_desc _ _ _ R1) E4) as (Q1 & Q2 & _).
    destruct (try_push_spec C _ _ _ _ _ Q1 E5) as (Q1' & Q2' & _).
    split; [apply Q2'; left; apply Q2; auto|]. split; [apply Q2'; auto|].
    apply transfer_spec in R11. tauto.
  Qed.
End more.
