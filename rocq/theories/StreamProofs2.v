(** * StreamProofs2: the streaming invariant. *)
From Verif Require Import Base MapSum Ledger AmmModel StreamModel StreamSpec StreamProofs.

Definition stream_ok (C : str_cfg) (now : Z) (st : stream) : Prop :=
  st_sender st <> st_recipient st /\ st_sender st <> str_acct C /\
  0 <= st_start st < st_end st /\ st_end st - st_start st <= U128MAX /\
  0 < st_rate st /\ st_rate st = st_deposit st / (st_end st - st_start st) /\
  0 <= st_remaining st <= st_deposit st /\ st_deposit st <= U128MAX /\
  (has_finished st = false -> 0 < st_remaining st /\
     (st_deposit st - st_remaining st <= scheduled (st_deposit st) (st_start st) (st_end st) now \/ st_end st <= now)).

Definition slack (C : str_cfg) (a : Z) : Z := if bool_decide (a = str_native C) then native_ed C else 0.

Definition ev_id (e : str_event) : Z :=
  match e with ECreated i _ _ _ _ _ _ _ | EWithdrawn i _ _ _ | ECancelled i _ _ _ _ _ => i end.

Definition matches (st : stream) (snd rcp dep a b e : Z) : Prop :=
  st_sender st = snd /\ st_recipient st = rcp /\ st_deposit st = dep /\ st_asset st = a /\ st_start st = b /\ st_end st = e.

Record created_ok (C : str_cfg) (s : str) (id dep a b e : Z) : Prop := {
  co_time : b < e;
  co_dep : 0 <= dep;
  co_cons : paid s id + refunded s id + outstanding s id = dep;
  co_paid : 0 <= paid s id;
  co_ref : 0 <= refunded s id;
  co_sched : s_now s < e -> paid s id <= scheduled dep b e (s_now s) + slack C a;
  co_noref : forall st, streams s !! id = Some st -> has_finished st = false -> refunded s id = 0
}.

(** [ex] is a stream id exempt from the Receive-list requirement (used in the middle of [create]) *)
Record inv0 (C : str_cfg) (ex : Z) (s : str) : Prop := {
  i_wf : ledger_wf (s_led s);
  i_now : 0 <= s_now s;
  i_next : 0 <= next_id s;
  i_desc : lib_desc (slib s);
  i_sound : lib_sound (streams s) (slib s);
  i_len : forall a k, Z.of_nat (length (lib_get (slib s) a k)) <= max_streams C;
  i_streams : forall id st, streams s !! id = Some st ->
    0 <= id < next_id s /\ stream_ok C (s_now s) st /\
    (id = ex \/ id ∈ lib_get (slib s) (st_recipient st) KReceive) /\
    (has_finished st = true -> id ∈ lib_get (slib s) (st_sender st) KFinish /\ id ∈ lib_get (slib s) (st_recipient st) KFinish) /\
    In (ECreated id (st_sender st) (st_recipient st) (st_deposit st) (st_asset st) (st_start st) (st_end st) true) (s_log s);
  i_log : forall e, In e (s_log s) -> 0 <= ev_id e < next_id s;
  i_created : forall id snd rcp dep a b e c, In (ECreated id snd rcp dep a b e c) (s_log s) ->
    created_ok C s id dep a b e /\ (forall st, streams s !! id = Some st -> matches st snd rcp dep a b e);
  i_solv : forall a, total_owed s a <= bal (s_led s) a (str_acct C)
}.
Definition fin_ok (C : str_cfg) (s : str) : Prop :=
  forall a, Z.of_nat (length (lib_get (slib s) a KFinish)) <= max_finished C.
Definition str_inv (C : str_cfg) (s : str) : Prop := inv0 C (-1) s /\ fin_ok C s.

Lemma scheduled_mono dep b e t t' : 0 <= dep -> b < e -> t <= t' -> scheduled dep b e t <= scheduled dep b e t'.
Proof.
  intros H0 H1 H2. unfold scheduled. assert (0 <= dep / (e - b)) by (apply Z.div_pos; lia).
  apply Z.mul_le_mono_nonneg_l; lia.
Qed.
Lemma scheduled_le dep b e t : 0 <= dep -> b < e -> scheduled dep b e t <= dep.
Proof.
  intros H0 H1. unfold scheduled. assert (0 <= dep / (e - b)) by (apply Z.div_pos; lia).
  pose proof (div_le_mul dep (e - b) ltac:(lia)).
  transitivity (dep / (e - b) * (e - b)); [|lia]. apply Z.mul_le_mono_nonneg_l; lia.
Qed.
Lemma scheduled_nonneg dep b e t : 0 <= dep -> b < e -> 0 <= scheduled dep b e t.
Proof.
  intros H0 H1. unfold scheduled. assert (0 <= dep / (e - b)) by (apply Z.div_pos; lia).
  apply Z.mul_nonneg_nonneg; lia.
Qed.

Section bal.
  Context (C : str_cfg).

  Lemma delta_ok now st : stream_ok C now st -> delta_of now st = Ok (Z.max 0 (Z.min now (st_end st) - st_start st)).
  Proof.
    intros (_ & _ & H1 & H2 & _). unfold delta_of. destruct (now <=? st_start st) eqn:E1; [f_equal; lia|].
    destruct (now <? st_end st) eqn:E2.
    - unfold checked_sub, chk, in_u128. destruct (0 <=? now - st_start st) eqn:E3, (now - st_start st <=? U128MAX) eqn:E4; try lia.
      cbn. f_equal. lia.
    - unfold checked_sub, chk, in_u128. destruct (0 <=? st_end st - st_start st) eqn:E3, (st_end st - st_start st <=? U128MAX) eqn:E4; try lia.
      cbn. f_equal. lia.
  Qed.
  Lemma chk_ok x : 0 <= x <= U128MAX -> chk x = Some x.
  Proof. intros. apply chk_some. auto. Qed.

  Lemma accrued_range now st : stream_ok C now st -> has_finished st = false -> 0 <= accrued st now <= st_remaining st.
  Proof.
    intros (_ & _ & H1 & H2 & H3 & H4 & H5 & H6 & H7) Hf. specialize (H7 Hf). unfold accrued.
    pose proof (scheduled_le (st_deposit st) (st_start st) (st_end st) now ltac:(lia) ltac:(lia)).
    destruct (st_end st <=? now) eqn:E; lia.
  Qed.

  Lemma balances_ok now st : stream_ok C now st -> has_finished st = false ->
    recipient_balance now st = Ok (accrued st now) /\ sender_balance now st = Ok (st_remaining st - accrued st now).
  Proof.
    intros HS Hf. pose proof (accrued_range now st HS Hf) as HA. pose proof (delta_ok now st HS) as HD.
    destruct HS as (H0 & _ & H1 & H2 & H3 & H4 & H5 & H6 & H7). specialize (H7 Hf).
    pose proof (scheduled_le (st_deposit st) (st_start st) (st_end st) now ltac:(lia) ltac:(lia)) as HL.
    pose proof (scheduled_nonneg (st_deposit st) (st_start st) (st_end st) now ltac:(lia) ltac:(lia)) as HN.
    unfold scheduled in HL, HN. rewrite <- H4 in HL, HN.
    set (delta := Z.max 0 (Z.min now (st_end st) - st_start st)) in *.
    assert (duration st = Ok (st_end st - st_start st)) as Hdur.
    { unfold duration, checked_sub. rewrite chk_ok by lia. reflexivity. }
    unfold recipient_balance, sender_balance, balance_of. rewrite HD, Hdur. cbn [rbind].
    rewrite Z.eqb_refl. rewrite Z.eqb_refl.
    assert ((st_sender st =? st_recipient st) = false) as -> by lia.
    destruct (delta =? st_end st - st_start st) eqn:ED.
    - cbn [rbind]. assert (accrued st now = st_remaining st) as ->.
      { unfold accrued. destruct (st_end st <=? now) eqn:E; auto. lia. }
      split; auto. unfold checked_sub. rewrite chk_ok by lia. reflexivity.
    - assert (st_end st <=? now = false) as E by lia.
      unfold accrued in HA |- *. rewrite E in HA |- *. unfold scheduled in HA |- *. rewrite <- H4 in HA |- *. fold delta in HA |- *.
      assert (checked_mul delta (st_rate st) = Some (st_rate st * delta)) as HM.
      { unfold checked_mul. rewrite (Z.mul_comm delta). apply chk_ok. lia. }
      rewrite HM. cbn [ok_or rbind]. unfold has_withdrawn, claimed_balance. unfold checked_sub.
      destruct (st_remaining st <? st_deposit st) eqn:EW.
      + rewrite (chk_ok (st_deposit st - st_remaining st)) by lia. cbn [ok_or rbind].
        rewrite chk_ok by lia. cbn [ok_or rbind]. split; auto. rewrite chk_ok by lia. reflexivity.
      + cbn [rbind]. split; [f_equal; lia|]. rewrite chk_ok by lia. cbn. f_equal. lia.
  Qed.
End bal.

(** ** frame lemmas *)
Section inv.
  Context (C : str_cfg) (P : policy).
  Implicit Types (s : str).


  (** changing only the ledger *)
  Lemma inv0_led ex s L :
    inv0 C ex s -> ledger_wf L -> (forall a, bal (s_led s) a (str_acct C) <= bal L a (str_acct C)) ->
    inv0 C ex (s_set_led s L).
  Proof.
    intros [] HW HB. split; cbn; auto.
    - intros id snd rcp dep a b e c Hin. destruct (i_created0 _ _ _ _ _ _ _ _ Hin) as [[] ?]. split; [split; auto|auto].
    - intros a. etransitivity; [apply i_solv0|auto].
  Qed.

  (** changing only the lists, streams by pruning *)
  Lemma inv0_prune ex s ss' l' :
    inv0 C ex s -> prunes (streams s) (slib s) ss' l' -> lib_desc l' -> lib_sound ss' l' ->
    inv0 C ex (mkStr ss' l' (next_id s) (min_deposit s) (s_led s) (s_now s) (s_log s)).
  Proof.
    intros [] (A1 & A2 & A3 & A4) D S.
    assert (forall id st, ss' !! id = Some st -> streams s !! id = Some st) as Hsub.
    { intros id st E. destruct (A1 id) as [E'|[E' _]]; congruence. }
    split; cbn; auto.
    - intros a k. pose proof (i_len0 a k). pose proof (A3 a k). lia.
    - intros id st E. pose proof (Hsub _ _ E) as E'. destruct (i_streams0 id st E') as (B1 & B2 & B3 & B4 & B5).
      repeat (split; [solve [auto]|]). assert (ss' !! id = streams s !! id) as Heq by congruence.
      split; [|split; [|auto]].
      + destruct B3 as [?|B3]; [auto|]. right. apply A2. auto.
      + intros Hf. destruct (B4 Hf). split; apply A2; auto.
    - intros id snd rcp dep a b e c Hin. destruct (i_created0 _ _ _ _ _ _ _ _ Hin) as [[] HM].
      split; [|intros; eapply HM; eauto].
      assert (outstanding (mkStr ss' l' (next_id s) (min_deposit s) (s_led s) (s_now s) (s_log s)) id = outstanding s id) as HO.
      { unfold outstanding. cbn. destruct (A1 id) as [E|[E (st & E' & F)]]; [rewrite E; auto|].
        rewrite E, E', F. auto. }
      split; auto. rewrite HO. auto. cbn. intros st E F. eapply co_noref0; eauto.
    - intros a. unfold total_owed. cbn. rewrite A4. apply i_solv0.
  Qed.

  (** finishing prune *)
  Lemma inv0_update_finished ex s sender recipient ss' l' :
    str_cfg_ok C -> inv0 C ex s ->
    (forall a, Z.of_nat (length (lib_get (slib s) a KFinish)) <= max_finished C + 1) ->
    (forall a, a <> sender -> a <> recipient -> Z.of_nat (length (lib_get (slib s) a KFinish)) <= max_finished C) ->
    update_finished C (streams s) (slib s) sender recipient = Ok (ss', l') ->
    let s' := mkStr ss' l' (next_id s) (min_deposit s) (s_led s) (s_now s) (s_log s) in
    inv0 C ex s' /\ fin_ok C s' /\ prunes (streams s) (slib s) ss' l'.
  Proof.
    intros HC HI H1 H2 H s'.
    destruct (update_finished_spec C _ _ _ _ _ _ (i_desc _ _ _ HI) (i_sound _ _ _ HI) ltac:(destruct HC; lia) H1 H) as (D & S & Pr & F).
    split; [eapply inv0_prune; eauto|]. split; [|auto]. intros a. cbn. apply F.
    destruct (decide (a = sender)); auto. destruct (decide (a = recipient)); auto.
  Qed.

  (** changing a stream and logging a payment *)
  Lemma inv0_pay s id st rem' stt' L l2 e p r :
    inv0 C (-1) s -> streams s !! id = Some st -> has_finished st = false ->
    let st' := set_rs st rem' stt' in
    0 <= rem' <= st_remaining st -> ledger_wf L -> 0 <= p -> 0 <= r ->
    (forall a, bal (s_led s) a (str_acct C) - (if bool_decide (st_asset st = a) then p + r else 0) <= bal L a (str_acct C)) ->
    p + r + (if has_finished st' then 0 else rem') = st_remaining st ->
    (has_finished st' = false -> 0 < rem' /\ r = 0 /\
       (st_deposit st - rem' <= scheduled (st_deposit st) (st_start st) (st_end st) (s_now s) \/ st_end st <= s_now s)) ->
    (s_now s < st_end st -> st_deposit st - st_remaining st + p <=
       scheduled (st_deposit st) (st_start st) (st_end st) (s_now s) + slack C (st_asset st)) ->
    ev_id e = id -> ev_paid id e = p -> ev_refunded id e = r ->
    (forall i snd rcp dep a b stp c, e <> ECreated i snd rcp dep a b stp c) ->
    lib_desc l2 ->
    (forall a k x, x ∈ lib_get l2 a k <-> x ∈ lib_get (slib s) a k \/
       (has_finished st' = true /\ k = KFinish /\ x = id /\ (a = st_sender st \/ a = st_recipient st))) ->
    (forall a k, Z.of_nat (length (lib_get l2 a k)) <= max_streams C) ->
    inv0 C (-1) (mkStr (<[id := st']> (streams s)) l2 (next_id s) (min_deposit s) L (s_now s) (e :: s_log s)).
  Proof.
    intros HI Hst Hnf st' Hrem HWL Hp Hr Hbal Hsum Hunf Hsched Heid Hep Her Hnc HD Hel Hlen.
    pose proof HI as [].
    destruct (i_streams0 id st Hst) as (B1 & B2 & B3 & B4 & B5).
    set (s' := mkStr _ _ _ _ _ _ _).
    assert (forall x, paid s' x = paid s x + (if bool_decide (x = id) then p else 0)) as HP.
    { intros x. change (paid s' x) with (ev_paid x e + paid s x). destruct (decide (x = id)) as [->|Hne].
      - rewrite Hep, bool_decide_true by auto. lia.
      - rewrite bool_decide_false by auto. assert (ev_paid x e = 0); [|lia].
        destruct e; cbn in *; auto; rewrite bool_decide_false; auto; congruence. }
    assert (forall x, refunded s' x = refunded s x + (if bool_decide (x = id) then r else 0)) as HR.
    { intros x. change (refunded s' x) with (ev_refunded x e + refunded s x). destruct (decide (x = id)) as [->|Hne].
      - rewrite Her, bool_decide_true by auto. lia.
      - rewrite bool_decide_false by auto. assert (ev_refunded x e = 0); [|lia].
        destruct e; cbn in *; auto; rewrite bool_decide_false; auto; congruence. }
    assert (forall i snd rcp dep a b stp c, In (ECreated i snd rcp dep a b stp c) (s_log s') ->
              In (ECreated i snd rcp dep a b stp c) (s_log s)) as HIn.
    { intros. cbn in H. destruct H; auto. exfalso. eapply Hnc; eauto. }
    assert (stream_ok C (s_now s) st') as Hok'.
    { destruct B2 as (C1 & C2 & C3 & C4 & C5 & C6 & C7 & C8 & C9). unfold stream_ok, st', set_rs. cbn.
      repeat (split; [solve [auto; lia]|]). intros F.
      destruct (Hunf F) as (? & ? & ?). auto. }
    split; cbn [s_led s_now next_id slib streams s_log s']; auto.
    - intros a k x. rewrite Hel. intros [Hx|(F & -> & -> & Hx)].
      + destruct (i_sound0 _ _ _ Hx) as (st0 & E0 & Hl). destruct (decide (x = id)) as [->|].
        * rewrite lookup_insert. exists st'. split; auto. rewrite Hst in E0. injection E0 as <-.
          unfold listed in *. cbn. rewrite Hnf in Hl. destruct Hl as [?|[?|(_ & ? & _)]]; auto. discriminate.
        * rewrite lookup_insert_ne by auto. eauto.
      + rewrite lookup_insert. exists st'. split; auto. right; right. auto.
    - intros x st0. destruct (decide (x = id)) as [->|Hne].
      + rewrite lookup_insert. intros [= <-]. repeat (split; [solve [auto]|]). split; [|split; [|right; exact B5]].
        * destruct B3 as [?|B3]; [auto|]. right. apply Hel. left. exact B3.
        * intros F. cbn. split; apply Hel; right; auto.
      + rewrite lookup_insert_ne by auto. intros E0. destruct (i_streams0 x st0 E0) as (D1 & D2 & D3 & D4 & D5).
        repeat (split; [solve [auto]|]). split; [|split; [|right; exact D5]].
        * destruct D3 as [?|D3]; [auto|]. right. apply Hel. auto.
        * intros F. destruct (D4 F). split; apply Hel; left; auto.
    - intros e0 [<-|Hin]; [rewrite Heid; auto|auto].
    - intros i snd rcp dep a b stp c Hin. apply HIn in Hin.
      destruct (i_created0 _ _ _ _ _ _ _ _ Hin) as [CO HM].
      destruct (decide (i = id)) as [->|Hne].
      + destruct (HM st Hst) as (M1 & M2 & M3 & M4 & M5 & M6). subst snd rcp dep a b stp.
        assert (outstanding s' id = if has_finished st' then 0 else rem') as HO.
        { unfold outstanding, s'. cbn [streams]. rewrite lookup_insert. auto. }
        assert (outstanding s id = st_remaining st) as HO0 by (unfold outstanding; rewrite Hst, Hnf; auto).
        pose proof (co_noref _ _ _ _ _ _ _ CO st Hst Hnf) as HNR. destruct CO.
        split.
        * split; auto; rewrite ?HP, ?HR, ?HO, ?bool_decide_true by auto; try lia.
          -- cbn [s_now s']. intros Ht. specialize (Hsched Ht). lia.
          -- intros st0. cbn. rewrite lookup_insert. intros [= <-] F. destruct (Hunf F) as (_ & -> & _). lia.
        * intros st0. rewrite lookup_insert. intros [= <-]. unfold matches; cbn. repeat split.
      + assert (outstanding s' i = outstanding s i) as HO.
        { unfold outstanding, s'. cbn [streams]. rewrite lookup_insert_ne by auto. auto. }
        destruct CO. split.
        * split; auto; rewrite ?HP, ?HR, ?HO, ?bool_decide_false by auto; try lia; cbn [s_now streams s'].
          -- intros Ht. specialize (co_sched0 Ht). lia.
          -- intros st0. rewrite lookup_insert_ne by auto. intros E0 F. rewrite (co_noref0 _ E0 F). lia.
        * intros st0. rewrite lookup_insert_ne by auto. apply HM.
    - intros a. unfold total_owed, s'. cbn [streams s_led]. rewrite msum_insert, Hst.
      pose proof (i_solv0 a) as HS0. unfold total_owed in HS0. specialize (Hbal a).
      assert (owed a st = if bool_decide (st_asset st = a) then st_remaining st else 0) as HO1 by (unfold owed; rewrite Hnf; auto).
      assert (owed a st' = if has_finished st' then 0 else if bool_decide (st_asset st = a) then rem' else 0) as HO2 by reflexivity.
      rewrite HO1, HO2. destruct (has_finished st'); case_bool_decide; lia.
  Qed.

  (** the initial state *)
  Lemma inv_init L now : str_cfg_ok C -> ledger_wf L -> 0 <= now -> str_inv C (str_init L now).
  Proof.
    intros (H1 & H2 & H3) HW Hn.
    assert (forall a k, lib_get (slib (str_init L now)) a k = []) as E.
    { intros. unfold lib_get, str_init. cbn. rewrite lookup_empty. auto. }
    split; [split; cbn [str_init s_led s_now next_id streams s_log]; auto; try lia|].
    - intros a k. rewrite E. apply desc_nil.
    - intros a k id. rewrite E. intros Hin. inversion Hin.
    - intros. rewrite E. cbn. lia.
    - intros id st. rewrite lookup_empty. discriminate.
    - intros e [].
    - intros ? ? ? ? ? ? ? ? [].
    - intros a. unfold total_owed, str_init; cbn. rewrite msum_empty. apply HW.
    - intros a. rewrite E. cbn. lia.
  Qed.
End inv.
