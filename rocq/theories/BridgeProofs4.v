(** * BridgeProofs4: step and history facts behind the bridge properties. *)
From Verif Require Import Base MapSum Ledger AmmModel BridgeModel BridgeSpec BridgeProofs BridgeProofs2 BridgeProofs3.

Section facts.
  Context (C : br_cfg) (P : policy).
  Hypothesis CF : br_cfg_ok C.

  (** which events a step can emit *)
  Definition step_events (s : br) (op : br_op) (s' : br) (evs : list br_event) : Prop :=
    match op with
    | BTeleport w d tok amt => exists a t k, tele_res C P s s' w d tok amt a t k /\
        evs = [ETeleport w d (k + 1) tok a (bt_external t) (amt - bt_fee t) (bt_fee t)]
    | BMaterialize o c n tok to amt f => exists who a t r p, mat_res C P s s' o c n tok to amt f who a t r p /\
        let ev := EVote f c n who (tok, to, amt) (b_now s) in
        (evs = [ev] /\ b_thr s > Z.of_nat (length (p_for (add_vote p who f))) /\ b_led s' = b_led s /\ b_tokens s' = b_tokens s /\ b_reg s' = b_reg s
         \/ evs = [ERejected c n; ev] /\ b_thr s > Z.of_nat (length (p_for (add_vote p who f))) /\
            b_thr s <= members_count s < Z.of_nat (length (p_against (add_vote p who f))) + b_thr s /\
            b_led s' = b_led s /\ b_tokens s' = b_tokens s
         \/ evs = [EMinted c n tok a (bt_external t) to amt; ev] /\ b_thr s <= Z.of_nat (length (p_for (add_vote p who f))) /\
            exists L1, (if bt_external t then mint_into P (b_led s) a to amt = Ok L1
                        else transfer P (b_led s) a (br_acct C) to amt true = Ok L1) /\
              (b_led s' = L1 \/ exists diff, 0 <= diff <= U128MAX /\ transfer P L1 (br_native C) (br_gift C) to diff false = Ok (b_led s') /\
                 0 <> br_convert C amt a /\ br_convert C amt a <= red P false L1 (br_native C) (br_gift C) /\
                 red P true L1 (br_native C) to < br_convert C amt a /\
                 diff = br_ed C + br_convert C amt a - red P true L1 (br_native C) to))
    | BRegisterChain o c => br_chain_origin C o = true /\ evs = [EChainReg c]
    | BRegisterToken o a t => br_token_origin C o = true /\ evs = [ETokenReg (bt_id t) (bt_out_amount t) (bt_in_amount t)]
    | BCleanCap o tok ty => br_cap_origin C o = true /\ evs = [EClean tok ty]
    | _ => evs = []
    end.
  Lemma mutate_log s tok g s' : try_mutate_bridge_token s tok g = Ok s' -> b_log s' = b_log s.
  Proof. unfold try_mutate_bridge_token. intros H. bstep H u E. injection H as <-. reflexivity. Qed.
  Lemma step_events_ok s op s' : br_inv C s -> br_op_ok C op -> br_step C P s op = Ok s' ->
    exists evs, b_log s' = evs ++ b_log s /\ step_events s op s' evs.
  Proof.
    intros I OK H. destruct op; cbn in H; cbn [step_events].
    - unfold register_chain in H. bstep H u E. bstep H u2 E2. injection H as <-. eexists [_]. split; [reflexivity|auto].
    - unfold unregister_chain in H. bstep H u E. bstep H u2 E2. injection H as <-. exists []. auto.
    - unfold register_bridge_token in H. bstep H u E. bstep H u2 E2. injection H as <-. eexists [_]. split; [reflexivity|auto].
    - unfold unregister_bridge_token in H. bstep H u E. bstep H u2 E2. injection H as <-. exists []. auto.
    - unfold set_bridge_token_fee in H. bstep H u E. apply mutate_log in H. exists []. auto.
    - unfold set_bridge_token_status in H. bstep H u E. apply mutate_log in H. exists []. auto.
    - unfold set_bridge_token_cap in H. bstep H u E. apply mutate_log in H. exists []. auto.
    - unfold clean_cap in H. bstep H u E. bstep H s1 E1. injection H as <-. apply mutate_log in E1. eexists [_]. cbn. rewrite E1. auto.
    - apply teleport_inv in H as (a & t & k & H); [|apply I]. eexists [_]. split; [|exists a, t, k; split; [exact H|reflexivity]].
      rewrite (tl_s' _ _ _ _ _ _ _ _ _ _ _ H). reflexivity.
    - apply materialize_inv in H as (w & a & t & r & p & H); [|apply I|apply (bi_reg C); auto].
      pose proof (mt_out _ _ _ _ _ _ _ _ _ _ _ _ _ _ _ _ H) as M.
      destruct M as [Hl|r' Hl Hm Hr|r' L1 L2 Hl Hc Hr HL1 HL2].
      + eexists [_]. split; [reflexivity|]. exists w, a, t, r, p. split; [exact H|]. left. repeat split; auto; lia.
      + eexists [_; _]. split; [reflexivity|]. exists w, a, t, r, p. split; [exact H|]. right; left. repeat split; auto; lia.
      + eexists [_; _]. split; [reflexivity|]. exists w, a, t, r, p. split; [exact H|]. right; right. repeat split; auto. exists L1. split; auto.
    - bstep H x E. injection H as <-. exists []. auto.
    - injection H as <-. exists []. split; auto. unfold change_vote_threshold. destruct (ensure_valid_threshold _ _ _); reflexivity.
    - bstep H L E. injection H as <-. exists []. auto.
    - bstep H L E. injection H as <-. exists []. auto.
    - bstep H L E. injection H as <-. exists []. auto.
  Qed.
  Lemma step_events_unique s op s' evs : br_inv C s -> br_op_ok C op -> br_step C P s op = Ok s' ->
    b_log s' = evs ++ b_log s -> step_events s op s' evs.
  Proof.
    intros I OK H E. destruct (step_events_ok s op s' I OK H) as (evs' & E' & S). rewrite E in E'.
    apply app_inv_tail in E'. subst. auto.
  Qed.
  Lemma nil_in {A} (x : A) : x ∈ [] -> False. Proof. intros H. inversion H. Qed.

  (** only [materialize] mints *)
  Lemma step_minted s op s' evs c n tok a ext to amt :
    br_inv C s -> br_op_ok C op -> br_step C P s op = Ok s' -> b_log s' = evs ++ b_log s ->
    EMinted c n tok a ext to amt ∈ evs ->
    exists o f who t r p, op = BMaterialize o c n tok to amt f /\ mat_res C P s s' o c n tok to amt f who a t r p /\
      ext = bt_external t /\ b_thr s <= Z.of_nat (length (p_for (add_vote p who f))) /\
      evs = [EMinted c n tok a ext to amt; EVote f c n who (tok, to, amt) (b_now s)] /\
      exists L1, (if ext then mint_into P (b_led s) a to amt = Ok L1
                  else transfer P (b_led s) a (br_acct C) to amt true = Ok L1) /\
        (b_led s' = L1 \/ exists diff, 0 <= diff <= U128MAX /\ transfer P L1 (br_native C) (br_gift C) to diff false = Ok (b_led s') /\
           0 <> br_convert C amt a /\ br_convert C amt a <= red P false L1 (br_native C) (br_gift C) /\
           red P true L1 (br_native C) to < br_convert C amt a /\
           diff = br_ed C + br_convert C amt a - red P true L1 (br_native C) to).
  Proof.
    intros I OK H E IN. pose proof (step_events_unique s op s' evs I OK H E) as S. destruct op; cbn in S;
      try (subst evs; apply nil_in in IN; contradiction);
      try (destruct S as [_ ->]; apply elem_of_list_singleton in IN; discriminate).
    - destruct S as (? & ? & ? & _ & ->). apply elem_of_list_singleton in IN. discriminate.
    - destruct S as (who & a' & t & r & p & M & [(-> & _)|[(-> & _)|(-> & T & L1 & X & Y)]]).
      + apply elem_of_list_singleton in IN. discriminate.
      + apply elem_of_cons in IN as [IN|IN]; [discriminate|]. apply elem_of_list_singleton in IN. discriminate.
      + apply elem_of_cons in IN as [IN|IN]; [|apply elem_of_list_singleton in IN; discriminate].
        injection IN as -> -> -> -> -> -> ->. exists o, favour, who, t, r, p.
        do 5 (split; [first [exact M|exact T|reflexivity]|]). exists L1. split; [exact X|exact Y].
  Qed.
  Lemma step_vote s op s' evs f c n v tok to amt b :
    br_inv C s -> br_op_ok C op -> br_step C P s op = Ok s' -> b_log s' = evs ++ b_log s ->
    EVote f c n v (tok, to, amt) b ∈ evs ->
    exists o a t r p, op = BMaterialize o c n tok to amt f /\ mat_res C P s s' o c n tok to amt f v a t r p /\ b = b_now s.
  Proof.
    intros I OK H E IN. pose proof (step_events_unique s op s' evs I OK H E) as S. destruct op; cbn in S;
      try (subst evs; apply nil_in in IN; contradiction);
      try (destruct S as [_ ->]; apply elem_of_list_singleton in IN; discriminate).
    - destruct S as (? & ? & ? & _ & ->). apply elem_of_list_singleton in IN. discriminate.
    - destruct S as (who & a' & t & r & p & M & S).
      assert (EVote f c n v (tok, to, amt) b = EVote favour c0 n0 who (tok0, to0, amt0) (b_now s)) as Q.
      { destruct S as [(-> & _)|[(-> & _)|(-> & _)]].
        - apply elem_of_list_singleton in IN. auto.
        - apply elem_of_cons in IN as [IN|IN]; [discriminate|]. apply elem_of_list_singleton in IN. auto.
        - apply elem_of_cons in IN as [IN|IN]; [discriminate|]. apply elem_of_list_singleton in IN. auto. }
      injection Q as -> -> -> -> -> -> -> ->. exists o, a', t, r, p. auto.
  Qed.

  (** the proposal a vote is added to satisfies the vote invariant *)
  Lemma mat_vote_inv s s' o c n tok to amt f who a t r p :
    br_inv C s -> mat_res C P s s' o c n tok to amt f who a t r p ->
    vote_inv C s (EVote f c n who (tok, to, amt) (b_now s) :: b_log s) c n (tok, to, amt) (add_vote p who f).
  Proof.
    intros I R. destruct R. destruct mt_new as [N1 N2]. apply add_vote_inv; [|auto..].
    destruct CF as (_ & _ & CF3 & _). destruct mt_prop as [Hp|[Hp ->]]; [apply I; auto|]. split; [constructor|]. split; [cbn; lia|].
    intros g v Hv. destruct g; inversion Hv.
  Qed.

  Lemma payout_votes s op s' evs c n tok a ext to amt :
    br_inv C s -> br_op_ok C op -> br_step C P s op = Ok s' -> b_log s' = evs ++ b_log s ->
    EMinted c n tok a ext to amt ∈ evs ->
    exists vs, NoDup vs /\ b_thr s <= Z.of_nat (length vs) /\
      forall v, v ∈ vs -> exists b, EVote true c n v (tok, to, amt) b ∈ b_log s' /\ b <= b_now s < b + br_life C.
  Proof.
    intros I OK H E IN. destruct (step_minted _ _ _ _ _ _ _ _ _ _ _ I OK H E IN)
      as (o & f & who & t & r & p & -> & M & -> & T & -> & _).
    pose proof (mat_vote_inv _ _ _ _ _ _ _ _ _ _ _ _ _ _ I M) as (V1 & V2 & V3).
    exists (p_for (add_vote p who f)). apply NoDup_app in V1 as (V1 & _). split; auto. split; auto.
    intros v Hv. destruct (V3 true v Hv) as (b & B1 & B2 & B3). exists b. rewrite E. split; [|].
    - cbn. apply elem_of_cons. right. exact B1.
    - split; auto. pose proof (mt_live _ _ _ _ _ _ _ _ _ _ _ _ _ _ _ _ M).
      assert (p_expiry (add_vote p who f) = p_expiry p) by (destruct f; auto). lia.
  Qed.

  Lemma rejected_votes s op s' evs c n :
    br_inv C s -> br_op_ok C op -> br_step C P s op = Ok s' -> b_log s' = evs ++ b_log s ->
    ERejected c n ∈ evs ->
    exists k vs, NoDup vs /\ members_count s - b_thr s < Z.of_nat (length vs) /\
      (forall v, v ∈ vs -> exists b, EVote false c n v k b ∈ b_log s' /\ b <= b_now s < b + br_life C) /\
      b_led s' = b_led s.
  Proof.
    intros I OK H E IN. pose proof (step_events_unique s op s' evs I OK H E) as S. destruct op; cbn in S;
      try (subst evs; apply nil_in in IN; contradiction);
      try (destruct S as [_ ->]; apply elem_of_list_singleton in IN; discriminate).
    - destruct S as (? & ? & ? & _ & ->). apply elem_of_list_singleton in IN. discriminate.
    - destruct S as (who & a' & t & r & p & M & [(-> & _)|[(-> & T1 & T2 & T3 & _)|(-> & _)]]).
      + apply elem_of_list_singleton in IN. discriminate.
      + apply elem_of_cons in IN as [IN|IN]; [|apply elem_of_list_singleton in IN; discriminate]. injection IN as -> ->.
        pose proof (mat_vote_inv _ _ _ _ _ _ _ _ _ _ _ _ _ _ I M) as (V1 & V2 & V3).
        exists (tok, to, amt), (p_against (add_vote p who favour)). apply NoDup_app in V1 as (_ & _ & V1). split; auto. split; [lia|].
        split; auto. intros v Hv. destruct (V3 false v Hv) as (b & B1 & B2 & B3). exists b. rewrite E. split.
        * cbn. apply elem_of_cons. right. exact B1.
        * split; auto. pose proof (mt_live _ _ _ _ _ _ _ _ _ _ _ _ _ _ _ _ M).
          assert (p_expiry (add_vote p who favour) = p_expiry p) by (destruct favour; auto). lia.
      + apply elem_of_cons in IN as [IN|IN]; [discriminate|]. apply elem_of_list_singleton in IN. discriminate.
  Qed.

  (** *** the bridge account's holdings *)
  Lemma flows_app a l l' : flows C a (l ++ l') = flows C a l + flows C a l'.
  Proof. unfold flows. induction l as [|e l IH]; cbn; [lia|]. rewrite IH. lia. Qed.
  Lemma at_self a w amt : at_ a w a w amt = amt.
  Proof. unfold at_. rewrite bool_decide_true; auto. Qed.
  Lemma at_ne a w a' w' amt : ~ (a' = a /\ w' = w) -> at_ a w a' w' amt = 0.
  Proof. unfold at_. intros. rewrite bool_decide_false; auto. Qed.
  Lemma at_nonneg a w a' w' amt : 0 <= amt -> 0 <= at_ a w a' w' amt.
  Proof. unfold at_. case_bool_decide; lia. Qed.

  Lemma step_flow s op s' : br_inv C s -> br_op_ok C op -> br_step C P s op = Ok s' ->
    exists evs, b_log s' = evs ++ b_log s /\
      forall a, bal (b_led s) a (br_acct C) + flows C a evs <= bal (b_led s') a (br_acct C).
  Proof.
    intros I OK H. destruct (step_events_ok s op s' I OK H) as (evs & E & S). exists evs. split; auto. intros x.
    assert (Q : b_led s' = b_led s -> flows C x evs <= 0 -> bal (b_led s) x (br_acct C) + flows C x evs <= bal (b_led s') x (br_acct C)).
    { intros -> ?. lia. }
    destruct CF as (G1 & _).
    destruct op; cbn in S, H.
    - destruct S as [_ ->]. apply Q; [|cbn; lia]. unfold register_chain in H. bstep H u E1. bstep H u2 E2. injection H as <-. auto.
    - subst. apply Q; [|cbn; lia]. unfold unregister_chain in H. bstep H u E1. bstep H u2 E2. injection H as <-. auto.
    - destruct S as [_ ->]. apply Q; [|cbn; lia]. unfold register_bridge_token in H. bstep H u E1. bstep H u2 E2. injection H as <-. auto.
    - subst. apply Q; [|cbn; lia]. unfold unregister_bridge_token in H. bstep H u E1. bstep H u2 E2. injection H as <-. auto.
    - subst. apply Q; [|cbn; lia]. unfold set_bridge_token_fee in H. bstep H u E1. apply mutate_inv in H as (? & ? & _ & _ & _ & ->); [auto|apply I].
    - subst. apply Q; [|cbn; lia]. unfold set_bridge_token_status in H. bstep H u E1. apply mutate_inv in H as (? & ? & _ & _ & _ & ->); [auto|apply I].
    - subst. apply Q; [|cbn; lia]. unfold set_bridge_token_cap in H. bstep H u E1. apply mutate_inv in H as (? & ? & _ & _ & _ & ->); [auto|apply I].
    - destruct S as [_ ->]. apply Q; [|cbn; lia]. unfold clean_cap in H. bstep H u E1. bstep H s1 E2. injection H as <-.
      apply mutate_inv in E2 as (? & ? & _ & _ & _ & ->); [auto|apply I].
    - destruct S as (a & t & k & R & ->). destruct R. clear Q H. cbn. destruct OK as [O1 O2].
      destruct (bt_external t) eqn:X.
      + destruct tl_led as (L1 & B & M). apply burn_spec in B as (_ & _ & B & _). apply mint_spec in M as (M0 & M & _).
        rewrite M, B. rewrite (at_ne a who) by (intros [_ ?]; congruence). destruct (a =? x) eqn:Y.
        * assert (a = x) by lia. subst. rewrite at_self. lia.
        * rewrite at_ne by lia. lia.
      + apply transfer_spec in tl_led as (B & _ & _). rewrite B. rewrite (at_ne a who) by (intros [_ ?]; congruence). destruct (a =? x) eqn:Y.
        * assert (a = x) by lia. subst. rewrite at_self. lia.
        * rewrite at_ne by lia. lia.
    - destruct S as (who & a & t & r & p & R & [(-> & _ & L & _)|[(-> & _ & _ & L & _)|(-> & _ & L1 & X & Y)]]).
      + apply Q; auto. cbn. lia.
      + apply Q; auto. cbn. lia.
      + clear Q H. pose proof (mt_pos _ _ _ _ _ _ _ _ _ _ _ _ _ _ _ _ R).
        assert (bal L1 x (br_acct C) <= bal (b_led s') x (br_acct C)) as Z2.
        { destruct Y as [->|(d & D0 & D1 & _)]; [lia|]. apply transfer_spec in D1 as (D1 & _ & _). rewrite D1.
          rewrite (at_ne _ (br_gift C)) by (intros [_ ?]; congruence). pose proof (at_nonneg (br_native C) to x (br_acct C) d). lia. }
        cbn. destruct (bt_external t) eqn:XX; cbn.
        * apply mint_spec in X as (_ & X & _). specialize (X x (br_acct C)). pose proof (at_nonneg a to x (br_acct C) amt).
          destruct (a =? x); lia.
        * apply transfer_spec in X as (X & _ & _). specialize (X x (br_acct C)). destruct (a =? x) eqn:EX.
          -- assert (a = x) by lia. subst a. rewrite at_self in X. destruct (to =? br_acct C) eqn:EY.
             ++ assert (to = br_acct C) by lia. subst to. rewrite at_self in X. lia.
             ++ rewrite at_ne in X by lia. lia.
          -- rewrite !at_ne in X by lia. lia.
    - subst. bstep H y E1. injection H as <-. apply Q; cbn; auto. lia.
    - subst. injection H as <-. apply Q; [|cbn; lia]. unfold change_vote_threshold. destruct (ensure_valid_threshold _ _ _); reflexivity.
    - subst. bstep H L E1. injection H as <-. cbn. apply transfer_spec in E1 as (D1 & _ & _). rewrite D1. destruct OK as [O1 O2].
      rewrite (at_ne _ from) by (intros [_ ?]; congruence). pose proof (at_nonneg a to x (br_acct C) amt O2). lia.
    - subst. bstep H L E1. injection H as <-. cbn. apply mint_spec in E1 as (M0 & D1 & _). rewrite D1.
      pose proof (at_nonneg a w x (br_acct C) amt M0). lia.
    - subst. bstep H L E1. injection H as <-. cbn. apply burn_spec in E1 as (M0 & _ & D1 & _). rewrite D1. cbn in OK.
      rewrite at_ne by (intros [_ ?]; congruence). lia.
  Qed.
  Lemma hist_flow s os s' : br_inv C s -> br_history C P s os s' ->
    exists evs, b_log s' = evs ++ b_log s /\
      forall a, bal (b_led s) a (br_acct C) + flows C a evs <= bal (b_led s') a (br_acct C).
  Proof.
    intros I H. revert I. induction H as [s|s o os s' OK H IH]; intros I.
    - exists []. split; auto. intros. cbn. lia.
    - destruct IH as (evs & E & F); [apply br_inv_exec; auto|]. unfold br_exec in *. destruct (br_step C P s o) as [s1|e|] eqn:S; eauto.
      destruct (step_flow _ _ _ I OK S) as (e1 & E1 & F1). exists (evs ++ e1). split; [rewrite E, E1, app_assoc; auto|].
      intros a. rewrite flows_app. specialize (F a). specialize (F1 a). lia.
  Qed.

  (** *** the vote threshold *)
  Lemma thr_members_step s op s' : br_step C P s op = Ok s' -> (forall m, op <> BMembers m) ->
    b_thr s' = b_thr s /\ b_members s' = b_members s.
  Proof.
    intros H N. destruct op; cbn in H; try (exfalso; eapply N; reflexivity).
    - unfold register_chain in H. bstep H u E. bstep H u2 E2. injection H as <-. auto.
    - unfold unregister_chain in H. bstep H u E. bstep H u2 E2. injection H as <-. auto.
    - unfold register_bridge_token in H. bstep H u E. bstep H u2 E2. injection H as <-. auto.
    - unfold unregister_bridge_token in H. bstep H u E. bstep H u2 E2. injection H as <-. auto.
    - unfold set_bridge_token_fee, try_mutate_bridge_token in H. bstep H u E. bstep H u2 E2. injection H as <-. auto.
    - unfold set_bridge_token_status, try_mutate_bridge_token in H. bstep H u E. bstep H u2 E2. injection H as <-. auto.
    - unfold set_bridge_token_cap, try_mutate_bridge_token in H. bstep H u E. bstep H u2 E2. injection H as <-. auto.
    - unfold clean_cap, try_mutate_bridge_token in H. bstep H u E. bstep H s1 E1. bstep E1 u2 E2. injection H as <-. injection E1 as <-. auto.
    - unfold teleport, update_bridge_token_cap in H. bstep H u1 E1. bstep H u2 E2. bstep H u3 E3. bstep H u4 E4. bstep H s1 E5.
      bstep E5 n En. injection E5 as <-. bstep H L EL. bstep H act Eact. apply rbind_ok in H as ([k s2] & En2 & H). injection H as <-.
      unfold bump_nonce in En2. bstep En2 nn E7. injection En2 as <- <-. auto.
    - unfold materialize in H. bstep H who Ew. bstep H u1 E1. bstep H u2 E2. bstep H u3 E3. bstep H p Ep. bstep H u4 E4. bstep H u5 E5.
      bstep H u6 E6. unfold resolve_proposal in H. cbn [b_votes emit set_votes] in H. rewrite lookup_insert in H.
      bstep H v1 F1. bstep H v2 F2. apply rbind_ok in H as ([st p2] & F3 & H). destruct st.
      + injection H as <-. auto.
      + unfold execute_materialize in H. bstep H w1 G1. bstep H w2 G2. bstep H s2 G3. unfold update_bridge_token_cap in G3.
        bstep G3 m1 G4. injection G3 as <-. bstep H L GL. bstep H s3 GB. bstep H s4 GR. injection H as <-.
        apply grant_bonus_inv in GB. unfold update_bridge_registry in GR.
        assert (b_thr s4 = b_thr s3 /\ b_members s4 = b_members s3) as [X Y].
        { destruct (b_reg s3 !! c); [bstep GR r' G7|]; injection GR as <-; auto. }
        cbn. rewrite X, Y. destruct GB as [->|(d & _ & _ & _ & _ & _ & _ & ->)]; auto.
      + unfold cancel_materialize in H. bstep H s3 GR. injection H as <-. unfold update_bridge_registry in GR. cbn in GR.
        destruct (b_reg s !! c); [bstep GR r' G7|]; injection GR as <-; auto.
    - bstep H x E. injection H as <-. auto.
    - bstep H L E. injection H as <-. auto.
    - bstep H L E. injection H as <-. auto.
    - bstep H L E. injection H as <-. auto.
  Qed.
  Lemma thr_members_hist s os s' : br_history C P s os s' -> (forall m, BMembers m ∉ os) ->
    b_thr s' = b_thr s /\ b_members s' = b_members s.
  Proof.
    intros H. induction H as [s|s o os s' OK H IH]; intros N; auto.
    destruct IH as [A B]. { intros m Q. apply (N m). apply elem_of_cons; auto. }
    rewrite A, B. unfold br_exec. destruct (br_step C P s o) eqn:E; auto. eapply thr_members_step; eauto.
    intros m ->. apply (N m). apply elem_of_cons; auto.
  Qed.
  Lemma threshold_value pct n : 1 <= pct <= 100 -> 0 < n ->
    let t := p_mul_ceil (p_from_percent pct) n in
    pct * n <= 100 * t < pct * n + 100 /\ 1 <= t <= n.
  Proof.
    intros H N. cbn zeta. unfold p_mul_ceil, p_from_percent. rewrite Z.min_l by lia.
    assert (PMILL = 1000000) as PM by reflexivity. change (10 ^ 4) with 10000.
    assert (A : 0 < PMILL) by (rewrite PM; lia).
    pose proof (cdiv_ge (pct * 10000 * n) PMILL A). pose proof (cdiv_lt (pct * 10000 * n) PMILL A).
    revert H0 H1. generalize (cdiv (pct * 10000 * n) PMILL). rewrite PM. intros t H0 H1.
    assert (pct * n <= 100 * t < pct * n + 100) by nia. split; [auto|]. nia.
  Qed.
  Lemma members_threshold s m : 1 <= br_pct C <= 100 -> (0 < length m)%nat ->
    exists s', br_step C P s (BMembers m) = Ok s' /\ b_members s' = m /\
      br_pct C * Z.of_nat (length m) <= 100 * b_thr s' < br_pct C * Z.of_nat (length m) + 100 /\
      1 <= b_thr s' <= Z.of_nat (length m).
  Proof.
    intros H N. cbn. unfold change_vote_threshold, members_count. cbn [b_members set_members].
    destruct (threshold_value (br_pct C) (Z.of_nat (length m))) as [A B]; auto; [lia|].
    set (t := p_mul_ceil (p_from_percent (br_pct C)) (Z.of_nat (length m))) in *. clearbody t.
    unfold ensure_valid_threshold. replace (_ && _ && _) with true; cbn; [eexists; split; [reflexivity|]; cbn; auto|].
    symmetry. apply andb_true_intro. split; [apply andb_true_intro; split|]; [|lia|lia].
    unfold p_from_rational. replace (_ || _) with false by (symmetry; apply orb_false_iff; lia).
    apply Z.leb_le. apply Z.div_le_lower_bound; [lia|]. unfold p_from_percent. rewrite Z.min_l by lia.
    assert (PMILL = 1000000) as -> by reflexivity. change (10 ^ 4) with 10000. lia.
  Qed.
End facts.
