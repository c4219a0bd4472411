(** * CrowdProofs2: every call preserves the invariants and changes the totals by exactly what it should. *)
From Verif Require Import Base MapSum Ledger AmmModel StreamModel StreamSpec CrowdModel CrowdSpec CrowdProofs.

Lemma transfer_mono P L a f t amt ka L' a' x : transfer P L a f t amt ka = Ok L' -> x <> f -> bal L a' x <= bal L' a' x.
Proof.
  intros H Hx. unfold transfer in H. destruct (amt =? 0); [injection H as <-; lia|]. destruct (negb _); [discriminate|].
  destruct (f =? t) eqn:E1; [injection H as <-; lia|]. destruct ((0 <? amt) && (amt <=? bal L a f)) eqn:E2; [|discriminate].
  injection H as <-. apply andb_prop in E2 as [E2 _]. rewrite !bal_set_bal. repeat case_bool_decide; destruct_and?; subst; try lia; congruence.
Qed.

Section str.
  Context (C : str_cfg) (P : policy).
  Lemma do_create_led s w r d a b e c x : do_create C P s w r d a b e c = Ok x -> transfer P (s_led s) a w (str_acct C) d false = Ok (s_led x.2).
  Proof.
    intros E3. unfold do_create in E3. bstep E3 v0 F0. bstep E3 v1 F1. bstep E3 v2 F2. bstep E3 v3 F3. bstep E3 v4 F4. bstep E3 v5 F5.
    apply rbind_ok in E3 as ([ss l] & F6 & E3). injection E3 as <-. cbn. auto.
  Qed.
  Lemma trait_create_led s w r d a b e c s' : trait_create C P s w r d a b e c = Ok s' -> transfer P (s_led s) a w (str_acct C) d false = Ok (s_led s').
  Proof.
    intros H. unfold trait_create in H. bstep H u E. apply rbind_ok in H as ([id s1] & E3 & H). bstep H l1 E4. injection H as <-.
    apply do_create_led in E3. exact E3.
  Qed.
  (** streaming calls neither mint nor burn, and take tokens only from the account they act for *)
  Lemma str_step_frame s o s' x : x <> str_acct C -> str_step C P s o = Ok s' ->
    match o with SCreate w _ _ _ _ _ _ | STraitCreate w _ _ _ _ _ _ => w <> x | STransfer _ f _ _ => f <> x | SBurn _ w _ => w <> x | _ => True end ->
    (forall a, bal (s_led s) a x <= bal (s_led s') a x) /\
    (forall a, match o with SMint b _ _ | SBurn b _ _ => a <> b | _ => True end -> iss (s_led s') a = iss (s_led s) a).
  Proof.
    intros Hx H Ho. destruct o; cbn [str_step] in H.
    - unfold create in H. bstep H m E0. bstep H u0 E1. bstep H u1 E2.
      apply rbind_ok in H as ([id s1] & E3 & H). bstep H l1 E4. bstep H l2 E5. injection H as <-. apply do_create_led in E3. cbn in E3 |- *.
      split; intros; [eapply transfer_mono; eauto|]. apply transfer_spec in E3. apply E3.
    - apply trait_create_led in H. split; intros; [eapply transfer_mono; eauto|]. apply transfer_spec in H. apply H.
    - unfold cancel in H. bstep H st E0. bstep H u1 E1. bstep H u2 E2. bstep H u3 E3. bstep H sb E4. bstep H rb E5. bstep H L1 E6. bstep H L2 E7.
      apply rbind_ok in H as ([ss l] & _ & H). injection H as <-. cbn.
      split; intros a0; [transitivity (bal L1 a0 x); eapply transfer_mono; eauto|]. intros _. apply transfer_spec in E6, E7. destruct E7 as (_ & -> & _). apply E6.
    - unfold withdraw in H. bstep H st E0. bstep H u1 E1. bstep H u2 E2. bstep H u3 E3. bstep H u4 E4. bstep H rb E5. bstep H u5 E6. bstep H st1 E7.
      apply rbind_ok in H as ([ss l] & _ & H). bstep H L E8. injection H as <-. cbn.
      split; intros; [eapply transfer_mono; eauto|]. apply transfer_spec in E8. apply E8.
    - unfold set_minimum_deposit in H. bstep H u E. injection H as <-. cbn. split; intros; lia.
    - injection H as <-. cbn. split; intros; lia.
    - bstep H L E. injection H as <-. cbn. split; intros; [eapply transfer_mono; eauto|]. apply transfer_spec in E. apply E.
    - bstep H L E. injection H as <-. cbn. apply mint_spec in E as (E1 & E2 & E3).
      split; intros b; [rewrite E2; unfold at_; case_bool_decide; lia|]. intros Hb. rewrite E3, bool_decide_false by auto. lia.
    - bstep H L E. injection H as <-. cbn. apply burn_spec in E as (E1 & E2 & E3 & E4).
      split; intros b; [rewrite E3; unfold at_; rewrite bool_decide_false by (intros [_ ?]; congruence); lia|]. intros Hb. rewrite E4, bool_decide_false by auto. lia.
  Qed.
  Lemma reach_transfer s a f t amt L : str_reachable C P s -> transfer P (s_led s) a f t amt false = Ok L -> f <> str_acct C -> 0 <= amt ->
    str_reachable C P (s_set_led s L).
  Proof.
    intros Hr Ht Hf Ha. replace (s_set_led s L) with (str_exec C P s (STransfer a f t amt)); [apply str_reach_step; cbn; auto|].
    unfold str_exec. cbn. rewrite Ht. reflexivity.
  Qed.
  Lemma reach_mint s a w amt L : str_reachable C P s -> mint_into P (s_led s) a w amt = Ok L -> str_reachable C P (s_set_led s L).
  Proof.
    intros Hr Ht. replace (s_set_led s L) with (str_exec C P s (SMint a w amt)); [apply str_reach_step; cbn; auto|].
    unfold str_exec. cbn. rewrite Ht. reflexivity.
  Qed.
  Lemma reach_burn s a w amt L : str_reachable C P s -> burn_from P (s_led s) a w amt = Ok L -> w <> str_acct C -> str_reachable C P (s_set_led s L).
  Proof.
    intros Hr Ht Hw. replace (s_set_led s L) with (str_exec C P s (SBurn a w amt)); [apply str_reach_step; cbn; auto|].
    unfold str_exec. cbn. rewrite Ht. reflexivity.
  Qed.
End str.

Section steps.
  Context (C : cr_cfg) (E : cr_env) (ct : Z -> bool) (HC : cr_cfg_ok C ct).
  Let P := ce_pol E.
  Notation R := (cc_relay C). Notation A := (cc_acct C).
  Definition kind_ok (k : Z) : Prop := k = KPend \/ k = KFly \/ k = KContr.

  (** the difference between two states: invariants, spare relay tokens, derivative accounting, relay supply *)
  Definition slack (s : cr) : Z := bal (c_led s) R A - held s.
  Definition tok_gap (s : cr) (c : Z) : Z := iss (c_led s) c + unclaimed s c - lent_for s c.
  Definition relay_total (s : cr) : Z := iss (c_led s) R + lent s.
  Definition good (s : cr) : Prop := cst C ct s /\ str_reachable (cc_str C) P (c_str s).

  Lemma good_led s L : good s -> str_reachable (cc_str C) P (s_set_led (c_str s) L) -> good (set_c_led s L).
  Proof. intros [H1 H2] H3. split; auto. eapply cst_same; [| | | |exact H1]; try reflexivity. repeat split. Qed.

  (** virtual states: the vault being edited written back *)
  Lemma put_put s key v v' : put_vault (put_vault s key v) key v' = put_vault s key v'.
  Proof. unfold put_vault, set_c_vaults. cbn. rewrite insert_insert. reflexivity. Qed.
  Lemma put_id s key v : c_vaults s !! key = Some v -> put_vault s key v = s.
  Proof. intros H. unfold put_vault, set_c_vaults. rewrite insert_id by auto. destruct s; reflexivity. Qed.

  Lemma upd_con_ok s v w amt add k s1 v1 key :
    upd_con s v w amt add k = Ok (s1, v1) -> cst C ct (put_vault s key v) -> kind_ok k -> 0 <= amt -> (add = true -> w <> A) ->
    let d := if add then amt else - amt in
    cst C ct (put_vault s1 key v1) /\
    held (put_vault s1 key v1) = held (put_vault s key v) + (if k =? KContr then 0 else d) /\
    lent (put_vault s1 key v1) = lent (put_vault s key v) + (if k =? KContr then d else 0) /\
    (forall t, lent_for (put_vault s1 key v1) t = lent_for (put_vault s key v) t + (if bool_decide (v_ctoken v = t /\ k = KContr) then d else 0)) /\
    (forall t, unclaimed (put_vault s1 key v1) t = unclaimed (put_vault s key v) t + (if bool_decide (v_ctoken v = t /\ k = KContr) then d else 0)) /\
    c_str s1 = c_str s /\ (v_get v1 k = v_get v k + d /\ 0 <= v_get v1 k) /\
    entry s v k w + d = entry s1 v k w /\ 0 <= entry s1 v k w /\
    (forall t k' w', (t, k', w') <> (v_trie v, k, w) -> c_con s1 !! (t, k', w') = c_con s !! (t, k', w')) /\
    s1 = con_put s (v_trie v) k w (entry s v k w + d) /\ v1 = v_put v k (v_get v k + d).
  Proof.
    intros H Hs Hk Ha Hw d.
    assert (Hx : exists n c, s1 = con_put s (v_trie v) k w n /\ v1 = v_put v k c /\ n = entry s v k w + d /\ c = v_get v k + d /\ 0 <= n /\ 0 <= c).
    { unfold upd_con, con_get, entry in *. subst d. destruct add.
      - bstep H c E1. bstep H n E2. injection H as <- <-. do 2 eexists. repeat split; try reflexivity; try lia.
      - bstep H c E1. bstep H n E2. injection H as <- <-. do 2 eexists. repeat split; try reflexivity; try lia. }
    destruct Hx as (n & c & -> & -> & -> & -> & Hn & Hc).
    assert (Hv : c_vaults (put_vault s key v) !! key = Some v) by apply lookup_insert.
    assert (Hb : put_vault (con_put s (v_trie v) k w (entry s v k w + d)) key (v_put v k (v_get v k + d)) = bump (put_vault s key v) key v k w (entry s v k w + d) (v_get v k + d)).
    { unfold bump. rewrite <- (put_put (con_put s _ _ _ _) key v). reflexivity. }
    assert (He : entry (put_vault s key v) v k w = entry s v k w) by reflexivity.
    rewrite Hb. destruct (sums_bump C ct (put_vault s key v) key v k w (entry s v k w + d) (v_get v k + d) Hs Hv Hk ltac:(rewrite He; lia)) as (S1 & S2 & S3 & S4).
    assert (Hg : v_get (v_put v k (v_get v k + d)) k = v_get v k + d).
    { unfold v_put, v_get. destruct Hk as [-> | [-> | ->]]; cbn; reflexivity. }
    assert (Hent : entry (con_put s (v_trie v) k w (entry s v k w + d)) v k w = entry s v k w + d).
    { unfold entry at 1. rewrite con_put_con, cput_get, bool_decide_true by auto. reflexivity. }
    split; [|split; [|split; [|split; [|split; [|split; [reflexivity|split; [split|split; [|split; [|split; [|split; reflexivity]]]]]]]]]].
    - apply cst_bump; auto; [rewrite He; lia|]. intros Hn0. destruct add; [auto|]. unfold entry in Hn, Hn0.
      destruct (c_con s !! (v_trie v, k, w)) as [x|] eqn:Ex; cbn in Hn, Hn0; [|lia]. apply (cs_con _ _ _ Hs) in Ex. tauto.
    - rewrite S1. destruct (k =? KContr); lia.
    - rewrite S2. destruct (k =? KContr); lia.
    - intros t. rewrite S3. f_equal. case_bool_decide; lia.
    - intros t. rewrite S4. f_equal. case_bool_decide; lia.
    - exact Hg.
    - rewrite Hg. lia.
    - rewrite Hent. reflexivity.
    - rewrite Hent. exact Hn.
    - intros t k' w' Hne. rewrite con_put_con. unfold cput. destruct (_ =? 0); [rewrite lookup_delete_ne|rewrite lookup_insert_ne]; auto.
  Qed.

  (** sending a request burns the fee of the helper account only *)
  Lemma csend_ok s k r s' : csend C E s k r = Ok s' -> good s ->
    match r with QContribute _ _ _ w x => 0 <= x /\ w <> A | QWithdraw _ _ _ _ p => ended p end ->
    good s' /\ same_books s s' /\ c_qid s' = c_qid s + 1 /\ c_reqs s' = <[c_qid s := r]> (c_reqs s) /\ c_xfee s' = c_xfee s /\
    (forall a w, bal (c_led s') a w = bal (c_led s) a w - at_ R (cc_xcm C) a w (fee_of s k)) /\
    (forall a, iss (c_led s') a = iss (c_led s) a - (if bool_decide (a = R) then fee_of s k else 0)) /\ 0 <= fee_of s k /\
    c_bonus s' = c_bonus s /\ c_proxy s' = c_proxy s /\ c_vrf s' = c_vrf s /\ c_rblock s' = c_rblock s.
  Proof.
    intros H [Hg Hr] Hreq. unfold csend in H. bstep H L E1. bstep H u E2. injection H as <-.
    destruct (burn_from (ce_pol E) (c_led s) R (cc_xcm C) (default 0 (c_xfee s !! k))) as [L0|?|] eqn:Eb; try discriminate. injection E1 as ->.
    pose proof (burn_spec _ _ _ _ _ _ Eb) as (B1 & _ & B2 & B3).
    split; [|split; [repeat split|repeat split; auto]]. split.
    - apply (cst_req C ct (set_c_led s L) (c_qid s) r); [|reflexivity|auto]. eapply cst_same; [| | | |exact Hg]; try reflexivity. repeat split.
    - cbn. apply (reach_burn _ _ _ _ _ _ _ Hr Eb). destruct HC as (_ & _ & _ & Hx & _). auto.
  Qed.
End steps.
