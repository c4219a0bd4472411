(** * CrowdProps: the crowdloan properties (C84-C102). *)
From Verif Require Import Base MapSum Ledger AmmModel AmmEx AmmProofs5 StreamModel StreamSpec CrowdModel CrowdSpec CrowdProofs CrowdProofs2 CrowdProofs3 CrowdProofs4 CrowdProofs5 CrowdProofs6 CrowdProofs7 CrowdProofs8 CrowdProofs9 CrowdProofs10 CrowdProofs11 CrowdEx.

(** ** C84.  The pallet account always holds at least the relay tokens of all waiting and in-flight contributions. *)
Theorem C84_contributions_backed C E ct s : cr_cfg_ok C ct -> cr_reachable C E ct s -> held s <= bal (c_led s) (cc_relay C) (cc_acct C).
Proof. intros HC Hr. apply (ci_held _ _ _ _ (reachable_inv C E ct HC s Hr)). Qed.
Print Assumptions C84_contributions_backed.
Example C84_example : cr_reachable cxC cxE cxt (cxrun hc1) /\ held (cxrun hc1) = 3000 /\ bal (c_led (cxrun hc1)) 100 5 = 3000.
Proof. split; [apply cxrun_reach; vm_compute; reflexivity|vm_compute; auto]. Qed.

(** ** C85.  The counters of a vault are the sums of its books; every entry is positive and belongs to exactly one existing vault. *)
Theorem C85_counters_are_sums C E ct s k v : cr_cfg_ok C ct -> cr_reachable C E ct s -> c_vaults s !! k = Some v ->
  v_pend v = book (c_con s) (v_trie v) KPend /\ v_fly v = book (c_con s) (v_trie v) KFly /\ 0 <= v_contr v /\
  forall k' v', c_vaults s !! k' = Some v' -> v_trie v' = v_trie v -> k' = k.
Proof.
  intros HC Hr Hv. pose proof (proj1 (ci_good _ _ _ _ (reachable_inv C E ct HC s Hr))) as Hg. destruct (cs_vault _ _ _ Hg _ _ Hv).
  split; [auto|]. split; [auto|]. split; [auto|]. intros k' v' Hv' Ht. eapply (cs_uniq _ _ _ Hg); eauto.
Qed.
Print Assumptions C85_counters_are_sums.
Theorem C85_entries C E ct s t k w x : cr_cfg_ok C ct -> cr_reachable C E ct s -> c_con s !! (t, k, w) = Some x ->
  0 < x /\ (k = KPend \/ k = KFly \/ k = KContr) /\ exists key v, c_vaults s !! key = Some v /\ v_trie v = t.
Proof. intros HC Hr Hx. pose proof (proj1 (ci_good _ _ _ _ (reachable_inv C E ct HC s Hr))) as Hg. apply (cs_con _ _ _ Hg) in Hx. tauto. Qed.
Print Assumptions C85_entries.
Example C85_example : someb (c_vaults (cxrun hc1) !! (3000, 5, 8)) (fun v => (v_pend v =? 1000) && (v_fly v =? 2000)) = true /\ c_con (cxrun hc1) !! (0, KPend, 20) = Some 1000.
Proof. vm_compute. auto. Qed.

(** ** C86.  Derivative tokens are backed: for every derivative token, issued plus not yet claimed equals what its vaults have lent. *)
Theorem C86_derivatives_backed C E ct s c : cr_cfg_ok C ct -> cr_reachable C E ct s -> ct c = true -> iss (c_led s) c + unclaimed s c = lent_for s c.
Proof. intros HC Hr. apply (ci_tok _ _ _ _ (reachable_inv C E ct HC s Hr)). Qed.
Print Assumptions C86_derivatives_backed.
Theorem C86_sole_vault C E ct s key v : cr_cfg_ok C ct -> cr_reachable C E ct s -> c_vaults s !! key = Some v ->
  (forall k' v', c_vaults s !! k' = Some v' -> v_ctoken v' = v_ctoken v -> k' = key) ->
  iss (c_led s) (v_ctoken v) + book (c_con s) (v_trie v) KContr = v_contr v.
Proof. intros HC Hr. apply (sole_backed C E ct); auto. apply reachable_inv; auto. Qed.
Print Assumptions C86_sole_vault.
Example C86_example : cr_reachable cxC cxE cxt (cxrun hc4) /\ cxt 200 = true /\ iss (c_led (cxrun hc4)) 200 = 1000 /\ unclaimed (cxrun hc4) 200 = 2000 /\ lent_for (cxrun hc4) 200 = 3000.
Proof. split; [apply cxrun_reach; vm_compute; reflexivity|vm_compute; auto]. Qed.

(** ** C87.  No crowdloan call creates or destroys claims on the relay token: issuance plus what is lent to the relay chain only
    falls by the fee of each message sent. *)
Theorem C87_relay_supply C E ct s op s' : cr_cfg_ok C ct -> cr_reachable C E ct s -> cr_op_ok C ct op -> cr_step C E s op = Ok s' -> (forall o, op <> CStr o) ->
  iss (c_led s') (cc_relay C) + lent s' = iss (c_led s) (cc_relay C) + lent s
    - (c_qid s' - c_qid s) * fee_of s (match op with CFailed _ _ | CSlotExpired _ _ => XC_WITHDRAW | _ => XC_CONTRIBUTE end).
Proof.
  intros HC Hr Ho H Hn. destruct (step_moved C E ct HC _ _ _ H (ci_good _ _ _ _ (reachable_inv C E ct HC s Hr)) Ho) as (_ & _ & _ & M).
  unfold relay_total, op_fee in M. destruct op; try exact M. exfalso. eapply Hn; reflexivity.
Qed.
Print Assumptions C87_relay_supply.
Example C87_example : okb (cr_step cxC cxE (cxrun hf3) (CWithdraw 20 3000 5 8)) (fun s' =>
   (iss (c_led s') 100 + lent s' =? iss (c_led (cxrun hf3)) 100 + lent (cxrun hf3)) && (lent s' =? 2000)) = true.
Proof. vm_compute. auto. Qed.

(** ** C88.  [contribute] needs an open vault, moves exactly the amount to the pallet and books it once (as waiting before the
    opening, in flight with one request after it); only contributions raise what a vault collected, and never above the cap. *)
Theorem C88_contribute_exact C E ct s w para amt s' : cr_cfg_ok C ct -> cr_reachable C E ct s -> cr_step C E s (CContribute w para amt) = Ok s' ->
  exists a b v, c_leases s !! para = Some (a, b) /\ c_vaults s !! (para, a, b) = Some v /\
    amt <> 0 /\ cc_min C <= amt /\ c_rblock s <= v_end v /\ c_vrf s = false /\ raised v + amt <= v_cap v /\
    (forall x y, bal (c_led s') x y = bal (c_led s) x y - at_ (cc_relay C) w x y amt + at_ (cc_relay C) (cc_acct C) x y amt
                   - (if bool_decide (v_phase v = Contributing) then at_ (cc_relay C) (cc_xcm C) x y (fee_of s XC_CONTRIBUTE) else 0)) /\
    ((v_phase v = Contributing /\ c_vaults s' = <[(para, a, b) := v_set_fly v (v_fly v + amt)]> (c_vaults s) /\
      entry_moved s s' (v_trie v) KFly w amt /\ c_reqs s' = <[c_qid s := QContribute para a b w amt]> (c_reqs s) /\ c_qid s' = c_qid s + 1) \/
     (v_phase v = Pending /\ c_vaults s' = <[(para, a, b) := v_set_pend v (v_pend v + amt)]> (c_vaults s) /\
      entry_moved s s' (v_trie v) KPend w amt /\ c_reqs s' = c_reqs s /\ c_qid s' = c_qid s)).
Proof. intros HC Hr H. apply (contribute_exact C E ct _ _ _ _ _ (proj1 (ci_good _ _ _ _ (reachable_inv C E ct HC s Hr))) H). Qed.
Print Assumptions C88_contribute_exact.
Theorem C88_cap C E ct s op s' k v v' : cr_cfg_ok C ct -> cr_reachable C E ct s -> cr_op_ok C ct op -> cr_step C E s op = Ok s' ->
  c_vaults s !! k = Some v -> c_vaults s' !! k = Some v' ->
  raised v' <= raised v \/ exists w amt, op = CContribute w k.1.1 amt /\ raised v' = raised v + amt /\ raised v' <= v_cap v.
Proof.
  intros HC Hr Ho H Hv Hv'. pose proof (reachable_inv C E ct HC s Hr) as HI.
  destruct (step_track C E ct s op s' H (proj1 (ci_good _ _ _ _ HI)) (reach_wf C E ct HC _ (proj2 (ci_good _ _ _ _ HI))) Ho _ _ Hv') as [(v0 & Hv0 & T)|[Hn _]]; [|congruence].
  rewrite Hv in Hv0. injection Hv0 as <-. apply T.
Qed.
Print Assumptions C88_cap.
Example C88_example : cr_reachable cxC cxE cxt (cxrun hc0) /\ okb (cr_step cxC cxE (cxrun hc0) (CContribute 21 3000 99000)) (fun s' => someb (c_vaults s' !! (3000, 5, 8)) (fun v => raised v =? 100000)) = true
  /\ is_ok (cr_step cxC cxE (cxrun hc0) (CContribute 21 3000 99001)) = false.
Proof. split; [apply cxrun_reach; vm_compute; reflexivity|vm_compute; auto]. Qed.

(** ** C89.  The relay chain's answer to a contribution settles exactly that contribution: success turns it from in flight into
    contributed and burns the tokens the pallet held for it, failure pays it back to the contributor. *)
Theorem C89_settlement_exact C E ct s resp o q para a b w amt ok s' : cr_cfg_ok C ct -> cr_reachable C E ct s ->
  c_reqs s !! q = Some (QContribute para a b w amt) -> cr_step C E s (CNotify resp o q (Some ok)) = Ok s' ->
  exists v, c_vaults s !! (para, a, b) = Some v /\ amt <= v_fly v /\ amt <= entry s v KFly w /\
    (if ok then
       c_vaults s' = <[(para, a, b) := v_set_contr (v_set_fly v (v_fly v - amt)) (v_contr v + amt)]> (c_vaults s) /\
       (forall k' w', entry s' v k' w' = entry s v k' w' + (if bool_decide (k' = KFly /\ w' = w) then - amt else 0) + (if bool_decide (k' = KContr /\ w' = w) then amt else 0)) /\
       (forall x y, bal (c_led s') x y = bal (c_led s) x y - at_ (cc_relay C) (cc_acct C) x y amt) /\ c_reqs s' = delete q (c_reqs s)
     else
       c_vaults s' = <[(para, a, b) := v_set_fly v (v_fly v - amt)]> (c_vaults s) /\
       (forall k' w', entry s' v k' w' = entry s v k' w' + (if bool_decide (k' = KFly /\ w' = w) then - amt else 0)) /\
       (forall x y, bal (c_led s') x y = bal (c_led s) x y - at_ (cc_relay C) (cc_acct C) x y amt + at_ (cc_relay C) w x y amt) /\ c_reqs s' = c_reqs s).
Proof.
  intros HC Hr Hq H. cbn in H. unfold notification in H. bstep H u E0. rewrite Hq in H. apply (settle_exact C E _ _ _ _ _ _ _ _ _ H).
Qed.
Print Assumptions C89_settlement_exact.
(** after a successful answer the request is gone for ever: whatever happens later, answering it again changes nothing *)
Theorem C89_settled_once C E ct s resp o q s1 ops s2 resp' o' r s3 : cr_cfg_ok C ct -> cr_reachable C E ct s ->
  is_Some (c_reqs s !! q) -> cr_step C E s (CNotify resp o q (Some true)) = Ok s1 -> cr_history C E ct s1 ops s2 ->
  cr_step C E s2 (CNotify resp' o' q r) = Ok s3 -> s3 = s2.
Proof.
  intros HC Hr [rq Hq] H Hh H3. pose proof (cs_qid _ _ _ (proj1 (ci_good _ _ _ _ (reachable_inv C E ct HC s Hr))) _ _ Hq) as Hlt.
  pose proof (step_rq C E s _ s1 H) as [Q1 _]. destruct (history_rq C E ct _ _ _ Hh) as [Q2 Hn].
  assert (Hg : c_reqs s1 !! q = None).
  { cbn in H. unfold notification in H. bstep H u E0. rewrite Hq in H. unfold notified in H. apply rbind_ok in H as (s0 & _ & H). injection H as <-. cbn. apply lookup_delete. }
  specialize (Hn q ltac:(lia) Hg). cbn in H3. unfold notification in H3. bstep H3 u E0. rewrite Hn in H3. destruct r; injection H3 as <-; reflexivity.
Qed.
Print Assumptions C89_settled_once.
Example C89_example : cr_reachable cxC cxE cxt (cxrun hc1) /\ c_reqs (cxrun hc1) !! 0 = Some (QContribute 3000 5 8 21 2000) /\
  is_ok (cr_step cxC cxE (cxrun hc1) (CNotify true (Signed 0) 0 (Some true))) = true /\
  okb (cr_step cxC cxE (cxrun hc1) (CNotify true (Signed 0) 0 (Some false))) (fun s' => bal (c_led s') 100 21 =? 10^6) = true.
Proof. split; [apply cxrun_reach; vm_compute; reflexivity|vm_compute; auto]. Qed.
(** A failed answer leaves the request in storage: [UpdateOrigin] can replay it, and it then pays out another contribution. *)
Definition hx_replay : list cr_op := hc1 ++ [CContribute 21 3000 2000; CNotify true (Signed 0) 0 (Some false)].
Theorem C89_failed_answer_final_refuted :
  ~ (forall C E ct s resp o q s1 resp' o' r s2, cr_cfg_ok C ct -> cr_reachable C E ct s -> is_Some (c_reqs s !! q) ->
       cr_step C E s (CNotify resp o q (Some false)) = Ok s1 -> cr_step C E s1 (CNotify resp' o' q r) = Ok s2 -> s2 = s1).
Proof.
  intros H. set (s := cxrun (hc1 ++ [CContribute 21 3000 2000])).
  assert (R : cr_reachable cxC cxE cxt s) by (apply cxrun_reach; vm_compute; reflexivity).
  assert (B : okb (cr_step cxC cxE s (CNotify true (Signed 0) 0 (Some false))) (fun s1 =>
    okb (cr_step cxC cxE s1 (CNotify false Root 0 (Some false))) (fun s2 => negb (bal (c_led s2) 100 21 =? bal (c_led s1) 100 21))) = true) by (vm_compute; reflexivity).
  apply okb_spec in B as (s1 & H1 & B). apply okb_spec in B as (s2 & H2 & B).
  assert (X : s2 = s1); [|subst s2; rewrite Z.eqb_refl in B; discriminate B].
  eapply (H cxC cxE cxt s true (Signed 0) 0 s1 false Root (Some false) s2 cxC_ok R); eauto.
Qed.
Print Assumptions C89_failed_answer_final_refuted.

(** ** C90.  [claim] (and the governance variant) pays derivative tokens one for one for the whole contribution of the account,
    once, plus the bonus as a new stream to that account; the streaming pallet's state stays a reachable one. *)
Theorem C90_claim_exact C E ct s w para a b s' : cr_cfg_ok C ct -> cr_reachable C E ct s ->
  (cr_step C E s (CClaim w para a b) = Ok s' \/ exists o, cr_step C E s (CForceClaim o w para a b) = Ok s') ->
  exists v, c_vaults s !! (para, a, b) = Some v /\ 0 < entry s v KContr w /\
    c_vaults s' = c_vaults s /\ entry_moved s s' (v_trie v) KContr w (- entry s v KContr w) /\
    let x := bonus_amount C s a b (entry s v KContr w) in
    let bo := default bonus_default (c_bonus s !! (a, b)) in
    (forall y z, bal (c_led s') y z = bal (c_led s) y z + at_ (v_ctoken v) w y z (entry s v KContr w)
                   - at_ (cc_native C) (cc_acct C) y z x + at_ (cc_native C) (str_acct (cc_str C)) y z x) /\
    (x = 0 /\ streams (c_str s') = streams (c_str s) \/
     0 < x /\ streams (c_str s') !! next_id (c_str s) = Some (stream_new x (cc_native C) (x / (bo_end bo - bo_start bo)) (cc_acct C) w (bo_start bo) (bo_end bo) false)) /\
    (cr_step C E s (CClaim w para a b) = Ok s' -> v_phase v = Succeeded).
Proof.
  intros HC Hr H. pose proof (reachable_inv C E ct HC s Hr) as HI.
  assert (HX : forall f, do_claim_for C E s w para a b f = Ok s' -> exists v, c_vaults s !! (para, a, b) = Some v /\ (f = true \/ v_phase v = Succeeded) /\ 0 < entry s v KContr w /\
    c_vaults s' = c_vaults s /\ entry_moved s s' (v_trie v) KContr w (- entry s v KContr w) /\
    let x := bonus_amount C s a b (entry s v KContr w) in
    let bo := default bonus_default (c_bonus s !! (a, b)) in
    (forall y z, bal (c_led s') y z = bal (c_led s) y z + at_ (v_ctoken v) w y z (entry s v KContr w)
                   - at_ (cc_native C) (cc_acct C) y z x + at_ (cc_native C) (str_acct (cc_str C)) y z x) /\
    (x = 0 /\ streams (c_str s') = streams (c_str s) \/
     0 < x /\ streams (c_str s') !! next_id (c_str s) = Some (stream_new x (cc_native C) (x / (bo_end bo - bo_start bo)) (cc_acct C) w (bo_start bo) (bo_end bo) false))).
  { intros f Hf. destruct (claim_exact C E ct HC _ _ _ _ _ _ _ HI Hf) as (v & A1 & A2 & A3 & A4 & A5 & _ & _ & A6 & A7). exists v. cbn zeta. auto 10. }
  assert (HY : cr_step C E s (CClaim w para a b) = Ok s' -> exists v, c_vaults s !! (para, a, b) = Some v /\ v_phase v = Succeeded).
  { intros H1. destruct (HX false H1) as (v & A1 & [A2|A2] & _); [discriminate A2|eauto]. }
  assert (HZ : exists f, do_claim_for C E s w para a b f = Ok s').
  { destruct H as [H|[o H]]; [exists false; exact H|]. cbn in H. unfold force_claim in H. bstep H u E0. eauto. }
  destruct HZ as [f Hf]. destruct (HX f Hf) as (v & A1 & _ & A3 & A4 & A5 & A6 & A7). exists v. cbn zeta in *. split; [auto|]. split; [auto|]. split; [auto|]. split; [auto|]. split; [auto|]. split; [auto|].
  intros H1. destruct (HY H1) as (v0 & B1 & B2). congruence.
Qed.
Print Assumptions C90_claim_exact.
Theorem C90_claim_once C E s w para a b v force : c_vaults s !! (para, a, b) = Some v -> entry s v KContr w = 0 ->
  is_ok (do_claim_for C E s w para a b force) = false /\ is_ok (withdraw_for C E s w para a b) = false.
Proof.
  intros Hv He. split.
  - unfold do_claim_for. destruct (c_ctok s !! (a, b)); [|reflexivity]. cbn [ok_or rbind]. rewrite Hv. cbn [ok_or rbind]. destruct (force || _); [|reflexivity]. cbn [ensure rbind].
    unfold entry in He. unfold con_get. rewrite He. reflexivity.
  - unfold withdraw_for. rewrite Hv. cbn [ok_or rbind]. destruct (bool_decide (v_phase v = Failed)); [|reflexivity]. cbn [ensure rbind]. unfold entry in He. unfold con_get. rewrite He. reflexivity.
Qed.
Print Assumptions C90_claim_once.
Theorem C90_streams_stay_consistent C E ct s : cr_cfg_ok C ct -> cr_reachable C E ct s -> str_reachable (cc_str C) (ce_pol E) (c_str s).
Proof. intros HC Hr. apply (ci_good _ _ _ _ (reachable_inv C E ct HC s Hr)). Qed.
Print Assumptions C90_streams_stay_consistent.
Example C90_example : cr_reachable cxC cxE cxt (cxrun hc3) /\ okb (cr_step cxC cxE (cxrun hc3) (CClaim 20 3000 5 8)) (fun s' =>
   (bal (c_led s') 200 20 =? 1000) && (bal (c_led s') 0 1 =? 500000) && someb (streams (c_str s') !! 0) (fun st => (st_deposit st =? 500000) && (st_recipient st =? 20))
   && negb (is_ok (cr_step cxC cxE s' (CClaim 20 3000 5 8)))) = true.
Proof. split; [apply cxrun_reach; vm_compute; reflexivity|vm_compute; auto]. Qed.

(** ** C91.  After a failed auction [withdraw] pays back exactly the contribution of the account, once. *)
Theorem C91_withdraw_exact C E s w para a b s' : cr_step C E s (CWithdraw w para a b) = Ok s' ->
  exists v, c_vaults s !! (para, a, b) = Some v /\ v_phase v = Failed /\ entry s v KContr w <> 0 /\ entry s v KContr w <= v_contr v /\
    c_vaults s' = <[(para, a, b) := v_set_contr v (v_contr v - entry s v KContr w)]> (c_vaults s) /\
    entry_moved s s' (v_trie v) KContr w (- entry s v KContr w) /\
    (forall y z, bal (c_led s') y z = bal (c_led s) y z + at_ (cc_relay C) w y z (entry s v KContr w)).
Proof. intros H. apply (withdraw_exact C E _ _ _ _ _ _ H). Qed.
Print Assumptions C91_withdraw_exact.
Example C91_example : cr_reachable cxC cxE cxt (cxrun hf3) /\ okb (cr_step cxC cxE (cxrun hf3) (CWithdraw 20 3000 5 8)) (fun s' => (bal (c_led s') 100 20 =? 10^6) && negb (is_ok (cr_step cxC cxE s' (CWithdraw 20 3000 5 8)))) = true.
Proof. split; [apply cxrun_reach; vm_compute; reflexivity|vm_compute; auto]. Qed.

(** ** C92.  After the lease [redeem] exchanges derivative tokens one for one for relay tokens. *)
Theorem C92_redeem_exact C E ct s w para a b amt s' : cr_cfg_ok C ct -> cr_reachable C E ct s -> cr_step C E s (CRedeem w para a b amt) = Ok s' ->
  exists v, c_vaults s !! (para, a, b) = Some v /\ v_phase v = Expired /\ amt <= v_contr v /\ amt <= bal (c_led s) (v_ctoken v) w /\
    c_vaults s' = <[(para, a, b) := v_set_contr v (v_contr v - amt)]> (c_vaults s) /\ c_con s' = c_con s /\
    (forall y z, bal (c_led s') y z = bal (c_led s) y z - at_ (v_ctoken v) w y z amt + at_ (cc_relay C) w y z amt).
Proof. intros HC Hr H. pose proof (ci_good _ _ _ _ (reachable_inv C E ct HC s Hr)) as [Hg Hs]. apply (redeem_exact C E ct _ _ _ _ _ _ _ Hg (reach_wf C E ct HC _ Hs) H). Qed.
Print Assumptions C92_redeem_exact.
Example C92_example : cr_reachable cxC cxE cxt (cxrun hc5) /\ okb (cr_step cxC cxE (cxrun hc5) (CRedeem 20 3000 5 8 400)) (fun s' => (bal (c_led s') 100 20 =? 999400) && (bal (c_led s') 200 20 =? 600)) = true.
Proof. split; [apply cxrun_reach; vm_compute; reflexivity|vm_compute; auto]. Qed.

(** ** C93.  Ways in and out are open: with an unrestricted ledger, contributions below the cap, withdrawals after a failure, claims
    without a bonus and redemptions after the lease always succeed (the last two: when the derivative token has one vault). *)
Theorem C93_contribute_possible C E ct s w para a b v amt : cr_cfg_ok C ct -> cr_reachable C E ct s -> lenient (ce_pol E) ->
  c_leases s !! para = Some (a, b) -> c_vaults s !! (para, a, b) = Some v ->
  v_phase v = Pending \/ (v_phase v = Contributing /\ fee_of s XC_CONTRIBUTE <= bal (c_led s) (cc_relay C) (cc_xcm C) /\ 0 <= fee_of s XC_CONTRIBUTE /\
                          ce_send E (c_qid s) = true /\ (v_proxy v = true -> is_Some (c_proxy s))) ->
  w <> cc_acct C -> w <> cc_xcm C -> 0 < amt -> cc_min C <= amt <= bal (c_led s) (cc_relay C) w -> c_rblock s <= v_end v -> c_vrf s = false -> raised v + amt <= v_cap v <= U128MAX ->
  exists s', cr_step C E s (CContribute w para amt) = Ok s'.
Proof. intros HC Hr LP Hl Hv Hp. intros. exact (contribute_live C E ct s w para a b v amt (reachable_inv C E ct HC s Hr) LP Hl Hv Hp ltac:(assumption) ltac:(assumption) ltac:(assumption) ltac:(assumption) ltac:(assumption) ltac:(assumption) ltac:(assumption)). Qed.
Print Assumptions C93_contribute_possible.
Theorem C93_withdraw_possible C E ct s w para a b v : cr_cfg_ok C ct -> cr_reachable C E ct s -> lenient (ce_pol E) -> c_vaults s !! (para, a, b) = Some v -> v_phase v = Failed ->
  (forall k' v', c_vaults s !! k' = Some v' -> v_ctoken v' = v_ctoken v -> k' = (para, a, b)) ->
  0 < entry s v KContr w -> v_contr v <= U128MAX -> iss (c_led s) (cc_relay C) + entry s v KContr w <= U128MAX ->
  exists s', cr_step C E s (CWithdraw w para a b) = Ok s'.
Proof.
  intros HC Hr LP Hv Hp Hs He Hu Hi. pose proof (reachable_inv C E ct HC s Hr) as HI. eapply withdraw_live; eauto. split; [|auto].
  pose proof (sole_backed C E ct s _ v HI Hv Hs) as Hb. pose proof (entry_book C ct s v KContr w (proj1 (ci_good _ _ _ _ HI))).
  pose proof (reach_wf C E ct HC _ (proj2 (ci_good _ _ _ _ HI))) as Hwf. pose proof (bal_le_iss _ _ w Hwf : bal (c_led s) (v_ctoken v) w <= _). pose proof (proj1 Hwf (v_ctoken v) w). unfold c_led in *. lia.
Qed.
Print Assumptions C93_withdraw_possible.
Theorem C93_redeem_possible C E ct s w para a b v amt : cr_cfg_ok C ct -> cr_reachable C E ct s -> lenient (ce_pol E) -> (forall ka L a w, reducible (ce_pol E) ka L a w = bal L a w) ->
  c_vaults s !! (para, a, b) = Some v -> v_phase v = Expired ->
  (forall k' v', c_vaults s !! k' = Some v' -> v_ctoken v' = v_ctoken v -> k' = (para, a, b)) ->
  0 <= amt <= bal (c_led s) (v_ctoken v) w -> v_contr v <= U128MAX -> iss (c_led s) (cc_relay C) + amt <= U128MAX ->
  exists s', cr_step C E s (CRedeem w para a b amt) = Ok s'.
Proof.
  intros HC Hr LP HR Hv Hp Hs Ha Hu Hi. pose proof (reachable_inv C E ct HC s Hr) as HI. eapply redeem_live; eauto. split; [|auto].
  pose proof (sole_backed C E ct s _ v HI Hv Hs) as Hb. pose proof (book_nonneg (c_con s) (v_trie v) KContr (cst_pos _ _ _ (proj1 (ci_good _ _ _ _ HI)))).
  pose proof (reach_wf C E ct HC _ (proj2 (ci_good _ _ _ _ HI))) as Hwf. pose proof (bal_le_iss _ _ w Hwf : bal (c_led s) (v_ctoken v) w <= _). unfold c_led in *. lia.
Qed.
Print Assumptions C93_redeem_possible.
Theorem C93_claim_possible C E ct s w para a b v : cr_cfg_ok C ct -> cr_reachable C E ct s -> lenient (ce_pol E) -> c_vaults s !! (para, a, b) = Some v -> v_phase v = Succeeded ->
  0 < entry s v KContr w -> iss (c_led s) (v_ctoken v) + entry s v KContr w <= U128MAX ->
  bonus_amount C s a b (entry s v KContr w) = 0 -> exists s', cr_step C E s (CClaim w para a b) = Ok s'.
Proof. intros HC Hr. intros. exact (claim_live C E ct HC s w para a b v (reachable_inv C E ct HC s Hr) ltac:(assumption) ltac:(assumption) ltac:(assumption) ltac:(assumption) ltac:(assumption) ltac:(assumption)). Qed.
Print Assumptions C93_claim_possible.
Example C93_example : lenient (ce_pol cxE) /\ okb (cr_step cxC cxE (cxrun hc2) (CContribute 22 3000 50)) (fun _ => true) = true /\
  someb (c_vaults (cxrun hc5) !! (3000, 5, 8)) (fun v => (bool_decide (v_phase v = Expired)) && (v_contr v =? 3000)) = true.
Proof. split; [repeat split|vm_compute; auto]. Qed.
(** With a bonus a claim can be impossible: a bonus smaller than the number of seconds it is streamed over, more streams to the
    account than its library holds, or a pallet account without native tokens make the whole claim fail. *)
Definition hx_small : list cr_op := hc2 ++ [CBonus Root 5 8 (mkBonus 1 100 1000000); CClose Root 3000; CSucceeded Root 3000].
Theorem C93_claim_always_possible_refuted :
  ~ (forall C E ct s w para a b v, cr_cfg_ok C ct -> cr_reachable C E ct s -> lenient (ce_pol E) -> c_vaults s !! (para, a, b) = Some v -> v_phase v = Succeeded ->
       0 < entry s v KContr w -> bonus_amount C s a b (entry s v KContr w) <= bal (c_led s) (cc_native C) (cc_acct C) ->
       iss (c_led s) (v_ctoken v) + entry s v KContr w <= U128MAX -> exists s', cr_step C E s (CClaim w para a b) = Ok s').
Proof.
  intros H. assert (R : cr_reachable cxC cxE cxt (cxrun hx_small)) by (apply cxrun_reach; vm_compute; reflexivity).
  assert (B : someb (c_vaults (cxrun hx_small) !! (3000, 5, 8)) (fun v => bool_decide (v_phase v = Succeeded) && (entry (cxrun hx_small) v KContr 20 =? 1000)
    && (bonus_amount cxC (cxrun hx_small) 5 8 1000 <=? bal (c_led (cxrun hx_small)) 0 5) && (iss (c_led (cxrun hx_small)) (v_ctoken v) =? 0)) = true) by (vm_compute; reflexivity).
  apply someb_spec in B as (v & Hv & B). repeat (apply andb_true_iff in B as [B ?]). apply bool_decide_eq_true in B.
  assert (N : is_ok (cr_step cxC cxE (cxrun hx_small) (CClaim 20 3000 5 8)) = false) by (vm_compute; reflexivity).
  assert (Hen : entry (cxrun hx_small) v KContr 20 = 1000) by lia.
  destruct (H cxC cxE cxt (cxrun hx_small) 20 3000 5 8 v cxC_ok R) as [s' Hs]; auto.
  - repeat split.
  - rewrite Hen. lia.
  - rewrite Hen. apply Z.leb_le. assumption.
  - rewrite Hen. assert (1000 <= U128MAX) by (apply Z.leb_le; vm_compute; reflexivity). lia.
  - rewrite Hs in N. discriminate N.
Qed.
Print Assumptions C93_claim_always_possible_refuted.
(** When the lease ends, contributors who did not claim before are stuck: claiming needs phase Succeeded, withdrawing phase Failed,
    and they have no derivative tokens to redeem; only governance can force their claim. *)
Theorem C93_unclaimed_after_lease_refuted :
  ~ (forall C E ct s w para a b v, cr_cfg_ok C ct -> cr_reachable C E ct s -> lenient (ce_pol E) -> c_vaults s !! (para, a, b) = Some v -> v_phase v = Expired ->
       0 < entry s v KContr w -> (exists s', cr_step C E s (CClaim w para a b) = Ok s') \/ (exists s', cr_step C E s (CWithdraw w para a b) = Ok s') \/
                                 (exists s', cr_step C E s (CRedeem w para a b (entry s v KContr w)) = Ok s')).
Proof.
  intros H. assert (R : cr_reachable cxC cxE cxt (cxrun hc5)) by (apply cxrun_reach; vm_compute; reflexivity).
  assert (B : someb (c_vaults (cxrun hc5) !! (3000, 5, 8)) (fun v => bool_decide (v_phase v = Expired) && (entry (cxrun hc5) v KContr 21 =? 2000)) = true) by (vm_compute; reflexivity).
  apply someb_spec in B as (v & Hv & B). apply andb_true_iff in B as [B1 B2]. apply bool_decide_eq_true in B1. assert (Hen : entry (cxrun hc5) v KContr 21 = 2000) by lia.
  assert (N1 : is_ok (cr_step cxC cxE (cxrun hc5) (CClaim 21 3000 5 8)) = false) by (vm_compute; reflexivity).
  assert (N2 : is_ok (cr_step cxC cxE (cxrun hc5) (CWithdraw 21 3000 5 8)) = false) by (vm_compute; reflexivity).
  assert (N3 : is_ok (cr_step cxC cxE (cxrun hc5) (CRedeem 21 3000 5 8 2000)) = false) by (vm_compute; reflexivity).
  destruct (H cxC cxE cxt (cxrun hc5) 21 3000 5 8 v cxC_ok R) as [[s' Hs]|[[s' Hs]|[s' Hs]]]; auto.
  - repeat split.
  - rewrite Hen. lia.
  - rewrite Hs in N1. discriminate N1.
  - rewrite Hs in N2. discriminate N2.
  - rewrite Hen in Hs. rewrite Hs in N3. discriminate N3.
Qed.
Print Assumptions C93_unclaimed_after_lease_refuted.
(** Two paras with the same lease share one derivative token: holders from one vault can empty the other, whose own contributors
    then cannot redeem there. *)
Definition hx_share : list cr_op :=
  [CXFee 10 1; CXFee 11 2; CStr (SSetMin Root 0 1); CProxy Root 99; CRelayBlock 100; CCreate Root 3000 200 5 8 true 100000 500; CCreate Root 4000 200 5 8 true 100000 500;
   COpen Root 3000; COpen Root 4000; CContribute 20 3000 1000; CContribute 21 4000 1000; CNotify true (Signed 0) 0 (Some true); CNotify true (Signed 0) 1 (Some true);
   CClose Root 3000; CClose Root 4000; CSucceeded Root 3000; CSucceeded Root 4000; CClaim 20 3000 5 8; CClaim 21 4000 5 8; CSlotExpired Root 3000; CNotify true (Signed 0) 2 (Some true);
   CRedeem 21 3000 5 8 1000].
Theorem C93_redeem_own_vault_refuted :
  ~ (forall C E ct s w para a b v amt, cr_cfg_ok C ct -> cr_reachable C E ct s -> lenient (ce_pol E) -> (forall ka L a w, reducible (ce_pol E) ka L a w = bal L a w) ->
       c_vaults s !! (para, a, b) = Some v -> v_phase v = Expired ->
       0 <= amt <= bal (c_led s) (v_ctoken v) w -> v_contr v <= U128MAX -> iss (c_led s) (cc_relay C) + amt <= U128MAX ->
       exists s', cr_step C E s (CRedeem w para a b amt) = Ok s').
Proof.
  intros H. assert (R : cr_reachable cxC cxE cxt (cxrun hx_share)) by (apply cxrun_reach; vm_compute; reflexivity).
  assert (B : someb (c_vaults (cxrun hx_share) !! (3000, 5, 8)) (fun v => bool_decide (v_phase v = Expired) && (v_contr v <=? U128MAX) && (bal (c_led (cxrun hx_share)) (v_ctoken v) 20 =? 1000)
    && (iss (c_led (cxrun hx_share)) 100 + 1000 <=? U128MAX)) = true) by (vm_compute; reflexivity).
  apply someb_spec in B as (v & Hv & B). repeat (apply andb_true_iff in B as [B ?]). apply bool_decide_eq_true in B.
  assert (N : is_ok (cr_step cxC cxE (cxrun hx_share) (CRedeem 20 3000 5 8 1000)) = false) by (vm_compute; reflexivity).
  destruct (H cxC cxE cxt (cxrun hx_share) 20 3000 5 8 v 1000 cxC_ok R) as [s' Hs]; auto.
  - repeat split.
  - lia.
  - lia.
  - apply Z.leb_le. assumption.
  - rewrite Hs in N. discriminate N.
Qed.
Print Assumptions C93_redeem_own_vault_refuted.

(** ** C94.  Phases: only the documented governance calls change a vault's phase, each from one phase to one other; the phases
    Failed and Expired are only reached by a relay-chain answer to a withdrawal request for that vault. *)
Theorem C94_phase_changes C E ct s op s' k v v' : cr_cfg_ok C ct -> cr_reachable C E ct s -> cr_op_ok C ct op -> cr_step C E s op = Ok s' ->
  c_vaults s !! k = Some v -> c_vaults s' !! k = Some v' -> v_phase v' = v_phase v \/ phase_change s op k (v_phase v) (v_phase v').
Proof.
  intros HC Hr Ho H Hv Hv'. pose proof (reachable_inv C E ct HC s Hr) as HI.
  destruct (step_track C E ct s op s' H (proj1 (ci_good _ _ _ _ HI)) (reach_wf C E ct HC _ (proj2 (ci_good _ _ _ _ HI))) Ho _ _ Hv') as [(v0 & Hv0 & T)|[Hn _]]; [|congruence].
  rewrite Hv in Hv0. injection Hv0 as <-. apply T.
Qed.
Print Assumptions C94_phase_changes.
Theorem C94_new_vaults_pending C E ct s op s' k v' : cr_cfg_ok C ct -> cr_reachable C E ct s -> cr_op_ok C ct op -> cr_step C E s op = Ok s' ->
  c_vaults s !! k = None -> c_vaults s' !! k = Some v' -> exists o c px cap e, op = CCreate o k.1.1 c k.1.2 k.2 px cap e /\ v_phase v' = Pending /\ raised v' = 0 /\ v_cap v' = cap /\ v_ctoken v' = c.
Proof.
  intros HC Hr Ho H Hv Hv'. pose proof (reachable_inv C E ct HC s Hr) as HI.
  destruct (step_track C E ct s op s' H (proj1 (ci_good _ _ _ _ HI)) (reach_wf C E ct HC _ (proj2 (ci_good _ _ _ _ HI))) Ho _ _ Hv') as [(v0 & Hv0 & T)|[_ (o & c & px & cap & e & -> & ->)]]; [congruence|].
  do 5 eexists. split; [reflexivity|]. repeat split.
Qed.
Print Assumptions C94_new_vaults_pending.
(** an answer only leads to Failed or Expired *)
Theorem C94_answers_end C E ct s q para a b x p : cr_cfg_ok C ct -> cr_reachable C E ct s -> c_reqs s !! q = Some (QWithdraw para a b x p) -> ended p.
Proof. intros HC Hr. apply (cs_req _ _ _ (proj1 (ci_good _ _ _ _ (reachable_inv C E ct HC s Hr)))). Qed.
Print Assumptions C94_answers_end.
(** a withdrawal is only requested for the current vault of a parachain, for all of its contributed amount, by the auction-failed call
    while that vault is Closed (asking for Failed) or by the slot-expired call while it is Succeeded (asking for Expired) *)
Theorem C94_withdrawals_start C E ct s op s' q para a b x p : cr_cfg_ok C ct -> cr_reachable C E ct s -> cr_step C E s op = Ok s' ->
  c_reqs s' !! q = Some (QWithdraw para a b x p) -> c_reqs s !! q <> Some (QWithdraw para a b x p) ->
  exists o v, c_leases s !! para = Some (a, b) /\ c_vaults s !! (para, a, b) = Some v /\ x = v_contr v /\ q = c_qid s /\
    ((op = CFailed o para /\ v_phase v = Closed /\ p = Failed) \/ (op = CSlotExpired o para /\ v_phase v = Succeeded /\ p = Expired)).
Proof. intros HC Hr H Hq Hn. eapply step_withdraw; eauto. apply (ci_good _ _ _ _ (reachable_inv C E ct HC s Hr)). Qed.
Print Assumptions C94_withdrawals_start.
Example C94_withdraw_example : cr_reachable cxC cxE cxt (cxrun (hc2 ++ [CClose Root 3000])) /\ c_reqs (cxrun (hc2 ++ [CClose Root 3000])) !! 2 = None /\
  okb (cr_step cxC cxE (cxrun (hc2 ++ [CClose Root 3000])) (CFailed Root 3000)) (fun s' => match c_reqs s' !! 2 with Some (QWithdraw 3000 5 8 x Failed) => x =? 3000 | _ => false end) = true.
Proof. split; [apply cxrun_reach; vm_compute; reflexivity|split; vm_compute; auto]. Qed.
Example C94_example : cr_reachable cxC cxE cxt (cxrun (hc2 ++ [CClose Root 3000])) /\ okb (cr_step cxC cxE (cxrun (hc2 ++ [CClose Root 3000])) (CSucceeded Root 3000)) (fun s' => someb (c_vaults s' !! (3000, 5, 8)) (fun v => bool_decide (v_phase v = Succeeded))) = true.
Proof. split; [apply cxrun_reach; vm_compute; reflexivity|vm_compute; auto]. Qed.
(** The withdrawal request does not lock the phase: a vault declared successful can still become Failed (late answer). *)
Definition hx_late : list cr_op := hc2 ++ [CClose Root 3000; CFailed Root 3000; CSucceeded Root 3000; CClaim 20 3000 5 8].
Theorem C94_success_is_final_refuted :
  ~ (forall C E ct s op s' k v v', cr_cfg_ok C ct -> cr_reachable C E ct s -> cr_op_ok C ct op -> cr_step C E s op = Ok s' ->
       c_vaults s !! k = Some v -> c_vaults s' !! k = Some v' -> v_phase v = Succeeded -> v_phase v' = Succeeded \/ v_phase v' = Expired).
Proof.
  intros H. assert (R : cr_reachable cxC cxE cxt (cxrun hx_late)) by (apply cxrun_reach; vm_compute; reflexivity).
  assert (B : okb (cr_step cxC cxE (cxrun hx_late) (CNotify true (Signed 0) 2 (Some true))) (fun s' => someb (c_vaults (cxrun hx_late) !! (3000, 5, 8)) (fun v => bool_decide (v_phase v = Succeeded)
     && someb (c_vaults s' !! (3000, 5, 8)) (fun v' => bool_decide (v_phase v' = Failed)))) = true) by (vm_compute; reflexivity).
  apply okb_spec in B as (s' & Hs & B). apply someb_spec in B as (v & Hv & B). apply andb_true_iff in B as [B1 B]. apply someb_spec in B as (v' & Hv' & B2).
  apply bool_decide_eq_true in B1, B2. destruct (H cxC cxE cxt _ (CNotify true (Signed 0) 2 (Some true)) s' (3000, 5, 8) v v' cxC_ok R I Hs Hv Hv' B1) as [X|X]; congruence.
Qed.
Print Assumptions C94_success_is_final_refuted.

(** ** C95.  Refunds pay every account exactly what leaves its entries, to that account, only in phases Closed and Failed; a refund
    that fits the key limit empties the vault's books. *)
Theorem C95_refund_exact C E ct s o para a b s' : cr_cfg_ok C ct -> cr_reachable C E ct s -> cr_step C E s (CRefund o para a b) = Ok s' ->
  exists v v', c_vaults s !! (para, a, b) = Some v /\ (v_phase v = Closed \/ v_phase v = Failed) /\
    c_vaults s' = <[(para, a, b) := v']> (c_vaults s) /\ v_trie v' = v_trie v /\ v_phase v' = v_phase v /\
    (forall w, w <> cc_acct C -> bal (c_led s') (cc_relay C) w - bal (c_led s) (cc_relay C) w = esum s (v_trie v) w - esum s' (v_trie v) w) /\
    (forall x w, x <> cc_relay C -> w <> cc_acct C -> bal (c_led s') x w = bal (c_led s) x w) /\
    (forall t k w, c_con s' !! (t, k, w) = c_con s !! (t, k, w) \/ (t = v_trie v /\ c_con s' !! (t, k, w) = None)) /\
    (forall keys : list (Z * Z), (forall k w, is_Some (c_con s !! (v_trie v, k, w)) -> (k, w) ∈ keys) -> Z.of_nat (length keys) <= cc_remove C ->
       forall k w, c_con s' !! (v_trie v, k, w) = None) /\
    c_reqs s' = c_reqs s.
Proof.
  intros HC Hr H. pose proof (proj1 (ci_good _ _ _ _ (reachable_inv C E ct HC s Hr))) as Hg.
  destruct (refund_exact C E ct _ _ _ _ _ _ Hg H) as (v & v' & A1 & A2 & A3 & A4 & A5 & A6 & A7 & A8 & A9 & A10). exists v, v'.
  do 8 (split; [auto|]). split; [|auto]. intros keys Hk Hlen. apply A9.
  assert (Hsub : (length (map (fun e : Z * (Z * Z) => (e.1, e.2.1)) (refund_todo s v)) <= length keys)%nat).
  { apply submseteq_length. apply NoDup_submseteq; [apply refund_todo_nodup|]. intros [k w] Hin. apply elem_of_list_fmap in Hin as ([k0 [w0 x]] & Heq & Hin). cbn in Heq. injection Heq as -> ->.
    apply refund_todo_elem in Hin as [_ Hin]. apply Hk. eauto. }
  rewrite map_length in Hsub. lia.
Qed.
Print Assumptions C95_refund_exact.
Theorem C95_refund_for_exact C E ct s o w para k amt a b s' : cr_cfg_ok C ct -> cr_reachable C E ct s -> cr_op_ok C ct (CRefundFor o w para k amt a b) -> w <> cc_acct C ->
  cr_step C E s (CRefundFor o w para k amt a b) = Ok s' ->
  exists v, c_vaults s !! (para, a, b) = Some v /\ v_phase v = Closed /\ amt <= entry s v k w /\
    entry_moved s s' (v_trie v) k w (- amt) /\ c_reqs s' = c_reqs s /\
    (forall y z, z <> cc_acct C -> bal (c_led s') y z = bal (c_led s) y z + at_ (cc_relay C) w y z amt).
Proof.
  intros HC Hr [Ho _] Hw H. cbn in H. unfold refund_for in H. bstep H u0 E0. bstep H v Hv. bstep H u1 E1. bstep H u2 E2. apply rbind_ok in H as ([s1 v1] & F1 & H). injection H as <-.
  destruct (refund_one_exact C E _ _ _ _ _ _ _ F1 Ho Hw) as (_ & M & X1 & _ & _ & _ & Q & B). apply bool_decide_eq_true in E1. exists v. auto 10.
Qed.
Print Assumptions C95_refund_for_exact.
Example C95_example : cr_reachable cxC cxE cxt (cxrun (hc1 ++ [CClose Root 3000])) /\ okb (cr_step cxC cxE (cxrun (hc1 ++ [CClose Root 3000])) (CRefund Root 3000 5 8)) (fun s' =>
   (bal (c_led s') 100 20 =? 10^6) && (bal (c_led s') 100 21 =? 10^6) && (size (c_con s') =? 0)%nat) = true.
Proof. split; [apply cxrun_reach; vm_compute; reflexivity|vm_compute; auto]. Qed.
(** Refunding a contribution that is in flight makes the relay chain's later answer unacceptable for ever. *)
Definition hx_refunded : list cr_op := hc1 ++ [CClose Root 3000; CRefund Root 3000 5 8].
Theorem C95_answers_accepted_refuted :
  ~ (forall C E ct s q para a b w amt o, cr_cfg_ok C ct -> cr_reachable C E ct s -> lenient (ce_pol E) -> c_reqs s !! q = Some (QContribute para a b w amt) ->
       exists s', cr_step C E s (CNotify true o q (Some true)) = Ok s').
Proof.
  intros H. assert (R : cr_reachable cxC cxE cxt (cxrun hx_refunded)) by (apply cxrun_reach; vm_compute; reflexivity).
  assert (Q : c_reqs (cxrun hx_refunded) !! 0 = Some (QContribute 3000 5 8 21 2000)) by (vm_compute; reflexivity).
  assert (N : is_ok (cr_step cxC cxE (cxrun hx_refunded) (CNotify true (Signed 0) 0 (Some true))) = false) by (vm_compute; reflexivity).
  destruct (H cxC cxE cxt _ 0 3000 5 8 21 2000 (Signed 0) cxC_ok R ltac:(repeat split) Q) as [s' Hs]. rewrite Hs in N. discriminate N.
Qed.
Print Assumptions C95_answers_accepted_refuted.

(** ** C96.  A vault is only dissolved when it is over and nobody has anything in it. *)
Theorem C96_dissolve_only_empty C E ct s o para a b s' : cr_cfg_ok C ct -> cr_reachable C E ct s -> cr_step C E s (CDissolve o para a b) = Ok s' ->
  exists v, c_vaults s !! (para, a, b) = Some v /\ (v_phase v = Closed \/ v_phase v = Failed \/ v_phase v = Expired) /\ raised v = 0 /\
    (forall k w, entry s v k w = 0) /\ c_vaults s' = delete (para, a, b) (c_vaults s) /\ c_con s' = c_con s /\ c_led s' = c_led s.
Proof.
  intros HC Hr H. pose proof (proj1 (ci_good _ _ _ _ (reachable_inv C E ct HC s Hr))) as Hg. pose proof H as H0. cbn in H0.
  unfold dissolve_vault in H0. bstep H0 u0 E0. bstep H0 v Hv. assert (Hph : exists b, b = bool_decide (v_phase v = Closed \/ v_phase v = Failed \/ v_phase v = Expired)) by eauto. destruct Hph as [bb Hbb]. rewrite <- Hbb in H0.
  apply rbind_ok in H0 as (u1 & E1 & H0). apply ensure_ok in E1. apply rbind_ok in H0 as (u2 & E2 & H0). apply ensure_ok in E2. apply rbind_ok in H0 as (t & E3 & H0). apply rbind_ok in H0 as (u4 & E4 & H0). apply ensure_ok in E4.
  injection H0 as H0. exists v. rewrite E1 in Hbb. symmetry in Hbb. apply bool_decide_eq_true in Hbb. split; [auto|]. split; [auto|].
  unfold total_contribution in E3. bstep E3 x E5. apply ok_or_ok in E3. apply chk_some in E3 as [-> _]. destruct E5 as [-> _]. split; [unfold raised; lia|]. split.
  { intros k w. unfold entry. destruct (c_con s !! (v_trie v, k, w)) as [x|] eqn:Ex; [|reflexivity]. exfalso. pose proof (cs_con _ _ _ Hg _ _ _ _ Ex) as (_ & _ & Hk & _).
    apply negb_true_iff in E2. unfold has_childstorage in E2. cbn in E2.
    assert (Hc : forall k0, (negb (bool_decide (contributions s (v_trie v) k0 = []))) = false -> c_con s !! (v_trie v, k0, w) = None).
    { intros k0 Hk0. apply negb_false_iff, bool_decide_eq_true in Hk0. destruct (c_con s !! (v_trie v, k0, w)) as [y|] eqn:Ey; auto. apply contributions_elem in Ey. rewrite Hk0 in Ey. inversion Ey. }
    apply orb_false_iff in E2 as [E2 E2']. apply orb_false_iff in E2' as [E2' E2'']. apply orb_false_iff in E2'' as [E2'' _].
    destruct Hk as [->|[->| ->]]; [rewrite (Hc _ E2'') in Ex|rewrite (Hc _ E2') in Ex|rewrite (Hc _ E2) in Ex]; discriminate Ex. }
  destruct (c_leases s !! para) as [p|]; [destruct (bool_decide (p = (a, b)))|]; subst s'; repeat split.
Qed.
Print Assumptions C96_dissolve_only_empty.
Example C96_example : cr_reachable cxC cxE cxt (cxrun hx_refunded) /\ is_ok (cr_step cxC cxE (cxrun hx_refunded) (CDissolve Root 3000 5 8)) = true /\ is_ok (cr_step cxC cxE (cxrun hf3) (CDissolve Root 3000 5 8)) = false.
Proof. split; [apply cxrun_reach; vm_compute; reflexivity|vm_compute; auto]. Qed.
(** Requests survive the dissolution: a vault created again under the same key receives the answers meant for the old one. *)
Definition hx_again : list cr_op := hx_refunded ++ [CDissolve Root 3000 5 8; CCreate Root 3000 200 5 8 true 100000 500; COpen Root 3000; CContribute 21 3000 2500].
Theorem C96_old_answers_ignored_refuted :
  ~ (forall C E ct s o para a b s1 ops s2 q w amt s3 v v', cr_cfg_ok C ct -> cr_reachable C E ct s -> c_reqs s !! q = Some (QContribute para a b w amt) ->
       cr_step C E s (CDissolve o para a b) = Ok s1 -> cr_history C E ct s1 ops s2 -> cr_step C E s2 (CNotify true o q (Some true)) = Ok s3 ->
       c_vaults s2 !! (para, a, b) = Some v -> c_vaults s3 !! (para, a, b) = Some v' -> v_contr v' = v_contr v).
Proof.
  intros H. assert (R : cr_reachable cxC cxE cxt (cxrun hx_refunded)) by (apply cxrun_reach; vm_compute; reflexivity).
  set (ops := [CCreate Root 3000 200 5 8 true 100000 500; COpen Root 3000; CContribute 21 3000 2500]).
  assert (Q : c_reqs (cxrun hx_refunded) !! 0 = Some (QContribute 3000 5 8 21 2000)) by (vm_compute; reflexivity).
  assert (B : okb (cr_step cxC cxE (cxrun hx_refunded) (CDissolve Root 3000 5 8)) (fun s1 => okb (cr_step cxC cxE (fold_left (cr_exec cxC cxE) ops s1) (CNotify true Root 0 (Some true))) (fun s3 =>
     someb (c_vaults (fold_left (cr_exec cxC cxE) ops s1) !! (3000, 5, 8)) (fun v => someb (c_vaults s3 !! (3000, 5, 8)) (fun v' => (v_contr v' =? 2000) && (v_contr v =? 0))))) = true) by (vm_compute; reflexivity).
  apply okb_spec in B as (s1 & H1 & B). apply okb_spec in B as (s3 & H3 & B). apply someb_spec in B as (v & Hv & B). apply someb_spec in B as (v' & Hv' & B).
  assert (Hh : cr_history cxC cxE cxt s1 ops (fold_left (cr_exec cxC cxE) ops s1)).
  { generalize s1. intros s0. unfold ops. repeat (apply cr_hist_cons; [apply cr_op_okb_ok; vm_compute; reflexivity|]). apply cr_hist_nil. }
  pose proof (H cxC cxE cxt _ Root 3000 5 8 s1 ops _ 0 21 2000 s3 v v' cxC_ok R Q H1 Hh H3 Hv Hv'). lia.
Qed.
Print Assumptions C96_old_answers_ignored_refuted.

(** ** C97.  Vault administration, refunds, forced claims, bonuses and phase changes need the configured origin (or an automation
    member); only the relay chain's responses or the update origin can answer requests, only the proxy origin sets the proxy. *)
Theorem C97_governance_only C E s op s' r o : cr_step C E s op = Ok s' -> needs_role op = Some (r, o) -> cc_org C r o = true \/ exists w, o = Signed w /\ cc_member C w = true.
Proof. apply step_role. Qed.
Print Assumptions C97_governance_only.
Theorem C97_answers_and_proxy C E s s' : (forall resp o q r, cr_step C E s (CNotify resp o q r) = Ok s' -> resp = true \/ cc_org C RUpdate o = true) /\
  (forall o a, cr_step C E s (CProxy o a) = Ok s' -> cc_org C RProxy o = true).
Proof. split; [intros resp o q r; apply step_notify|intros o a; apply step_proxy]. Qed.
Print Assumptions C97_answers_and_proxy.
Example C97_example : is_ok (cr_step cxC cxE (cxrun hc2) (CClose (Signed 77) 3000)) = true /\ is_ok (cr_step cxC cxE (cxrun hc2) (CClose (Signed 20) 3000)) = false
  /\ is_ok (cr_step cxC cxE (cxrun hc1) (CNotify false (Signed 77) 0 (Some true))) = false.
Proof. vm_compute. auto. Qed.

(** ** C98.  A para has at most one vault that is not Failed or Expired, and it is the current one; the derivative token of a lease,
    once set, never changes, and every vault of the lease uses it. *)
Theorem C98_one_live_vault C E ct s para a b a' b' v v' : cr_cfg_ok C ct -> cr_reachable C E ct s ->
  c_vaults s !! (para, a, b) = Some v -> c_vaults s !! (para, a', b') = Some v' -> ~ ended (v_phase v) -> ~ ended (v_phase v') -> a = a' /\ b = b' /\ c_leases s !! para = Some (a, b).
Proof.
  intros HC Hr Hv Hv' He He'. pose proof (proj1 (ci_good _ _ _ _ (reachable_inv C E ct HC s Hr))) as Hg.
  destruct (vo_cur _ _ _ _ (cs_vault _ _ _ Hg _ _ Hv)) as [X|X]; [|contradiction]. destruct (vo_cur _ _ _ _ (cs_vault _ _ _ Hg _ _ Hv')) as [Y|Y]; [|contradiction]. cbn in X, Y.
  rewrite X in Y. injection Y as <- <-. auto.
Qed.
Print Assumptions C98_one_live_vault.
Theorem C98_lease_token_fixed C E ct s ops s' l c : cr_history C E ct s ops s' -> c_ctok s !! l = Some c -> c_ctok s' !! l = Some c.
Proof.
  intros H. induction H as [|s o os s' Ho H IH]; auto. intros Hl. apply IH. unfold cr_exec. destruct (cr_step C E s o) as [s1|?|] eqn:Es; auto. eapply step_ctok; eauto.
Qed.
Print Assumptions C98_lease_token_fixed.
Theorem C98_vault_token C E ct s para a b v : cr_cfg_ok C ct -> cr_reachable C E ct s -> c_vaults s !! (para, a, b) = Some v -> c_ctok s !! (a, b) = Some (v_ctoken v).
Proof.
  intros HC Hr Hv. pose proof (proj1 (ci_good _ _ _ _ (reachable_inv C E ct HC s Hr))) as Hg. destruct (key_eq _ _ _ _ _ _ _ Hv Hg) as [Ka Kb].
  pose proof (vo_ctok _ _ _ _ (cs_vault _ _ _ Hg _ _ Hv)) as X. rewrite Ka, Kb in X. exact X.
Qed.
Print Assumptions C98_vault_token.
Example C98_example : cr_reachable cxC cxE cxt (cxrun hx_share) /\ is_ok (cr_step cxC cxE (cxrun hc1) (CCreate Root 3000 200 9 12 true 5 500)) = false /\ is_ok (cr_step cxC cxE (cxrun hf3) (CCreate Root 3000 201 9 12 true 5 500)) = true
  /\ is_ok (cr_step cxC cxE (cxrun hf3) (CCreate Root 4000 201 5 8 true 5 500)) = false.
Proof. split; [apply cxrun_reach; vm_compute; reflexivity|vm_compute; auto]. Qed.

(** ** C99.  The reported term rate of a lease is between 0 and 1, never falls as relay blocks pass, and is the elapsed fraction. *)
Theorem C99_term_rate_bounded C s ls le r t : 0 <= cc_period C -> 0 <= cc_offset C -> 0 <= cc_per_year C -> 0 <= ls -> term_rate C s ls le = Ok (Some (r, t)) -> 0 <= r <= FDIV /\ 0 <= t.
Proof. apply term_rate_ok. Qed.
Print Assumptions C99_term_rate_bounded.
Theorem C99_term_rate_never_falls C s s' ls le r t r' t' : 0 <= cc_period C -> 0 <= cc_offset C -> 0 <= cc_per_year C -> 0 <= ls -> c_rblock s <= c_rblock s' ->
  term_rate C s ls le = Ok (Some (r, t)) -> term_rate C s' ls le = Ok (Some (r', t')) -> r <= r' /\ t' = t.
Proof. apply term_rate_mono. Qed.
Print Assumptions C99_term_rate_never_falls.
Theorem C99_term_rate_exact C s ls le : 0 < cc_period C -> 0 <= cc_offset C -> 0 < cc_per_year C -> 0 <= ls <= le -> c_rblock s <> 0 ->
  cc_period C * (le + 1) + cc_offset C <= U32MAX -> cc_per_year C * cc_period C <= U32MAX ->
  exists t, term_rate C s ls le = Ok (Some (
    if c_rblock s <? cc_period C * ls + cc_offset C then 0
    else if c_rblock s <? cc_period C * (le + 1) + cc_offset C then (c_rblock s - (cc_period C * ls + cc_offset C)) * FDIV / (cc_period C * (le - ls + 1))
    else FDIV, t)).
Proof. apply term_rate_exact. Qed.
Print Assumptions C99_term_rate_exact.
Example C99_example : term_rate cxC (cxrun (hc2 ++ [CRelayBlock 7050])) 5 8 = Ok (Some (FDIV / 2, FDIV)) /\ cc_period cxC * 9 + cc_offset cxC <= U32MAX.
Proof. split; [vm_compute; reflexivity|apply Z.leb_le; vm_compute; reflexivity]. Qed.

(** ** C100.  [migrate_pending] sends waiting contributions one message each, up to the key limit, and moves exactly those from
    waiting to in flight. *)
Theorem C100_migrate_exact C E ct s o para s' : cr_cfg_ok C ct -> cr_reachable C E ct s -> cr_step C E s (CMigrate o para) = Ok s' ->
  exists a b v v' m, c_leases s !! para = Some (a, b) /\ c_vaults s !! (para, a, b) = Some v /\ (v_phase v = Pending \/ v_phase v = Contributing) /\ c_vrf s = false /\
    c_vaults s' = <[(para, a, b) := v']> (c_vaults s) /\ v_trie v' = v_trie v /\ v_phase v' = v_phase v /\
    NoDup (m.*1) /\ moved_to_fly s s' (v_trie v) m /\ Z.of_nat (length m) <= Z.max 0 (cc_migrate C) /\
    (Z.of_nat (length m) < cc_migrate C -> forall w x, c_con s !! (v_trie v, KPend, w) = Some x -> (w, x) ∈ m) /\
    c_qid s' = c_qid s + Z.of_nat (length m) /\ (forall q, q < c_qid s -> c_reqs s' !! q = c_reqs s !! q) /\
    (forall i w x, m !! i = Some (w, x) -> c_reqs s' !! (c_qid s + Z.of_nat i) = Some (QContribute para a b w x)) /\
    (forall x y, bal (c_led s') x y = bal (c_led s) x y - at_ (cc_relay C) (cc_xcm C) x y (Z.of_nat (length m) * fee_of s XC_CONTRIBUTE)).
Proof. intros HC Hr H. apply (migrate_exact C E ct _ _ _ _ (proj1 (ci_good _ _ _ _ (reachable_inv C E ct HC s Hr))) H). Qed.
Print Assumptions C100_migrate_exact.
Example C100_example : cr_reachable cxC cxE cxt (cxrun (hc0 ++ [CContribute 21 3000 500; CContribute 22 3000 700])) /\
  okb (cr_step cxC cxE (cxrun (hc0 ++ [CContribute 21 3000 500; CContribute 22 3000 700])) (CMigrate Root 3000)) (fun s' => (c_qid s' =? 2) && someb (c_vaults s' !! (3000, 5, 8)) (fun v => (v_pend v =? 700) && (v_fly v =? 1500))) = true.
Proof. split; [apply cxrun_reach; vm_compute; reflexivity|vm_compute; auto]. Qed.

(** ** C101.  The bonus of a claim is contribution times bonus per token, converted between the decimals of the two tokens. *)
Theorem C101_bonus_exact C s ls le amt r n : cc_dec_relay C = Some r -> cc_dec_native C = Some n -> 0 <= r -> 0 <= n -> 0 <= amt ->
  let per := bo_per (default bonus_default (c_bonus s !! (ls, le))) in
  0 <= per -> amt * per <= U128MAX -> amt * per * 10 ^ (n - r) <= U128MAX -> 10 ^ (n - r) <= U128MAX -> 10 ^ (r - n) <= U128MAX ->
  bonus_amount C s ls le amt = amt * per * 10 ^ Z.max 0 (n - r) / 10 ^ Z.max 0 (r - n).
Proof.
  intros Hr Hn R0 N0 Ha per Hp Hu Hu2 Ht Ht2. destruct (Z_le_gt_dec r n) as [Hle|Hgt].
  - replace (Z.max 0 (r - n)) with 0 by lia. replace (Z.max 0 (n - r)) with (n - r) by lia. rewrite Z.pow_0_r, Z.div_1_r. apply bonus_up; auto.
  - replace (Z.max 0 (r - n)) with (r - n) by lia. replace (Z.max 0 (n - r)) with 0 by lia. rewrite Z.pow_0_r, Z.mul_1_r. apply bonus_down; auto. lia.
Qed.
Print Assumptions C101_bonus_exact.
(** a bonus that does not fit into u128 is silently dropped: the contribution is paid out without any bonus *)
Theorem C101_overflowing_bonus_lost C s ls le amt r n : cc_dec_relay C = Some r -> cc_dec_native C = Some n -> 0 <= r < n -> 0 <= amt ->
  let per := bo_per (default bonus_default (c_bonus s !! (ls, le))) in
  0 <= per -> amt * per <= U128MAX -> U128MAX < amt * per * 10 ^ (n - r) -> bonus_amount C s ls le amt = 0.
Proof. apply bonus_lost. Qed.
Print Assumptions C101_overflowing_bonus_lost.
Example C101_example : bonus_amount cxC (cxrun hc3) 5 8 1000 = 500000 /\ 1000 * 5 * 10 ^ Z.max 0 (12 - 10) / 10 ^ Z.max 0 (10 - 12) = 500000.
Proof. vm_compute. auto. Qed.

(** ** C102.  Nobody loses through a crowdloan call: relay tokens, derivative tokens and entries in the contribution books of an
    account add up to the same before and after every call, whoever makes it (the only exception is the account named in the
    governance call [redeem_and_lend_for], whose relay tokens go to the lending pallet). *)
Theorem C102_nobody_loses C E ct cts s op s' y : cr_cfg_ok C ct -> NoDup cts -> (forall c, c ∈ cts <-> ct c = true) -> cr_reachable C E ct s -> cr_op_ok C ct op -> cr_step C E s op = Ok s' ->
  y <> cc_acct C -> y <> cc_xcm C -> y <> str_acct (cc_str C) -> (forall o, op <> CStr o) -> (forall o n l w p a b x, op = CRedeemLend o n l w p a b x -> w <> y /\ y <> cc_loans C) ->
  bal (c_led s') (cc_relay C) y + own s' y + lsum (fun c => bal (c_led s') c y) cts = bal (c_led s) (cc_relay C) y + own s y + lsum (fun c => bal (c_led s) c y) cts.
Proof.
  intros HC Hnd Hc Hr Ho H Y1 Y2 Y3 Hs Hl. pose proof (step_W C E ct HC cts Hnd Hc s op s' y (reachable_inv C E ct HC s Hr) H Ho Y1 Y2 Y3) as HW. unfold W in HW.
  destruct op; try exact HW; [|exfalso; eapply Hs; reflexivity]. destruct (Hl _ _ _ _ _ _ _ _ eq_refl) as [L1 L2]. auto.
Qed.
Print Assumptions C102_nobody_loses.
Example C102_example : NoDup [200; 201] /\ (forall c, c ∈ [200; 201] <-> cxt c = true) /\ own (cxrun hc1) 20 = 1000 /\ bal (c_led (cxrun hc1)) 100 20 + own (cxrun hc1) 20 = 10^6.
Proof.
  split; [repeat constructor; rewrite ?elem_of_cons, ?elem_of_nil; lia|]. split; [|vm_compute; auto].
  intros c. unfold cxt. rewrite !elem_of_cons, elem_of_nil. rewrite orb_true_iff, !Z.eqb_eq. tauto.
Qed.
