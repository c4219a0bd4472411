(** * BridgeProps: property theorems C64-C77 (bridge). *)
From Verif Require Import Base MapSum Ledger AmmModel AmmEx StreamProofs4 BridgeModel BridgeSpec BridgeProofs BridgeProofs2 BridgeProofs3
  BridgeProofs4 BridgeProofs5.

Definition bx1_ops : list br_op :=
  bx_ops0 ++ [BTeleport 100 2 600 50; BTeleport 100 3 610 70; BTeleport 100 2 610 500;
              bv 201 1 600 101 500 true; bv 202 1 600 101 500 true; bv 205 1 600 101 500 false; bv 203 1 600 101 500 true; bv 204 1 600 101 500 true].
Definition bx1 : br := bxrun 1000 bx1_ops.
Lemma bx1_reach : br_reachable bxC allow_all bx1.
Proof. apply bxrun_reach. vm_compute. reflexivity. Qed.

(** ** C64.  A cross-chain transfer (source chain, nonce) is settled - paid out or rejected - at most once per registration of
    the source chain; settled transfers accept no further vote, and the settled set reported by [has_bridged] is exact. *)
Theorem C64_settled_at_most_once C P s c n :
  br_cfg_ok C -> br_reachable C P s -> settled (b_log s) c n <= 1.
Proof. intros CF R. apply (bi_once C s (br_reachable_inv C P s CF R)). Qed.
Print Assumptions C64_settled_at_most_once.

Theorem C64_settled_is_final C P s c n :
  br_cfg_ok C -> br_reachable C P s -> is_Some (b_nonces s !! c) -> 0 < settled (b_log s) c n ->
  forall o tok to amt f s', materialize C P s o c n tok to amt f <> Ok s'.
Proof.
  intros CF R [k K] S o tok to amt f s' H. pose proof (br_reachable_inv C P s CF R) as I.
  apply materialize_inv in H as (w & a & t & r & p & H); [|apply I|apply (bi_reg C); auto]. destruct H.
  destruct (bi_chain C s I _ _ K) as (r1 & X & Y & Z & _). replace r1 with r in * by congruence. rewrite Z in mt_fresh. lia.
Qed.
Print Assumptions C64_settled_is_final.

Theorem C64_settled_query_exact C P s c n :
  br_cfg_ok C -> br_reachable C P s -> is_Some (b_nonces s !! c) ->
  has_bridged s c n = true <-> settled (b_log s) c n = 1.
Proof.
  intros CF R [k K]. pose proof (br_reachable_inv C P s CF R) as I.
  destruct (bi_chain C s I _ _ K) as (r & X & Y & Z & _). unfold has_bridged. rewrite X, in_intervals_inl, Z.
  pose proof (bi_once C s I c n). lia.
Qed.
Print Assumptions C64_settled_query_exact.
Example C64_example : settled (b_log bx1) 2 1 = 1 /\ has_bridged bx1 2 1 = true /\ has_bridged bx1 2 2 = false /\
  someb (b_nonces bx1 !! 2) (fun k => k =? 2) = true.
Proof. vm_compute. auto. Qed.

(** The qualification "per registration" is needed: unregistering and registering the chain again forgets the settled set, and
    after the old proposals expired the very same transfer can be paid a second time. *)
Definition bx_replay : list br_op :=
  bx1_ops ++ [BUnregisterChain Root 2; BRegisterChain Root 2] ++ replicate 100 BBlock ++
  [bv 201 1 600 101 500 true; bv 202 1 600 101 500 true; bv 203 1 600 101 500 true; bv 204 1 600 101 500 true].
Theorem C64_never_paid_twice_refuted :
  ~ (forall C P s, br_cfg_ok C -> br_reachable C P s -> forall i j c n tok a x to amt,
       b_log s !! i = Some (EMinted c n tok a x to amt) -> b_log s !! j = Some (EMinted c n tok a x to amt) -> i = j).
Proof.
  intros H. assert (R : br_reachable bxC allow_all (bxrun 1000 bx_replay)) by (apply bxrun_reach; vm_compute; reflexivity).
  specialize (H bxC allow_all _ bxC_ok R 0%nat 6%nat 2 1 600 60 true 101 500).
  assert (0%nat = 6%nat) as E; [|discriminate E]. apply H; vm_compute; reflexivity.
Qed.
Print Assumptions C64_never_paid_twice_refuted.

(** ** C65.  Every payout is backed by at least [vote threshold] different voters who voted for exactly this payload, each less
    than a proposal lifetime ago. *)
Theorem C65_payout_needs_votes C P s op s' evs c n tok a ext to amt :
  br_cfg_ok C -> br_reachable C P s -> br_op_ok C op -> br_step C P s op = Ok s' -> b_log s' = evs ++ b_log s ->
  EMinted c n tok a ext to amt ∈ evs ->
  exists vs, NoDup vs /\ b_thr s <= Z.of_nat (length vs) /\
    forall v, v ∈ vs -> exists b, EVote true c n v (tok, to, amt) b ∈ b_log s' /\ b <= b_now s < b + br_life C.
Proof. intros CF R. apply payout_votes; auto. apply (br_reachable_inv C P s CF R). Qed.
Print Assumptions C65_payout_needs_votes.

(** After a change of the relayer set to [m], and until the next change, this is the configured percentage of [m]. *)
Theorem C65_percentage_of_relayers C P s m s1 os s2 op s3 evs c n tok a ext to amt :
  br_cfg_ok C -> 1 <= br_pct C <= 100 -> br_reachable C P s -> NoDup m -> m <> [] -> br_step C P s (BMembers m) = Ok s1 ->
  br_history C P s1 os s2 -> (forall m', BMembers m' ∉ os) ->
  br_op_ok C op -> br_step C P s2 op = Ok s3 -> b_log s3 = evs ++ b_log s2 -> EMinted c n tok a ext to amt ∈ evs ->
  exists vs, NoDup vs /\ br_pct C * Z.of_nat (length m) <= 100 * Z.of_nat (length vs) /\
    forall v, v ∈ vs -> exists b, EVote true c n v (tok, to, amt) b ∈ b_log s3.
Proof.
  intros CF PC R N NE H1 H2 NM OK H3 E IN.
  assert (R1 : br_reachable C P s1).
  { pose proof (br_reach_step C P s (BMembers m) R N) as X. unfold br_exec in X. rewrite H1 in X. auto. }
  assert (I2 : br_inv C s2). { eapply br_history_inv; eauto. apply (br_reachable_inv C P); auto. }
  destruct (members_threshold C P s m PC) as (s1' & E1 & M1 & T1 & T2). { destruct m; [congruence|cbn; lia]. }
  rewrite H1 in E1. injection E1 as <-. destruct (thr_members_hist C P _ _ _ H2 NM) as [TT _].
  destruct (payout_votes C P CF _ _ _ _ _ _ _ _ _ _ _ I2 OK H3 E IN) as (vs & V1 & V2 & V3). exists vs. split; auto. split; [lia|].
  intros v Hv. destruct (V3 v Hv) as (b & B & _). eauto.
Qed.
Print Assumptions C65_percentage_of_relayers.
Example C65_example : okb (br_step bxC allow_all (bxrun 1000 (removelast bx1_ops)) (bv 204 1 600 101 500 true))
    (fun s' => (length (b_log s') =? 2 + length (b_log (bxrun 1000 (removelast bx1_ops))))%nat) = true
  /\ b_thr bx1 = 4 /\ paid_out (b_log bx1) 2 1 = 1 /\ is_ok (br_step bxC allow_all (bxrun 1000 []) (BMembers bxm)) = true.
Proof. vm_compute. auto. Qed.

(** With the relayers of the chain specification (no membership change yet) the percentage is not enforced: one vote pays. *)
Definition bx_gen : list br_op := tail bx_ops0.
Lemma bxC_pct : 1 <= br_pct bxC <= 100. Proof. cbn. lia. Qed.
Theorem C65_percentage_from_genesis_refuted :
  ~ (forall C P s op s' evs c n tok a ext to amt,
       br_cfg_ok C -> 1 <= br_pct C <= 100 -> br_reachable C P s -> br_op_ok C op -> br_step C P s op = Ok s' -> b_log s' = evs ++ b_log s ->
       EMinted c n tok a ext to amt ∈ evs ->
       exists vs, NoDup vs /\ br_pct C * Z.of_nat (length (b_members s)) <= 100 * Z.of_nat (length vs) /\
         forall v, v ∈ vs -> exists b, EVote true c n v (tok, to, amt) b ∈ b_log s').
Proof.
  intros H. assert (R : br_reachable bxC allow_all (bxrun 1000 bx_gen)) by (apply bxrun_reach; vm_compute; reflexivity).
  destruct (br_step bxC allow_all (bxrun 1000 bx_gen) (bv 201 1 600 101 200 true)) as [s'|e|] eqn:E; [|vm_compute in E; discriminate E..].
  assert (L : b_log s' = [EMinted 2 1 600 60 true 101 200; EVote true 2 1 201 (600, 101, 200) 7] ++ b_log (bxrun 1000 bx_gen)).
  { assert (b_log match br_step bxC allow_all (bxrun 1000 bx_gen) (bv 201 1 600 101 200 true) with Ok x => x | _ => bxrun 1000 bx_gen end =
      [EMinted 2 1 600 60 true 101 200; EVote true 2 1 201 (600, 101, 200) 7] ++ b_log (bxrun 1000 bx_gen)) as X by (vm_compute; reflexivity).
    rewrite E in X. exact X. }
  destruct (H bxC allow_all (bxrun 1000 bx_gen) (bv 201 1 600 101 200 true) s' _ 2 1 600 60 true 101 200 bxC_ok bxC_pct R
    (bx_op_ok (bv 201 1 600 101 200 true) eq_refl) E L (elem_of_list_here _ _)) as (vs & N & B & V).
  assert (A : forall v, v ∈ vs -> v = 201).
  { intros v Hv. destruct (V v Hv) as (b & X). rewrite L in X. assert (b_log (bxrun 1000 bx_gen) =
      [ETokenReg 610 0 0; ETokenReg 600 0 0; EChainReg 3; EChainReg 2]) as Y by (vm_compute; reflexivity). rewrite Y in X. cbn [app] in X.
    repeat (apply elem_of_cons in X as [X|X]; [first [discriminate X|injection X as ->; reflexivity]|]). inversion X. }
  clear E L H V R.
  assert (length vs <= 1)%nat as LE.
  { destruct vs as [|x [|y vs]]; cbn; try lia. exfalso. apply NoDup_cons in N as [N _]. apply N.
    rewrite (A x), (A y) by (rewrite !elem_of_cons; auto). apply elem_of_cons; auto. }
  assert (BM : Z.of_nat (length (b_members (bxrun 1000 bx_gen))) = 5) by (vm_compute; reflexivity). rewrite BM in B. cbn in B. lia.
Qed.
Print Assumptions C65_percentage_from_genesis_refuted.

(** Votes of relayers that were removed since still count: here the payout happens although no current relayer voted for it
    (the vote that triggers it is even a vote against). *)
Definition bx_removed : list br_op :=
  bx_ops0 ++ [bv 201 1 600 101 200 true; bv 202 1 600 101 200 true; bv 203 1 600 101 200 true; BMembers [205; 206]].
Theorem C65_current_relayers_refuted :
  ~ (forall C P s op s' evs c n tok a ext to amt,
       br_cfg_ok C -> br_reachable C P s -> br_op_ok C op -> br_step C P s op = Ok s' -> b_log s' = evs ++ b_log s ->
       EMinted c n tok a ext to amt ∈ evs ->
       exists v b, v ∈ b_members s /\ EVote true c n v (tok, to, amt) b ∈ b_log s').
Proof.
  intros H. pose (s := bxrun 1000 bx_removed).
  assert (R : br_reachable bxC allow_all s) by (apply bxrun_reach; vm_compute; reflexivity).
  destruct (br_step bxC allow_all s (bv 205 1 600 101 200 false)) as [s'|e|] eqn:E; [|vm_compute in E; discriminate E..].
  assert (L : b_log s' = [EMinted 2 1 600 60 true 101 200; EVote false 2 1 205 (600, 101, 200) 7] ++ b_log s).
  { assert (b_log match br_step bxC allow_all s (bv 205 1 600 101 200 false) with Ok x => x | _ => s end =
      [EMinted 2 1 600 60 true 101 200; EVote false 2 1 205 (600, 101, 200) 7] ++ b_log s) as X by (vm_compute; reflexivity).
    rewrite E in X. exact X. }
  destruct (H bxC allow_all s (bv 205 1 600 101 200 false) s' _ 2 1 600 60 true 101 200 bxC_ok R
    (bx_op_ok (bv 205 1 600 101 200 false) eq_refl) E L (elem_of_list_here _ _)) as (v & b & M & V).
  clear E H R. assert (b_members s = [205; 206]) as BM by (vm_compute; reflexivity). rewrite BM in M. rewrite L in V.
  assert (b_log s = [EVote true 2 1 203 (600, 101, 200) 7; EVote true 2 1 202 (600, 101, 200) 7; EVote true 2 1 201 (600, 101, 200) 7;
    ETokenReg 610 0 0; ETokenReg 600 0 0; EChainReg 3; EChainReg 2]) as Y by (vm_compute; reflexivity).
  rewrite Y in V. clear L Y BM. cbn [app] in V.
  repeat (apply elem_of_cons in V as [V|V]; [first [discriminate V|injection V as -> ->;
    repeat (apply elem_of_cons in M as [M|M]; [discriminate M|]); inversion M]|]). inversion V.
Qed.
Print Assumptions C65_current_relayers_refuted.

(** ** C66.  Votes.  A recorded vote was cast in this step by a current relayer (or by root, as the root operator); nobody votes
    twice on a proposal. *)
Theorem C66_votes_by_relayers C P s op s' evs f c n v tok to amt b :
  br_cfg_ok C -> br_reachable C P s -> br_op_ok C op -> br_step C P s op = Ok s' -> b_log s' = evs ++ b_log s ->
  EVote f c n v (tok, to, amt) b ∈ evs ->
  exists o, op = BMaterialize o c n tok to amt f /\ may_vote C s o v /\ b = b_now s.
Proof.
  intros CF R OK H E IN. pose proof (br_reachable_inv C P s CF R) as I.
  destruct (step_vote C P _ _ _ _ _ _ _ _ _ _ _ _ I OK H E IN) as (o & a & t & r & p & -> & M & ->). exists o. destruct M. auto.
Qed.
Print Assumptions C66_votes_by_relayers.
Theorem C66_no_second_vote C P s o w c n tok to amt f p s' :
  br_cfg_ok C -> br_reachable C P s -> may_vote C s o w -> b_votes s !! (c, n, (tok, to, amt)) = Some p -> w ∈ p_for p \/ w ∈ p_against p ->
  materialize C P s o c n tok to amt f <> Ok s'.
Proof.
  intros CF R V Hp W H. pose proof (br_reachable_inv C P s CF R) as I.
  apply materialize_inv in H as (w' & a & t & r & p' & H); [|apply I|apply (bi_reg C); auto]. destruct H.
  assert (w' = w). { destruct V as [[-> _]|[-> ->]], mt_auth as [[X _]|[X ->]]; congruence. } subst w'.
  assert (p' = p) as -> by (destruct mt_prop as [X|[X _]]; congruence). tauto.
Qed.
Print Assumptions C66_no_second_vote.
Theorem C66_outsiders_cannot_vote C P s w c n tok to amt f s' :
  w ∉ b_members s -> materialize C P s (Signed w) c n tok to amt f <> Ok s'.
Proof. intros N H. unfold materialize in H. bstep H x E. apply relay_inv in E as [[X Y]|[X _]]; congruence. Qed.
Print Assumptions C66_outsiders_cannot_vote.
Example C66_example : br_reachable bxC allow_all (bxrun 1000 (bx_ops0 ++ [bv 201 1 600 101 500 true])) /\
  someb (b_votes (bxrun 1000 (bx_ops0 ++ [bv 201 1 600 101 500 true])) !! (2, 1, (600, 101, 500))) (fun p => bool_decide (p_for p = [201])) = true.
Proof. split; [apply bxrun_reach; vm_compute; reflexivity|]. vm_compute. reflexivity. Qed.

(** ** C67.  A payout credits the recipient exactly the voted amount: minted for a foreign token, taken from the bridge account for
    a token locked here; the only other movement is the optional native bonus out of the gift account. *)
Theorem C67_payout_exact C P s op s' evs c n tok a ext to amt :
  br_cfg_ok C -> br_reachable C P s -> br_op_ok C op -> br_step C P s op = Ok s' -> b_log s' = evs ++ b_log s ->
  EMinted c n tok a ext to amt ∈ evs ->
  (exists o f, op = BMaterialize o c n tok to amt f) /\ b_ids s !! tok = Some a /\
  exists bonus, 0 <= bonus /\
    (forall a' w, bal (b_led s') a' w = bal (b_led s) a' w + at_ a to a' w amt - (if ext then 0 else at_ a (br_acct C) a' w amt)
                                        + at_ (br_native C) to a' w bonus - at_ (br_native C) (br_gift C) a' w bonus) /\
    (forall a', iss (b_led s') a' = iss (b_led s) a' + (if bool_decide (a' = a) && ext then amt else 0)).
Proof.
  intros CF R OK H E IN. pose proof (br_reachable_inv C P s CF R) as I.
  destruct (step_minted C P _ _ _ _ _ _ _ _ _ _ _ I OK H E IN) as (o & f & who & t & r & p & -> & M & -> & _ & _ & L1 & X & Y).
  destruct M. split; [eauto|]. split; [auto|].
  assert (B : exists bonus, 0 <= bonus /\ (forall a' w, bal (b_led s') a' w = bal L1 a' w + at_ (br_native C) to a' w bonus - at_ (br_native C) (br_gift C) a' w bonus)
     /\ forall a', iss (b_led s') a' = iss L1 a').
  { destruct Y as [->|(d & D0 & D1 & _)].
    - exists 0. split; [lia|]. split; auto. intros. unfold at_. repeat case_bool_decide; lia.
    - exists d. split; [lia|]. apply transfer_spec in D1 as (D1 & D2 & _). split; auto. intros. rewrite D1. lia. }
  destruct B as (bonus & B0 & B1 & B2). exists bonus. split; auto. destruct (bt_external t).
  - apply mint_spec in X as (_ & X1 & X2). split; intros; [rewrite B1, X1|rewrite B2, X2]; [lia|]. rewrite andb_true_r. reflexivity.
  - apply transfer_spec in X as (X1 & X2 & _). split; intros; [rewrite B1, X1|rewrite B2, X2]; [lia|]. rewrite andb_false_r. lia.
Qed.
Print Assumptions C67_payout_exact.
(** A vote that does not pay out moves no token and leaves the caps alone. *)
Theorem C67_other_votes_move_nothing C P s o c n tok to amt f s' evs :
  br_cfg_ok C -> br_reachable C P s -> br_op_ok C (BMaterialize o c n tok to amt f) ->
  br_step C P s (BMaterialize o c n tok to amt f) = Ok s' -> b_log s' = evs ++ b_log s ->
  (forall a x, EMinted c n tok a x to amt ∉ evs) -> b_led s' = b_led s /\ b_tokens s' = b_tokens s.
Proof.
  intros CF R OK H E N. pose proof (br_reachable_inv C P s CF R) as I.
  pose proof (step_events_unique C P _ _ _ _ I OK H E) as (who & a & t & r & p & M & [(-> & _ & L & T & _)|[(-> & _ & _ & L & T)|(-> & _)]]); auto.
  exfalso. eapply N. apply elem_of_cons; auto.
Qed.
Print Assumptions C67_other_votes_move_nothing.
Example C67_example : bal (b_led bx1) 60 101 = 500 /\ bal (b_led bx1) 0 101 = 75 /\ bal (b_led bx1) 0 9 = 928 /\ iss (b_led bx1) 60 = 5454.
Proof. vm_compute. auto. Qed.

(** ** C68.  After a change to a non-empty relayer set [m] the threshold is the least number of votes that is at least the
    configured percentage of [m], and it can be reached by [m]. *)
Theorem C68_threshold_follows_relayers C P s m :
  1 <= br_pct C <= 100 -> m <> [] ->
  exists s', br_step C P s (BMembers m) = Ok s' /\ b_members s' = m /\
    br_pct C * Z.of_nat (length m) <= 100 * b_thr s' < br_pct C * Z.of_nat (length m) + 100 /\
    1 <= b_thr s' <= Z.of_nat (length m).
Proof. intros PC NE. apply members_threshold; auto. destruct m; [congruence|cbn; lia]. Qed.
Print Assumptions C68_threshold_follows_relayers.
Theorem C68_only_membership_changes_threshold C P s op s' :
  br_step C P s op = Ok s' -> (forall m, op <> BMembers m) -> b_thr s' = b_thr s /\ b_members s' = b_members s.
Proof. apply thr_members_step. Qed.
Print Assumptions C68_only_membership_changes_threshold.
Example C68_example : okb (br_step bxC allow_all (bx0 0) (BMembers [1; 2; 3; 4; 5; 6])) (fun s => b_thr s =? 5) = true.
Proof. vm_compute. reflexivity. Qed.

(** ** C69.  Caps.  The counters are exactly what was bridged since the last cleaning, and a transfer that would take the total
    beyond the cap is refused. *)
Theorem C69_counters_exact C P s tok a t :
  br_cfg_ok C -> br_reachable C P s -> b_ids s !! tok = Some a -> b_tokens s !! a = Some t ->
  bt_in_amount t = in_total (b_log s) tok /\ bt_out_amount t = out_total (b_log s) tok.
Proof.
  intros CF R Ha Ht. pose proof (br_reachable_inv C P s CF R) as I. destruct (proj1 (bi_tok C s I) _ _ Ha) as (t' & X & Y).
  replace t' with t in * by congruence. subst tok. apply (bi_tot C s I _ _ Ht).
Qed.
Print Assumptions C69_counters_exact.
Theorem C69_in_cap C P s op s' evs c n tok a ext to amt :
  br_cfg_ok C -> br_reachable C P s -> br_op_ok C op -> br_step C P s op = Ok s' -> b_log s' = evs ++ b_log s ->
  EMinted c n tok a ext to amt ∈ evs ->
  exists t, b_tokens s !! a = Some t /\ in_total (b_log s') tok = in_total (b_log s) tok + amt /\ in_total (b_log s') tok <= bt_in_cap t.
Proof.
  intros CF R OK H E IN. pose proof (br_reachable_inv C P s CF R) as I.
  destruct (step_minted C P _ _ _ _ _ _ _ _ _ _ _ I OK H E IN) as (o & f & who & t & r & p & -> & M & -> & _ & -> & _).
  destruct M. exists t. split; auto. destruct (C69_counters_exact C P s tok a t CF R mt_ids mt_tok) as [Q _].
  rewrite E. cbn. rewrite Z.eqb_refl. lia.
Qed.
Print Assumptions C69_in_cap.
Theorem C69_out_cap C P s who dest tok amt s' :
  br_cfg_ok C -> br_reachable C P s -> u128 amt -> teleport C P s who dest tok amt = Ok s' ->
  exists a t, b_ids s !! tok = Some a /\ b_tokens s !! a = Some t /\
    out_total (b_log s') tok = out_total (b_log s) tok + amt /\ out_total (b_log s') tok <= bt_out_cap t.
Proof.
  intros CF R U H. pose proof (br_reachable_inv C P s CF R) as I. apply teleport_inv in H as (a & t & k & T); [|apply I].
  destruct T. exists a, t. split; [auto|]. split; [auto|]. destruct (C69_counters_exact C P s tok a t CF R tl_ids tl_tok) as [_ Q].
  rewrite tl_s'. cbn. rewrite Z.eqb_refl. lia.
Qed.
Print Assumptions C69_out_cap.
Example C69_example : in_total (b_log bx1) 600 = 500 /\ out_total (b_log bx1) 610 = 570 /\
  is_ok (teleport bxC allow_all bx1 100 2 600 951) = false /\ is_ok (teleport bxC allow_all bx1 100 2 600 950) = true.
Proof. vm_compute. auto. Qed.

(** ** C70.  Teleporting.  The sender loses exactly [amount]; the bridge account keeps the fee of a burnt foreign token, or the
    whole amount of a token locked here; the event announces amount - fee with the next nonce of that chain; nonces have no gaps. *)
Theorem C70_teleport_exact C P s who dest tok amt s' :
  br_cfg_ok C -> br_reachable C P s -> who <> br_acct C -> u128 amt -> teleport C P s who dest tok amt = Ok s' ->
  exists a t k, b_ids s !! tok = Some a /\ b_tokens s !! a = Some t /\ b_nonces s !! dest = Some k /\
    0 < amt /\ bt_fee t <= amt /\ b_nonces s' !! dest = Some (k + 1) /\
    b_log s' = ETeleport who dest (k + 1) tok a (bt_external t) (amt - bt_fee t) (bt_fee t) :: b_log s /\
    (forall a' w, bal (b_led s') a' w = bal (b_led s) a' w - at_ a who a' w amt
                                        + at_ a (br_acct C) a' w (if bt_external t then bt_fee t else amt)) /\
    (forall a', iss (b_led s') a' = iss (b_led s) a' - (if bool_decide (a' = a) && bt_external t then amt - bt_fee t else 0)).
Proof.
  intros CF R W U H. pose proof (br_reachable_inv C P s CF R) as I. apply teleport_inv in H as (a & t & k & T); [|apply I].
  destruct T. exists a, t, k. do 5 (split; [assumption|]). split; [rewrite tl_s'; apply lookup_insert|]. split; [rewrite tl_s' at 1; reflexivity|].
  clear tl_s'. destruct (bt_external t).
  - destruct tl_led as (L1 & B & M). apply burn_spec in B as (_ & _ & B1 & B2). apply mint_spec in M as (_ & M1 & M2).
    split; intros; [rewrite M1, B1; lia|]. rewrite M2, B2, andb_true_r. case_bool_decide; lia.
  - apply transfer_spec in tl_led as (B1 & B2 & _). split; intros; [rewrite B1; lia|]. rewrite B2, andb_false_r. lia.
Qed.
Print Assumptions C70_teleport_exact.
Theorem C70_nonces_without_gaps C P s c k :
  br_cfg_ok C -> br_reachable C P s -> b_nonces s !! c = Some k -> out_nonces (b_log s) c = reverse (seqZ 1 k).
Proof. intros CF R H. destruct (bi_chain C s (br_reachable_inv C P s CF R) _ _ H) as (r & _ & _ & _ & _ & X). exact X. Qed.
Print Assumptions C70_nonces_without_gaps.
Example C70_example : out_nonces (b_log bx1) 2 = [2; 1] /\ out_nonces (b_log bx1) 3 = [1] /\ bal (b_led bx1) 60 5 = 4 /\ bal (b_led bx1) 61 5 = 570 /\
  bal (b_led bx1) 60 100 = 4950.
Proof. vm_compute. auto. Qed.

(** ** C71.  Locked tokens stay backed: over any history, the bridge account's holding of an asset grows by at least the locked
    amounts and fees that came in, minus the payouts of locked tokens (others may donate, nothing else can take). *)
Theorem C71_locked_tokens_backed C P s os s' :
  br_cfg_ok C -> br_reachable C P s -> br_history C P s os s' ->
  exists evs, b_log s' = evs ++ b_log s /\
    forall a, bal (b_led s) a (br_acct C) + flows C a evs <= bal (b_led s') a (br_acct C).
Proof. intros CF R. apply hist_flow; auto. apply (br_reachable_inv C P); auto. Qed.
Print Assumptions C71_locked_tokens_backed.
Example C71_example : flows bxC 61 (b_log bx1) = 570 /\ flows bxC 60 (b_log bx1) = 4.
Proof. vm_compute. auto. Qed.

(** ** C72.  Nothing moves for a disabled or unregistered token or an unregistered chain: neither teleports nor votes. *)
Theorem C72_disabled_means_disabled C P s :
  br_cfg_ok C -> br_reachable C P s ->
  (forall who dest tok amt s', teleport C P s who dest tok amt = Ok s' ->
     is_Some (b_nonces s !! dest) /\ exists a t, b_ids s !! tok = Some a /\ b_tokens s !! a = Some t /\ bt_enable t = true) /\
  (forall o c n tok to amt f s', materialize C P s o c n tok to amt f = Ok s' ->
     is_Some (b_nonces s !! c) /\ exists a t, b_ids s !! tok = Some a /\ b_tokens s !! a = Some t /\ bt_enable t = true).
Proof.
  intros CF R. pose proof (br_reachable_inv C P s CF R) as I. split.
  - intros who dest tok amt s' H. apply teleport_inv in H as (a & t & k & T); [|apply I]. destruct T. split; eauto.
  - intros o c n tok to amt f s' H. apply materialize_inv in H as (w & a & t & r & p & H); [|apply I|apply (bi_reg C); auto]. destruct H. split; eauto.
Qed.
Print Assumptions C72_disabled_means_disabled.
Example C72_example :
  is_ok (teleport bxC allow_all (bxrun 1000 (bx1_ops ++ [BSetStatus Root 610 false])) 100 2 610 50) = false /\
  is_ok (teleport bxC allow_all bx1 100 2 610 50) = true /\ is_ok (teleport bxC allow_all bx1 100 4 610 50) = false.
Proof. vm_compute. auto. Qed.

(** ** C73.  Expiry.  A vote is only accepted on a live, undecided proposal; at the start of each block every expired proposal is
    dropped and no live one is. *)
Theorem C73_votes_on_live_proposals C P s o c n tok to amt f s' p :
  br_cfg_ok C -> br_reachable C P s -> materialize C P s o c n tok to amt f = Ok s' -> b_votes s !! (c, n, (tok, to, amt)) = Some p ->
  p_status p = Initiated /\ b_now s < p_expiry p.
Proof.
  intros CF R H Hp. pose proof (br_reachable_inv C P s CF R) as I.
  apply materialize_inv in H as (w & a & t & r & p' & H); [|apply I|apply (bi_reg C); auto]. destruct H.
  assert (p' = p) as -> by (destruct mt_prop as [X|[X _]]; congruence). auto.
Qed.
Print Assumptions C73_votes_on_live_proposals.
Theorem C73_block_drops_exactly_expired C P s s' c n k p :
  br_step C P s BBlock = Ok s' ->
  b_votes s' !! (c, n, k) = Some p <-> b_votes s !! (c, n, k) = Some p /\ b_now s' < p_expiry p.
Proof.
  intros H. cbn in H. bstep H x E. injection H as <-. cbn. rewrite map_filter_lookup_Some. cbn. unfold can_be_cleaned_up, is_expired.
  rewrite Z.leb_gt. cbn. tauto.
Qed.
Print Assumptions C73_block_drops_exactly_expired.
Example C73_example :
  let s := bxrun 1000 (bx_ops0 ++ [bv 201 1 600 101 500 true]) in
  someb (b_votes s !! (2, 1, (600, 101, 500))) (fun p => p_expiry p =? 107) = true /\
  someb (b_votes (fold_left (br_exec bxC allow_all) (replicate 99 BBlock) s) !! (2, 1, (600, 101, 500))) (fun p => true) = true /\
  someb (b_votes (fold_left (br_exec bxC allow_all) (replicate 100 BBlock) s) !! (2, 1, (600, 101, 500))) (fun p => true) = false.
Proof. vm_compute. auto. Qed.

(** ** C74.  A transfer is rejected only when so many different voters voted against one payload for it that fewer than the threshold
    of the current number of relayers remain. *)
Theorem C74_rejection_needs_votes C P s op s' evs c n :
  br_cfg_ok C -> br_reachable C P s -> br_op_ok C op -> br_step C P s op = Ok s' -> b_log s' = evs ++ b_log s -> ERejected c n ∈ evs ->
  exists k vs, NoDup vs /\ Z.of_nat (length (b_members s)) - b_thr s < Z.of_nat (length vs) /\
    (forall v, v ∈ vs -> exists b, EVote false c n v k b ∈ b_log s' /\ b <= b_now s < b + br_life C) /\ b_led s' = b_led s.
Proof. intros CF R. apply rejected_votes; auto. apply (br_reachable_inv C P s CF R). Qed.
Print Assumptions C74_rejection_needs_votes.
(** But votes on different payloads of the same transfer are not independent: rejecting a bogus payload settles the transfer, and
    the genuine payload can then never be paid, although every honest relayer voted against the bogus one only. *)
Definition bx_bogus : list br_op :=
  bx_ops0 ++ [bv 201 9 600 66 1000 true; bv 202 9 600 66 1000 false; bv 203 9 600 66 1000 false].
Theorem C74_bogus_payload_blocks_genuine_refuted :
  ~ (forall C P s c n k, br_cfg_ok C -> br_reachable C P s -> is_Some (b_nonces s !! c) ->
       (forall v b, EVote false c n v k b ∉ b_log s) -> paid_out (b_log s) c n = 0 -> has_bridged s c n = false).
Proof.
  intros H. assert (R : br_reachable bxC allow_all (bxrun 1000 bx_bogus)) by (apply bxrun_reach; vm_compute; reflexivity).
  specialize (H bxC allow_all (bxrun 1000 bx_bogus) 2 9 (600, 101, 500) bxC_ok R).
  assert (L : b_log (bxrun 1000 bx_bogus) = [ERejected 2 9; EVote false 2 9 203 (600, 66, 1000) 7; EVote false 2 9 202 (600, 66, 1000) 7;
     EVote true 2 9 201 (600, 66, 1000) 7; ETokenReg 610 0 0; ETokenReg 600 0 0; EChainReg 3; EChainReg 2]) by (vm_compute; reflexivity).
  rewrite L in H. assert (E : has_bridged (bxrun 1000 bx_bogus) 2 9 = false).
  { apply H; [exists 0; vm_compute; reflexivity| |reflexivity]; clear; intros v b X;
      repeat (apply elem_of_cons in X as [X|X]; [discriminate X|]); inversion X. }
  vm_compute in E. discriminate E.
Qed.
Print Assumptions C74_bogus_payload_blocks_genuine_refuted.

(** ** C75.  Registrations.  Token ids and assets correspond one to one, and only the configured origins change chains, tokens,
    fees, caps, status or clean the counters. *)
Theorem C75_tokens_one_to_one C P s :
  br_cfg_ok C -> br_reachable C P s ->
  (forall tok a, b_ids s !! tok = Some a -> exists t, b_tokens s !! a = Some t /\ bt_id t = tok) /\
  (forall a t, b_tokens s !! a = Some t -> b_ids s !! bt_id t = Some a) /\
  (forall tok tok' a, b_ids s !! tok = Some a -> b_ids s !! tok' = Some a -> tok = tok') /\
  b_nonces s !! br_chain C = None.
Proof.
  intros CF R. destruct (bi_tok C s (br_reachable_inv C P s CF R)) as [T1 T2]. split; [auto|]. split; [intros a t X; apply T2; auto|]. split.
  - intros tok tok' a X Y. destruct (T1 _ _ X) as (t & A & <-). destruct (T1 _ _ Y) as (t' & A' & <-). congruence.
  - induction R as [|s op R IH OK]; [apply lookup_empty|]. clear T1 T2.
    destruct (bi_tok C s (br_reachable_inv C P s CF R)) as [T1 T2]. specialize (IH T1 T2).
    unfold br_exec. destruct (br_step C P s op) as [s'|e|] eqn:H; auto.
    assert (Q : b_nonces s' = b_nonces s \/ (exists c v, c <> br_chain C /\ b_nonces s' = <[c := v]> (b_nonces s)) \/ exists c, b_nonces s' = delete c (b_nonces s)).
    { pose proof (br_reachable_inv C P s CF R) as I. destruct op; cbn in H.
      - unfold register_chain in H. bstep H u E. bstep H u2 E2. injection H as <-. right; left. exists c, 0. split; [|reflexivity].
        apply andb_prop in E2 as [E2 _]. apply negb_true_iff in E2. lia.
      - unfold unregister_chain in H. bstep H u E. bstep H u2 E2. injection H as <-. right; right. eexists; reflexivity.
      - unfold register_bridge_token in H. bstep H u E. bstep H u2 E2. injection H as <-. auto.
      - unfold unregister_bridge_token in H. bstep H u E. bstep H u2 E2. injection H as <-. auto.
      - unfold set_bridge_token_fee, try_mutate_bridge_token in H. bstep H u E. bstep H u2 E2. injection H as <-. auto.
      - unfold set_bridge_token_status, try_mutate_bridge_token in H. bstep H u E. bstep H u2 E2. injection H as <-. auto.
      - unfold set_bridge_token_cap, try_mutate_bridge_token in H. bstep H u E. bstep H u2 E2. injection H as <-. auto.
      - unfold clean_cap, try_mutate_bridge_token in H. bstep H u E. bstep H s1 E1. bstep E1 u2 E2. injection H as <-. injection E1 as <-. auto.
      - apply teleport_inv in H as (a & t & k & T); [|apply I]. destruct T. right; left. exists dest, (k + 1). split; [|rewrite tl_s'; reflexivity].
        intros ->. congruence.
      - apply materialize_inv in H as (w & a & t & r & p & H); [|apply I|apply (bi_reg C); auto]. destruct H. destruct mt_out; auto.
      - bstep H x E. injection H as <-. auto.
      - injection H as <-. left. unfold change_vote_threshold. destruct (ensure_valid_threshold _ _ _); reflexivity.
      - bstep H L E. injection H as <-. auto.
      - bstep H L E. injection H as <-. auto.
      - bstep H L E. injection H as <-. auto. }
    destruct Q as [->|[(c & v & N & ->)|(c & ->)]]; auto.
    + rewrite lookup_insert_ne; auto.
    + destruct (Z.eq_dec c (br_chain C)) as [->|N]; [apply lookup_delete|rewrite lookup_delete_ne; auto].
Qed.
Print Assumptions C75_tokens_one_to_one.
Theorem C75_governance_only C P s :
  (forall o c, br_chain_origin C o = false -> br_exec C P s (BRegisterChain o c) = s /\ br_exec C P s (BUnregisterChain o c) = s) /\
  (forall o a t tok fee en ty cap, br_token_origin C o = false ->
     br_exec C P s (BRegisterToken o a t) = s /\ br_exec C P s (BUnregisterToken o tok) = s /\ br_exec C P s (BSetFee o tok fee) = s /\
     br_exec C P s (BSetStatus o tok en) = s /\ br_exec C P s (BSetCap o tok ty cap) = s) /\
  (forall o tok ty, br_cap_origin C o = false -> br_exec C P s (BCleanCap o tok ty) = s).
Proof.
  split; [|split].
  - intros o c H. unfold br_exec; cbn. unfold register_chain, unregister_chain. rewrite H. auto.
  - intros o a t tok fee en ty cap H. unfold br_exec; cbn.
    unfold register_bridge_token, unregister_bridge_token, set_bridge_token_fee, set_bridge_token_status, set_bridge_token_cap. rewrite H. cbn. auto.
  - intros o tok ty H. unfold br_exec; cbn. unfold clean_cap. rewrite H. auto.
Qed.
Print Assumptions C75_governance_only.
Example C75_example : someb (b_ids bx1 !! 610) (fun a => a =? 61) = true /\ br_chain_origin bxC (Signed 201) = false.
Proof. vm_compute. auto. Qed.

(** ** C76.  The bonus.  A payout changes native balances (beyond the transfer itself) only by topping the recipient up to exactly the
    existential deposit plus the gift, and only when the recipient had less than the gift and the gift account at least the gift. *)
Theorem C76_bonus_exact C P s op s' evs c n tok a ext to amt :
  br_cfg_ok C -> br_reachable C P s -> br_op_ok C op -> br_step C P s op = Ok s' -> b_log s' = evs ++ b_log s ->
  EMinted c n tok a ext to amt ∈ evs -> a <> br_native C -> to <> br_gift C ->
  bal (b_led s') (br_native C) to = bal (b_led s) (br_native C) to \/
  exists L1, bal L1 (br_native C) to = bal (b_led s) (br_native C) to /\ 0 < br_convert C amt a /\
    red P true L1 (br_native C) to < br_convert C amt a <= bal (b_led s) (br_native C) (br_gift C) /\
    bal (b_led s') (br_native C) to = bal (b_led s) (br_native C) to + (br_ed C + br_convert C amt a - red P true L1 (br_native C) to) /\
    bal (b_led s') (br_native C) (br_gift C) = bal (b_led s) (br_native C) (br_gift C) - (br_ed C + br_convert C amt a - red P true L1 (br_native C) to).
Proof.
  intros CF R OK H E IN NA NT. pose proof (br_reachable_inv C P s CF R) as I.
  destruct (step_minted C P _ _ _ _ _ _ _ _ _ _ _ I OK H E IN) as (o & f & who & t & r & p & -> & M & -> & _ & _ & L1 & X & Y).
  assert (B : forall w, bal L1 (br_native C) w = bal (b_led s) (br_native C) w).
  { intros w. destruct (bt_external t).
    - apply mint_spec in X as (_ & X & _). rewrite X. rewrite at_ne by (intros [? _]; congruence). lia.
    - apply transfer_spec in X as (X & _ & _). rewrite X. rewrite !at_ne by (intros [? _]; congruence). lia. }
  destruct Y as [->|(d & D0 & D1 & D2 & D3 & D4 & ->)]; [left; apply B|]. right. exists L1. split; [apply B|].
  pose proof (proj2 (proj2 (proj2 CF)) amt a). split; [lia|]. apply transfer_spec in D1 as (D1 & _ & _). split.
  - split; [exact D4|]. unfold red in D3. rewrite (B (br_gift C)) in D3.
    pose proof (proj1 (bi_led C s I) (br_native C) (br_gift C)). lia.
  - rewrite !D1, !B, !at_self. rewrite !at_ne by (intros [_ ?]; congruence). split; lia.
Qed.
Print Assumptions C76_bonus_exact.
Example C76_example : bal (b_led bx1) 0 101 = 10 + 65 /\ bal (b_led bx1) 0 9 = 1000 - (10 + 65 - 3).
Proof. vm_compute. auto. Qed.
(** "A short gift account never blocks a payout" is false: the availability check ignores the existential deposit, so with exactly
    the gift in the gift account the deciding vote fails, while with one unit less it pays. *)
Definition bx_gift : list br_op :=
  bx_ops0 ++ [bv 201 1 600 101 500 true; bv 202 1 600 101 500 true; bv 203 1 600 101 500 true].
Theorem C76_short_gift_account_blocks_payout_refuted :
  ~ (forall g g', g' <= g -> is_ok (br_step bxC allow_all (bxrun g' bx_gift) (bv 204 1 600 101 500 true)) = true ->
       is_ok (br_step bxC allow_all (bxrun g bx_gift) (bv 204 1 600 101 500 true)) = true).
Proof.
  intros H. specialize (H 65 64 ltac:(lia)).
  assert (A : is_ok (br_step bxC allow_all (bxrun 64 bx_gift) (bv 204 1 600 101 500 true)) = true) by (vm_compute; reflexivity).
  specialize (H A). vm_compute in H. discriminate H.
Qed.
Print Assumptions C76_short_gift_account_blocks_payout_refuted.

(** ** C77.  A relayer's vote on an open transfer of an enabled token within the cap is accepted.  Partial: the
    deciding vote is covered when the payout itself is possible (issuance room, or tokens locked here) and the gift account holds the
    existential deposit on top of the gift (C76 shows why); nonces 0 and 2^64-1 are excluded. *)
Theorem C77_votes_are_accepted_partial C P s o who c n tok to amt f a t p :
  br_cfg_ok C -> br_reachable C P s -> 0 <= b_now s -> may_vote C s o who -> is_Some (b_nonces s !! c) -> has_bridged s c n = false -> 0 < n < U64MAX ->
  b_ids s !! tok = Some a -> b_tokens s !! a = Some t -> bt_enable t = true -> 0 < amt -> bt_in_amount t + amt <= bt_in_cap t ->
  open_for C s c n tok to amt who p -> 0 <= b_thr s -> Z.of_nat (length (p_against p)) + 1 + b_thr s <= U32MAX ->
  (b_thr s <= Z.of_nat (length (p_for p)) + 1 ->
     permits P /\ may_mint P /\ (if bt_external t then iss (b_led s) a + amt <= U128MAX else amt <= bal (b_led s) a (br_acct C)) /\
     (br_convert C amt a = 0 \/ br_ed C + br_convert C amt a <= Z.min U128MAX (bal (b_led s) (br_native C) (br_gift C)))) ->
  exists s', materialize C P s o c n tok to amt f = Ok s'.
Proof. intros CF R. apply vote_live; auto. apply (br_reachable_inv C P s CF R). Qed.
Print Assumptions C77_votes_are_accepted_partial.
Example C77_example : let s := bxrun 1000 (bx_ops0 ++ [bv 201 1 600 101 200 true; bv 202 1 600 101 200 true; bv 203 1 600 101 200 true]) in
  has_bridged s 2 1 = false /\ b_thr s = 4 /\ br_convert bxC 200 60 = 0 /\
  okb (materialize bxC allow_all s (Signed 204) 2 1 600 101 200 true) (fun s' => bal (b_led s') 60 101 =? 200) = true.
Proof. vm_compute. auto. Qed.
(** The excluded case is real: once another transfer of the chain is settled, deciding transfer 0 aborts (u64 underflow). *)
Definition bx_zero : list br_op :=
  bx_ops0 ++ [bv 201 5 600 101 200 true; bv 202 5 600 101 200 true; bv 203 5 600 101 200 true; bv 204 5 600 101 200 true;
              bv 201 0 600 101 200 true; bv 202 0 600 101 200 true; bv 203 0 600 101 200 true].
Theorem C77_nonce_zero_panics_refuted :
  ~ (forall C P s o c n tok to amt f, br_cfg_ok C -> br_reachable C P s -> 0 <= n <= U64MAX -> materialize C P s o c n tok to amt f <> Panic).
Proof.
  intros H. assert (R : br_reachable bxC allow_all (bxrun 1000 bx_zero)) by (apply bxrun_reach; vm_compute; reflexivity).
  apply (H bxC allow_all _ (Signed 204) 2 0 600 101 200 true bxC_ok R); [split; [lia|vm_compute; discriminate]|]. vm_compute. reflexivity.
Qed.
Print Assumptions C77_nonce_zero_panics_refuted.
