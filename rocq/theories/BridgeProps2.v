(** * BridgeProps2: property theorems C75 (setters) and C83 (teleports go through). *)
From Verif Require Import Base MapSum Ledger AmmModel AmmEx AmmProofs5 StreamProofs4 BridgeModel BridgeSpec BridgeProofs BridgeProofs2 BridgeProofs3
  BridgeProofs4 BridgeProofs5 BridgeProps.

(** everything but the token table and the event log is untouched *)
Definition only_tokens_changed (s s' : br) : Prop :=
  b_thr s' = b_thr s /\ b_nonces s' = b_nonces s /\ b_reg s' = b_reg s /\ b_votes s' = b_votes s /\ b_members s' = b_members s /\
  b_led s' = b_led s /\ b_now s' = b_now s.

(** ** C75, continued.  Each governance call on a registered token changes exactly the field it names, of that token only. *)
Theorem C75_setters_exact C P s o tok a t :
  br_cfg_ok C -> br_reachable C P s -> b_ids s !! tok = Some a -> b_tokens s !! a = Some t ->
  (br_token_origin C o = true ->
    (forall fee, exists s', br_step C P s (BSetFee o tok fee) = Ok s' /\ only_tokens_changed s s' /\ b_ids s' = b_ids s /\
       b_tokens s' = <[a := mkBt (bt_id t) (bt_external t) fee (bt_enable t) (bt_out_cap t) (bt_out_amount t) (bt_in_cap t) (bt_in_amount t)]> (b_tokens s)) /\
    (forall en, exists s', br_step C P s (BSetStatus o tok en) = Ok s' /\ only_tokens_changed s s' /\ b_ids s' = b_ids s /\
       b_tokens s' = <[a := mkBt (bt_id t) (bt_external t) (bt_fee t) en (bt_out_cap t) (bt_out_amount t) (bt_in_cap t) (bt_in_amount t)]> (b_tokens s)) /\
    (forall cap, exists s', br_step C P s (BSetCap o tok BridgeOut cap) = Ok s' /\ only_tokens_changed s s' /\ b_ids s' = b_ids s /\
       b_tokens s' = <[a := mkBt (bt_id t) (bt_external t) (bt_fee t) (bt_enable t) cap (bt_out_amount t) (bt_in_cap t) (bt_in_amount t)]> (b_tokens s)) /\
    (forall cap, exists s', br_step C P s (BSetCap o tok BridgeIn cap) = Ok s' /\ only_tokens_changed s s' /\ b_ids s' = b_ids s /\
       b_tokens s' = <[a := mkBt (bt_id t) (bt_external t) (bt_fee t) (bt_enable t) (bt_out_cap t) (bt_out_amount t) cap (bt_in_amount t)]> (b_tokens s)) /\
    (exists s', br_step C P s (BUnregisterToken o tok) = Ok s' /\ only_tokens_changed s s' /\ b_ids s' = delete tok (b_ids s) /\
       b_tokens s' = delete a (b_tokens s))) /\
  (br_cap_origin C o = true ->
    (exists s', br_step C P s (BCleanCap o tok BridgeOut) = Ok s' /\ only_tokens_changed s s' /\ b_ids s' = b_ids s /\
       b_tokens s' = <[a := mkBt (bt_id t) (bt_external t) (bt_fee t) (bt_enable t) (bt_out_cap t) 0 (bt_in_cap t) (bt_in_amount t)]> (b_tokens s)) /\
    (exists s', br_step C P s (BCleanCap o tok BridgeIn) = Ok s' /\ only_tokens_changed s s' /\ b_ids s' = b_ids s /\
       b_tokens s' = <[a := mkBt (bt_id t) (bt_external t) (bt_fee t) (bt_enable t) (bt_out_cap t) (bt_out_amount t) (bt_in_cap t) 0]> (b_tokens s))).
Proof.
  intros CF R Ha Ht.
  assert (ENT : ensure_bridge_token_registered s tok = Ok tt).
  { unfold ensure_bridge_token_registered. rewrite bool_decide_true by (rewrite Ha; eauto). reflexivity. }
  assert (A : asset_id s tok = a) by (unfold asset_id; rewrite Ha; reflexivity).
  assert (B : bridge_token s a = t) by (unfold bridge_token; rewrite Ht; reflexivity).
  assert (T : forall f, try_mutate_bridge_token s tok f = Ok (set_tok s (<[a := f t]> (b_tokens s)) (b_ids s))).
  { intros f. unfold try_mutate_bridge_token. rewrite ENT. cbn [rbind]. rewrite A, B. reflexivity. }
  split; intros O.
  - cbn [br_step]. unfold set_bridge_token_fee, set_bridge_token_status, set_bridge_token_cap, unregister_bridge_token.
    rewrite O. cbn [ensure rbind]. rewrite ENT, A. cbn [rbind].
    repeat apply conj; intros; (eexists; split; [first [apply T|reflexivity]|]); unfold only_tokens_changed; cbn; auto 20.
  - cbn [br_step]. unfold clean_cap. rewrite O. cbn [ensure rbind]. rewrite !T. cbn [rbind].
    repeat apply conj; intros; (eexists; split; [reflexivity|]); unfold only_tokens_changed; cbn; auto 20.
Qed.
Print Assumptions C75_setters_exact.
(** Registering stores exactly the given token, when neither the asset nor the token id is in use. *)
Theorem C75_register_exact C P s o a t :
  br_token_origin C o = true -> b_tokens s !! a = None -> b_ids s !! bt_id t = None ->
  exists s', br_step C P s (BRegisterToken o a t) = Ok s' /\ only_tokens_changed s s' /\
    b_tokens s' = <[a := t]> (b_tokens s) /\ b_ids s' = <[bt_id t := a]> (b_ids s).
Proof.
  intros O A B. cbn [br_step]. unfold register_bridge_token. rewrite O. cbn [ensure rbind].
  rewrite A, B, !bool_decide_false by (intros [? ?]; discriminate). cbn [negb andb ensure rbind].
  eexists. split; [reflexivity|]. unfold only_tokens_changed; cbn. auto 20.
Qed.
Print Assumptions C75_register_exact.
(** Registering a chain starts its counters at zero; unregistering removes them. *)
Theorem C75_chains_exact C P s o c :
  br_chain_origin C o = true ->
  (c <> br_chain C -> b_nonces s !! c = None ->
    exists s', br_step C P s (BRegisterChain o c) = Ok s' /\ b_nonces s' = <[c := 0]> (b_nonces s) /\ b_reg s' = <[c := []]> (b_reg s) /\
      b_tokens s' = b_tokens s /\ b_ids s' = b_ids s /\ b_led s' = b_led s) /\
  (is_Some (b_nonces s !! c) ->
    exists s', br_step C P s (BUnregisterChain o c) = Ok s' /\ b_nonces s' = delete c (b_nonces s) /\ b_reg s' = delete c (b_reg s) /\
      b_tokens s' = b_tokens s /\ b_ids s' = b_ids s /\ b_led s' = b_led s).
Proof.
  intros O. cbn [br_step]. unfold register_chain, unregister_chain, ensure_chain_registered, chain_registered. rewrite O. cbn [ensure rbind]. split.
  - intros N F. rewrite F. replace (c =? br_chain C) with false by lia. rewrite bool_decide_false by (intros [? ?]; discriminate). cbn.
    eexists. split; [reflexivity|]. cbn. auto 10.
  - intros F. rewrite bool_decide_true by auto. cbn. eexists. split; [reflexivity|]. cbn. auto 10.
Qed.
Print Assumptions C75_chains_exact.
Example C75_setters_example :
  someb (b_ids bx1 !! 610) (fun a => (a =? 61) && someb (b_tokens bx1 !! a) (fun t => bt_enable t && (bt_fee t =? 2))) = true /\
  br_token_origin bxC Root = true /\ br_cap_origin bxC Root = true /\
  okb (br_step bxC allow_all bx1 (BSetFee Root 610 7)) (fun s' => someb (b_tokens s' !! 61) (fun t => bt_fee t =? 7)) = true.
Proof. vm_compute. auto. Qed.

(** ** C83.  A user who holds the tokens can send them: with a registered destination, an enabled token, an amount covering the fee
    and within the cap, [teleport] succeeds, whatever happened before. *)
Theorem C83_teleports_go_through C P s who dest tok amt a t k :
  br_cfg_ok C -> br_reachable C P s -> lenient P ->
  b_nonces s !! dest = Some k -> k < U64MAX -> b_ids s !! tok = Some a -> b_tokens s !! a = Some t -> bt_enable t = true ->
  0 < amt -> bt_fee t <= amt -> bt_out_amount t + amt <= bt_out_cap t -> amt <= bal (b_led s) a who -> iss (b_led s) a <= U128MAX ->
  exists s', teleport C P s who dest tok amt = Ok s'.
Proof.
  intros CF R LP Hk K Ha Ht En Pos Fee Cap Bal Iss. pose proof (br_reachable_inv C P s CF R) as I. pose proof (bi_led C s I) as W.
  pose proof (proj2 (bi_tok C s I) _ _ Ht) as (_ & F1 & F2 & F3 & F4 & F5). unfold u128 in *.
  destruct (bi_chain C s I dest k Hk) as (r0 & _ & _ & _ & K0 & _).
  unfold teleport.
  assert (ensure_chain_registered s dest = Ok tt) as ->.
  { unfold ensure_chain_registered, chain_registered. rewrite Hk, bool_decide_true by eauto. reflexivity. }
  assert (ensure_bridge_token_registered s tok = Ok tt) as ->.
  { unfold ensure_bridge_token_registered. rewrite bool_decide_true by (rewrite Ha; eauto). reflexivity. }
  unfold ensure_amount_valid. replace (0 <? amt) with true by lia. cbn [ensure rbind].
  unfold asset_id. rewrite Ha. cbn [default]. unfold id. unfold bridge_token at 1. rewrite Ht. cbn [default]. unfold id. rewrite En. cbn [ensure rbind].
  unfold update_bridge_token_cap, bridge_token. rewrite Ht. cbn [default]. unfold id. unfold ensure_under_bridge_cap, checked_add.
  rewrite (chk_ok (bt_out_amount t + amt)) by lia. cbn [ok_or rbind]. replace (_ <=? _) with true by lia. cbn [ensure rbind b_led set_tok].
  assert (PAY : exists L, (if bt_external t then let* L1 := burn_from P (b_led s) a who amt in mint_into P L1 a (br_acct C) (bt_fee t)
     else transfer P (b_led s) a who (br_acct C) amt false) = Ok L).
  { destruct (bt_external t).
    - destruct (burn_prog P (b_led s) a who amt LP ltac:(lia) Bal) as [L1 E1]. rewrite E1. cbn [rbind].
      assert (W1 : ledger_wf L1) by (eapply burn_wf; eauto).
      pose proof (burn_spec _ _ _ _ _ _ E1) as (_ & _ & _ & S3).
      pose proof (bal_le_iss L1 a 0 W1). pose proof (proj1 W1 a 0).
      apply mint_prog; [auto|lia|lia|]. specialize (S3 a). rewrite S3, bool_decide_true by auto. lia.
    - apply transfer_prog; auto; lia. }
  destruct PAY as [L ->]. cbn [rbind]. unfold checked_sub. rewrite (chk_ok (amt - bt_fee t)) by lia. cbn [ok_or rbind].
  unfold bump_nonce. cbn [b_nonces b_set_led set_tok]. rewrite Hk. cbn [default]. unfold id, raw_u64.
  replace (_ && _) with true by lia. cbn [rbind]. eexists. reflexivity.
Qed.
Print Assumptions C83_teleports_go_through.
Example C83_example : lenient allow_all /\ someb (b_nonces bx1 !! 2) (fun k => k <? U64MAX) = true /\
  someb (b_tokens bx1 !! 60) (fun t => bt_enable t && (bt_fee t <=? 100) && (bt_out_amount t + 100 <=? bt_out_cap t)) = true /\ 100 <= bal (b_led bx1) 60 100 /\
  okb (teleport bxC allow_all bx1 100 2 600 100) (fun s' => bal (b_led s') 60 100 =? bal (b_led bx1) 60 100 - 100) = true.
Proof. split; [repeat split; intros; reflexivity|]. vm_compute. repeat split; congruence. Qed.
