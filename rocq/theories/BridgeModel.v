(** * BridgeModel: pallets/bridge/src/lib.rs and types.rs (token bridge secured by relayer votes).
    Line numbers refer to lib.rs; "types" is pallets/bridge/src/types.rs.
    ChainId = u8, ChainNonce = u64, BlockNumber = u32 (primitives/src/lib.rs:98-102). *)
From Verif Require Import Base MapSum Ledger AmmModel.

(** [BridgeToken], types 7-17 *)
Record btoken := mkBt {
  bt_id : Z; bt_external : bool; bt_fee : Z; bt_enable : bool;
  bt_out_cap : Z; bt_out_amount : Z; bt_in_cap : Z; bt_in_amount : Z
}.
(** [#[derive(Default)]], types 7; read by [ValueQuery] storage for an absent key *)
Definition bt_default : btoken := mkBt 0 false 0 false 0 0 0 0.
(** [BridgeType], types 19-25 *)
Inductive btype := BridgeOut | BridgeIn.
(** [ProposalStatus], types 27-32 *)
Inductive pstatus := Initiated | Approved | Rejected.
Global Instance pstatus_eq_dec : EqDecision pstatus.
Proof. solve_decision. Defined.
(** [MaterializeCall], types 34-39: (bridge_token_id, to, amount) *)
Definition mcall : Type := Z * Z * Z.
(** [Proposal], types 41-47 *)
Record proposal := mkProp {
  p_for : list Z; p_against : list Z; p_status : pstatus; p_expiry : Z
}.

(** raw u32 / u64 arithmetic with overflow checks on *)
Definition raw_u32 (x : Z) : res Z := if (0 <=? x) && (x <=? U32MAX) then Ok x else Panic.
Definition raw_u64 (x : Z) : res Z := if (0 <=? x) && (x <=? U64MAX) then Ok x else Panic.

(** [is_complete], types 64-67 *)
Definition is_complete (p : proposal) : bool := negb (bool_decide (p_status p = Initiated)).
(** [is_expired], types 79-82 *)
Definition is_expired (p : proposal) (now : Z) : bool := p_expiry p <=? now.
(** [can_be_cleaned_up], types 69-72 *)
Definition can_be_cleaned_up (p : proposal) (now : Z) : bool := is_expired p now.
(** [has_voted], types 74-77 *)
Definition has_voted (p : proposal) (w : Z) : bool := bool_decide (w ∈ p_for p) || bool_decide (w ∈ p_against p).
Definition set_status (p : proposal) (st : pstatus) : proposal := mkProp (p_for p) (p_against p) st (p_expiry p).
(** [try_to_complete], types 50-62 *)
Definition try_to_complete (p : proposal) (threshold total : Z) : res (pstatus * proposal) :=
  if threshold <=? Z.of_nat (length (p_for p)) then Ok (Approved, set_status p Approved)
  else if threshold <=? total then
    let* x := raw_u32 (Z.of_nat (length (p_against p)) + threshold) in
    if total <? x then Ok (Rejected, set_status p Rejected) else Ok (Initiated, p)
  else Ok (Initiated, p).

(** [Config], lines 78-136.  [br_convert amount asset] is [GiftConvert::to_asset_balance(..).unwrap_or(0)]. *)
Record br_cfg := mkBrCfg {
  br_acct : account;                    (* account_id(), line 671 *)
  br_token_origin : origin -> bool;     (* UpdateTokenOrigin *)
  br_chain_origin : origin -> bool;     (* UpdateChainOrigin *)
  br_cap_origin : origin -> bool;       (* CapOrigin *)
  br_root_op : account;                 (* RootOperatorAccountId *)
  br_gift : account;                    (* GiftAccount *)
  br_convert : Z -> asset -> Z;         (* GiftConvert *)
  br_native : asset; br_ed : Z;         (* NativeCurrencyId, ExistentialDeposit *)
  br_chain : Z;                         (* ChainId *)
  br_life : Z;                          (* ProposalLifetime *)
  br_pct : Z                            (* ThresholdPercentage *)
}.

(** Events (lines 177-281) a user or relayer observes.  [ETeleport] is TeleportBurned, [EMinted] MaterializeMinted,
    [ERejected] ProposalRejected (its call is not in the event; recorded here), [EVote] MaterializeVoteFor /
    MaterializeVoteAgainst, [EChainReg] ChainRegistered, [ETokenReg] BridgeTokenRegistered, [EClean]
    BridgeTokenAccumulatedValueCleaned.  Ghost fields not in the real events: the asset and its [external] flag, and
    the block number of a vote. *)
Inductive br_event :=
| ETeleport (who dest nonce tok a : Z) (ext : bool) (amount fee : Z)
| EMinted (src nonce tok a : Z) (ext : bool) (to amount : Z)
| ERejected (src nonce : Z)
| EVote (favour : bool) (src nonce voter : Z) (c : mcall) (block : Z)
| EChainReg (c : Z)
| ETokenReg (tok : Z) (out_amount in_amount : Z)
| EClean (tok : Z) (t : btype).

(** Storage, lines 283-323; the relayer set of pallet-membership; the ledger, block number and event log *)
Record br := mkBr {
  b_thr : Z;                                        (* VoteThreshold *)
  b_nonces : gmap Z Z;                              (* ChainNonces *)
  b_reg : gmap Z (list (Z * Z));                    (* BridgeRegistry *)
  b_tokens : gmap Z btoken;                         (* BridgeTokens: asset -> token *)
  b_ids : gmap Z Z;                                 (* AssetIds: token id -> asset *)
  b_votes : gmap (Z * Z * mcall) proposal;          (* ProposalVotes *)
  b_members : list Z;
  b_led : ledger; b_now : Z; b_log : list br_event
}.

Definition set_thr (s : br) t := mkBr t (b_nonces s) (b_reg s) (b_tokens s) (b_ids s) (b_votes s) (b_members s) (b_led s) (b_now s) (b_log s).
Definition set_chain (s : br) n r := mkBr (b_thr s) n r (b_tokens s) (b_ids s) (b_votes s) (b_members s) (b_led s) (b_now s) (b_log s).
Definition set_tok (s : br) t i := mkBr (b_thr s) (b_nonces s) (b_reg s) t i (b_votes s) (b_members s) (b_led s) (b_now s) (b_log s).
Definition set_votes (s : br) v := mkBr (b_thr s) (b_nonces s) (b_reg s) (b_tokens s) (b_ids s) v (b_members s) (b_led s) (b_now s) (b_log s).
Definition set_members (s : br) m := mkBr (b_thr s) (b_nonces s) (b_reg s) (b_tokens s) (b_ids s) (b_votes s) m (b_led s) (b_now s) (b_log s).
Definition b_set_led (s : br) L := mkBr (b_thr s) (b_nonces s) (b_reg s) (b_tokens s) (b_ids s) (b_votes s) (b_members s) L (b_now s) (b_log s).
Definition set_now (s : br) t := mkBr (b_thr s) (b_nonces s) (b_reg s) (b_tokens s) (b_ids s) (b_votes s) (b_members s) (b_led s) t (b_log s).
Definition emit (s : br) e := mkBr (b_thr s) (b_nonces s) (b_reg s) (b_tokens s) (b_ids s) (b_votes s) (b_members s) (b_led s) (b_now s) (e :: b_log s).

Section bridge.
  Context (C : br_cfg) (P : policy).

  (** [ensure_relay_member], lines 676-687 *)
  Definition ensure_relay_member (s : br) (o : origin) : res Z :=
    match o with
    | Root => Ok (br_root_op C)
    | Signed w => let* _ := ensure (bool_decide (w ∈ b_members s)) "OriginNoPermission" in Ok w
    end.
  (** [chain_registered], [ensure_chain_registered], lines 694-701 *)
  Definition chain_registered (s : br) (c : Z) : bool := bool_decide (is_Some (b_nonces s !! c)).
  Definition ensure_chain_registered (s : br) (c : Z) : res unit := ensure (chain_registered s c) "ChainIdNotRegistered".
  (** [any(|r| nonce >= r.0 && nonce <= r.1)], lines 838 and 855 *)
  Definition in_intervals (r : list (Z * Z)) (n : Z) : bool := existsb (fun i => (i.1 <=? n) && (n <=? i.2)) r.
  (** [has_bridged], lines 834-840 *)
  Definition has_bridged (s : br) (c n : Z) : bool :=
    match b_reg s !! c with None => false | Some r => in_intervals r n end.
  (** [ensure_chain_nonce_valid], lines 703-710 *)
  Definition ensure_chain_nonce_valid (s : br) (c n : Z) : res unit :=
    ensure (negb (has_bridged s c n)) "ProposalAlreadyComplete".
  (** [ensure_amount_valid], lines 712-716 *)
  Definition ensure_amount_valid (amt : Z) : res unit := ensure (0 <? amt) "BridgingAmountTooLow".
  (** [ensure_bridge_token_registered], lines 719-726 *)
  Definition ensure_bridge_token_registered (s : br) (tok : Z) : res unit :=
    ensure (bool_decide (is_Some (b_ids s !! tok))) "BridgeTokenNotRegistered".
  (** getters [asset_id], [bridge_token] ([ValueQuery]), lines 302-310 *)
  Definition asset_id (s : br) (tok : Z) : Z := default 0 (b_ids s !! tok).
  Definition bridge_token (s : br) (a : Z) : btoken := default bt_default (b_tokens s !! a).
  (** [get_members_count], lines 729-731 *)
  Definition members_count (s : br) : Z := Z.of_nat (length (b_members s)).
  (** [Ratio::from_percent] saturates at 100 *)
  Definition p_from_percent (x : Z) : Z := Z.min x 100 * 10 ^ 4.
  (** [ensure_valid_threshold], lines 734-744 *)
  Definition ensure_valid_threshold (t total : Z) : res unit :=
    ensure ((p_from_percent (br_pct C) <=? p_from_rational t total) && (0 <? t) && (t <=? total))
           "InvalidVoteThreshold".
  (** [ensure_under_bridge_cap], lines 747-778 *)
  Definition ensure_under_bridge_cap (t : btoken) (amt : Z) (ty : btype) : res Z :=
    match ty with
    | BridgeOut =>
        let* n := ok_or (checked_add (bt_out_amount t) amt) "Overflow" in
        let* _ := ensure (n <=? bt_out_cap t) "BridgeOutCapExceeded" in Ok n
    | BridgeIn =>
        let* n := ok_or (checked_add (bt_in_amount t) amt) "Overflow" in
        let* _ := ensure (n <=? bt_in_cap t) "BridgeInCapExceeded" in Ok n
    end.
  (** [materialize_allowed], lines 780-794 *)
  Definition materialize_allowed (s : br) (tok amt : Z) : res unit :=
    let* _ := ensure_bridge_token_registered s tok in
    let t := bridge_token s (asset_id s tok) in
    let* _ := ensure (bt_enable t) "BridgeTokenDisabled" in
    let* _ := ensure_under_bridge_cap t amt BridgeIn in
    ensure_amount_valid amt.
  (** [change_vote_threshold], lines 796-806; called by the runtime hook [ChangeBridgeMembers]
      (runtime/parallel/src/lib.rs:1701-1718), which only logs a failure *)
  Definition change_vote_threshold (s : br) : res br :=
    let t := p_mul_ceil (p_from_percent (br_pct C)) (members_count s) in
    let* _ := ensure_valid_threshold t (members_count s) in
    Ok (set_thr s t).
  (** [bump_nonce], lines 809-814 *)
  Definition bump_nonce (s : br) (c : Z) : res (Z * br) :=
    let* n := raw_u64 (default 0 (b_nonces s !! c) + 1) in
    Ok (n, set_chain s (<[c := n]> (b_nonces s)) (b_reg s)).

  (** [sort_unstable_by(|a, b| a.0.cmp(&b.0))]: no two intervals share a start, so stability is irrelevant *)
  Fixpoint ins_iv (x : Z * Z) (l : list (Z * Z)) : list (Z * Z) :=
    match l with [] => [x] | y :: r => if x.1 <=? y.1 then x :: l else y :: ins_iv x r end.
  Definition sort_iv (l : list (Z * Z)) : list (Z * Z) := foldr ins_iv [] l.
  (** the loop of [merge_overlapping_intervals], lines 816-832; [cur] is [merged.last_mut()] *)
  Fixpoint merge_from (cur : Z * Z) (l : list (Z * Z)) : list (Z * Z) :=
    match l with
    | [] => [cur]
    | r :: l' => if cur.2 <? r.1 then cur :: merge_from r l' else merge_from (cur.1, Z.max r.2 cur.2) l'
    end.
  (** [merge_overlapping_intervals], lines 816-832 *)
  Definition merge_iv (l : list (Z * Z)) : list (Z * Z) :=
    match sort_iv l with [] => [] | r :: l' => merge_from r l' end.
  (** the match inside [update_bridge_registry], lines 843-862; both guards use checked u64 arithmetic *)
  Definition touch_iv (n : Z) (i : Z * Z) : res (Z * Z) :=
    let* up := raw_u64 (n + 1) in
    if i.1 =? up then Ok (n, i.2) else
    let* dn := raw_u64 (n - 1) in
    if i.2 =? dn then Ok (i.1, n) else Ok i.
  Fixpoint touch_all (n : Z) (l : list (Z * Z)) : res (list (Z * Z)) :=
    match l with
    | [] => Ok []
    | i :: r => let* i' := touch_iv n i in let* r' := touch_all n r in Ok (i' :: r')
    end.
  (** [update_bridge_registry], lines 843-862 *)
  Definition update_registry (r : list (Z * Z)) (n : Z) : res (list (Z * Z)) :=
    let* r1 := touch_all n r in
    let r2 := merge_iv r1 in
    Ok (sort_iv (if in_intervals r2 n then r2 else r2 ++ [(n, n)])).
  Definition update_bridge_registry (s : br) (c n : Z) : res br :=
    match b_reg s !! c with
    | None => Ok s
    | Some r => let* r' := update_registry r n in Ok (set_chain s (b_nonces s) (<[c := r']> (b_reg s)))
    end.

  Definition with_in (t : btoken) v := mkBt (bt_id t) (bt_external t) (bt_fee t) (bt_enable t) (bt_out_cap t) (bt_out_amount t) (bt_in_cap t) v.
  Definition with_out (t : btoken) v := mkBt (bt_id t) (bt_external t) (bt_fee t) (bt_enable t) (bt_out_cap t) v (bt_in_cap t) (bt_in_amount t).
  Definition with_fee (t : btoken) v := mkBt (bt_id t) (bt_external t) v (bt_enable t) (bt_out_cap t) (bt_out_amount t) (bt_in_cap t) (bt_in_amount t).
  Definition with_enable (t : btoken) v := mkBt (bt_id t) (bt_external t) (bt_fee t) v (bt_out_cap t) (bt_out_amount t) (bt_in_cap t) (bt_in_amount t).
  Definition with_in_cap (t : btoken) v := mkBt (bt_id t) (bt_external t) (bt_fee t) (bt_enable t) (bt_out_cap t) (bt_out_amount t) v (bt_in_amount t).
  Definition with_out_cap (t : btoken) v := mkBt (bt_id t) (bt_external t) (bt_fee t) (bt_enable t) v (bt_out_amount t) (bt_in_cap t) (bt_in_amount t).

  (** [update_bridge_token_cap], lines 866-885 *)
  Definition update_bridge_token_cap (s : br) (a amt : Z) (ty : btype) : res br :=
    let t := bridge_token s a in
    let* n := ensure_under_bridge_cap t amt ty in
    let t' := match ty with BridgeOut => with_out t n | BridgeIn => with_in t n end in
    Ok (set_tok s (<[a := t']> (b_tokens s)) (b_ids s)).
  (** [try_mutate_bridge_token], lines 888-900 *)
  Definition try_mutate_bridge_token (s : br) (tok : Z) (op : btoken -> btoken) : res br :=
    let* _ := ensure_bridge_token_registered s tok in
    let a := asset_id s tok in
    Ok (set_tok s (<[a := op (bridge_token s a)]> (b_tokens s)) (b_ids s)).

  (** extrinsic [register_chain], lines 335-351 *)
  Definition register_chain (s : br) (o : origin) (c : Z) : res br :=
    let* _ := ensure (br_chain_origin C o) "BadOrigin" in
    let* _ := ensure (negb (c =? br_chain C) && negb (chain_registered s c)) "ChainIdAlreadyRegistered" in
    Ok (emit (set_chain s (<[c := 0]> (b_nonces s)) (<[c := []]> (b_reg s))) (EChainReg c)).
  (** extrinsic [unregister_chain], lines 357-370 *)
  Definition unregister_chain (s : br) (o : origin) (c : Z) : res br :=
    let* _ := ensure (br_chain_origin C o) "BadOrigin" in
    let* _ := ensure_chain_registered s c in
    Ok (set_chain s (delete c (b_nonces s)) (delete c (b_reg s))).
  (** extrinsic [register_bridge_token], lines 380-408 *)
  Definition register_bridge_token (s : br) (o : origin) (a : Z) (t : btoken) : res br :=
    let* _ := ensure (br_token_origin C o) "BadOrigin" in
    let* _ := ensure (negb (bool_decide (is_Some (b_tokens s !! a))) && negb (bool_decide (is_Some (b_ids s !! bt_id t))))
                     "BridgeTokenAlreadyRegistered" in
    Ok (emit (set_tok s (<[a := t]> (b_tokens s)) (<[bt_id t := a]> (b_ids s)))
             (ETokenReg (bt_id t) (bt_out_amount t) (bt_in_amount t))).
  (** extrinsic [unregister_bridge_token], lines 414-427 *)
  Definition unregister_bridge_token (s : br) (o : origin) (tok : Z) : res br :=
    let* _ := ensure (br_token_origin C o) "BadOrigin" in
    let* _ := ensure_bridge_token_registered s tok in
    Ok (set_tok s (delete (asset_id s tok) (b_tokens s)) (delete tok (b_ids s))).
  (** extrinsic [set_bridge_token_fee], lines 433-446 *)
  Definition set_bridge_token_fee (s : br) (o : origin) (tok fee : Z) : res br :=
    let* _ := ensure (br_token_origin C o) "BadOrigin" in
    try_mutate_bridge_token s tok (fun t => with_fee t fee).
  (** extrinsic [set_bridge_token_status], lines 452-465 *)
  Definition set_bridge_token_status (s : br) (o : origin) (tok : Z) (en : bool) : res br :=
    let* _ := ensure (br_token_origin C o) "BadOrigin" in
    try_mutate_bridge_token s tok (fun t => with_enable t en).
  (** extrinsic [set_bridge_token_cap], lines 471-492 *)
  Definition set_bridge_token_cap (s : br) (o : origin) (tok : Z) (ty : btype) (cap : Z) : res br :=
    let* _ := ensure (br_token_origin C o) "BadOrigin" in
    try_mutate_bridge_token s tok (fun t => match ty with BridgeOut => with_out_cap t cap | BridgeIn => with_in_cap t cap end).
  (** extrinsic [clean_cap_accumulated_value], lines 498-517 *)
  Definition clean_cap (s : br) (o : origin) (tok : Z) (ty : btype) : res br :=
    let* _ := ensure (br_cap_origin C o) "BadOrigin" in
    let* s1 := try_mutate_bridge_token s tok (fun t => match ty with BridgeIn => with_in t 0 | BridgeOut => with_out t 0 end) in
    Ok (emit s1 (EClean tok ty)).

  (** extrinsic [teleport] and [teleport_internal], lines 532-565 and 904-937.  The destination address is only
      copied into the event and is not modelled. *)
  Definition teleport (s : br) (who dest tok amt : Z) : res br :=
    let* _ := ensure_chain_registered s dest in
    let* _ := ensure_bridge_token_registered s tok in
    let* _ := ensure_amount_valid amt in
    let a := asset_id s tok in
    let t := bridge_token s a in
    let* _ := ensure (bt_enable t) "BridgeTokenDisabled" in
    let* s1 := update_bridge_token_cap s a amt BridgeOut in
    let* L := (if bt_external t then
                 let* L1 := burn_from P (b_led s1) a who amt in
                 mint_into P L1 a (br_acct C) (bt_fee t)
               else transfer P (b_led s1) a who (br_acct C) amt false) in
    let* actual := ok_or (checked_sub amt (bt_fee t)) "BridgingAmountTooLow" in
    let*' (n, s2) := bump_nonce (b_set_led s1 L) dest in
    Ok (emit s2 (ETeleport who dest n tok a (bt_external t) actual (bt_fee t))).

  (** [reducible_balance(asset, who, keep_alive)], never more than the balance *)
  Definition red (ka : bool) (L : ledger) (a w : Z) : Z := Z.max 0 (Z.min (bal L a w) (reducible P ka L a w)).
  (** [grant_incentive_bonus], lines 1019-1042 *)
  Definition grant_bonus (s : br) (who a amt : Z) : res br :=
    let gift := br_convert C amt a in
    let mine := red true (b_led s) (br_native C) who in
    let avail := red false (b_led s) (br_native C) (br_gift C) in
    if negb (gift =? 0) && (gift <=? avail) && (mine <? gift) then
      let* x := raw_add (br_ed C) gift in
      let* diff := raw_sub x mine in
      let* L := transfer P (b_led s) (br_native C) (br_gift C) who diff false in
      Ok (b_set_led s L)
    else Ok s.

  (** [execute_materialize], lines 966-1006 *)
  Definition execute_materialize (s : br) (c n : Z) (k : mcall) : res br :=
    let '(tok, to, amt) := k in
    let* _ := ensure_chain_registered s c in
    let* _ := ensure_bridge_token_registered s tok in
    let a := asset_id s tok in
    let* s1 := update_bridge_token_cap s a amt BridgeIn in
    let t := bridge_token s1 a in
    let* L := (if bt_external t then mint_into P (b_led s1) a to amt
               else transfer P (b_led s1) a (br_acct C) to amt true) in
    let* s2 := grant_bonus (b_set_led s1 L) to a amt in
    let* s3 := update_bridge_registry s2 c n in
    Ok (emit s3 (EMinted c n tok a (bt_external t) to amt)).
  (** [cancel_materialize], lines 1010-1015 *)
  Definition cancel_materialize (s : br) (c n : Z) : res br :=
    let* s1 := update_bridge_registry s c n in
    Ok (emit s1 (ERejected c n)).
  (** [resolve_proposal], lines 941-963 *)
  Definition resolve_proposal (s : br) (c n : Z) (k : mcall) : res br :=
    match b_votes s !! (c, n, k) with
    | None => Err "ProposalDoesNotExist"
    | Some p =>
        let* _ := ensure (negb (is_complete p)) "ProposalAlreadyComplete" in
        let* _ := ensure (negb (is_expired p (b_now s))) "ProposalExpired" in
        let*' (st, p') := try_to_complete p (b_thr s) (members_count s) in
        let s1 := set_votes s (<[(c, n, k) := p']> (b_votes s)) in
        match st with
        | Approved => execute_materialize s1 c n k
        | Rejected => cancel_materialize s1 c n
        | Initiated => Ok s1
        end
    end.
  (** [Proposal { expiry: now + lifetime, ..Default::default() }], lines 612-615 and types 85-94 *)
  Definition new_proposal (s : br) : res proposal :=
    let* e := raw_u32 (b_now s + br_life C) in Ok (mkProp [] [] Initiated e).
  Definition add_vote (p : proposal) (w : Z) (favour : bool) : proposal :=
    if favour then mkProp (p_for p ++ [w]) (p_against p) (p_status p) (p_expiry p)
    else mkProp (p_for p) (p_against p ++ [w]) (p_status p) (p_expiry p).
  (** extrinsic [materialize], lines 581-649 *)
  Definition materialize (s : br) (o : origin) (c n tok to amt : Z) (favour : bool) : res br :=
    let* who := ensure_relay_member s o in
    let* _ := ensure_chain_registered s c in
    let* _ := ensure_chain_nonce_valid s c n in
    let* _ := materialize_allowed s tok amt in
    let k := (tok, to, amt) in
    let* p := (match b_votes s !! (c, n, k) with Some p => Ok p | None => new_proposal s end) in
    let* _ := ensure (negb (is_complete p)) "ProposalAlreadyComplete" in
    let* _ := ensure (negb (is_expired p (b_now s))) "ProposalExpired" in
    let* _ := ensure (negb (has_voted p who)) "MemberAlreadyVoted" in
    let p' := add_vote p who favour in
    let s1 := emit (set_votes s (<[(c, n, k) := p']> (b_votes s))) (EVote favour c n who k (b_now s)) in
    resolve_proposal s1 c n k.

  (** hook [on_initialize], lines 654-664: drop every expired proposal *)
  Definition on_initialize (s : br) : br :=
    set_votes s (filter (fun kp => can_be_cleaned_up kp.2 (b_now s) = false) (b_votes s)).

  (** Everything that can happen: the ten extrinsics, a new block, a change of the relayer set by pallet-membership
      (followed by the threshold hook), and token operations by other users and pallets. *)
  Inductive br_op :=
  | BRegisterChain (o : origin) (c : Z)
  | BUnregisterChain (o : origin) (c : Z)
  | BRegisterToken (o : origin) (a : Z) (t : btoken)
  | BUnregisterToken (o : origin) (tok : Z)
  | BSetFee (o : origin) (tok fee : Z)
  | BSetStatus (o : origin) (tok : Z) (en : bool)
  | BSetCap (o : origin) (tok : Z) (ty : btype) (cap : Z)
  | BCleanCap (o : origin) (tok : Z) (ty : btype)
  | BTeleport (who dest tok amt : Z)
  | BMaterialize (o : origin) (c n tok to amt : Z) (favour : bool)
  | BBlock
  | BMembers (m : list Z)
  | BTransfer (a from to amt : Z)
  | BMint (a w amt : Z)
  | BBurn (a w amt : Z).

  Definition br_step (s : br) (op : br_op) : res br :=
    match op with
    | BRegisterChain o c => register_chain s o c
    | BUnregisterChain o c => unregister_chain s o c
    | BRegisterToken o a t => register_bridge_token s o a t
    | BUnregisterToken o tok => unregister_bridge_token s o tok
    | BSetFee o tok fee => set_bridge_token_fee s o tok fee
    | BSetStatus o tok en => set_bridge_token_status s o tok en
    | BSetCap o tok ty cap => set_bridge_token_cap s o tok ty cap
    | BCleanCap o tok ty => clean_cap s o tok ty
    | BTeleport w d tok amt => teleport s w d tok amt
    | BMaterialize o c n tok to amt f => materialize s o c n tok to amt f
    | BBlock => let* t := raw_u32 (b_now s + 1) in Ok (on_initialize (set_now s t))
    | BMembers m => let s1 := set_members s m in
                    Ok (match change_vote_threshold s1 with Ok s2 => s2 | _ => s1 end)
    | BTransfer a f t amt => let* L := transfer P (b_led s) a f t amt false in Ok (b_set_led s L)
    | BMint a w amt => let* L := mint_into P (b_led s) a w amt in Ok (b_set_led s L)
    | BBurn a w amt => let* L := burn_from P (b_led s) a w amt in Ok (b_set_led s L)
    end.
  (** extrinsics are [#[transactional]]: an error or a panic leaves the state unchanged *)
  Definition br_exec (s : br) (op : br_op) : br := match br_step s op with Ok s' => s' | _ => s end.
  (** genesis: the relayers come from the chain spec; [MembershipInitialized = ()] (runtime 1727), so the threshold
      keeps [DefaultVoteThreshold] = 1 (lines 283-290) *)
  Definition br_init (L : ledger) (members : list Z) (now : Z) : br :=
    mkBr 1 ∅ ∅ ∅ ∅ ∅ members L now [].
End bridge.
