(** * CrowdModel: the crowdloans pallet (pallets/crowdloans/src/{lib,types}.rs) with the streaming pallet it pays bonuses
    through (StreamModel) and the parts of pallets/xcm-helper/src/lib.rs it calls.

    Line numbers without a file are pallets/crowdloans/src/lib.rs.  Simplifications:
    - the token ledger and the clock are those of the embedded streaming state;
    - the relay chain is the environment: a request is recorded under a fresh query id and the answer arrives later, in any
      order, as a [notification_received] call; sending can fail for any reason ([ce_send]); message contents, referral codes,
      events, weights and logs are not modelled;
    - child tries are one map (trie index, kind, account) -> amount; iteration is in account order (the byte order of the key);
    - in [redeem_and_lend_for] whether the account nonce is positive and whether lending accepts the deposit are inputs; when it
      accepts, its effect on the ledger is the transfer to the lending account (LoansModel.do_mint);
    - [get_exchange_rate] (floating point) and migrations are not modelled, [get_vault_term_rate] is. *)
From Verif Require Import Base MapSum Ledger AmmModel StreamModel.

(** [VaultPhase], types.rs:27-48 *)
Inductive phase := Pending | Contributing | Closed | Failed | Succeeded | Expired.
Global Instance phase_eq : EqDecision phase. Proof. solve_decision. Defined.
(** [ChildStorageKind], types.rs:131-136 *)
Definition KPend : Z := 0. Definition KFly : Z := 1. Definition KContr : Z := 2.
(** [Vault], types.rs:50-77; [v_proxy]: the contribution strategy is XCMPROXY *)
Record vault := mkVault {
  v_ctoken : Z; v_phase : phase; v_contr : Z; v_pend : Z; v_fly : Z; v_proxy : bool;
  v_cap : Z; v_end : Z; v_trie : Z; v_ls : Z; v_le : Z
}.
(** [Vault::new], types.rs:80-104 *)
Definition vault_new (ls le ctoken : Z) (proxy : bool) (cap end_ trie : Z) : vault :=
  mkVault ctoken Pending 0 0 0 proxy cap end_ trie ls le.
Definition v_set_phase (v : vault) (p : phase) : vault :=
  mkVault (v_ctoken v) p (v_contr v) (v_pend v) (v_fly v) (v_proxy v) (v_cap v) (v_end v) (v_trie v) (v_ls v) (v_le v).
Definition v_set_contr (v : vault) (x : Z) : vault :=
  mkVault (v_ctoken v) (v_phase v) x (v_pend v) (v_fly v) (v_proxy v) (v_cap v) (v_end v) (v_trie v) (v_ls v) (v_le v).
Definition v_set_pend (v : vault) (x : Z) : vault :=
  mkVault (v_ctoken v) (v_phase v) (v_contr v) x (v_fly v) (v_proxy v) (v_cap v) (v_end v) (v_trie v) (v_ls v) (v_le v).
Definition v_set_fly (v : vault) (x : Z) : vault :=
  mkVault (v_ctoken v) (v_phase v) (v_contr v) (v_pend v) x (v_proxy v) (v_cap v) (v_end v) (v_trie v) (v_ls v) (v_le v).
(** counter of a kind *)
Definition v_get (v : vault) (k : Z) : Z := if k =? KPend then v_pend v else if k =? KFly then v_fly v else v_contr v.
Definition v_put (v : vault) (k x : Z) : vault :=
  if k =? KPend then v_set_pend v x else if k =? KFly then v_set_fly v x else v_set_contr v x.
(** [XcmRequest], types.rs:112-129 *)
Inductive creq :=
| QContribute (para ls le who amt : Z)
| QWithdraw (para ls le amt : Z) (target : phase).
(** [BonusConfig], types.rs:152-177 *)
Record bonus := mkBonus { bo_per : Z; bo_start : Z; bo_end : Z }.
Definition bonus_default : bonus := mkBonus 0 0 0.

(** the origins of [Config], 150-189 *)
Inductive role := RProxy | RMigrate | RVrf | RCreate | RRefund | RDissolve | RUpdate | ROpenClose | RAuction | RSlot.
(** [Config], 104-211 *)
Record cr_cfg := mkCrCfg {
  cc_str : str_cfg;                (* the streaming pallet *)
  cc_acct : account;               (* account_id() *)
  cc_xcm : account;                (* account of pallet-xcm-helper *)
  cc_loans : account;              (* account of the lending pallet *)
  cc_relay : asset; cc_native : asset;
  cc_min : Z; cc_migrate : Z; cc_remove : Z;  (* MinContribution, MigrateKeysLimit, RemoveKeysLimit *)
  cc_dec_relay : option Z; cc_dec_native : option Z;
  cc_org : role -> origin -> bool; cc_member : account -> bool;
  cc_period : Z; cc_offset : Z; cc_per_year : Z
}.
Record cr_env := mkCrEnv { ce_pol : policy; ce_send : Z -> bool }.
(** Storage, 336-407 *)
Record cr := mkCr {
  c_str : str;                               (* streaming state, with the ledger and the clock *)
  c_vaults : gmap (Z * Z * Z) vault;         (* Vaults: (para, lease_start, lease_end) *)
  c_vrf : bool;
  c_ctok : gmap (Z * Z) Z;                   (* CTokensRegistry *)
  c_leases : gmap Z (Z * Z);                 (* LeasesRegistry *)
  c_next : Z;                                (* NextTrieIndex *)
  c_reqs : gmap Z creq;
  c_proxy : option Z;
  c_bonus : gmap (Z * Z) bonus;
  c_con : gmap (Z * Z * Z) Z;                (* child tries: (trie, kind, account) *)
  c_qid : Z;                                 (* pallet-xcm's query counter *)
  c_rblock : Z;                              (* relay-chain block number *)
  c_xfee : gmap Z Z                          (* XcmWeightFee of pallet-xcm-helper *)
}.
Definition set_c_str (s : cr) x := mkCr x (c_vaults s) (c_vrf s) (c_ctok s) (c_leases s) (c_next s) (c_reqs s) (c_proxy s) (c_bonus s) (c_con s) (c_qid s) (c_rblock s) (c_xfee s).
Definition set_c_vaults (s : cr) x := mkCr (c_str s) x (c_vrf s) (c_ctok s) (c_leases s) (c_next s) (c_reqs s) (c_proxy s) (c_bonus s) (c_con s) (c_qid s) (c_rblock s) (c_xfee s).
Definition set_c_vrf (s : cr) x := mkCr (c_str s) (c_vaults s) x (c_ctok s) (c_leases s) (c_next s) (c_reqs s) (c_proxy s) (c_bonus s) (c_con s) (c_qid s) (c_rblock s) (c_xfee s).
Definition set_c_ctok (s : cr) x := mkCr (c_str s) (c_vaults s) (c_vrf s) x (c_leases s) (c_next s) (c_reqs s) (c_proxy s) (c_bonus s) (c_con s) (c_qid s) (c_rblock s) (c_xfee s).
Definition set_c_leases (s : cr) x := mkCr (c_str s) (c_vaults s) (c_vrf s) (c_ctok s) x (c_next s) (c_reqs s) (c_proxy s) (c_bonus s) (c_con s) (c_qid s) (c_rblock s) (c_xfee s).
Definition set_c_next (s : cr) x := mkCr (c_str s) (c_vaults s) (c_vrf s) (c_ctok s) (c_leases s) x (c_reqs s) (c_proxy s) (c_bonus s) (c_con s) (c_qid s) (c_rblock s) (c_xfee s).
Definition set_c_reqs (s : cr) x := mkCr (c_str s) (c_vaults s) (c_vrf s) (c_ctok s) (c_leases s) (c_next s) x (c_proxy s) (c_bonus s) (c_con s) (c_qid s) (c_rblock s) (c_xfee s).
Definition set_c_proxy (s : cr) x := mkCr (c_str s) (c_vaults s) (c_vrf s) (c_ctok s) (c_leases s) (c_next s) (c_reqs s) x (c_bonus s) (c_con s) (c_qid s) (c_rblock s) (c_xfee s).
Definition set_c_bonus (s : cr) x := mkCr (c_str s) (c_vaults s) (c_vrf s) (c_ctok s) (c_leases s) (c_next s) (c_reqs s) (c_proxy s) x (c_con s) (c_qid s) (c_rblock s) (c_xfee s).
Definition set_c_con (s : cr) x := mkCr (c_str s) (c_vaults s) (c_vrf s) (c_ctok s) (c_leases s) (c_next s) (c_reqs s) (c_proxy s) (c_bonus s) x (c_qid s) (c_rblock s) (c_xfee s).
Definition set_c_qid (s : cr) x := mkCr (c_str s) (c_vaults s) (c_vrf s) (c_ctok s) (c_leases s) (c_next s) (c_reqs s) (c_proxy s) (c_bonus s) (c_con s) x (c_rblock s) (c_xfee s).
Definition set_c_rblock (s : cr) x := mkCr (c_str s) (c_vaults s) (c_vrf s) (c_ctok s) (c_leases s) (c_next s) (c_reqs s) (c_proxy s) (c_bonus s) (c_con s) (c_qid s) x (c_xfee s).
Definition set_c_xfee (s : cr) x := mkCr (c_str s) (c_vaults s) (c_vrf s) (c_ctok s) (c_leases s) (c_next s) (c_reqs s) (c_proxy s) (c_bonus s) (c_con s) (c_qid s) (c_rblock s) x.
Definition c_led (s : cr) : ledger := s_led (c_str s).
Definition set_c_led (s : cr) (L : ledger) : cr := set_c_str s (s_set_led (c_str s) L).
(** [Vaults::insert((crowdloan, lease_start, lease_end), vault)] *)
Definition put_vault (s : cr) (k : Z * Z * Z) (v : vault) : cr := set_c_vaults s (<[k := v]> (c_vaults s)).

(** keys of the XCM fee table, primitives/src/ump.rs *)
Definition XC_CONTRIBUTE : Z := 10. Definition XC_WITHDRAW : Z := 11.

Section crowd.
  Context (C : cr_cfg) (E : cr_env).
  Let P := ce_pol E.

  (** macro [ensure_origin!], 90-101 *)
  Definition ensure_role (r : role) (o : origin) : res unit :=
    if cc_org C r o then Ok tt else
    match o with Signed w => ensure (cc_member C w) "BadOrigin" | Root => Err "BadOrigin" end.
  (** [current_vault], 1236-1240: with its key *)
  Definition current_vault (s : cr) (para : Z) : option (Z * Z * Z * vault) :=
    match c_leases s !! para with
    | Some (a, b) => match c_vaults s !! (para, a, b) with Some v => Some ((para, a, b), v) | None => None end
    | None => None
    end.
  (** [total_contribution], 1242-1250 *)
  Definition total_contribution (v : vault) : res Z :=
    let* x := ok_or (checked_add (v_contr v) (v_fly v)) "Overflow" in
    ok_or (checked_add x (v_pend v)) "Overflow".
  (** [contribution_get], 1510-1521 *)
  Definition con_get (s : cr) (t k w : Z) : Z := default 0 (c_con s !! (t, k, w)).
  (** [contribution_put], [contribution_kill], 1493-1508, 1523-1529 *)
  Definition con_put (s : cr) (t k w x : Z) : cr :=
    set_c_con s (if x =? 0 then delete (t, k, w) (c_con s) else <[(t, k, w) := x]> (c_con s)).
  (** [do_update_contribution], 1259-1349 *)
  Definition upd_con (s : cr) (v : vault) (w amt : Z) (add : bool) (k : Z) : res (cr * vault) :=
    let x := con_get s (v_trie v) k w in
    if add then
      let* c := ok_or (checked_add (v_get v k) amt) "Overflow" in
      let* n := ok_or (checked_add x amt) "Overflow" in
      Ok (con_put s (v_trie v) k w n, v_put v k c)
    else
      let* c := ok_or (checked_sub (v_get v k) amt) "Underflow" in
      let* n := ok_or (checked_sub x amt) "Underflow" in
      Ok (con_put s (v_trie v) k w n, v_put v k c).
  (** [do_migrate_contribution], 1351-1377 *)
  Definition migrate_con (s : cr) (v : vault) (w amt src dst : Z) : res (cr * vault) :=
    let*' (s1, v1) := upd_con s v w amt false src in
    upd_con s1 v1 w amt true dst.
  (** keys of one child trie in account order, with their amounts: [contribution_iterator], 1531-1539 *)
  Fixpoint ins_who (x : Z * Z) (l : list (Z * Z)) : list (Z * Z) :=
    match l with [] => [x] | y :: r => if x.1 <=? y.1 then x :: l else y :: ins_who x r end.
  Definition contributions (s : cr) (t k : Z) : list (Z * Z) :=
    foldr ins_who [] (omap (fun e => if bool_decide (e.1.1 = (t, k)) then Some (e.1.2, e.2) else None) (map_to_list (c_con s))).

  (** xcm-helper [do_ump_transact] (345-372), [report_outcome_notify] (258-291), [send_xcm]; then [XcmRequests::insert] *)
  Definition csend (s : cr) (k : Z) (r : creq) : res cr :=
    let fee := default 0 (c_xfee s !! k) in
    let* L := match burn_from P (c_led s) (cc_relay C) (cc_xcm C) fee with
              | Ok L => Ok L | Err _ => Err "InsufficientXcmFees" | Panic => Panic end in
    let* _ := ensure (ce_send E (c_qid s)) "SendFailure" in
    let s1 := set_c_led s L in
    Ok (set_c_qid (set_c_reqs s1 (<[c_qid s := r]> (c_reqs s1))) (c_qid s + 1)).
  (** [do_contribute], 1541-1588; xcm-helper do_contribute 460-499, do_proxy_contribute 501-550 *)
  Definition do_contribute (s : cr) (w : Z) (k : Z * Z * Z) (proxy : bool) (amt : Z) : res cr :=
    let* _ := ensure (if proxy then bool_decide (is_Some (c_proxy s)) else true) "EmptyProxyAddress" in
    csend s XC_CONTRIBUTE (QContribute k.1.1 k.1.2 k.2 w amt).
  (** [do_withdraw], 1590-1628; xcm-helper do_withdraw 424-458 *)
  Definition do_withdraw (s : cr) (k : Z * Z * Z) (amt : Z) (target : phase) : res cr :=
    csend s XC_WITHDRAW (QWithdraw k.1.1 k.1.2 k.2 amt target).

  (** extrinsic [create_vault], 426-501 *)
  Definition create_vault (s : cr) (o : origin) (para ctoken ls le : Z) (proxy : bool) (cap end_ : Z) : res cr :=
    let* _ := ensure_role RCreate o in
    let* _ := ensure (negb (cap =? 0)) "InvalidCap" in
    let* _ := ensure (ls <=? le) "LastPeriodBeforeFirstPeriod" in
    let* _ := ensure (match c_ctok s !! (ls, le) with Some c => c =? ctoken | None => true end) "InvalidCToken" in
    let* _ := ensure (negb (bool_decide (is_Some (c_vaults s !! (para, ls, le))))) "VaultAlreadyExists" in
    let* _ := ensure (match current_vault s para with
                      | Some (_, v) => bool_decide (v_phase v = Failed \/ v_phase v = Expired)
                      | None => true end) "VaultNotEnded" in
    let* _ := ensure (c_rblock s <=? end_) "EndBlockExceeded" in
    let* _ := ensure (c_next s + 1 <=? U32MAX) "Overflow" in
    let s1 := put_vault (set_c_next s (c_next s + 1)) (para, ls, le) (vault_new ls le ctoken proxy cap end_ (c_next s)) in
    Ok (set_c_leases (set_c_ctok s1 (<[(ls, le) := ctoken]> (c_ctok s1))) (<[para := (ls, le)]> (c_leases s1))).
  (** extrinsic [update_vault], 507-556 *)
  Definition update_vault (s : cr) (o : origin) (para : Z) (cap end_ : option Z) (proxy : option bool) : res cr :=
    let* _ := ensure_role RUpdate o in
    let* kv := ok_or (current_vault s para) "VaultDoesNotExist" in
    let v := kv.2 in
    let* _ := ensure (match cap with Some c => negb (c =? 0) | None => true end) "InvalidCap" in
    let* _ := ensure (match end_ with Some e => c_rblock s <=? e | None => true end) "EndBlockExceeded" in
    let v' := mkVault (v_ctoken v) (v_phase v) (v_contr v) (v_pend v) (v_fly v) (default (v_proxy v) proxy)
                (default (v_cap v) cap) (default (v_end v) end_) (v_trie v) (v_ls v) (v_le v) in
    Ok (put_vault s (para, v_ls v, v_le v) v').
  (** [try_mutate_vault], 1461-1478, with a callback that only sets the phase *)
  Definition try_phase (s : cr) (para : Z) (from to : phase) : res cr :=
    let* kv := ok_or (current_vault s para) "VaultDoesNotExist" in
    let* _ := ensure (bool_decide (v_phase kv.2 = from)) "IncorrectVaultPhase" in
    Ok (put_vault s (para, v_ls kv.2, v_le kv.2) (v_set_phase kv.2 to)).
  (** [try_mutate_vault] with a callback that asks the relay chain to withdraw: [auction_failed] 785-802, [slot_expired] 885-902 *)
  Definition try_withdraw (s : cr) (para : Z) (from to : phase) : res cr :=
    let* kv := ok_or (current_vault s para) "VaultDoesNotExist" in
    let* _ := ensure (bool_decide (v_phase kv.2 = from)) "IncorrectVaultPhase" in
    let* s1 := do_withdraw s (para, v_ls kv.2, v_le kv.2) (v_contr kv.2) to in
    Ok (put_vault s1 (para, v_ls kv.2, v_le kv.2) kv.2).
  (** extrinsics [open] 562-582, [close] 691-711, [reopen] 717-737, [auction_succeeded] 743-763 *)
  Definition open_vault (s : cr) (o : origin) (para : Z) : res cr :=
    let* _ := ensure_role ROpenClose o in try_phase s para Pending Contributing.
  Definition close_vault (s : cr) (o : origin) (para : Z) : res cr :=
    let* _ := ensure_role ROpenClose o in try_phase s para Contributing Closed.
  Definition reopen_vault (s : cr) (o : origin) (para : Z) : res cr :=
    let* _ := ensure_role ROpenClose o in try_phase s para Closed Contributing.
  Definition auction_succeeded (s : cr) (o : origin) (para : Z) : res cr :=
    let* _ := ensure_role RAuction o in try_phase s para Closed Succeeded.
  Definition auction_failed (s : cr) (o : origin) (para : Z) : res cr :=
    let* _ := ensure_role RAuction o in try_withdraw s para Closed Failed.
  Definition slot_expired (s : cr) (o : origin) (para : Z) : res cr :=
    let* _ := ensure_role RSlot o in try_withdraw s para Succeeded Expired.
  (** extrinsic [set_vrf], 670-685 *)
  Definition set_vrf (s : cr) (o : origin) (b : bool) : res cr :=
    let* _ := ensure_role RVrf o in Ok (set_c_vrf s b).

  (** extrinsic [contribute], 589-664 *)
  Definition contribute (s : cr) (w para amt : Z) : res cr :=
    let* kv := ok_or (current_vault s para) "VaultDoesNotExist" in
    let v := kv.2 in
    let* _ := ensure (negb (amt =? 0)) "InvalidParams" in
    let* _ := ensure (c_rblock s <=? v_end v) "EndBlockExceeded" in
    let* _ := ensure (bool_decide (v_phase v = Contributing \/ v_phase v = Pending)) "IncorrectVaultPhase" in
    let* _ := ensure (cc_min C <=? amt) "InsufficientContribution" in
    let* _ := ensure (negb (c_vrf s)) "VrfDelayInProgress" in
    let* t := total_contribution v in
    let* t' := ok_or (checked_add t amt) "Overflow" in
    let* _ := ensure (t' <=? v_cap v) "CapExceeded" in
    let* L := transfer P (c_led s) (cc_relay C) w (cc_acct C) amt false in
    let s1 := set_c_led s L in
    if bool_decide (v_phase v = Contributing) then
      let*' (s2, v2) := upd_con s1 v w amt true KFly in
      let* s3 := do_contribute s2 w (para, v_ls v2, v_le v2) (v_proxy v2) amt in
      Ok (put_vault s3 (para, v_ls v2, v_le v2) v2)
    else
      let*' (s2, v2) := upd_con s1 v w amt true KPend in
      Ok (put_vault s2 (para, v_ls v2, v_le v2) v2).

  (** the loop of [migrate_pending], 922-944: at most [n] keys *)
  Fixpoint migrate_loop (l : list (Z * Z)) (n : nat) (s : cr) (v : vault) (para : Z) : res (cr * vault) :=
    match l, n with
    | (w, amt) :: l', S n' =>
        let*' (s1, v1) := migrate_con s v w amt KPend KFly in
        let* s2 := do_contribute s1 w (para, v_ls v1, v_le v1) (v_proxy v1) amt in
        migrate_loop l' n' s2 v1 para
    | _, _ => Ok (s, v)
    end.
  (** extrinsic [migrate_pending], 908-966 *)
  Definition migrate_pending (s : cr) (o : origin) (para : Z) : res cr :=
    let* _ := ensure_role RMigrate o in
    let* kv := ok_or (current_vault s para) "VaultDoesNotExist" in
    let v := kv.2 in
    let* _ := ensure (bool_decide (v_phase v = Pending \/ v_phase v = Contributing)) "IncorrectVaultPhase" in
    let* _ := ensure (negb (c_vrf s)) "VrfDelayInProgress" in
    let*' (s1, v1) := migrate_loop (contributions s (v_trie v) KPend) (Z.to_nat (cc_migrate C)) s v para in
    Ok (put_vault s1 (para, v_ls v1, v_le v1) v1).

  (** [do_notification_received], 1379-1459 *)
  Definition notified (s : cr) (q : Z) (r : creq) (executed : bool) : res cr :=
    let* s1 :=
      match r with
      | QContribute para ls le w amt =>
          let* v := ok_or (c_vaults s !! (para, ls, le)) "VaultDoesNotExist" in
          if executed then
            let* L := burn_from P (c_led s) (cc_relay C) (cc_acct C) amt in
            let*' (s2, v2) := migrate_con (set_c_led s L) v w amt KFly KContr in
            Ok (put_vault s2 (para, ls, le) v2)
          else
            let* L := transfer P (c_led s) (cc_relay C) (cc_acct C) w amt false in
            let*' (s2, v2) := upd_con (set_c_led s L) v w amt false KFly in
            Ok (put_vault s2 (para, ls, le) v2)
      | QWithdraw para ls le _ target =>
          if executed then
            let* v := ok_or (c_vaults s !! (para, ls, le)) "VaultDoesNotExist" in
            Ok (put_vault s (para, ls, le) (v_set_phase v target))
          else Ok s
      end in
    Ok (if executed then set_c_reqs s1 (delete q (c_reqs s1)) else s1).
  (** extrinsic [notification_received], 971-992; [resp]: the origin is an XCM response; [r]: not an execution result, or
      whether the execution succeeded.  [UpdateOrigin] is checked without the automation members. *)
  Definition notification (s : cr) (resp : bool) (o : origin) (q : Z) (r : option bool) : res cr :=
    let* _ := ensure (resp || cc_org C RUpdate o) "BadOrigin" in
    match r with
    | None => Ok s
    | Some ok => match c_reqs s !! q with Some req => notified s q req ok | None => Ok s end
    end.

  (** [do_refund_for], 1783-1809 *)
  Definition do_refund_for (s : cr) (w : Z) (v : vault) (k amt : Z) : res (cr * vault) :=
    let* L := (if k =? KContr then mint_into P (c_led s) (cc_relay C) w amt
               else transfer P (c_led s) (cc_relay C) (cc_acct C) w amt false) in
    upd_con (set_c_led s L) v w amt false k.
  (** the loop of [refund], 1019-1030: [n] keys may still be refunded *)
  Fixpoint refund_loop (l : list (Z * (Z * Z))) (n : nat) (s : cr) (v : vault) : res (cr * vault) :=
    match l, n with
    | (k, (w, amt)) :: l', S n' =>
        let*' (s1, v1) := do_refund_for s w v k amt in
        refund_loop l' n' s1 v1
    | _, _ => Ok (s, v)
    end.
  (** extrinsic [refund], 998-1044 *)
  Definition refund (s : cr) (o : origin) (para ls le : Z) : res cr :=
    let* _ := ensure_role RRefund o in
    let* v := ok_or (c_vaults s !! (para, ls, le)) "VaultDoesNotExist" in
    let* _ := ensure (bool_decide (v_phase v = Closed \/ v_phase v = Failed)) "IncorrectVaultPhase" in
    let todo := map (pair KContr) (contributions s (v_trie v) KContr) ++ map (pair KFly) (contributions s (v_trie v) KFly)
                ++ map (pair KPend) (contributions s (v_trie v) KPend) in
    let*' (s1, v1) := refund_loop todo (Z.to_nat (cc_remove C)) s v in
    Ok (put_vault s1 (para, ls, le) v1).
  (** extrinsic [refund_for], 1098-1136 *)
  Definition refund_for (s : cr) (o : origin) (w para k amt ls le : Z) : res cr :=
    let* _ := ensure_role RRefund o in
    let* v := ok_or (c_vaults s !! (para, ls, le)) "VaultDoesNotExist" in
    let* _ := ensure (bool_decide (v_phase v = Closed)) "IncorrectVaultPhase" in
    let* _ := ensure (amt <=? con_get s (v_trie v) k w) "InsufficientContribution" in
    let*' (s1, v1) := do_refund_for s w v k amt in
    Ok (put_vault s1 (para, ls, le) v1).
  (** [has_childstorage], 1630-1638 *)
  Definition has_childstorage (s : cr) (t : Z) : bool :=
    existsb (fun k => negb (bool_decide (contributions s t k = []))) [KContr; KFly; KPend].
  (** extrinsic [dissolve_vault], 1050-1090 *)
  Definition dissolve_vault (s : cr) (o : origin) (para ls le : Z) : res cr :=
    let* _ := ensure_role RDissolve o in
    let* v := ok_or (c_vaults s !! (para, ls, le)) "VaultDoesNotExist" in
    let* _ := ensure (bool_decide (v_phase v = Closed \/ v_phase v = Failed \/ v_phase v = Expired)) "IncorrectVaultPhase" in
    let* _ := ensure (negb (has_childstorage s (v_trie v))) "NotReadyToDissolve" in
    let* t := total_contribution v in
    let* _ := ensure (t =? 0) "NotReadyToDissolve" in
    let s1 := set_c_vaults s (delete (para, ls, le) (c_vaults s)) in
    Ok (match c_leases s !! para with
        | Some id => if bool_decide (id = (ls, le)) then set_c_leases s1 (delete para (c_leases s1)) else s1
        | None => s1 end).

  (** [10u128.checked_pow(n)] *)
  Definition pow10 (n : Z) : option Z := chk (10 ^ n).
  (** [normalized_amount], 1710-1723 *)
  Definition normalized_amount (amt : Z) : option Z :=
    match cc_dec_relay C, cc_dec_native C with
    | Some r, Some n =>
        if r <? n then match pow10 (n - r) with Some m => checked_mul amt m | None => None end
        else if r =? n then Some amt
        else match pow10 (r - n) with Some m => checked_div amt m | None => None end
    | _, _ => None
    end.
  (** the bonus of a claim, 1682-1685 *)
  Definition bonus_amount (s : cr) (ls le amt : Z) : Z :=
    default 0 (normalized_amount (sat128 (amt * bo_per (default bonus_default (c_bonus s !! (ls, le)))))).
  (** [do_claim_for], 1640-1708 *)
  Definition do_claim_for (s : cr) (w para ls le : Z) (force : bool) : res cr :=
    let* ctoken := ok_or (c_ctok s !! (ls, le)) "CTokenDoesNotExist" in
    let* v := ok_or (c_vaults s !! (para, ls, le)) "VaultDoesNotExist" in
    let* _ := ensure (force || bool_decide (v_phase v = Succeeded)) "IncorrectVaultPhase" in
    let amt := con_get s (v_trie v) KContr w in
    let* _ := ensure (negb (amt =? 0)) "NoContributions" in
    let* L := mint_into P (c_led s) ctoken w amt in
    let s1 := con_put (set_c_led s L) (v_trie v) KContr w 0 in
    let b := default bonus_default (c_bonus s !! (ls, le)) in
    let x := bonus_amount s ls le amt in
    if x =? 0 then Ok s1 else
    let* st := trait_create (cc_str C) P (c_str s1) (cc_acct C) w x (cc_native C) (bo_start b) (bo_end b) false in
    Ok (set_c_str s1 st).
  (** extrinsics [claim], [claim_for], 808-836: the caller does not matter *)
  Definition claim (s : cr) (w para ls le : Z) : res cr := do_claim_for s w para ls le false.
  (** extrinsic [force_claim_for], 1186-1196 *)
  Definition force_claim (s : cr) (o : origin) (w para ls le : Z) : res cr :=
    let* _ := ensure_role RSlot o in do_claim_for s w para ls le true.
  (** extrinsics [withdraw], [withdraw_for], 842-868; [do_withdraw_for], 1725-1781 *)
  Definition withdraw_for (s : cr) (w para ls le : Z) : res cr :=
    let* v := ok_or (c_vaults s !! (para, ls, le)) "VaultDoesNotExist" in
    let* _ := ensure (bool_decide (v_phase v = Failed)) "IncorrectVaultPhase" in
    let amt := con_get s (v_trie v) KContr w in
    let* _ := ensure (negb (amt =? 0)) "NoContributions" in
    let s1 := con_put s (v_trie v) KContr w 0 in
    let* c := ok_or (checked_sub (v_contr v) amt) "Underflow" in
    let* L := mint_into P (c_led s1) (cc_relay C) w amt in
    Ok (put_vault (set_c_led s1 L) (para, ls, le) (v_set_contr v c)).
  (** [reducible_balance(asset, who, false)], never more than the balance *)
  Definition cred (s : cr) (a w : Z) : Z := Z.max 0 (Z.min (bal (c_led s) a w) (reducible P false (c_led s) a w)).
  (** extrinsic [redeem], 872-884; [do_redeem], 1811-1867 *)
  Definition redeem (s : cr) (w para ls le amt : Z) : res cr :=
    let* ctoken := ok_or (c_ctok s !! (ls, le)) "CTokenDoesNotExist" in
    let* v := ok_or (c_vaults s !! (para, ls, le)) "VaultDoesNotExist" in
    let* _ := ensure (bool_decide (v_phase v = Expired)) "IncorrectVaultPhase" in
    let* _ := ensure (amt <=? cred s ctoken w) "InsufficientBalance" in
    let* c := ok_or (checked_sub (v_contr v) amt) "Underflow" in
    let* L := burn_from P (c_led s) ctoken w amt in
    let* L2 := mint_into P L (cc_relay C) w amt in
    Ok (put_vault (set_c_led s L2) (para, ls, le) (v_set_contr v c)).
  (** extrinsic [redeem_and_lend_for], 1202-1224 *)
  Definition redeem_and_lend (s : cr) (o : origin) (nonce_positive lend_accepts : bool) (w para ls le amt : Z) : res cr :=
    let* _ := ensure_role RSlot o in
    let* _ := ensure nonce_positive "InvalidParams" in
    let* s1 := redeem s w para ls le amt in
    let* _ := ensure lend_accepts "LendingRefused" in
    let* L := transfer P (c_led s1) (cc_relay C) w (cc_loans C) amt false in
    Ok (set_c_led s1 L).
  (** extrinsic [update_proxy], 1142-1155 *)
  Definition update_proxy (s : cr) (o : origin) (a : Z) : res cr :=
    let* _ := ensure (cc_org C RProxy o) "BadOrigin" in Ok (set_c_proxy s (Some a)).
  (** extrinsic [update_leases_bonus], 1161-1180 *)
  Definition update_bonus (s : cr) (o : origin) (ls le : Z) (b : bonus) : res cr :=
    let* _ := ensure_role RUpdate o in
    let* _ := ensure (ls <=? le) "LastPeriodBeforeFirstPeriod" in
    let* _ := ensure (bo_start b <? bo_end b) "WrongBonusConfig" in
    Ok (set_c_bonus s (<[(ls, le) := b]> (c_bonus s))).
  (** xcm-helper [update_xcm_weight_fee], lib.rs:144-161 (its own origin; the fee only) *)
  Definition set_xfee (s : cr) (k x : Z) : res cr :=
    let* _ := ensure (negb (x =? 0)) "ZeroXcmFees" in Ok (set_c_xfee s (<[k := x]> (c_xfee s))).

  (** [get_vault_term_rate], 1879-1915: (term rate, total term in years), inner values; u32 arithmetic *)
  Definition sat32 (x : Z) : Z := Z.max 0 (Z.min x U32MAX).
  Definition term_rate (s : cr) (ls le : Z) : res (option (Z * Z)) :=
    if c_rblock s =? 0 then Ok None else
    let start_block := sat32 (sat32 (cc_period C * ls) + cc_offset C) in
    let* _ := (if le + 1 <=? U32MAX then Ok tt else Panic) in
    let end_block := sat32 (sat32 (cc_period C * (le + 1)) + cc_offset C) in
    let* _ := (if ls <=? le then Ok tt else Panic) in
    let len := sat32 (cc_period C * (le - ls + 1)) in
    let year := sat32 (cc_per_year C * cc_period C) in
    let* total := f_saturating_from_rational len year in
    if c_rblock s <? start_block then Ok (Some (0, total)) else
    if c_rblock s <? end_block then
      let* r := f_saturating_from_rational (Z.max 0 (c_rblock s - start_block)) len in Ok (Some (r, total))
    else Ok (Some (FDIV, total)).

  (** ** Everything that can happen *)
  Inductive cr_op :=
  | CCreate (o : origin) (para ctoken ls le : Z) (proxy : bool) (cap end_ : Z)
  | CUpdate (o : origin) (para : Z) (cap end_ : option Z) (proxy : option bool)
  | COpen (o : origin) (para : Z)
  | CContribute (w para amt : Z)
  | CVrf (o : origin) (b : bool)
  | CClose (o : origin) (para : Z)
  | CReopen (o : origin) (para : Z)
  | CSucceeded (o : origin) (para : Z)
  | CFailed (o : origin) (para : Z)
  | CClaim (w para ls le : Z)
  | CWithdraw (w para ls le : Z)
  | CRedeem (w para ls le amt : Z)
  | CSlotExpired (o : origin) (para : Z)
  | CMigrate (o : origin) (para : Z)
  | CNotify (resp : bool) (o : origin) (q : Z) (r : option bool)
  | CRefund (o : origin) (para ls le : Z)
  | CDissolve (o : origin) (para ls le : Z)
  | CRefundFor (o : origin) (w para k amt ls le : Z)
  | CProxy (o : origin) (a : Z)
  | CBonus (o : origin) (ls le : Z) (b : bonus)
  | CForceClaim (o : origin) (w para ls le : Z)
  | CRedeemLend (o : origin) (nonce_positive lend_accepts : bool) (w para ls le amt : Z)
  | CXFee (k x : Z)
  | CRelayBlock (b : Z)
  | CStr (o : str_op).                       (* streaming calls, the clock and token movements by others *)

  Definition cr_step (s : cr) (op : cr_op) : res cr :=
    match op with
    | CCreate o p c a b px cap e => create_vault s o p c a b px cap e
    | CUpdate o p cap e px => update_vault s o p cap e px
    | COpen o p => open_vault s o p
    | CContribute w p x => contribute s w p x
    | CVrf o b => set_vrf s o b
    | CClose o p => close_vault s o p
    | CReopen o p => reopen_vault s o p
    | CSucceeded o p => auction_succeeded s o p
    | CFailed o p => auction_failed s o p
    | CClaim w p a b => claim s w p a b
    | CWithdraw w p a b => withdraw_for s w p a b
    | CRedeem w p a b x => redeem s w p a b x
    | CSlotExpired o p => slot_expired s o p
    | CMigrate o p => migrate_pending s o p
    | CNotify resp o q r => notification s resp o q r
    | CRefund o p a b => refund s o p a b
    | CDissolve o p a b => dissolve_vault s o p a b
    | CRefundFor o w p k x a b => refund_for s o w p k x a b
    | CProxy o a => update_proxy s o a
    | CBonus o a b c => update_bonus s o a b c
    | CForceClaim o w p a b => force_claim s o w p a b
    | CRedeemLend o n l w p a b x => redeem_and_lend s o n l w p a b x
    | CXFee k x => set_xfee s k x
    | CRelayBlock b => Ok (set_c_rblock s (Z.max (c_rblock s) b))
    | CStr o => let* st := str_step (cc_str C) P (c_str s) o in Ok (set_c_str s st)
    end.
  (** extrinsics are [#[transactional]]: an error or a panic leaves the state unchanged *)
  Definition cr_exec (s : cr) (op : cr_op) : cr := match cr_step s op with Ok s' => s' | _ => s end.
  Definition cr_init (st : str) : cr := mkCr st ∅ false ∅ ∅ 0 ∅ None ∅ ∅ 0 0 ∅.
End crowd.
