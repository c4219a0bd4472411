(** * AuthModel: in whose name calls run.
    The delegation types and the call filter of the runtime (runtime/parallel/src/lib.rs:253-354, 902-1030; heiko and vanilla are the
    same, kerria's delegation types leave out a few calls) together with the pallets that dispatch other calls: pallet_proxy, pallet_utility,
    pallet_multisig, the two councils (pallet_collective) and evm-signatures.  The dependencies are modelled by their
    documented behaviour at the version the runtime pins (substrate polkadot-v0.9.38); they are not part of /repo.

    All other calls are an arbitrary function [ac_other] on storage that is disjoint from the registered delegates.
    Not modelled: weights, events, deposits for delegates and announcements (an arbitrary refusal, [ac_pays]), the book-keeping of
    multisig approvals (an arbitrary function [ac_multi]), deferred calls (democracy, scheduler: they run as governance
    dispatches [XGov]), XCM Transact. *)
From Verif Require Import Base.

(** construct_runtime!, runtime/parallel/src/lib.rs:1955-2038 *)
Inductive pallet :=
| System | Timestamp | Utility | Multisig | Balances | Assets | Proxy | Identity
| Democracy | GeneralCouncil | TechnicalCommittee | Treasury | Scheduler | Preimage
| ParachainSystem | XcmpQueue | DmpQueue | PolkadotXcm | CumulusXcm
| CollatorSelection | Session
| Oracle | XTokens | OrmlXcm | Vesting
| Loans | Prices | Crowdloans | LiquidStaking
| GeneralCouncilMembership | TechnicalCommitteeMembership | OracleMembership | LiquidStakingAgentsMembership
| BridgeMembership | CrowdloansAutomatorsMembership
| AMM | AMMRoute | CurrencyAdapter
| Bridge | EmergencyShutdown | Farming | XcmHelper | Streaming | AssetRegistry
| EVM | Ethereum | BaseFee | EVMSignatureCall.
Global Instance pallet_eq : EqDecision pallet.
Proof. solve_decision. Defined.

(** runtime/parallel/src/lib.rs:915-925; the derived order is the order of declaration *)
Inductive ptype := PAny | PLoans | PStaking | PCrowdloans | PFarming | PStreaming | PGovernance | PAmm | PEvm.
Global Instance ptype_eq : EqDecision ptype.
Proof. solve_decision. Defined.
Definition ptype_ix (t : ptype) : Z :=
  match t with
  | PAny => 0 | PLoans => 1 | PStaking => 2 | PCrowdloans => 3 | PFarming => 4 | PStreaming => 5 | PGovernance => 6 | PAmm => 7 | PEvm => 8
  end.

(** who a call runs as: root, an account, a single council member, a council majority or nobody *)
Inductive caller := CRoot | CSigned (w : Z) | CMember (w : Z) | CMembers (k n : Z) | CNone.
Inductive batch_kind := BBatch | BAll | BForce.
Inductive council := CGeneral | CTechnical.

(** runtime calls; those that do not dispatch other calls or manage delegates are [Leaf] *)
Inductive rcall :=
| Leaf (p : pallet) (fn : string) (args : list Z)
| Batch (k : batch_kind) (cs : list rcall)
| AsDerivative (i : Z) (c : rcall)
| DispatchAs (o : caller) (c : rcall)
| WithWeight (c : rcall)
| ProxyCall (real : Z) (force : option ptype) (c : rcall)
| ProxyAnnounced (delegate real : Z) (force : option ptype) (c : rcall)
| AddProxy (d : Z) (t : ptype) (delay : Z)
| RemoveProxy (d : Z) (t : ptype) (delay : Z)
| RemoveProxies
| CreatePure (t : ptype) (delay i : Z)
| KillPure (spawner : Z) (t : ptype) (i height xi : Z)
| Announce (real h : Z)
| RemoveAnnouncement (real h : Z)
| RejectAnnouncement (delegate h : Z)
| MultiOne (others : list Z) (c : rcall)
| AsMulti (threshold : Z) (others : list Z) (c : rcall)
| CouncilExecute (b : council) (c : rcall)
| CouncilPropose (b : council) (threshold : Z) (c : rcall)
| EvmSigned (c : rcall) (signer : Z) (sg : list Z) (nonce : Z).

Definition council_pallet (b : council) : pallet := match b with CGeneral => GeneralCouncil | CTechnical => TechnicalCommittee end.
(** pallet and function of a call: what a filter sees besides the arguments *)
Definition fn_of (c : rcall) : pallet * string :=
  match c with
  | Leaf p f _ => (p, f)
  | Batch BBatch _ => (Utility, "batch") | Batch BAll _ => (Utility, "batch_all") | Batch BForce _ => (Utility, "force_batch")
  | AsDerivative _ _ => (Utility, "as_derivative") | DispatchAs _ _ => (Utility, "dispatch_as") | WithWeight _ => (Utility, "with_weight")
  | ProxyCall _ _ _ => (Proxy, "proxy") | ProxyAnnounced _ _ _ _ => (Proxy, "proxy_announced")
  | AddProxy _ _ _ => (Proxy, "add_proxy") | RemoveProxy _ _ _ => (Proxy, "remove_proxy") | RemoveProxies => (Proxy, "remove_proxies")
  | CreatePure _ _ _ => (Proxy, "create_pure") | KillPure _ _ _ _ _ => (Proxy, "kill_pure")
  | Announce _ _ => (Proxy, "announce") | RemoveAnnouncement _ _ => (Proxy, "remove_announcement")
  | RejectAnnouncement _ _ => (Proxy, "reject_announcement")
  | MultiOne _ _ => (Multisig, "as_multi_threshold_1") | AsMulti _ _ _ => (Multisig, "as_multi")
  | CouncilExecute b _ => (council_pallet b, "execute") | CouncilPropose b _ _ => (council_pallet b, "propose")
  | EvmSigned _ _ _ _ => (EVMSignatureCall, "call")
  end.
Definition among (f : string) (l : list string) : bool := existsb (String.eqb f) l.

(** [InstanceFilter::filter], runtime/parallel/src/lib.rs:934-1018 *)
Definition ptype_filter (t : ptype) (c : rcall) : bool :=
  let '(p, f) := fn_of c in
  match t with
  | PAny => true
  | PLoans =>
      match p with
      | Loans => among f ["mint"; "redeem"; "redeem_all"; "borrow"; "repay_borrow"; "repay_borrow_all"; "collateral_asset";
                          "liquidate_borrow"; "add_reward"; "claim_reward"; "claim_reward_for_market"]
      | _ => false
      end
  | PStaking => match p with LiquidStaking => among f ["stake"; "unstake"; "cancel_unstake"] | _ => false end
  | PCrowdloans =>
      match p with Crowdloans => among f ["contribute"; "claim"; "claim_for"; "withdraw"; "withdraw_for"; "redeem"] | _ => false end
  | PFarming => match p with Farming => among f ["deposit"; "claim"; "withdraw"; "redeem"] | _ => false end
  | PStreaming => match p with Streaming => among f ["create"; "cancel"; "withdraw"] | _ => false end
  | PGovernance =>
      match p with Democracy | Preimage | GeneralCouncil | TechnicalCommittee | Treasury | Utility => true | _ => false end
  | PAmm =>
      match p with
      | AMM => among f ["add_liquidity"; "remove_liquidity"]
      | AMMRoute => among f ["swap_tokens_for_exact_tokens"; "swap_exact_tokens_for_tokens"]
      | _ => false
      end
  | PEvm => match p with Ethereum | EVM | BaseFee | EVMSignatureCall => true | _ => false end
  end.
(** [InstanceFilter::is_superset], lib.rs:1019-1025 *)
Definition is_superset (t o : ptype) : bool :=
  match t, o with
  | PAny, _ => true
  | _, PAny => false
  | _, _ => false
  end.
(** [Default for ProxyType], lib.rs:926-930 *)
Definition default_ptype : ptype := PAny.

(** [WhiteListFilter], lib.rs:253-304 *)
Definition white (p : pallet) (f : string) : bool :=
  match p with
  | System | Timestamp => true
  | Assets => among f ["force_create"; "force_set_metadata"; "force_asset_status"; "force_clear_metadata"; "force_cancel_approval"; "force_transfer"]
  | Democracy | GeneralCouncil | TechnicalCommittee | Treasury | Scheduler | Preimage => true
  | ParachainSystem | XcmpQueue | DmpQueue => true
  | PolkadotXcm => among f ["force_xcm_version"; "force_default_xcm_version"; "force_subscribe_version_notify"; "force_unsubscribe_version_notify"]
  | CumulusXcm => true
  | Session => true
  | Utility | Multisig | Proxy | Identity | EmergencyShutdown | XcmHelper => true
  | OracleMembership | GeneralCouncilMembership | TechnicalCommitteeMembership | LiquidStakingAgentsMembership
  | CrowdloansAutomatorsMembership | BridgeMembership => true
  | _ => false
  end.
(** the further calls of [BaseCallFilter], lib.rs:309-351 *)
Definition listed (p : pallet) (f : string) : bool :=
  match p with
  | Balances => true
  | Assets => among f ["mint"; "transfer"; "transfer_keep_alive"; "freeze"; "thaw"; "freeze_asset"; "thaw_asset"; "burn"]
  | CurrencyAdapter => true
  | Oracle | XTokens | OrmlXcm | Vesting => true
  | Loans | Prices | LiquidStaking | AMM | AMMRoute | Crowdloans | Bridge | Farming | Streaming | AssetRegistry => true
  | EVM | Ethereum | BaseFee | EVMSignatureCall => true
  | _ => false
  end.

(** a registered delegate (pallet_proxy::ProxyDefinition) and an announcement *)
Record pdef := mkPdef { pd_delegate : Z; pd_type : ptype; pd_delay : Z }.
Record pann := mkPann { an_real : Z; an_hash : Z; an_height : Z }.
Global Instance pdef_eq : EqDecision pdef.
Proof. solve_decision. Defined.

(** storage: the delegates of every account, the announcements of every delegate, the block number and index of the running
    extrinsic, everything else; and (ghost) the calls that ran and their callers *)
Record auth (R : Type) := mkAuth {
  r_prox : gmap Z (list pdef); r_ann : gmap Z (list pann); r_now : Z; r_xi : Z; r_rest : R; r_log : list (caller * rcall) }.
Arguments mkAuth {R}.  Arguments r_prox {R} _.  Arguments r_ann {R} _.  Arguments r_now {R} _.  Arguments r_xi {R} _.
Arguments r_rest {R} _.  Arguments r_log {R} _.

Record auth_cfg (R : Type) := mkAuthCfg {
  ac_off : R -> pallet -> string -> bool;                      (* emergency shutdown *)
  ac_other : caller -> pallet -> string -> list Z -> R -> res R;
  ac_pays : R -> Z -> bool;                                    (* can reserve the deposits *)
  ac_derive : Z -> Z -> Z;                                     (* derivative_account_id *)
  ac_multi_id : list Z -> Z -> Z;                              (* multi_account_id *)
  ac_multi : R -> Z -> Z -> list Z -> rcall -> res (R * bool); (* approvals; whether the call runs now *)
  ac_pure : Z -> ptype -> Z -> Z -> Z -> Z;                    (* pure_account: spawner, type, index, block, extrinsic *)
  ac_hash : rcall -> Z;                                        (* CallHasher *)
  ac_seat : R -> council -> Z -> bool;                         (* council members *)
  ac_seats : R -> council -> Z;
  ac_evm : R -> Z -> rcall -> list Z -> Z -> res R;            (* evm-signatures: signature, nonce, fee *)
  ac_maxp : Z; ac_maxa : Z; ac_maxb : Z                        (* MaxProxies, MaxPending, batched_calls_limit *)
}.
Arguments mkAuthCfg {R}.
Arguments ac_off {R} _ _ _ _.  Arguments ac_other {R} _ _ _ _ _ _.  Arguments ac_pays {R} _ _ _.  Arguments ac_derive {R} _ _ _.
Arguments ac_multi_id {R} _ _ _.  Arguments ac_multi {R} _ _ _ _ _ _.  Arguments ac_pure {R} _ _ _ _ _ _.  Arguments ac_hash {R} _ _.
Arguments ac_seat {R} _ _ _ _.  Arguments ac_seats {R} _ _ _.  Arguments ac_evm {R} _ _ _ _ _ _.
Arguments ac_maxp {R} _.  Arguments ac_maxa {R} _.  Arguments ac_maxb {R} _.

(** an origin: the caller and the filters added to it on top of the runtime's own *)
Inductive ofilter := FBatchAll | FProxy (t : ptype).
Record org := mkOrg { o_caller : caller; o_filters : list ofilter }.
(** [RawOrigin::Signed(w).into()]: only the runtime's filter *)
Definition fresh (c : caller) : org := mkOrg c [].

(** the filter [do_proxy] adds (pallet_proxy), the filter [batch_all] adds (pallet_utility) *)
Definition of_pass (f : ofilter) (c : rcall) : bool :=
  match f with
  | FBatchAll => match c with Batch BAll _ => false | _ => true end
  | FProxy t =>
      match c with
      | AddProxy _ t' _ | RemoveProxy _ t' _ => if is_superset t t' then ptype_filter t c else false
      | RemoveProxies | KillPure _ _ _ _ _ => if bool_decide (t = default_ptype) then ptype_filter t c else false
      | _ => ptype_filter t c
      end
  end.

Section auth.
  Context {R : Type} (C : auth_cfg R).
  Local Notation auth := (auth R).

  Definition set_rest (s : auth) (r : R) : auth := mkAuth (r_prox s) (r_ann s) (r_now s) (r_xi s) r (r_log s).
  Definition set_prox (s : auth) (m : gmap Z (list pdef)) : auth := mkAuth m (r_ann s) (r_now s) (r_xi s) (r_rest s) (r_log s).
  Definition set_ann (s : auth) (m : gmap Z (list pann)) : auth := mkAuth (r_prox s) m (r_now s) (r_xi s) (r_rest s) (r_log s).
  Definition note (s : auth) (o : caller) (c : rcall) : auth :=
    mkAuth (r_prox s) (r_ann s) (r_now s) (r_xi s) (r_rest s) ((o, c) :: r_log s).

  (** [BaseCallFilter::contains], lib.rs:306-354, with [EmergencyCallFilter::contains], emergency-shutdown lib.rs:116-125 *)
  Definition base_filter (s : auth) (c : rcall) : bool :=
    let '(p, f) := fn_of c in
    (white p f || listed p f) && (white p f || negb (ac_off C (r_rest s) p f)).
  (** [OriginTrait::filter_call] *)
  Definition passes (s : auth) (o : org) (c : rcall) : bool :=
    match o_caller o with
    | CRoot => true
    | _ => base_filter s c && forallb (fun f => of_pass f c) (o_filters o)
    end.

  Definition delegates (s : auth) (x : Z) : list pdef := default [] (r_prox s !! x).
  Definition anns (s : auth) (d : Z) : list pann := default [] (r_ann s !! d).
  Definition is_root (o : org) : bool := match o_caller o with CRoot => true | _ => false end.
  Definition who (o : org) : res Z := match o_caller o with CSigned w => Ok w | _ => Err "BadOrigin" end.

  (** [find_proxy]: the first entry of the delegate, of the given type if one is given *)
  Definition find_proxy (s : auth) (real d : Z) (force : option ptype) : res pdef :=
    ok_or (List.find (fun x => bool_decide (pd_delegate x = d) &&
                               match force with None => true | Some t => bool_decide (pd_type x = t) end) (delegates s real)) "NotProxy".

  (** the order of ProxyDefinition (derived: delegate, type, delay) *)
  Definition pdef_lt (a b : pdef) : bool :=
    (pd_delegate a <? pd_delegate b) ||
    ((pd_delegate a =? pd_delegate b) && ((ptype_ix (pd_type a) <? ptype_ix (pd_type b)) ||
      ((ptype_ix (pd_type a) =? ptype_ix (pd_type b)) && (pd_delay a <? pd_delay b)))).
  (** insertion at the place [binary_search] reports *)
  Fixpoint pinsert (x : pdef) (l : list pdef) : list pdef :=
    match l with
    | [] => [x]
    | y :: l' => if pdef_lt y x then y :: pinsert x l' else x :: y :: l'
    end.
  Definition has_pdef (x : pdef) (l : list pdef) : bool := existsb (fun y => bool_decide (y = x)) l.

  (** [add_proxy] / [add_proxy_delegate] *)
  Definition do_add (s : auth) (o : org) (d : Z) (t : ptype) (delay : Z) : res auth :=
    let* w := who o in
    let* _ := ensure (negb (w =? d)) "NoSelfProxy" in
    let x := mkPdef d t delay in
    let* _ := ensure (negb (has_pdef x (delegates s w))) "Duplicate" in
    let* _ := ensure (Z.of_nat (length (delegates s w)) <? ac_maxp C) "TooMany" in
    let* _ := ensure (ac_pays C (r_rest s) w) "InsufficientBalance" in
    Ok (set_prox s (<[w := pinsert x (delegates s w)]> (r_prox s))).
  (** [remove_proxy] / [remove_proxy_delegate] *)
  Definition do_remove (s : auth) (o : org) (d : Z) (t : ptype) (delay : Z) : res auth :=
    let* w := who o in
    let x := mkPdef d t delay in
    let* _ := ensure (has_pdef x (delegates s w)) "NotFound" in
    let l := List.filter (fun y => negb (bool_decide (y = x))) (delegates s w) in
    Ok (set_prox s (match l with [] => delete w (r_prox s) | _ => <[w := l]> (r_prox s) end)).
  (** [remove_proxies] *)
  Definition do_clear (s : auth) (o : org) : res auth :=
    let* w := who o in Ok (set_prox s (delete w (r_prox s))).
  (** [create_pure] *)
  Definition do_pure (s : auth) (o : org) (t : ptype) (delay i : Z) : res auth :=
    let* w := who o in
    let x := ac_pure C w t i (r_now s) (r_xi s) in
    let* _ := ensure (match r_prox s !! x with Some _ => false | None => true end) "Duplicate" in
    let* _ := ensure (ac_pays C (r_rest s) w) "InsufficientBalance" in
    Ok (set_prox s (<[x := [mkPdef w t delay]]> (r_prox s))).
  (** [kill_pure] *)
  Definition do_kill (s : auth) (o : org) (sp : Z) (t : ptype) (i h xi : Z) : res auth :=
    let* w := who o in
    let* _ := ensure (ac_pure C sp t i h xi =? w) "NoPermission" in
    Ok (set_prox s (delete w (r_prox s))).
  (** [announce] *)
  Definition do_announce (s : auth) (o : org) (real h : Z) : res auth :=
    let* w := who o in
    let* _ := ensure (existsb (fun x => bool_decide (pd_delegate x = w)) (delegates s real)) "NotProxy" in
    let* _ := ensure (Z.of_nat (length (anns s w)) <? ac_maxa C) "TooMany" in
    let* _ := ensure (ac_pays C (r_rest s) w) "InsufficientBalance" in
    Ok (set_ann s (<[w := anns s w ++ [mkPann real h (r_now s)]]> (r_ann s))).
  (** [edit_announcements]: drop the announcements that match; an error if there are none *)
  Definition edit_anns (s : auth) (d : Z) (drop : pann -> bool) (e : string) : res auth :=
    let l := List.filter (fun a => negb (drop a)) (anns s d) in
    let* _ := ensure (Nat.ltb (length l) (length (anns s d))) e in
    Ok (set_ann s (match l with [] => delete d (r_ann s) | _ => <[d := l]> (r_ann s) end)).
  Definition ann_is (real h : Z) (a : pann) : bool := (an_real a =? real) && (an_hash a =? h).

  (** a failed inner call is reported in an event only; its own effects are undone *)
  Definition or_keep (s : auth) (r : res auth) : res auth := match r with Err _ => Ok s | x => x end.

  (** [dispatch] ([bypass] = false) and [dispatch_bypass_filter] *)
  Fixpoint run (c : rcall) (bypass : bool) (o : org) (s0 : auth) {struct c} : res auth :=
    if negb (bypass || passes s0 o c) then Err "CallFiltered" else
    let s := note s0 (o_caller o) c in
    match c with
    | Leaf p f args => let* r := ac_other C (o_caller o) p f args (r_rest s) in Ok (set_rest s r)
    | Batch k cs =>
        let* _ := ensure (match o_caller o with CNone => false | _ => true end) "BadOrigin" in
        let* _ := ensure (Z.of_nat (length cs) <=? ac_maxb C) "TooManyCalls" in
        let o' := match k with BAll => if is_root o then o else mkOrg (o_caller o) (FBatchAll :: o_filters o) | _ => o end in
        let r0 := (fix go cs s :=
           match cs with
           | [] => Ok s
           | c' :: cs' =>
               match run c' (is_root o) o' s with
               | Ok s1 => go cs' s1
               | Err e => match k with BBatch => Ok s | BAll => Err e | BForce => go cs' s end
               | Panic => Panic
               end
           end) in
        r0 cs s
    | AsDerivative i c' =>
        let* w := who o in
        run c' false (mkOrg (CSigned (ac_derive C w i)) (o_filters o)) s
    | DispatchAs as_o c' =>
        let* _ := ensure (is_root o) "BadOrigin" in
        or_keep s (run c' true (fresh as_o) s)
    | WithWeight c' =>
        let* _ := ensure (is_root o) "BadOrigin" in
        run c' true (fresh CRoot) s
    | ProxyCall real force c' =>
        let* w := who o in
        let* d := find_proxy s real w force in
        let* _ := ensure (pd_delay d =? 0) "Unannounced" in
        or_keep s (run c' false (mkOrg (CSigned real) [FProxy (pd_type d)]) s)
    | ProxyAnnounced del real force c' =>
        let* _ := who o in
        let* d := find_proxy s real del force in
        let* s1 := edit_anns s del (fun a => ann_is real (ac_hash C c') a && (pd_delay d <=? Z.max 0 (r_now s - an_height a))) "Unannounced" in
        or_keep s1 (run c' false (mkOrg (CSigned real) [FProxy (pd_type d)]) s1)
    | AddProxy d t delay => do_add s o d t delay
    | RemoveProxy d t delay => do_remove s o d t delay
    | RemoveProxies => do_clear s o
    | CreatePure t delay i => do_pure s o t delay i
    | KillPure sp t i h xi => do_kill s o sp t i h xi
    | Announce real h => do_announce s o real h
    | RemoveAnnouncement real h => let* w := who o in edit_anns s w (ann_is real h) "NotFound"
    | RejectAnnouncement d h => let* w := who o in edit_anns s d (ann_is w h) "NotFound"
    | MultiOne others c' =>
        let* w := who o in
        run c' false (fresh (CSigned (ac_multi_id C (w :: others) 1))) s
    | AsMulti th others c' =>
        let* w := who o in
        let* rb := ac_multi C (r_rest s) w th others c' in
        let s1 := set_rest s (fst rb) in
        if snd rb then or_keep s1 (run c' false (fresh (CSigned (ac_multi_id C (w :: others) th))) s1) else Ok s1
    | CouncilExecute b c' =>
        let* w := who o in
        let* _ := ensure (ac_seat C (r_rest s) b w) "NotMember" in
        or_keep s (run c' false (fresh (CMember w)) s)
    | CouncilPropose b th c' =>
        let* w := who o in
        let* _ := ensure (ac_seat C (r_rest s) b w) "NotMember" in
        if th <? 2 then or_keep s (run c' false (fresh (CMembers 1 (ac_seats C (r_rest s) b))) s)
        else let* r := ac_other C (o_caller o) (council_pallet b) "propose" [th; ac_hash C c'] (r_rest s) in Ok (set_rest s r)
    | EvmSigned c' signer sg n =>
        let* _ := ensure (match o_caller o with CNone => true | _ => false end) "BadOrigin" in
        let* r := ac_evm C (r_rest s) signer c' sg n in
        let s1 := set_rest s r in
        or_keep s1 (run c' true (fresh (CSigned signer)) s1)
    end.

  (** extrinsics and what happens between them; a failed extrinsic changes nothing but its fee ([XHook] can charge it) *)
  Inductive ext :=
  | XSigned (w : Z) (c : rcall)
  | XUnsigned (c : rcall)
  | XGov (o : caller) (c : rcall)
  | XHook (f : R -> R)
  | XBlock.
  Definition step (s : auth) (x : ext) : res auth :=
    match x with
    | XSigned w c => run c false (fresh (CSigned w)) s
    | XUnsigned c => run c false (fresh CNone) s
    | XGov o c => match o with CSigned _ => Err "not a governance origin" | _ => run c false (fresh o) s end
    | XHook f => Ok (set_rest s (f (r_rest s)))
    | XBlock => Ok (mkAuth (r_prox s) (r_ann s) (r_now s + 1) 0 (r_rest s) (r_log s))
    end.
  Definition exec (s : auth) (x : ext) : auth :=
    let s' := match step s x with Ok s' => s' | _ => s end in
    match x with
    | XHook _ | XBlock => s'
    | _ => mkAuth (r_prox s') (r_ann s') (r_now s') (r_xi s' + 1) (r_rest s') (r_log s')
    end.
End auth.
