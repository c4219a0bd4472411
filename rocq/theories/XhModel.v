(** * XhModel: messages to the relay chain, pallets/xcm-helper/src/lib.rs [XH] and pallets/traits/src/ump.rs [UMP].
    [pallet_xcm]'s query counter and the SCALE codec are dependencies, modelled by their documented behaviour.
    The relay chain itself is an arbitrary state machine ([relay]); how it executes a message is the documented XCM v3
    semantics (polkadot release-v0.9.38) of the six instructions used.  Events are not modelled. *)
From Verif Require Import Base Ledger AmmModel RegModel XcmModel.
From stdpp Require Import countable.
Local Open Scope Z_scope.

(** [XcmCall], UMP:309-324 *)
Inductive xkind :=
| KBond | KBondExtra | KUnbond | KRebond | KWithdrawUnbonded | KNominate | KContribute | KWithdraw | KAddMemo
| KSibling (l : loc) | KProxy | KAddProxy | KRemoveProxy.
Global Instance xkind_eq_dec : EqDecision xkind.
Proof. solve_decision. Defined.
Definition kcode (k : xkind) : Z + loc :=
  match k with
  | KBond => inl 0 | KBondExtra => inl 1 | KUnbond => inl 2 | KRebond => inl 3 | KWithdrawUnbonded => inl 4
  | KNominate => inl 5 | KContribute => inl 6 | KWithdraw => inl 7 | KAddMemo => inl 8 | KSibling l => inr l
  | KProxy => inl 10 | KAddProxy => inl 11 | KRemoveProxy => inl 12
  end.
Definition kdecode (c : Z + loc) : option xkind :=
  match c with
  | inr l => Some (KSibling l)
  | inl z => if z =? 0 then Some KBond else if z =? 1 then Some KBondExtra else if z =? 2 then Some KUnbond else
             if z =? 3 then Some KRebond else if z =? 4 then Some KWithdrawUnbonded else if z =? 5 then Some KNominate else
             if z =? 6 then Some KContribute else if z =? 7 then Some KWithdraw else if z =? 8 then Some KAddMemo else
             if z =? 10 then Some KProxy else if z =? 11 then Some KAddProxy else if z =? 12 then Some KRemoveProxy else None
  end.
Global Instance xkind_countable : Countable xkind := inj_countable kcode kdecode ltac:(by intros []).

(** relay-chain calls, UMP:25-257 (those that are sent) *)
Inductive payee := PStaked | PStash | PController | PAccount (w : account) | PNone.
Inductive rcall :=
| RTransferKeepAlive (dest : account) (v : Z) | RTransferAll (dest : account) (keep_alive : bool)
| RBond (controller : account) (v : Z) (p : payee) | RBondExtra (v : Z) | RUnbond (v : Z) | RRebond (v : Z)
| RWithdrawUnbonded (spans : Z) | RNominate (targets : list account)
| RContribute (para v : Z) | RWithdraw (who : account) (para : Z)
| RProxy (real : account) (c : rcall) | RAddProxy (d : account) (ty : option Z) (delay : Z) | RRemoveProxy (d : account) (ty : option Z) (delay : Z)
| RAsDerivative (index : Z) (c : rcall).

(** ** SCALE encoding *)
Inductive network := Polkadot | Kusama | OtherNet.
(** little endian, [n] bytes *)
Fixpoint le (n : nat) (x : Z) : list Z := match n with O => [] | S m => x mod 256 :: le m (x / 256) end.
(** number of bytes of [x], at least [4]: compact "big integer" mode *)
Fixpoint nbytes (fuel n : nat) (x : Z) : nat :=
  match fuel with O => n | S f => if x <? 256 ^ Z.of_nat n then n else nbytes f (S n) x end.
Definition compact (x : Z) : list Z :=
  if x <? 2 ^ 6 then [4 * x]
  else if x <? 2 ^ 14 then le 2 (4 * x + 1)
  else if x <? 2 ^ 30 then le 4 (4 * x + 2)
  else let n := nbytes 12 4 x in (4 * (Z.of_nat n - 4) + 3) :: le n x.
(** account ids are 32 bytes; [T::Lookup::unlookup] = MultiAddress::Id (index 0) *)
Definition enc_acct (w : account) : list Z := le 32 w.
Definition enc_addr (w : account) : list Z := 0 :: enc_acct w.
(** UMP:10-23 *)
Definition enc_payee (p : payee) : list Z :=
  match p with PStaked => [0] | PStash => [1] | PController => [2] | PAccount w => 3 :: enc_acct w | PNone => [4] end.
Definition enc_opt (o : option Z) : list Z := match o with None => [0] | Some t => [1; t] end.
(** pallet indices: UMP:259-289 *)
Inductive rpallet := PBalances | PStaking | PUtility | PProxy | PCrowdloans.
Definition pidx (net : network) (p : rpallet) : Z :=
  match net, p with
  | Polkadot, PBalances => 5 | Polkadot, PStaking => 7 | Polkadot, PUtility => 26 | Polkadot, PProxy => 29 | Polkadot, PCrowdloans => 73
  | _, PBalances => 4 | _, PStaking => 6 | _, PUtility => 24 | _, PProxy => 22 | _, PCrowdloans => 73
  end.
(** [call.encode()]: pallet index, call index (UMP:84-100, 120-126, 156-164, 225-233, 251-257), arguments *)
Fixpoint enc (net : network) (c : rcall) : list Z :=
  match c with
  | RTransferKeepAlive d v => pidx net PBalances :: 3 :: enc_addr d ++ compact v
  | RTransferAll d k => pidx net PBalances :: 4 :: enc_addr d ++ [if k : bool then 1 else 0]
  | RBond d v p => pidx net PStaking :: 0 :: enc_addr d ++ compact v ++ enc_payee p
  | RBondExtra v => pidx net PStaking :: 1 :: compact v
  | RUnbond v => pidx net PStaking :: 2 :: compact v
  | RWithdrawUnbonded n => pidx net PStaking :: 3 :: le 4 n
  | RNominate ts => pidx net PStaking :: 5 :: compact (Z.of_nat (length ts)) ++ flat_map enc_addr ts
  | RRebond v => pidx net PStaking :: 19 :: compact v
  | RContribute i v => pidx net PCrowdloans :: 1 :: compact i ++ compact v ++ [0]
  | RWithdraw w i => pidx net PCrowdloans :: 2 :: enc_acct w ++ compact i
  | RProxy w c => pidx net PProxy :: 0 :: enc_acct w ++ [0] ++ enc net c
  | RAddProxy d t n => pidx net PProxy :: 1 :: enc_acct d ++ enc_opt t ++ le 4 n
  | RRemoveProxy d t n => pidx net PProxy :: 2 :: enc_acct d ++ enc_opt t ++ le 4 n
  | RAsDerivative i c => pidx net PUtility :: 1 :: le 2 i ++ enc net c
  end.

(** ** Messages *)
Inductive instr :=
| IWithdraw (amt : Z)                             (* WithdrawAsset, of the relay token *)
| IBuy (amt : Z)                                  (* BuyExecution, weight_limit: Unlimited *)
| ITransact (w : weight) (call : list Z)          (* Transact as SovereignAccount *)
| IReport (dest : loc) (qid : Z)                  (* ReportError *)
| IRefund                                         (* RefundSurplus *)
| IDeposit (amt : Z) (to : account).              (* DepositAsset *)

Record xh_cfg := mkXhCfg {
  hc_acct : account;             (* account_id(), XH:250-252 *)
  hc_refund : account;           (* RefundLocation *)
  hc_relay : asset;              (* RelayCurrency *)
  hc_net : network;              (* RelayNetwork *)
  hc_self : Z;                   (* the parachain id in UniversalLocation *)
  hc_update : origin -> bool;    (* UpdateOrigin *)
  hc_send : list instr -> bool   (* XcmSender accepts the message *)
}.
(** storage: XcmWeightFee; pallet_xcm's QueryCounter and Queries (the call to notify); the messages sent; the ledger *)
Record xh := mkXh {
  h_led : ledger; h_fee : gmap xkind (weight * Z); h_qid : Z; h_q : gmap Z Z; h_sent : list (list instr)
}.
Definition set_h_led (s : xh) (L : ledger) : xh := mkXh L (h_fee s) (h_qid s) (h_q s) (h_sent s).
(** [XcmWeightFeeMisc::default], UMP:297-307 *)
Definition def_fee : weight * Z := ((20000000000, 65536), 15000000000).

Section xh.
  Context (C : xh_cfg) (P : policy).

  Definition fee_of (s : xh) (k : xkind) : weight * Z := default def_fee (h_fee s !! k).

  (** [update_xcm_weight_fee], XH:144-160; [Weight::is_zero]: both components zero *)
  Definition update_fee (s : xh) (o : origin) (k : xkind) (w : weight) (fee : Z) : res xh :=
    let* _ := ensure (hc_update C o) "BadOrigin" in
    let* _ := ensure (negb (fee =? 0)) "ZeroXcmFees" in
    let* _ := ensure (negb ((w.1 =? 0) && (w.2 =? 0))) "ZeroXcmWeightMisc" in
    Ok (mkXh (h_led s) (<[k := (w, fee)]> (h_fee s)) (h_qid s) (h_q s) (h_sent s)).
  (** [add_xcm_fees], XH:334-343 *)
  Definition add_fees (s : xh) (payer : account) (amt : Z) : res xh :=
    let* L := transfer P (h_led s) (hc_relay C) payer (hc_acct C) amt false in Ok (set_h_led s L).
  (** [do_ump_transact], XH:345-372 *)
  Definition ump_transact (s : xh) (call : list Z) (w : weight) (fees : Z) : res (xh * list instr) :=
    let* L := match burn_from P (h_led s) (hc_relay C) (hc_acct C) fees with
              | Ok L => Ok L | Err _ => Err "InsufficientXcmFees" | Panic => Panic end in
    Ok (set_h_led s L, [IWithdraw fees; IBuy fees; ITransact w call; IRefund; IDeposit fees (hc_refund C)]).
  (** [Vec::insert(3, _)] *)
  Definition insert3 (m : list instr) (i : instr) : list instr := take 3 m ++ i :: drop 3 m.
  (** [report_outcome_notify], XH:258-291: a new query with the next number; seen from the relay chain we are Parachain(self) *)
  Definition report_notify (s : xh) (m : list instr) (notify : Z) : xh * list instr * Z :=
    (mkXh (h_led s) (h_fee s) (h_qid s + 1) (<[h_qid s := notify]> (h_q s)) (h_sent s),
     insert3 m (IReport (mkLoc 0 [JPara (hc_self C)]) (h_qid s)), h_qid s).
  (** [append_transact], XH:321-330 *)
  Definition append_transact (m : list instr) (call : list Z) (w : weight) : list instr := insert3 m (ITransact w call).
  (** [send_xcm(MultiLocation::parent(), msg)] *)
  Definition send (s : xh) (m : list instr) : res xh :=
    let* _ := ensure (hc_send C m) "SendFailure" in
    Ok (mkXh (h_led s) (h_fee s) (h_qid s) (h_q s) (h_sent s ++ [m])).
  (** [switch_relay!], UMP:326-341 *)
  Definition switch : res unit := match hc_net C with OtherNet => Panic | _ => Ok tt end.

  (** the common shape of the functions with one call (XH:374-520, 671-745, 799-838) *)
  Definition one (s : xh) (k : xkind) (c : rcall) (notify : Z) : res (xh * Z) :=
    let f := fee_of s k in
    let* _ := switch in
    let*' (s1, m) := ump_transact s (enc (hc_net C) c) f.1 f.2 in
    let '(s2, m2, q) := report_notify s1 m notify in
    let* s3 := send s2 m2 in Ok (s3, q).
  (** ... and with two (XH:522-669, 747-797) *)
  Definition two (s : xh) (k : xkind) (c c' : rcall) (notify : Z) : res (xh * Z) :=
    let f := fee_of s k in
    let* _ := switch in
    let*' (s1, m) := ump_transact s (enc (hc_net C) c) f.1 f.2 in
    let '(s2, m2, q) := report_notify s1 m notify in
    let m3 := append_transact m2 (enc (hc_net C) c') f.1 in
    let* s3 := send s2 m3 in Ok (s3, q).

  (** XH:374-409, 411-447 *)
  Definition do_add_proxy s d t n notify := one s KAddProxy (RAddProxy d t n) notify.
  Definition do_remove_proxy s d t n notify := one s KRemoveProxy (RRemoveProxy d t n) notify.
  (** XH:449-482 *)
  Definition do_withdraw s (para : Z) (who : account) notify := one s KWithdraw (RWithdraw who para) notify.
  (** XH:484-520 *)
  Definition do_contribute s (para amt : Z) notify := one s KContribute (RContribute para amt) notify.
  (** XH:522-572 *)
  Definition do_proxy_contribute s (para amt : Z) (who : account) notify :=
    two s KContribute (RTransferKeepAlive who amt) (RProxy who (RContribute para amt)) notify.
  (** XH:574-622 *)
  Definition do_bond s (v : Z) (p : payee) (stash : account) (index : Z) notify :=
    two s KBond (RTransferKeepAlive stash v) (RAsDerivative index (RBond stash v p)) notify.
  (** XH:624-669 *)
  Definition do_bond_extra s (v : Z) (stash : account) (index : Z) notify :=
    two s KBondExtra (RTransferKeepAlive stash v) (RAsDerivative index (RBondExtra v)) notify.
  (** XH:671-707, 709-745 *)
  Definition do_unbond s (v index : Z) notify := one s KUnbond (RAsDerivative index (RUnbond v)) notify.
  Definition do_rebond s (v index : Z) notify := one s KRebond (RAsDerivative index (RRebond v)) notify.
  (** XH:747-797 *)
  Definition do_withdraw_unbonded s (spans : Z) (para : account) (index : Z) notify :=
    two s KWithdrawUnbonded (RAsDerivative index (RWithdrawUnbonded spans)) (RAsDerivative index (RTransferAll para true)) notify.
  (** XH:799-838 *)
  Definition do_nominate s (ts : list account) (index : Z) notify := one s KNominate (RAsDerivative index (RNominate ts)) notify.

  (** what the other pallets ask for *)
  Inductive xreq :=
  | QAddProxy (d : account) (t : option Z) (n : Z) | QRemoveProxy (d : account) (t : option Z) (n : Z)
  | QWithdraw (para : Z) (who : account) | QContribute (para amt : Z) | QProxyContribute (para amt : Z) (who : account)
  | QBond (v : Z) (p : payee) (stash : account) (index : Z) | QBondExtra (v : Z) (stash : account) (index : Z)
  | QUnbond (v index : Z) | QRebond (v index : Z) | QWithdrawUnbonded (spans : Z) (para : account) (index : Z)
  | QNominate (ts : list account) (index : Z).
  Definition request (s : xh) (q : xreq) (notify : Z) : res (xh * Z) :=
    match q with
    | QAddProxy d t n => do_add_proxy s d t n notify | QRemoveProxy d t n => do_remove_proxy s d t n notify
    | QWithdraw p w => do_withdraw s p w notify | QContribute p a => do_contribute s p a notify
    | QProxyContribute p a w => do_proxy_contribute s p a w notify
    | QBond v p st i => do_bond s v p st i notify | QBondExtra v st i => do_bond_extra s v st i notify
    | QUnbond v i => do_unbond s v i notify | QRebond v i => do_rebond s v i notify
    | QWithdrawUnbonded n p i => do_withdraw_unbonded s n p i notify | QNominate ts i => do_nominate s ts i notify
    end.

  (** histories; [HMint], [HBurn], [HTransfer]: other pallets at work *)
  Inductive xh_op :=
  | HRequest (q : xreq) (notify : Z)
  | HUpdate (o : origin) (k : xkind) (w : weight) (fee : Z)
  | HAddFees (payer : account) (amt : Z)
  | HMint (a : asset) (w : account) (amt : Z)
  | HBurn (a : asset) (w : account) (amt : Z)
  | HTransfer (a : asset) (f t : account) (amt : Z).
  Definition xh_step (s : xh) (o : xh_op) : res xh :=
    match o with
    | HRequest q n => let*' (s', _) := request s q n in Ok s'
    | HUpdate o k w f => update_fee s o k w f
    | HAddFees p a => add_fees s p a
    | HMint a w v => let* L := mint_into P (h_led s) a w v in Ok (set_h_led s L)
    | HBurn a w v => let* L := burn_from P (h_led s) a w v in Ok (set_h_led s L)
    | HTransfer a f t v => let* L := transfer P (h_led s) a f t v false in Ok (set_h_led s L)
    end.
  (** requests are made inside transactional extrinsics: on error nothing is stored *)
  Definition xh_exec (s : xh) (o : xh_op) : xh := match xh_step s o with Ok s' => s' | _ => s end.
End xh.
Definition xh0 (L : ledger) : xh := mkXh L ∅ 0 ∅ [].

(** ** The relay chain *)
Record relay_cfg (R : Type) := mkRelay {
  rc_take : R -> Z -> option R;                             (* withdraw from our sovereign account *)
  rc_put : R -> account -> Z -> option R;                   (* deposit *)
  rc_dispatch : R -> weight -> list Z -> option (R * bool); (* decode, filter, weigh, dispatch as our sovereign account; None: the
                                                               instruction fails; false: the dispatched call returned an error *)
  rc_price : R -> list instr -> Z;                          (* price of the weight of the message *)
  rc_back : R -> list instr -> Z -> Z                       (* part of the price paid that is given back *)
}.
Arguments mkRelay {R}.
Arguments rc_take {R} _ _ _.  Arguments rc_put {R} _ _ _ _.  Arguments rc_dispatch {R} _ _ _ _.
Arguments rc_price {R} _ _ _.  Arguments rc_back {R} _ _ _ _.

Section relay.
  Context {R : Type} (G : relay_cfg R).
  (** executor: the relay's state, the holding register, what was paid for weight, the calls dispatched so far with their
      outcome, and the responses sent: [(dest, query id, error)] *)
  Record rvm := mkRvm { r_st : R; r_hold : Z; r_paid : Z; r_calls : list (list Z * bool); r_resp : list (loc * Z * option string) }.
  (** one instruction of message [m]; [None]: error, the message stops.  A call that returns an error does not stop the message, it is
      only noted in the transact status.  [ReportError] reports the error register, which is empty as long as the message
      runs normally.  The barrier turns [Unlimited] into the weight of the message. *)
  Definition relay_instr (m : list instr) (s : rvm) (i : instr) : option rvm :=
    match i with
    | IWithdraw amt => match rc_take G (r_st s) amt with
                       | Some st => Some (mkRvm st (r_hold s + amt) (r_paid s) (r_calls s) (r_resp s)) | None => None end
    | IBuy amt => let p := rc_price G (r_st s) m in
                  if (p <=? amt) && (amt <=? r_hold s)
                  then Some (mkRvm (r_st s) (r_hold s - p) (r_paid s + p) (r_calls s) (r_resp s)) else None
    | ITransact w c => match rc_dispatch G (r_st s) w c with
                       | Some (st, ok) => Some (mkRvm st (r_hold s) (r_paid s) (r_calls s ++ [(c, ok)]) (r_resp s)) | None => None end
    | IReport d q => Some (mkRvm (r_st s) (r_hold s) (r_paid s) (r_calls s) (r_resp s ++ [(d, q, None)]))
    | IRefund => let b := Z.max 0 (Z.min (r_paid s) (rc_back G (r_st s) m (r_paid s))) in
                 Some (mkRvm (r_st s) (r_hold s + b) (r_paid s - b) (r_calls s) (r_resp s))
    | IDeposit amt w => let x := Z.min amt (r_hold s) in
                        match rc_put G (r_st s) w x with
                        | Some st => Some (mkRvm st (r_hold s - x) (r_paid s) (r_calls s) (r_resp s)) | None => None end
    end.
  Fixpoint relay_run (m : list instr) (s : rvm) (l : list instr) : rvm :=
    match l with
    | [] => s
    | i :: r => match relay_instr m s i with Some s' => relay_run m s' r | None => s end
    end.
  Definition relay_exec (st : R) (m : list instr) : rvm := relay_run m (mkRvm st 0 0 [] []) m.
End relay.
