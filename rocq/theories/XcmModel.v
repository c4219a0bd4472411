(** * XcmModel: cross-chain messages.
    [XCM] = pallets/traits/src/xcm.rs: how incoming assets are named, credited and charged for.
    [XH]  = pallets/xcm-helper/src/lib.rs: the messages sent to the relay chain.   [UMP] = pallets/traits/src/ump.rs.
    [RT]  = runtime/parallel/src/lib.rs: how the parts are put together.
    The XCM executor is a dependency: on this side it is represented by arbitrary sequences of the operations it can
    perform ([vm_op]); on the relay chain by the documented XCM v3 semantics of the six instructions used ([relay_instr]).
    Non-fungible assets, events and logging are not modelled. *)
From Verif Require Import Base MapSum Ledger AmmModel RegModel.
From stdpp Require Import countable.
Local Open Scope Z_scope.

(** ** Locations *)
Inductive junction := JPara (n : Z) | JOther (z : Z).
Record loc := mkLoc { l_par : Z; l_int : list junction }.
Global Instance junction_eq_dec : EqDecision junction.
Proof. solve_decision. Defined.
Global Instance junction_countable : Countable junction :=
  inj_countable' (fun j => match j with JPara n => inl n | JOther z => inr z end)
                 (fun s => match s with inl n => JPara n | inr z => JOther z end) ltac:(by intros []).
Global Instance loc_eq_dec : EqDecision loc.
Proof. solve_decision. Defined.
Global Instance loc_countable : Countable loc :=
  inj_countable' (fun l => (l_par l, l_int l)) (fun p => mkLoc p.1 p.2) ltac:(by intros []).
(** [AssetType::Xcm(location)], XCM:296-318: the registry (RegModel) keeps asset types as numbers *)
Definition loc_key (l : loc) : Z := Zpos (encode l).
Definition key_loc (k : Z) : option loc := match k with Zpos p => decode p | _ => None end.

(** the relay chain's own asset as seen from here: { parents: 1, interior: Here } *)
Definition relay_loc : loc := mkLoc 1 [].

(** [XcmAssetRegistry::convert], XCM:608-628; [pushed_front_with_interior] fails on a full interior (8 junctions) *)
Definition reanchor (self : Z) (l : loc) : loc :=
  if negb (l_par l =? 0) then l
  else if bool_decide (length (l_int l) < 8)%nat then mkLoc 1 (JPara self :: l_int l) else l.

(** ** Assets carried by a message *)
Inductive xid := XC (l : loc) | XA (z : Z).   (* Concrete, Abstract *)
Global Instance xid_eq_dec : EqDecision xid.
Proof. solve_decision. Defined.
(** [xcm_executor::Assets]: the fungible part, in the order of its BTreeMap *)
Notation assets := (list (xid * Z)).
(** [Assets::checked_sub] *)
Fixpoint assets_sub (l : assets) (id : xid) (amt : Z) : option assets :=
  match l with
  | [] => None
  | (i, v) :: r =>
      if bool_decide (i = id) then
        if amt <=? v then Some (if v - amt =? 0 then r else (i, v - amt) :: r) else None
      else match assets_sub r id amt with Some r' => Some ((i, v) :: r') | None => None end
  end.

(** weights: (ref_time, proof_size), u64 each *)
Notation weight := (Z * Z)%type.
Definition sat64 (x : Z) : Z := Z.min x U64MAX.
Definition w_add (a b : weight) : weight := (sat64 (a.1 + b.1), sat64 (a.2 + b.2)).
Definition w_min (a b : weight) : weight := (Z.min a.1 b.1, Z.min a.2 b.2).
Definition w_sub (a b : weight) : weight := (a.1 - b.1, a.2 - b.2).
(** WEIGHT_REF_TIME_PER_SECOND *)
Definition REF : Z := 10 ^ 12.

(** [FirstAssetTrader], XCM:99-107: weight bought, and (asset, amount, units per second) *)
Record trader := mkTr { t_wt : weight; t_rev : option (loc * Z * Z) }.
Definition tr_new : trader := mkTr (0, 0) None.                 (* XCM:114-116 *)

(** configuration *)
Record xcm_cfg := mkXcmCfg {
  xc_self : Z;                              (* ParachainId *)
  xc_native : asset;                        (* NativeCurrencyId *)
  xc_treasury : account;                    (* ReceiverAccount of the fees *)
  xc_gift : account;                        (* GiftAccount *)
  xc_conv : Z -> asset -> option Z;         (* GiftConvert::to_asset_balance *)
  xc_acct : loc -> option account           (* AccountIdConvert = LocationToAccountId *)
}.

Section xcm.
  Context (C : xcm_cfg) (P : policy) (r : reg).

  (** [XcmAssetRegistry::{get_asset_id, payment_is_supported, get_units_per_second}], XCM:630-660 *)
  Definition x_asset_id (l : loc) : option asset := get_asset_id r (loc_key (reanchor (xc_self C) l)).
  Definition x_supported (l : loc) : bool := payment_is_supported r (loc_key (reanchor (xc_self C) l)).
  Definition x_units (l : loc) : option Z := get_units r (loc_key (reanchor (xc_self C) l)).
  (** [CurrencyIdConvert::convert(CurrencyId)], XCM:543-557: the name under which an asset leaves this chain *)
  Definition x_location (a : asset) : option loc :=
    match get_asset_type r a with Some k => key_loc k | None => None end.
  (** [CurrencyIdConvert::convert(MultiAsset)], XCM:575-589 *)
  Definition x_currency (i : xid) : option asset := match i with XC l => x_asset_id l | XA _ => None end.

  (** [buy_weight], XCM:118-200 *)
  Definition buy_weight (t : trader) (w : weight) (pay : assets) : res (trader * assets) :=
    match pay with
    | (XC l, _) :: _ =>
        let* _ := ensure (x_supported l) "TooExpensive" in
        let* u := ok_or (x_units l) "TooExpensive" in
        let amount := sat128 (u * w.1) / REF in
        if amount =? 0 then Ok (t, pay) else
        let* unused := ok_or (assets_sub pay (XC l) amount) "TooExpensive" in
        let w1 := w_add (t_wt t) w in
        match (match t_rev t with
               | Some (pid, pa, pu) => if bool_decide (pid = l) then Some (l, sat128 (pa + amount), pu) else None
               | None => Some (l, amount, u) end) with
        | Some n => Ok (mkTr (w_add w1 w) (Some n), unused)
        | None => Ok (mkTr w1 (t_rev t), unused)
        end
    | _ => Err "TooExpensive"
    end.
  (** [refund_weight], XCM:202-221; the multiplication is not a saturating one *)
  Definition refund_weight (t : trader) (w : weight) : res (trader * option (loc * Z)) :=
    match t_rev t with
    | Some (l, pa, u) =>
        let w' := w_min w (t_wt t) in
        let* m := raw_mul u w'.1 in
        let amount := m / REF in
        Ok (mkTr (w_sub (t_wt t) w') (Some (l, saturating_sub pa amount, u)), Some (l, amount))
    | None => Ok (t, None)
    end.
  (** [Drop for FirstAssetTrader], XCM:231-235, and [XcmFeesToAccount::take_revenue], XCM:269-291: errors are only logged *)
  Definition take_revenue (L : ledger) (t : trader) : ledger :=
    match t_rev t with
    | Some (l, amount, _) =>
        match x_asset_id l with
        | Some a => if amount =? 0 then L else
                    match mint_into P L a (xc_treasury C) amount with Ok L' => L' | _ => L end
        | None => L
        end
    | None => L
    end.

  (** [deposit_asset], XCM:408-479; [Match] = IsNativeConcrete accepts exactly the convertible concrete assets (RT:1199-1216);
      a transfer of the gift that fails is only logged *)
  Definition gift (L : ledger) (i : xid) (amt : Z) (a : asset) (who : account) : ledger :=
    if bool_decide (i = XC relay_loc) then
      let g := default 0 (xc_conv C amt a) in
      let have := reducible P true L (xc_native C) who in
      if negb (g =? 0) && (g <=? reducible P false L (xc_native C) (xc_gift C)) && (have <? g) then
        match transfer P L (xc_native C) (xc_gift C) who (g - have) false with Ok L' => L' | _ => L end
      else L
    else L.
  Definition deposit_asset (L : ledger) (i : xid) (amt : Z) (to : loc) : res ledger :=
    match xc_acct C to, x_currency i with
    | Some who, Some a =>
        match mint_into P (gift L i amt a who) a who amt with
        | Ok L' => Ok L' | Err _ => Err "FailedToTransactAsset" | Panic => Panic end
    | _, _ => Err "AssetNotFound"
    end.
  (** [withdraw_asset], XCM:481-507 *)
  Definition withdraw_asset (L : ledger) (i : xid) (amt : Z) (from : loc) : res ledger :=
    let* _ := ok_or (x_currency i) "AssetNotFound" in
    let* who := ok_or (xc_acct C from) "AccountIdConversionFailed" in
    let* a := ok_or (x_currency i) "CurrencyIdConversionFailed" in
    match burn_from P L a who amt with
    | Ok L' => Ok L' | Err _ => Err "FailedToTransactAsset" | Panic => Panic end.
  (** [internal_transfer_asset], XCM:509-540 *)
  Definition internal_transfer (L : ledger) (i : xid) (amt : Z) (from to : loc) : res ledger :=
    let* f := ok_or (xc_acct C from) "AccountIdConversionFailed" in
    let* t := ok_or (xc_acct C to) "AccountIdConversionFailed" in
    let* a := ok_or (x_currency i) "CurrencyIdConversionFailed" in
    match transfer P L a f t amt true with
    | Ok L' => Ok L' | Err _ => Err "FailedToTransactAsset" | Panic => Panic end.

  (** [AssetTransactors], RT:1277-1303: the adapter above first and, if it answers [AssetNotFound], xcm-builder's
      [FungiblesAdapter] on pallet-assets itself ([raw]), which uses the same registry and account conversion *)
  Definition raw_deposit (raw : ledger) (i : xid) (amt : Z) (to : loc) : res ledger :=
    let* a := ok_or (x_currency i) "AssetNotFound" in
    let* who := ok_or (xc_acct C to) "AccountIdConversionFailed" in
    match mint_into P raw a who amt with
    | Ok L' => Ok L' | Err _ => Err "FailedToTransactAsset" | Panic => Panic end.
  Definition deposit_any (L raw : ledger) (i : xid) (amt : Z) (to : loc) : res (ledger * ledger) :=
    match deposit_asset L i amt to with
    | Ok L' => Ok (L', raw)
    | Err e => if String.eqb e "AssetNotFound" then let* raw' := raw_deposit raw i amt to in Ok (L, raw') else Err e
    | Panic => Panic
    end.

  (** ** Executing a message: the ledger, the trader and the holding register, and what the executor may do with them *)
  Record vm := mkVm { v_led : ledger; v_tr : trader; v_hold : gmap loc Z }.
  Definition vm0 (L : ledger) : vm := mkVm L tr_new ∅.
  Definition held (h : gmap loc Z) (l : loc) : Z := default 0 (h !! l).
  Inductive vm_op :=
  | VReceive (l : loc) (amt : Z)                 (* ReserveAssetDeposited: [amt] now lie in the reserve *)
  | VWithdraw (l : loc) (amt : Z) (from : loc)   (* WithdrawAsset *)
  | VBuy (w : weight) (l : loc) (amt : Z)        (* BuyExecution *)
  | VRefund (w : weight)                         (* RefundSurplus, also at the end of the message *)
  | VDeposit (l : loc) (amt : Z) (to : loc)      (* DepositAsset *)
  | VLose (l : loc) (amt : Z).                   (* sent on to another chain, trapped or dropped *)
  Definition hold_add (h : gmap loc Z) (l : loc) (amt : Z) : gmap loc Z := <[l := held h l + amt]> h.
  Definition vm_step (s : vm) (o : vm_op) : res vm :=
    match o with
    | VReceive l amt => let* _ := ensure (0 <=? amt) "" in Ok (mkVm (v_led s) (v_tr s) (hold_add (v_hold s) l amt))
    | VWithdraw l amt from =>
        let* L := withdraw_asset (v_led s) (XC l) amt from in Ok (mkVm L (v_tr s) (hold_add (v_hold s) l amt))
    | VBuy w l amt =>
        let* _ := ensure ((0 <=? amt) && (amt <=? held (v_hold s) l)) "NotHoldingFees" in
        let*' (t, unused) := buy_weight (v_tr s) w [(XC l, amt)] in
        let back := match unused with (_, v) :: _ => v | [] => 0 end in
        Ok (mkVm (v_led s) t (hold_add (v_hold s) l (back - amt)))
    | VRefund w =>
        let*' (t, m) := refund_weight (v_tr s) w in
        Ok (mkVm (v_led s) t (match m with Some (l, v) => hold_add (v_hold s) l v | None => v_hold s end))
    | VDeposit l amt to =>
        let* _ := ensure ((0 <=? amt) && (amt <=? held (v_hold s) l)) "" in
        let* L := deposit_asset (v_led s) (XC l) amt to in Ok (mkVm L (v_tr s) (hold_add (v_hold s) l (- amt)))
    | VLose l amt =>
        let* _ := ensure ((0 <=? amt) && (amt <=? held (v_hold s) l)) "" in
        Ok (mkVm (v_led s) (v_tr s) (hold_add (v_hold s) l (- amt)))
    end.
  Fixpoint vm_run (s : vm) (ops : list vm_op) : res vm :=
    match ops with [] => Ok s | o :: r => let* s' := vm_step s o in vm_run s' r end.
  (** a whole message: run, then drop the trader *)
  Definition vm_message (L : ledger) (ops : list vm_op) : res ledger :=
    let* s := vm_run (vm0 L) ops in Ok (take_revenue (v_led s) (v_tr s)).
End xcm.

(** [GiftConvert] of the runtime, RT:1180-1197 with DOLLARS = 10^12 *)
Definition rt_gift (decimals : asset -> Z) (dot eusdt eusdc : asset) (amt : Z) (a : asset) : option Z :=
  let d := decimals a in
  if d =? 0 then Some 0 else
  if (a =? dot) && (5 * Z.max 0 (10 ^ d - 96000000) <=? amt) then Some (65 * 10 ^ 12 / 100)
  else if ((a =? eusdt) || (a =? eusdc)) && (300 * 10 ^ d <=? amt) then Some (65 * 10 ^ 12 / 100)
  else Some 0.
