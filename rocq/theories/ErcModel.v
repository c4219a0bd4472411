(** * ErcModel: the ERC20 precompiles.
    [BAL]  = precompiles/balances-erc20/src/lib.rs   [BAL26] = precompiles/balances-erc20/src/eip2612.rs
    [AST]  = precompiles/assets-erc20/src/lib.rs     [AST26] = precompiles/assets-erc20/src/eip2612.rs
    [UTL]  = precompiles/utils/src/lib.rs            [DAT]   = precompiles/utils/src/data.rs
    [PRE]  = runtime/common/src/precompiles.rs       [RT]    = runtime/vanilla/src/lib.rs
    H160 addresses, U256 values and bytes are integers; keccak is a tuple (no collisions); secp256k1 recovery is an
    argument.  Gas is not modelled: running out of gas reverts the call like any other error. *)
From Verif Require Import Base MapSum Ledger.

(** ** Input data, DAT:95-151, 371-413 *)
(** big-endian number *)
Definition be (bs : list Z) : Z := fold_left (fun acc b => acc * 256 + b) bs 0.
(** the [i]-th 32-byte word after the selector, DAT:136-151 and the [read]s 351-413 *)
Definition word (bs : list Z) (i : nat) : option Z :=
  let w := take 32 (drop (4 + 32 * i) bs) in
  if bool_decide (length w = 32%nat) then Some (be w) else None.
Definition arg (bs : list Z) (i : nat) : res Z := ok_or (word bs i) "tried to parse out of bounds".
(** [Address::read], DAT:371-381: the last 20 of the 32 bytes *)
Definition addr_arg (bs : list Z) (i : nat) : res Z := let* w := arg bs i in Ok (w mod 2 ^ 160).
(** [expect_arguments], DAT:127-133 *)
Definition expect (bs : list Z) (n : nat) : res unit :=
  ensure (bool_decide (4 + 32 * n <= length bs)%nat) "input doesn't match expected length".

(** the two [Action] enums, BAL:161-177 and AST:62-79, with the first four bytes of the keccak hash of the signature *)
Inductive action :=
| TotalSupply | BalanceOf | Allowance | Transfer | Approve | TransferFrom | Name | Symbol | Decimals
| MinimumBalance | Mint | Burn | Deposit | Withdraw | Permit | Nonces | DomainSeparator.
Definition native_selector (z : Z) : option action :=
  if z =? 0x18160ddd then Some TotalSupply else if z =? 0x70a08231 then Some BalanceOf else
  if z =? 0xdd62ed3e then Some Allowance else if z =? 0xa9059cbb then Some Transfer else
  if z =? 0x095ea7b3 then Some Approve else if z =? 0x23b872dd then Some TransferFrom else
  if z =? 0x06fdde03 then Some Name else if z =? 0x95d89b41 then Some Symbol else
  if z =? 0x313ce567 then Some Decimals else if z =? 0xd0e30db0 then Some Deposit else
  if z =? 0x2e1a7d4d then Some Withdraw else if z =? 0xd505accf then Some Permit else
  if z =? 0x7ecebe00 then Some Nonces else if z =? 0x3644e515 then Some DomainSeparator else None.
Definition asset_selector (z : Z) : option action :=
  if z =? 0x18160ddd then Some TotalSupply else if z =? 0x70a08231 then Some BalanceOf else
  if z =? 0xdd62ed3e then Some Allowance else if z =? 0xa9059cbb then Some Transfer else
  if z =? 0x095ea7b3 then Some Approve else if z =? 0x23b872dd then Some TransferFrom else
  if z =? 0x06fdde03 then Some Name else if z =? 0x95d89b41 then Some Symbol else
  if z =? 0x313ce567 then Some Decimals else if z =? 0xb9d1d49b then Some MinimumBalance else
  if z =? 0x40c10f19 then Some Mint else if z =? 0x9dc29fac then Some Burn else
  if z =? 0xd505accf then Some Permit else
  if z =? 0x7ecebe00 then Some Nonces else if z =? 0x3644e515 then Some DomainSeparator else None.
(** [read_selector], DAT:95-115 *)
Definition read_selector (sel : Z -> option action) (bs : list Z) : res action :=
  let* _ := ensure (bool_decide (4 <= length bs)%nat) "tried to parse selector out of bounds" in
  ok_or (sel (be (take 4 bs))) "unknown selector".

(** the EVM context of a call: [handle.code_address()], [handle.context()] and [handle.is_static()] *)
Record ectx := mkCx { cx_code : Z; cx_addr : Z; cx_caller : Z; cx_value : Z; cx_static : bool }.

(** [FunctionModifier] and [check_function_modifier], UTL:422-436 *)
Inductive modifier := NonPayable | Payable | View.
Definition check_modifier (cx : ectx) (m : modifier) : res unit :=
  let* _ := ensure (negb (cx_static cx && match m with View => false | _ => true end))
                   "can't call non-static function in static context" in
  ensure (negb (match m with Payable => false | _ => true end && (0 <? cx_value cx))) "function is not payable".

(** logs *)
Inductive elog :=
| LTransfer (token from to amt : Z)
| LApproval (token owner spender amt : Z)
| LDeposit (token who amt : Z)
| LWithdrawal (token who amt : Z).

(** what a permit's signature covers: BAL26:44-87 and AST26:131-183 *)
Record permit_msg := mkPermit {
  pm_chain : Z; pm_contract : Z; pm_name : Z; pm_owner : Z; pm_spender : Z; pm_value : Z; pm_nonce : Z; pm_deadline : Z
}.

(** calls of pallet_balances and pallet_assets that the precompiles dispatch *)
Inductive fcall :=
| NTransfer (to : account) (amt : Z)
| ATransfer (a : asset) (to : account) (amt : Z)
| ATransferApproved (a : asset) (owner to : account) (amt : Z)
| AApprove (a : asset) (delegate : account) (amt : Z)
| ACancel (a : asset) (delegate : account)
| AMint (a : asset) (w : account) (amt : Z)
| ABurn (a : asset) (w : account) (amt : Z).

Record erc := mkErc {
  e_led : ledger;
  e_nappr : gmap (Z * Z) Z;           (* BAL ApprovesStorage: (owner, spender) accounts *)
  e_nnonce : gmap Z Z;                (* BAL NoncesStorage: owner address *)
  e_aappr : gmap (Z * Z * Z) Z;       (* pallet_assets Approvals: (asset, owner, delegate) *)
  e_anonce : gmap (Z * Z) Z           (* AST26 NoncesStorage: (contract address, owner address) *)
}.
Definition set_e_led (s : erc) (L : ledger) : erc := mkErc L (e_nappr s) (e_nnonce s) (e_aappr s) (e_anonce s).
Definition set_e_nappr (s : erc) m : erc := mkErc (e_led s) m (e_nnonce s) (e_aappr s) (e_anonce s).
Definition set_e_nnonce (s : erc) m : erc := mkErc (e_led s) (e_nappr s) m (e_aappr s) (e_anonce s).
Definition set_e_aappr (s : erc) m : erc := mkErc (e_led s) (e_nappr s) (e_nnonce s) m (e_anonce s).
Definition set_e_anonce (s : erc) m : erc := mkErc (e_led s) (e_nappr s) (e_nnonce s) (e_aappr s) m.

Record erc_cfg := mkErcCfg {
  ec_map : Z -> account;              (* AddressMapping::into_account_id *)
  ec_native : asset;                  (* the id under which the ledger keeps the native token *)
  ec_is_native : bool;                (* Metadata::is_native_currency, RT:148-150 *)
  ec_exists : asset -> bool;          (* pallet_assets::maybe_total_supply(..).is_some() *)
  ec_issuer : asset -> account;
  ec_admin : asset -> account;
  ec_minbal : asset -> Z;
  ec_locked : account -> Z;           (* locked native balance *)
  ec_chain : Z;                       (* ChainId *)
  ec_name : asset -> Z;               (* hash of the token's name *)
  ec_decimals : asset -> Z;
  ec_recover : Z * Z * Z -> permit_msg -> option Z;   (* secp256k1_ecdsa_recover and the address of the key *)
  ec_allow : erc -> account -> fcall -> bool;         (* call filter, asset status, approval deposits, ... *)
  ec_pure : Z -> list Z -> res (list Z)               (* the stateless precompiles 1..9, 1024..1027 *)
}.

Section erc.
  Context (C : erc_cfg) (P : policy).

  (** dispatch of a signed pallet_balances / pallet_assets call (their documented behaviour); UTL:171-207 [try_dispatch] *)
  Definition dispatch (s : erc) (o : account) (c : fcall) : res erc :=
    let* _ := ensure (ec_allow C s o c) "DispatchRefused" in
    match c with
    | NTransfer to amt =>
        let* L := transfer P (e_led s) (ec_native C) o to amt false in Ok (set_e_led s L)
    | ATransfer a to amt =>
        let* L := transfer P (e_led s) a o to amt false in Ok (set_e_led s L)
    | ATransferApproved a owner to amt =>
        let* v := ok_or (e_aappr s !! (a, owner, o)) "Unapproved" in
        let* rem := ok_or (checked_sub v amt) "Unapproved" in
        let* L := transfer P (e_led s) a owner to amt false in
        Ok (set_e_aappr (set_e_led s L)
              (if rem =? 0 then delete (a, owner, o) (e_aappr s) else <[(a, owner, o) := rem]> (e_aappr s)))
    | AApprove a d amt =>
        Ok (set_e_aappr s (<[(a, o, d) := sat128 (default 0 (e_aappr s !! (a, o, d)) + amt)]> (e_aappr s)))
    | ACancel a d =>
        let* _ := ok_or (e_aappr s !! (a, o, d)) "Unknown" in
        Ok (set_e_aappr s (delete (a, o, d) (e_aappr s)))
    | AMint a w amt =>
        let* _ := ensure ((amt =? 0) || (o =? ec_issuer C a)) "NoPermission" in
        let* L := mint_into P (e_led s) a w amt in Ok (set_e_led s L)
    | ABurn a w amt =>
        let* _ := ensure ((amt =? 0) || (o =? ec_admin C a)) "NoPermission" in
        let* L := burn_from P (e_led s) a w (Z.min amt (bal (e_led s) a w)) in Ok (set_e_led s L)
    end.

  (** [u256_to_amount], BAL:578-582, AST:551-555 *)
  Definition to_amount (v : Z) : res Z := ok_or (chk v) "Error processing amount".

  Definition ret (s : erc) (out : list Z) (logs : list elog) : res (erc * list Z * list elog) := Ok (s, out, logs).

  (** ** The native token *)
  Definition usable (s : erc) (w : account) : Z := Z.max 0 (bal (e_led s) (ec_native C) w - ec_locked C w).

  (** BAL:344-377 *)
  Definition n_approve (s : erc) (cx : ectx) (bs : list Z) : res (erc * list Z * list elog) :=
    let* _ := expect bs 2 in
    let* spender := addr_arg bs 0 in
    let* amount := arg bs 1 in
    ret (set_e_nappr s (<[(ec_map C (cx_caller cx), ec_map C spender) := sat128 amount]> (e_nappr s)))
        [1] [LApproval (cx_addr cx) (cx_caller cx) spender amount].

  (** BAL:379-417 *)
  Definition n_transfer (s : erc) (cx : ectx) (bs : list Z) : res (erc * list Z * list elog) :=
    let* _ := expect bs 2 in
    let* to := addr_arg bs 0 in
    let* amount := arg bs 1 in
    let* amt := to_amount amount in
    let* s1 := dispatch s (ec_map C (cx_caller cx)) (NTransfer (ec_map C to) amt) in
    ret s1 [1] [LTransfer (cx_addr cx) (cx_caller cx) to amount].

  (** BAL:419-479 *)
  Definition n_transfer_from (s : erc) (cx : ectx) (bs : list Z) : res (erc * list Z * list elog) :=
    let* _ := expect bs 3 in
    let* from := addr_arg bs 0 in
    let* to := addr_arg bs 1 in
    let* amount := arg bs 2 in
    let caller := ec_map C (cx_caller cx) in
    let* amt := to_amount amount in
    let* s1 := (if caller =? ec_map C from then Ok s else
                let* v := ok_or (e_nappr s !! (ec_map C from, caller)) "spender not allowed" in
                let* nv := ok_or (checked_sub v amt) "trying to spend more than allowed" in
                Ok (set_e_nappr s (<[(ec_map C from, caller) := nv]> (e_nappr s)))) in
    let* s2 := dispatch s1 (ec_map C from) (NTransfer (ec_map C to) amt) in
    ret s2 [1] [LTransfer (cx_addr cx) from to amount].

  (** BAL:506-544 *)
  Definition n_deposit (s : erc) (cx : ectx) : res (erc * list Z * list elog) :=
    let* _ := ensure (ec_is_native C) "unknown selector" in
    let* amt := to_amount (cx_value cx) in
    let* _ := ensure (negb (amt =? 0)) "deposited amount must be non-zero" in
    let* s1 := dispatch s (ec_map C (cx_addr cx)) (NTransfer (ec_map C (cx_caller cx)) amt) in
    ret s1 [] [LDeposit (cx_addr cx) (cx_caller cx) (cx_value cx)].

  (** BAL:546-576 *)
  Definition n_withdraw (s : erc) (cx : ectx) (bs : list Z) : res (erc * list Z * list elog) :=
    let* _ := ensure (ec_is_native C) "unknown selector" in
    let* amount := arg bs 0 in
    let* _ := ensure (amount <=? usable s (ec_map C (cx_caller cx))) "trying to withdraw more than owned" in
    ret s [] [LWithdrawal (cx_addr cx) (cx_caller cx) amount].

  (** BAL26:91-155; [now] is the timestamp in milliseconds *)
  Definition n_permit (now : Z) (s : erc) (cx : ectx) (bs : list Z) : res (erc * list Z * list elog) :=
    let* owner := addr_arg bs 0 in
    let* spender := addr_arg bs 1 in
    let* value := arg bs 2 in
    let* deadline := arg bs 3 in
    let* v := arg bs 4 in
    let* r := arg bs 5 in
    let* sg := arg bs 6 in
    let* _ := ensure (now / 1000 <=? deadline) "permit expired" in
    let nonce := default 0 (e_nnonce s !! owner) in
    let msg := mkPermit (ec_chain C) (cx_addr cx) (ec_name C (ec_native C)) owner spender value nonce deadline in
    let* signer := ok_or (ec_recover C (r, sg, v mod 256) msg) "invalid permit" in
    let* _ := ensure (negb (signer =? 0) && (signer =? owner)) "invalid permit" in
    ret (set_e_nappr (set_e_nnonce s (<[owner := nonce + 1]> (e_nnonce s)))
           (<[(ec_map C owner, ec_map C spender) := sat128 value]> (e_nappr s)))
        [] [LApproval (cx_addr cx) owner spender value].

  (** [execute], BAL:238-273: an unreadable selector means [Deposit]; the outcome of the modifier check is dropped ([.ok()]) *)
  Definition n_execute (now : Z) (s : erc) (cx : ectx) (bs : list Z) : res (erc * list Z * list elog) :=
    let sel := match read_selector native_selector bs with Ok a => a | _ => Deposit end in
    let _unchecked := check_modifier cx (match sel with
      | Approve | Transfer | TransferFrom | Withdraw => NonPayable | Deposit => Payable | _ => View end) in
    match sel with
    | TotalSupply => let* _ := expect bs 0 in ret s [iss (e_led s) (ec_native C)] []
    | BalanceOf => let* _ := expect bs 1 in let* o := addr_arg bs 0 in ret s [usable s (ec_map C o)] []
    | Allowance => let* _ := expect bs 2 in let* o := addr_arg bs 0 in let* p := addr_arg bs 1 in
        ret s [default 0 (e_nappr s !! (ec_map C o, ec_map C p))] []
    | Approve => n_approve s cx bs
    | Transfer => n_transfer s cx bs
    | TransferFrom => n_transfer_from s cx bs
    | Name => ret s [ec_name C (ec_native C)] []
    | Symbol => ret s [ec_name C (ec_native C)] []
    | Decimals => ret s [ec_decimals C (ec_native C)] []
    | Deposit => n_deposit s cx
    | Withdraw => n_withdraw s cx bs
    | Permit => n_permit now s cx bs
    | Nonces => let* o := addr_arg bs 0 in ret s [default 0 (e_nnonce s !! o)] []
    | DomainSeparator => ret s [] []     (* BAL26:168-179, the hash itself is not modelled *)
    | MinimumBalance | Mint | Burn => Err "unknown selector"   (* never produced by [native_selector] *)
    end.

  (** ** The other assets *)

  (** [approve_inner], AST:292-331; amounts above u128 saturate *)
  Definition approve_inner (s : erc) (a : asset) (owner spender : Z) (value : Z) : res erc :=
    let o := ec_map C owner in
    let p := ec_map C spender in
    let* s1 := (if default 0 (e_aappr s !! (a, o, p)) =? 0 then Ok s else dispatch s o (ACancel a p)) in
    dispatch s1 o (AApprove a p (sat128 value)).

  (** AST:266-290 *)
  Definition a_approve (s : erc) (a : asset) (cx : ectx) (bs : list Z) : res (erc * list Z * list elog) :=
    let* _ := expect bs 2 in
    let* spender := addr_arg bs 0 in
    let* amount := arg bs 1 in
    let* s1 := approve_inner s a (cx_caller cx) spender amount in
    ret s1 [1] [LApproval (cx_addr cx) (cx_caller cx) spender amount].

  (** AST:333-373 *)
  Definition a_transfer (s : erc) (a : asset) (cx : ectx) (bs : list Z) : res (erc * list Z * list elog) :=
    let* _ := expect bs 2 in
    let* to := addr_arg bs 0 in
    let* amount := arg bs 1 in
    let* amt := to_amount amount in
    let* s1 := dispatch s (ec_map C (cx_caller cx)) (ATransfer a (ec_map C to) amt) in
    ret s1 [1] [LTransfer (cx_addr cx) (cx_caller cx) to amount].

  (** AST:375-432 *)
  Definition a_transfer_from (s : erc) (a : asset) (cx : ectx) (bs : list Z) : res (erc * list Z * list elog) :=
    let* _ := expect bs 3 in
    let* from := addr_arg bs 0 in
    let* to := addr_arg bs 1 in
    let* amount := arg bs 2 in
    let caller := ec_map C (cx_caller cx) in
    let* amt := to_amount amount in
    let* s1 := (if negb (caller =? ec_map C from)
                then dispatch s caller (ATransferApproved a (ec_map C from) (ec_map C to) amt)
                else dispatch s (ec_map C from) (ATransfer a (ec_map C to) amt)) in
    ret s1 [1] [LTransfer (cx_addr cx) from to amount].

  (** AST:497-522 *)
  Definition a_mint (s : erc) (a : asset) (cx : ectx) (bs : list Z) : res (erc * list Z * list elog) :=
    let* _ := expect bs 2 in
    let* to := addr_arg bs 0 in
    let* amount := arg bs 1 in
    let* amt := to_amount amount in
    let* s1 := dispatch s (ec_map C (cx_caller cx)) (AMint a (ec_map C to) amt) in
    ret s1 [1] [].

  (** AST:524-549 *)
  Definition a_burn (s : erc) (a : asset) (cx : ectx) (bs : list Z) : res (erc * list Z * list elog) :=
    let* _ := expect bs 2 in
    let* who := addr_arg bs 0 in
    let* amount := arg bs 1 in
    let* amt := to_amount amount in
    let* s1 := dispatch s (ec_map C (cx_caller cx)) (ABurn a (ec_map C who) amt) in
    ret s1 [1] [].

  (** AST26:187-244 *)
  Definition a_permit (now : Z) (s : erc) (a : asset) (cx : ectx) (bs : list Z) : res (erc * list Z * list elog) :=
    let* owner := addr_arg bs 0 in
    let* spender := addr_arg bs 1 in
    let* value := arg bs 2 in
    let* deadline := arg bs 3 in
    let* v := arg bs 4 in
    let* r := arg bs 5 in
    let* sg := arg bs 6 in
    let* _ := ensure (now / 1000 <=? deadline) "permit expired" in
    let nonce := default 0 (e_anonce s !! (cx_code cx, owner)) in
    let msg := mkPermit (ec_chain C) (cx_code cx) (ec_name C a) owner spender value nonce deadline in
    let* signer := ok_or (ec_recover C (r, sg, v mod 256) msg) "invalid permit" in
    let* _ := ensure (negb (signer =? 0) && (signer =? owner)) "invalid permit" in
    let s1 := set_e_anonce s (<[(cx_code cx, owner) := nonce + 1]> (e_anonce s)) in
    let* s2 := approve_inner s1 a owner spender value in
    ret s2 [] [LApproval (cx_addr cx) owner spender value].

  (** [address_to_asset_id] and [asset_id_to_address], RT:452-468: the prefix ffffffff and the last four bytes *)
  Definition address_to_asset_id (addr : Z) : option asset :=
    if addr / 2 ^ 128 =? 2 ^ 32 - 1 then Some (addr mod 2 ^ 32) else None.
  Definition asset_id_to_address (a : asset) : Z := (2 ^ 32 - 1) * 2 ^ 128 + a.

  (** the selected asset, AST:130-136 and [is_precompile] AST:189-195 *)
  Definition asset_at (addr : Z) : option asset :=
    match address_to_asset_id addr with
    | Some a => if ec_exists C a then Some a else None
    | None => None
    end.

  (** [execute], AST:130-187 *)
  Definition a_execute (now : Z) (s : erc) (cx : ectx) (bs : list Z) : option (res (erc * list Z * list elog)) :=
    match asset_at (cx_code cx) with
    | None => None
    | Some a => Some (
        let* sel := read_selector asset_selector bs in
        let* _ := check_modifier cx (match sel with
          | Approve | Transfer | TransferFrom | Mint | Burn => NonPayable | _ => View end) in
        match sel with
        | TotalSupply => ret s [iss (e_led s) a] []
        | BalanceOf => let* _ := expect bs 1 in let* o := addr_arg bs 0 in ret s [bal (e_led s) a (ec_map C o)] []
        | Allowance => let* _ := expect bs 2 in let* o := addr_arg bs 0 in let* p := addr_arg bs 1 in
            ret s [default 0 (e_aappr s !! (a, ec_map C o, ec_map C p))] []
        | Approve => a_approve s a cx bs
        | Transfer => a_transfer s a cx bs
        | TransferFrom => a_transfer_from s a cx bs
        | Name => ret s [ec_name C a] []
        | Symbol => ret s [ec_name C a] []
        | Decimals => ret s [ec_decimals C a] []
        | MinimumBalance => ret s [ec_minbal C a] []
        | Mint => a_mint s a cx bs
        | Burn => a_burn s a cx bs
        | Permit => a_permit now s a cx bs
        | Nonces => let* o := addr_arg bs 0 in ret s [default 0 (e_anonce s !! (cx_code cx, o))] []
        | DomainSeparator => ret s [] []     (* AST26:260-272, the hash itself is not modelled *)
        | Deposit | Withdraw => Err "unknown selector"   (* never produced by [asset_selector] *)
        end)
    end.

  (** [used_addresses] and [is_precompile], PRE:48-52, 109-112 *)
  Definition used_addresses : list Z := [1; 2; 3; 4; 5; 6; 7; 8; 9; 1024; 1025; 1026; 1027; 2050].
  Definition is_precompile (addr : Z) : bool :=
    bool_decide (addr ∈ used_addresses) || bool_decide (is_Some (asset_at addr)).

  (** [execute], PRE:76-107 *)
  Definition execute (now : Z) (s : erc) (cx : ectx) (bs : list Z) : option (res (erc * list Z * list elog)) :=
    let address := cx_code cx in
    if is_precompile address && (9 <? address) && negb (cx_addr cx =? address) then
      Some (Err "cannot be called with DELEGATECALL or CALLCODE")
    else if address =? 2050 then Some (n_execute now s cx bs)
    else if bool_decide (address ∈ used_addresses) then
      Some (let* out := ec_pure C address bs in ret s out [])
    else if address / 2 ^ 128 =? 2 ^ 32 - 1 then a_execute now s cx bs
    else None.

  (** An EVM call (CALL, STATICCALL, DELEGATECALL or CALLCODE) of a precompile: for a CALL the EVM first moves the attached
      value from the caller to the callee; an error reverts everything.  [None]: there is no precompile at that address *)
  Definition evm_call (now : Z) (s : erc) (cx : ectx) (bs : list Z) : option (res (erc * list Z * list elog)) :=
    match (if cx_addr cx =? cx_code cx
           then let* amt := to_amount (cx_value cx) in
                let* L := transfer P (e_led s) (ec_native C) (ec_map C (cx_caller cx)) (ec_map C (cx_addr cx)) amt false in
                Ok (set_e_led s L)
           else Ok s) with
    | Ok s1 => execute now s1 cx bs
    | _ => Some (Err "OutOfFund")
    end.

  (** ** Histories: EVM calls of precompiles and signed pallet_balances / pallet_assets calls *)
  Inductive erc_op :=
  | ECall (now : Z) (cx : ectx) (bs : list Z)
  | EDispatch (o : account) (c : fcall).

  (** an EVM call or extrinsic that fails leaves no trace *)
  Definition erc_exec (s : erc) (o : erc_op) : erc :=
    match o with
    | ECall now cx bs => match evm_call now s cx bs with Some (Ok (s', _, _)) => s' | _ => s end
    | EDispatch o c => match dispatch s o c with Ok s' => s' | _ => s end
    end.
End erc.
