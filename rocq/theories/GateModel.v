(** * GateModel: which calls run, and in whose name.
    pallets/emergency-shutdown/src/lib.rs, pallets/evm-signatures/src/lib.rs and the call filter of the runtimes
    (runtime/parallel/src/lib.rs:253-354; heiko, kerria and vanilla are the same up to constants).

    The other pallets are an arbitrary function [gc_other] on their own storage, the ledger and the account records.
    Not modelled: weights, events, transaction fees of ordinary extrinsics (part of [gc_charge]), the transaction pool's
    priorities and longevity. *)
From Verif Require Import Base Ledger.

Inductive gorigin := ORoot | OGov | OSigned (w : Z) | ONone.

(** runtime calls: those of the two pallets, and any other call by pallet index, call index and encoded arguments *)
Inductive gcall :=
| GTogglePallet (p : Z)                                            (* emergency-shutdown, call 0 *)
| GToggleCall (p c : Z)                                            (* emergency-shutdown, call 1 *)
| GEvm (c : gcall) (signer : Z) (sg : list Z) (nonce : Z)          (* evm-signatures, call 0 *)
| GWithdraw (a : Z) (address : Z) (value : Z)                      (* evm-signatures, call 1 *)
| GOther (p c : Z) (args : list Z).

(** indices in construct_runtime!, runtime/parallel/src/lib.rs:2023 and 2033; the encoding of a call starts with them
    (emergency-shutdown lib.rs:117-121) *)
Definition call_index (c : gcall) : Z * Z :=
  match c with
  | GTogglePallet _ => (91, 0) | GToggleCall _ _ => (91, 1)
  | GEvm _ _ _ _ => (113, 0) | GWithdraw _ _ _ => (113, 1)
  | GOther p c _ => (p, c)
  end.

(** storage shared with the other pallets: the ledger, the account nonces (frame_system), their own storage, and (ghost) how
    often an account record was removed *)
Record world (R : Type) := mkWorld { w_led : ledger; w_nonce : gmap Z Z; w_deaths : gmap Z Z; w_rest : R }.
Arguments mkWorld {R} _ _ _ _.  Arguments w_led {R} _.  Arguments w_nonce {R} _.  Arguments w_deaths {R} _.  Arguments w_rest {R} _.
(** DisabledPallets and DisabledCalls (lib.rs:75-82) beside the world *)
Record gate (R : Type) := mkGate { g_dp : gmap Z bool; g_dc : gmap (Z * Z) bool; g_w : world R }.
Arguments mkGate {R} _ _ _.  Arguments g_dp {R} _.  Arguments g_dc {R} _.  Arguments g_w {R} _.

Record gate_cfg (R : Type) := mkGateCfg {
  gc_white : gcall -> bool;               (* WhiteListFilter *)
  gc_listed : gcall -> bool;              (* the further calls of BaseCallFilter *)
  gc_shutdown : gorigin -> bool;          (* ShutdownOrigin *)
  gc_verify : bool;                       (* VerifySignature *)
  gc_magic : Z;                           (* CallMagicNumber *)
  gc_sig : list Z -> (Z * Z * gcall) -> Z -> bool;   (* EthereumSignature::verify over the encoded payload *)
  gc_fee : Z;                             (* CallFee *)
  gc_treasury : Z;                        (* OnChargeTransaction *)
  gc_nat : Z;                             (* GetNativeCurrencyId *)
  gc_ed : Z;                              (* the existential deposit of Balances *)
  gc_pol : policy;                        (* further refusals of the ledger *)
  gc_keeps : R -> Z -> bool;              (* other references that keep an account record alive *)
  gc_map : Z -> Z;                        (* AddressMapping: H160 -> account *)
  gc_owner : Z -> gorigin -> option Z;    (* WithdrawOrigin::ensure_address_origin *)
  gc_charge : world R -> Z -> gcall -> option ledger;  (* the fee of an ordinary signed extrinsic *)
  gc_other : gorigin -> Z -> Z -> list Z -> world R -> res (world R)
}.
Arguments mkGateCfg {R}.
Arguments gc_white {R} _ _.  Arguments gc_listed {R} _ _.  Arguments gc_shutdown {R} _ _.  Arguments gc_verify {R} _.
Arguments gc_magic {R} _.  Arguments gc_sig {R} _ _ _ _.  Arguments gc_fee {R} _.  Arguments gc_treasury {R} _.
Arguments gc_nat {R} _.  Arguments gc_ed {R} _.  Arguments gc_pol {R} _.  Arguments gc_keeps {R} _ _ _.
Arguments gc_map {R} _ _.  Arguments gc_owner {R} _ _ _.  Arguments gc_charge {R} _ _ _ _.  Arguments gc_other {R} _ _ _ _ _ _.

Section gate.
  Context {R : Type} (C : gate_cfg R).
  Local Notation gate := (gate R).
  Local Notation world := (world R).

  (** [disabled_pallets], [disabled_calls]: ValueQuery, default false *)
  Definition pallet_disabled (s : gate) (p : Z) : bool := default false (g_dp s !! p).
  Definition call_disabled (s : gate) (p c : Z) : bool := default false (g_dc s !! (p, c)).
  (** frame_system::account_nonce *)
  Definition nonce_of (w : world) (a : Z) : Z := default 0 (w_nonce w !! a).
  Definition deaths_of (w : world) (a : Z) : Z := default 0 (w_deaths w !! a).

  (** [EmergencyCallFilter::contains], emergency-shutdown lib.rs:116-125 *)
  Definition shutdown_contains (s : gate) (c : gcall) : bool :=
    let '(p, k) := call_index c in
    gc_white C c || (negb (pallet_disabled s p) && negb (call_disabled s p k)).
  (** [BaseCallFilter::contains], runtime/parallel/src/lib.rs:306-354 *)
  Definition base_filter (s : gate) (c : gcall) : bool :=
    (gc_white C c || gc_listed C c) && shutdown_contains s c.

  (** [toggle_pallet], emergency-shutdown lib.rs:89-98 *)
  Definition toggle_pallet (s : gate) (o : gorigin) (p : Z) : res gate :=
    let* _ := ensure (gc_shutdown C o) "BadOrigin" in
    Ok (mkGate (<[p := negb (pallet_disabled s p)]> (g_dp s)) (g_dc s) (g_w s)).
  (** [toggle_call], emergency-shutdown lib.rs:102-111 *)
  Definition toggle_call (s : gate) (o : gorigin) (p c : Z) : res gate :=
    let* _ := ensure (gc_shutdown C o) "BadOrigin" in
    Ok (mkGate (g_dp s) (<[(p, c) := negb (call_disabled s p c)]> (g_dc s)) (g_w s)).

  (** [valid_signature], evm-signatures lib.rs:217-230 *)
  Definition valid_signature (c : gcall) (signer : Z) (sg : list Z) (n : Z) : bool :=
    if gc_verify C then gc_sig C sg (gc_magic C, n, c) signer else true.
  (** [EthereumSignature::try_from], ethereum.rs:42-54 *)
  Definition sig_decodes (sg : list Z) : bool := Nat.eqb (length sg) 65.

  (** [T::Currency::withdraw(signer, CallFee, FEE, AllowDeath)] and [OnChargeTransaction::on_unbalanced], lib.rs:178-186: the fee
      goes to the treasury; what is left below the existential deposit is burnt and the account record, with its nonce,
      removed unless something else refers to it *)
  Definition charge_fee (w : world) (signer : Z) : res world :=
    let* L := transfer (gc_pol C) (w_led w) (gc_nat C) signer (gc_treasury C) (gc_fee C) false in
    let rest := bal L (gc_nat C) signer in
    if gc_ed C <=? rest then Ok (mkWorld L (w_nonce w) (w_deaths w) (w_rest w)) else
    let L' := set_iss (set_bal L (gc_nat C) signer 0) (gc_nat C) (iss L (gc_nat C) - rest) in
    if gc_keeps C (w_rest w) signer then Ok (mkWorld L' (w_nonce w) (w_deaths w) (w_rest w)) else
    Ok (mkWorld L' (delete signer (w_nonce w)) (<[signer := deaths_of w signer + 1]> (w_deaths w)) (w_rest w)).

  (** [call] up to the dispatch, lib.rs:152-186; T::Index is u32 and [inc_account_nonce] a checked addition *)
  Definition evm_pre (s : gate) (o : gorigin) (c : gcall) (signer : Z) (sg : list Z) (n : Z) : res gate :=
    let* _ := ensure (match o with ONone => true | _ => false end) "BadOrigin" in
    let* _ := ensure (n =? nonce_of (g_w s) signer) "BadNonce" in
    let* _ := ensure (sig_decodes sg) "DecodeFailure" in
    let* _ := ensure (valid_signature c signer sg n) "InvalidSignature" in
    if U32MAX <=? nonce_of (g_w s) signer then Panic else
    let w1 := mkWorld (w_led (g_w s)) (<[signer := nonce_of (g_w s) signer + 1]> (w_nonce (g_w s))) (w_deaths (g_w s)) (w_rest (g_w s)) in
    let* w2 := charge_fee w1 signer in
    Ok (mkGate (g_dp s) (g_dc s) w2).

  (** [withdraw], lib.rs:200-212, [transfer], 232-245 *)
  Definition evm_withdraw (s : gate) (o : gorigin) (a address value : Z) : res gate :=
    let* dest := ok_or (gc_owner C address o) "BadOrigin" in
    let* L := transfer (gc_pol C) (w_led (g_w s)) a (gc_map C address) dest value false in
    Ok (mkGate (g_dp s) (g_dc s) (mkWorld L (w_nonce (g_w s)) (w_deaths (g_w s)) (w_rest (g_w s)))).

  (** dispatch of a call with a given origin, without the filter; the failure of the inner call of [GEvm] is only reported in an
      event (lib.rs:188-194), its effects are rolled back *)
  Fixpoint dispatch (c : gcall) (o : gorigin) (s : gate) : res gate :=
    match c with
    | GTogglePallet p => toggle_pallet s o p
    | GToggleCall p k => toggle_call s o p k
    | GWithdraw a ad v => evm_withdraw s o a ad v
    | GOther p k args =>
        let* w := gc_other C o p k args (g_w s) in Ok (mkGate (g_dp s) (g_dc s) w)
    | GEvm c' signer sg n =>
        let* s1 := evm_pre s o c' signer sg n in
        match dispatch c' (OSigned signer) s1 with
        | Ok s2 => Ok s2 | Err _ => Ok s1 | Panic => Panic
        end
    end.

  (** [validate_unsigned], lib.rs:254-289 *)
  Definition validate_unsigned (s : gate) (c : gcall) : bool :=
    match c with
    | GEvm c' signer sg n => (n =? nonce_of (g_w s) signer) && sig_decodes sg && valid_signature c' signer sg n
    | _ => false
    end.

  (** an extrinsic or a governance dispatch: signed ones check and raise the nonce (frame_system CheckNonce) and pay their fee
      whatever the call does; unsigned ones only exist for evm-signatures, whose pre_dispatch (lib.rs:291-293) checks nothing;
      every origin but root passes the call filter *)
  Inductive ext :=
  | XSigned (w n : Z) (c : gcall)
  | XUnsigned (c : gcall)
  | XGov (c : gcall)
  | XRoot (c : gcall).
  Definition run_call (o : gorigin) (c : gcall) (s : gate) : res gate :=
    match o with
    | ORoot => dispatch c o s
    | _ => let* _ := ensure (base_filter s c) "CallFiltered" in dispatch c o s
    end.
  Definition gstep (s : gate) (x : ext) : res gate :=
    match x with
    | XSigned w n c =>
        let* _ := ensure (n =? nonce_of (g_w s) w) "Stale" in
        if U32MAX <=? nonce_of (g_w s) w then Panic else
        let* L := ok_or (gc_charge C (g_w s) w c) "Payment" in
        let s1 := mkGate (g_dp s) (g_dc s) (mkWorld L (<[w := nonce_of (g_w s) w + 1]> (w_nonce (g_w s))) (w_deaths (g_w s)) (w_rest (g_w s))) in
        match run_call (OSigned w) c s1 with Ok s2 => Ok s2 | Err _ => Ok s1 | Panic => Panic end
    | XUnsigned c =>
        match c with
        | GEvm _ _ _ _ | GWithdraw _ _ _ => run_call ONone c s
        | _ => Err "NoUnsignedValidator"
        end
    | XGov c => run_call OGov c s
    | XRoot c => run_call ORoot c s
    end.
  (** a history: failed extrinsics change nothing *)
  Definition gexec (s : gate) (x : ext) : gate := match gstep s x with Ok s' => s' | _ => s end.
  Definition grun (s : gate) (l : list ext) : gate := fold_left gexec l s.
End gate.
