(** * RegModel: the asset registry, pallets/asset-registry/src/lib.rs, and the currency adapter,
    pallets/currency-adapter/src/lib.rs.
    Asset ids and asset types (XCM locations, totally ordered) are integers.  Events and weights are not modelled. *)
From Verif Require Import Base Ledger AmmModel.

(** [slice::binary_search] of the Rust core library: [inl i] = Ok(i), [inr i] = Err(i).  [fuel] bounds the rounds, the length of the
    slice is enough. *)
Fixpoint bsearch_aux (fuel : nat) (l : list Z) (x : Z) (left right : nat) : nat + nat :=
  match fuel with
  | O => inr left
  | S f =>
      if Nat.ltb left right then
        let mid := (left + Nat.div (right - left) 2)%nat in
        let y := nth mid l 0 in
        if y <? x then bsearch_aux f l x (S mid) right
        else if x <? y then bsearch_aux f l x left mid
        else inl mid
      else inr left
  end.
Definition bsearch (l : list Z) (x : Z) : nat + nat := bsearch_aux (S (length l)) l x 0 (length l).
(** [Vec::insert], [Vec::remove] *)
Definition vec_insert (l : list Z) (i : nat) (x : Z) : list Z := take i l ++ x :: drop i l.
Definition vec_remove (l : list Z) (i : nat) : list Z := take i l ++ drop (S i) l.
(** the two idioms of the pallet: add unless found, remove if found *)
Definition add_supported (l : list Z) (x : Z) : list Z := match bsearch l x with inl _ => l | inr i => vec_insert l i x end.
Definition del_supported (l : list Z) (x : Z) : list Z := match bsearch l x with inl i => vec_remove l i | inr _ => l end.

(** storage, 101-124: AssetIdType, AssetTypeId, AssetTypeUnitsPerSecond, SupportedFeePaymentAssets *)
Record reg := mkReg { r_id : gmap Z Z; r_ty : gmap Z Z; r_ups : gmap Z Z; r_sup : list Z }.
Definition reg0 : reg := mkReg ∅ ∅ ∅ [].

Section reg.
  Context (upd : origin -> bool).   (* UpdateOrigin *)

  (** [register_asset], 131-151 *)
  Definition register_asset (s : reg) (o : origin) (id ty : Z) : res reg :=
    let* _ := ensure (upd o) "BadOrigin" in
    let* _ := ensure (match r_id s !! id with None => true | _ => false end) "AssetAlreadyExists" in
    Ok (mkReg (<[id := ty]> (r_id s)) (<[ty := id]> (r_ty s)) (r_ups s) (r_sup s)).
  (** [update_asset_units_per_second], 156-184 *)
  Definition update_units (s : reg) (o : origin) (ty u : Z) : res reg :=
    let* _ := ensure (upd o) "BadOrigin" in
    let* _ := ensure (match r_ty s !! ty with Some _ => true | _ => false end) "AssetDoesNotExist" in
    Ok (mkReg (r_id s) (r_ty s) (<[ty := u]> (r_ups s)) (add_supported (r_sup s) ty)).
  (** [update_asset_type], 191-236 *)
  Definition update_type (s : reg) (o : origin) (id ty : Z) : res reg :=
    let* _ := ensure (upd o) "BadOrigin" in
    let* prev := ok_or (r_id s !! id) "AssetDoesNotExist" in
    let ids := <[id := ty]> (r_id s) in
    let tys := delete prev (<[ty := id]> (r_ty s)) in
    match r_ups s !! prev with
    | Some u => Ok (mkReg ids tys (<[ty := u]> (delete prev (r_ups s))) (add_supported (del_supported (r_sup s) prev) ty))
    | None => Ok (mkReg ids tys (r_ups s) (r_sup s))
    end.
  (** [remove_fee_payment_asset], 240-262 *)
  Definition remove_fee_asset (s : reg) (o : origin) (ty : Z) : res reg :=
    let* _ := ensure (upd o) "BadOrigin" in
    Ok (mkReg (r_id s) (r_ty s) (delete ty (r_ups s)) (del_supported (r_sup s) ty)).
  (** [deregister_asset], 267-296 *)
  Definition deregister (s : reg) (o : origin) (id : Z) : res reg :=
    let* _ := ensure (upd o) "BadOrigin" in
    let* ty := ok_or (r_id s !! id) "AssetDoesNotExist" in
    Ok (mkReg (delete id (r_id s)) (delete ty (r_ty s)) (delete ty (r_ups s)) (del_supported (r_sup s) ty)).

  (** queries, 301-320 *)
  Definition get_asset_type (s : reg) (id : Z) : option Z := r_id s !! id.
  Definition get_asset_id (s : reg) (ty : Z) : option Z := r_ty s !! ty.
  Definition payment_is_supported (s : reg) (ty : Z) : bool := match bsearch (r_sup s) ty with inl _ => true | inr _ => false end.
  Definition get_units (s : reg) (ty : Z) : option Z := r_ups s !! ty.

  Inductive reg_op :=
  | RRegister (o : origin) (id ty : Z) | RUnits (o : origin) (ty u : Z) | RType (o : origin) (id ty : Z)
  | RRemoveFee (o : origin) (ty : Z) | RDeregister (o : origin) (id : Z).
  Definition reg_step (s : reg) (op : reg_op) : res reg :=
    match op with
    | RRegister o id ty => register_asset s o id ty
    | RUnits o ty u => update_units s o ty u
    | RType o id ty => update_type s o id ty
    | RRemoveFee o ty => remove_fee_asset s o ty
    | RDeregister o id => deregister s o id
    end.
  Definition reg_exec (s : reg) (op : reg_op) : reg := match reg_step s op with Ok s' => s' | _ => s end.
  Inductive reg_reachable : reg -> Prop :=
  | rr_init : reg_reachable reg0
  | rr_step s op s' : reg_reachable s -> reg_step s op = Ok s' -> reg_reachable s'.
End reg.

(** ** Currency adapter: two ledgers behind one interface *)
(** Balances and Assets; locks of the native token (LockIdentifier "cadapter") *)
Record adapter := mkAdapter { ad_nat : ledger; ad_oth : ledger; ad_lock : gmap Z Z }.
Section adapter.
  Context (nat_id : Z) (PN PO : policy) (lock_origin : origin -> bool).
  (** [Inspects], 117-188 *)
  Definition ad_balance (s : adapter) (a w : Z) : Z := if a =? nat_id then bal (ad_nat s) nat_id w else bal (ad_oth s) a w.
  Definition ad_issuance (s : adapter) (a : Z) : Z := if a =? nat_id then iss (ad_nat s) nat_id else iss (ad_oth s) a.
  (** pallet-balances refuses to take native tokens below the lock *)
  Definition lock_of (s : adapter) (w : Z) : Z := default 0 (ad_lock s !! w).
  Definition unlocked (s : adapter) (w amt : Z) : bool := (amt =? 0) || (lock_of s w <=? bal (ad_nat s) nat_id w - amt).
  (** [Transfers::transfer], 217-229 *)
  Definition ad_transfer (s : adapter) (a from to amt : Z) (ka : bool) : res adapter :=
    if a =? nat_id then
      let* _ := ensure (unlocked s from amt) "LiquidityRestrictions" in
      let* L := transfer PN (ad_nat s) nat_id from to amt ka in Ok (mkAdapter L (ad_oth s) (ad_lock s))
    else let* L := transfer PO (ad_oth s) a from to amt ka in Ok (mkAdapter (ad_nat s) L (ad_lock s)).
  (** [Mutates::mint_into, burn_from], 190-214 *)
  Definition ad_mint (s : adapter) (a w amt : Z) : res adapter :=
    if a =? nat_id then let* L := mint_into PN (ad_nat s) nat_id w amt in Ok (mkAdapter L (ad_oth s) (ad_lock s))
    else let* L := mint_into PO (ad_oth s) a w amt in Ok (mkAdapter (ad_nat s) L (ad_lock s)).
  Definition ad_burn (s : adapter) (a w amt : Z) : res adapter :=
    if a =? nat_id then
      let* _ := ensure (unlocked s w amt) "LiquidityRestrictions" in
      let* L := burn_from PN (ad_nat s) nat_id w amt in Ok (mkAdapter L (ad_oth s) (ad_lock s))
    else let* L := burn_from PO (ad_oth s) a w amt in Ok (mkAdapter (ad_nat s) L (ad_lock s)).
  (** [force_set_lock], [force_remove_lock], 84-113; [set_lock] with amount zero removes the lock *)
  Definition force_set_lock (s : adapter) (o : origin) (a w amt : Z) : res adapter :=
    let* _ := ensure (lock_origin o) "BadOrigin" in
    let* _ := ensure (a =? nat_id) "NotANativeToken" in
    Ok (mkAdapter (ad_nat s) (ad_oth s) (if amt =? 0 then delete w (ad_lock s) else <[w := amt]> (ad_lock s))).
  Definition force_remove_lock (s : adapter) (o : origin) (a w : Z) : res adapter :=
    let* _ := ensure (lock_origin o) "BadOrigin" in
    let* _ := ensure (a =? nat_id) "NotANativeToken" in
    Ok (mkAdapter (ad_nat s) (ad_oth s) (delete w (ad_lock s))).

  Inductive ad_op :=
  | ATransfer (a from to amt : Z) (ka : bool) | AMint (a w amt : Z) | ABurn (a w amt : Z)
  | ASetLock (o : origin) (a w amt : Z) | ARemoveLock (o : origin) (a w : Z).
  Definition ad_step (s : adapter) (op : ad_op) : res adapter :=
    match op with
    | ATransfer a f t m ka => ad_transfer s a f t m ka
    | AMint a w m => ad_mint s a w m
    | ABurn a w m => ad_burn s a w m
    | ASetLock o a w m => force_set_lock s o a w m
    | ARemoveLock o a w => force_remove_lock s o a w
    end.
End adapter.
