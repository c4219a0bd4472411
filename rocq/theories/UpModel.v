(** * UpModel: the storage upgrades of the loans pallet (pallets/loans/src/migrations.rs, v3) and of the asset registry
    (pallets/asset-registry/src/migration.rs, XcmV2ToV3AssetManager).

    Not modelled: weights, logs, the try-runtime checks (they are empty apart from the version, or compare with the same conversion). *)
From Verif Require Import Base MapSum Ledger AmmModel LoansModel RegModel.

(** ** Loans.  Line numbers without a file are pallets/loans/src/migrations.rs. *)
(** [V2Market], 24-47 *)
Record v2_market := mkV2 { o_cf : Z; o_rf : Z; o_close : Z; o_inc : Z; o_model : rate_model; o_state : mkt_state; o_scap : Z; o_bcap : Z; o_pt : Z }.
(** the storage before the upgrade: markets in the old encoding, [MarketRewardSpeed] (49-50), [RewardAccured] (52-58),
    [LastAccruedTimestamp] (60-61), and the items both versions share; [ob_rest] also carries the items that only exist under the
    new names, and its markets are ignored (the old encoding cannot be read as the new one) *)
Record old_books := mkOld { ob_mkts : gmap Z v2_market; ob_speed : gmap Z Z; ob_racc : gmap Z Z; ob_last : Z; ob_rest : loans }.
(** constants, 22-23 *)
Definition DEFAULT_RESERVED : Z := 30000.
Definition DEFAULT_OFFSET : Z := 100000.
(** the closure of [translate], 106-122; sum of two Permill: [from_parts] clamps at one; product of two Permill: rounded down *)
Definition up_market (m : v2_market) : market :=
  mkMarket (o_cf m) (Z.min PMILL (o_cf m + o_cf m * DEFAULT_OFFSET / PMILL)) (o_rf m) (o_close m) (o_inc m) DEFAULT_RESERVED (o_model m) (o_state m)
           (o_scap m) (o_bcap m) (o_pt m).
(** 125-128: one iteration *)
Definition put_speed (r : gmap Z mrew) (a v : Z) : gmap Z mrew :=
  let x := default mrew0 (r !! a) in <[a := mkMrew v v (r_si x) (r_sb x) (r_bi x) (r_bb x)]> r.
(** 101-139.  What can be read afterwards: the items under the new names; [ob_racc] stays in the database under the old name and
    nothing reads it, [ob_last] is removed. *)
Definition up_books (o : old_books) : loans :=
  st_rew (st_mkts (ob_rest o) (up_market <$> ob_mkts o))
         (fold_left (fun r av => put_speed r av.1 av.2) (map_to_list (ob_speed o)) (ln_rew (ob_rest o))).
(** the whole of [migrate]: the version (2 = V2) decides; [None] = the old storage is left as it is *)
Definition loans_migrate (v : Z) (o : old_books) : option (Z * loans) := if v =? 2 then Some (3, up_books o) else None.

(** ** Asset registry.  Line numbers are pallets/asset-registry/src/migration.rs.  [conv] is the conversion of a location of
    XCM version 2 into version 3 ([TryInto] of the xcm crate); [expect] panics where it is undefined. *)
Fixpoint conv_list (conv : Z -> option Z) (l : list Z) : option (list Z) :=
  match l with
  | [] => Some []
  | x :: l' => obind (conv x) (fun y => obind (conv_list conv l') (fun r => Some (y :: r)))
  end.
(** drain and re-insert under the new keys, 145-160, 163-178: the order of the drained entries (the order of hashes) is the order of
    [map_to_list] here *)
Fixpoint rekey (conv : Z -> option Z) (l : list (Z * Z)) (acc : gmap Z Z) : option (gmap Z Z) :=
  match l with
  | [] => Some acc
  | (k, v) :: l' => obind (conv k) (fun k' => rekey conv l' (<[k' := v]> acc))
  end.
(** [AssetIdType::translate], 130-142 *)
Definition revalue (conv : Z -> option Z) (m : gmap Z Z) : option (gmap Z Z) :=
  if forallb (fun kv : Z * Z => match conv kv.2 with Some _ => true | None => false end) (map_to_list m)
  then Some (omap conv m) else None.
(** [on_runtime_upgrade], 115-208 *)
Definition reg_upgrade (conv : Z -> option Z) (s : reg) : res reg :=
  match revalue conv (r_id s), rekey conv (map_to_list (r_ty s)) ∅, rekey conv (map_to_list (r_ups s)) ∅, conv_list conv (r_sup s) with
  | Some i, Some t, Some u, Some l => Ok (mkReg i t u l)
  | _, _, _, _ => Panic
  end.
