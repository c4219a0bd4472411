(** * FarmModel: pallets/farming/src/lib.rs and types.rs (liquidity mining pools).
    Line numbers refer to lib.rs; "types" is pallets/farming/src/types.rs.  BlockNumber = u32. *)
From Verif Require Import Base MapSum Ledger AmmModel.

(** [PoolInfo], types 14-32 *)
Record fpool := mkFPool {
  fp_active : bool; fp_total : Z; fp_unlock : Z; fp_cool : Z; fp_dur : Z; fp_finish : Z; fp_last : Z;
  fp_rate : Z; fp_rps : Z
}.
(** [Default], types 35-47, with the cool down duration set (lib.rs 252-255) *)
Definition new_fpool (cool : Z) : fpool := mkFPool false 0 0 cool 0 0 0 0 0.

(** [UserPosition], types 114-123; [Default], 128-135.  Lock items are (amount, block of the withdrawal) *)
Record fpos := mkFPos { ps_dep : Z; ps_locks : list (Z * Z); ps_reward : Z; ps_paid : Z }.
Definition pos0 : fpos := mkFPos 0 [] 0 0.

(** [amount_per_share], types 108-110 *)
Definition SHARE : Z := 10 ^ 12.
(** [BigUint::to_u128] *)
Definition to_u128 (x : Z) : option Z := chk x.

(** [last_reward_block_applicable], types 56-62 *)
Definition last_applicable (p : fpool) (now : Z) : Z := if fp_finish p <? now then fp_finish p else now.
(** [reward_per_share], types 66-90 (BigUint products, floor division) *)
Definition reward_per_share (p : fpool) (now : Z) : res Z :=
  if fp_total p =? 0 then Ok (fp_rps p)
  else
    let diff := saturating_sub (last_applicable p now) (fp_last p) in
    let* add := ok_or (to_u128 (diff * fp_rate p * SHARE / fp_total p)) "Overflow" in
    ok_or (checked_add (fp_rps p) add) "Overflow".
(** [update_reward_per_share], types 94-102 *)
Definition update_rps (p : fpool) (now : Z) : res fpool :=
  let* r := reward_per_share p now in
  Ok (mkFPool (fp_active p) (fp_total p) (fp_unlock p) (fp_cool p) (fp_dur p) (fp_finish p) (last_applicable p now) (fp_rate p) r).

Definition set_total (p : fpool) (t : Z) : fpool :=
  mkFPool (fp_active p) t (fp_unlock p) (fp_cool p) (fp_dur p) (fp_finish p) (fp_last p) (fp_rate p) (fp_rps p).

(** [Config], lines 66-100; [pool_account_id], lines 801-805 (a hash of the asset id: an arbitrary function) *)
Record farm_cfg := mkFarmCfg {
  pool_acct : asset -> account; max_locks : Z; lock_max : Z; cool_max : Z; farm_update : origin -> bool
}.

(** pool key: (asset, reward asset, lock duration) *)
Notation fkey := (Z * Z * Z)%type (only parsing).
(** Events used by the properties: lines 137-180 *)
Inductive farm_event :=
| EDeposited (who : Z) (k : fkey) (amt : Z)
| EWithdrew (who : Z) (k : fkey) (amt : Z)
| ERedeem (who : Z) (k : fkey) (amt : Z)
| ERewardPaid (who : Z) (k : fkey) (amt : Z)
| ERewardAdded (k : fkey) (amt : Z).

(** Storage, lines 187-220, with ledger, block number and event log *)
Record farm := mkFarm {
  fpools : gmap (Z * Z * Z) fpool;
  fposns : gmap (Z * Z * Z * Z) fpos;
  f_led : ledger; f_now : Z; f_log : list farm_event
}.

Section farming.
  Context (C : farm_cfg) (P : policy).

  (** [Positions::get], a ValueQuery *)
  Definition pos_get (s : farm) (k : fkey) (who : Z) : fpos := default pos0 (fposns s !! (k, who)).
  Definition set_pool (s : farm) (k : fkey) (p : fpool) : farm :=
    mkFarm (<[k := p]> (fpools s)) (fposns s) (f_led s) (f_now s) (f_log s).
  Definition set_pos (s : farm) (k : fkey) (who : Z) (q : fpos) : farm :=
    mkFarm (fpools s) (<[(k, who) := q]> (fposns s)) (f_led s) (f_now s) (f_log s).
  Definition f_set_led (s : farm) (L : ledger) : farm := mkFarm (fpools s) (fposns s) L (f_now s) (f_log s).
  Definition f_event (s : farm) (e : farm_event) : farm := mkFarm (fpools s) (fposns s) (f_led s) (f_now s) (e :: f_log s).
  Definition get_fpool (s : farm) (k : fkey) : res fpool := ok_or (fpools s !! k) "PoolDoesNotExist".

  (** [update_reward], lines 750-799 *)
  Definition update_reward (s : farm) (who : option Z) (k : fkey) : res farm :=
    let* p0 := get_fpool s k in
    let* p := update_rps p0 (f_now s) in
    match who with
    | None => Ok (set_pool s k p)
    | Some w =>
        let q := pos_get s k w in
        let* r := reward_per_share p (f_now s) in
        let* diff := ok_or (checked_sub r (ps_paid q)) "Overflow" in
        let* earned := ok_or (to_u128 (ps_dep q * diff / SHARE + ps_reward q)) "Overflow" in
        Ok (set_pos (set_pool s k p) k w (mkFPos (ps_dep q) (ps_locks q) earned (fp_rps p)))
    end.

  (** extrinsic [create], lines 232-264 *)
  Definition f_create (s : farm) (o : origin) (asset reward lock cool : Z) : res farm :=
    let* _ := ensure (farm_update C o) "BadOrigin" in
    let* _ := ensure (bool_decide (fpools s !! (asset, reward, lock) = None)) "PoolAlreadyExists" in
    let* _ := ensure (lock <=? lock_max C) "ExcessMaxLockDuration" in
    let* _ := ensure (cool <=? cool_max C) "ExcessMaxCoolDownDuration" in
    Ok (set_pool s (asset, reward, lock) (new_fpool cool)).

  (** extrinsic [set_pool_status], lines 277-303 *)
  Definition f_set_status (s : farm) (o : origin) (k : fkey) (active : bool) : res farm :=
    let* _ := ensure (farm_update C o) "BadOrigin" in
    let* p := get_fpool s k in
    let* _ := ensure (negb (Bool.eqb (fp_active p) active)) "PoolInStatus" in
    Ok (set_pool s k (mkFPool active (fp_total p) (fp_unlock p) (fp_cool p) (fp_dur p) (fp_finish p) (fp_last p) (fp_rate p) (fp_rps p))).

  (** extrinsic [set_pool_cool_down_duration], lines 316-350 *)
  Definition f_set_cool (s : farm) (o : origin) (k : fkey) (cool : Z) : res farm :=
    let* _ := ensure (farm_update C o) "BadOrigin" in
    let* _ := ensure (cool <=? cool_max C) "ExcessMaxCoolDownDuration" in
    let* p := get_fpool s k in
    let* _ := ensure (negb (fp_cool p =? cool)) "PoolIsInTargetCoolDownDuration" in
    Ok (set_pool s k (mkFPool (fp_active p) (fp_total p) (fp_unlock p) cool (fp_dur p) (fp_finish p) (fp_last p) (fp_rate p) (fp_rps p))).

  (** extrinsic [reset_pool_unlock_height], lines 362-392 (raw u32 addition: panics on overflow) *)
  Definition f_reset_unlock (s : farm) (o : origin) (k : fkey) : res farm :=
    let* _ := ensure (farm_update C o) "BadOrigin" in
    let* p := get_fpool s k in
    let* _ := ensure (fp_unlock p <? f_now s) "PoolUnderLock" in
    if U32MAX <? f_now s + k.2 then Panic else
    Ok (set_pool s k (mkFPool (fp_active p) (fp_total p) (f_now s + k.2) (fp_cool p) (fp_dur p) (fp_finish p) (fp_last p) (fp_rate p) (fp_rps p))).

  (** extrinsic [deposit], lines 405-457 *)
  Definition f_deposit (s : farm) (who : Z) (k : fkey) (amount : Z) : res farm :=
    let* _ := get_fpool s k in
    let* _ := ensure (negb (amount =? 0)) "NotAValidAmount" in
    let* s1 := update_reward s (Some who) k in
    let* p := get_fpool s1 k in
    let* _ := ensure (fp_active p) "PoolIsNotActive" in
    let* L := transfer P (f_led s1) k.1.1 who (pool_acct C k.1.1) amount false in
    let* t := ok_or (checked_add (fp_total p) amount) "Overflow" in
    let q := pos_get s1 k who in
    let* d := ok_or (checked_add (ps_dep q) amount) "Overflow" in
    Ok (f_event (f_set_led (set_pos (set_pool s1 k (set_total p t)) k who (mkFPos d (ps_locks q) (ps_reward q) (ps_paid q))) L)
         (EDeposited who k amount)).

  (** extrinsic [withdraw], lines 470-546 *)
  Definition f_withdraw (s : farm) (who : Z) (k : fkey) (amount : Z) : res farm :=
    let* _ := get_fpool s k in
    let* _ := ensure (negb (amount =? 0)) "NotAValidAmount" in
    let* _ := ensure (amount <=? ps_dep (pos_get s k who)) "DepositBalanceLow" in
    let* s1 := update_reward s (Some who) k in
    let* p := get_fpool s1 k in
    let* _ := ensure (fp_unlock p <=? f_now s1) "PoolUnderLock" in
    let* t := ok_or (checked_sub (fp_total p) amount) "Overflow" in
    let q := pos_get s1 k who in
    let* d := ok_or (checked_sub (ps_dep q) amount) "Overflow" in
    let*' (L, locks) :=
      (if fp_cool p =? 0 then
         let* L := transfer P (f_led s1) k.1.1 (pool_acct C k.1.1) who amount false in Ok (L, ps_locks q)
       else if Z.of_nat (length (ps_locks q)) <? max_locks C then Ok (f_led s1, ps_locks q ++ [(amount, f_now s1)])
       else Err "ExcessMaxUserLockItemsCount") in
    Ok (f_event (f_set_led (set_pos (set_pool s1 k (set_total p t)) k who (mkFPos d locks (ps_reward q) (ps_paid q))) L)
         (EWithdrew who k amount)).

  (** [item.1.saturating_add(cool_down_duration)] on u32, lines 577 and 587 *)
  Definition unlock_block (p : fpool) (item : Z * Z) : Z := Z.min (item.2 + fp_cool p) U32MAX.
  Definition matured (p : fpool) (now : Z) (item : Z * Z) : bool := unlock_block p item <=? now.
  (** the summing loop, lines 575-582 *)
  Fixpoint sum_matured (p : fpool) (now : Z) (l : list (Z * Z)) (acc : Z) : res Z :=
    match l with
    | [] => Ok acc
    | it :: r => if matured p now it then let* acc' := ok_or (checked_add acc it.1) "Overflow" in sum_matured p now r acc'
                 else sum_matured p now r acc
    end.
  (** extrinsic [redeem], lines 558-602 *)
  Definition f_redeem (s : farm) (who : Z) (k : fkey) : res farm :=
    let* p := get_fpool s k in
    let q := pos_get s k who in
    let* total := sum_matured p (f_now s) (ps_locks q) 0 in
    let locks := List.filter (fun it => negb (matured p (f_now s) it)) (ps_locks q) in
    let* L := (if 0 <? total then transfer P (f_led s) k.1.1 (pool_acct C k.1.1) who total false else Ok (f_led s)) in
    Ok (f_event (f_set_led (set_pos s k who (mkFPos (ps_dep q) locks (ps_reward q) (ps_paid q))) L) (ERedeem who k total)).

  (** extrinsic [claim], lines 614-655 *)
  Definition f_claim (s : farm) (who : Z) (k : fkey) : res farm :=
    let* _ := get_fpool s k in
    let* s1 := update_reward s (Some who) k in
    let q := pos_get s1 k who in
    let*' (L, q') :=
      (if 0 <? ps_reward q then
         let* L := transfer P (f_led s1) k.1.2 (pool_acct C k.1.2) who (ps_reward q) false in
         Ok (L, mkFPos (ps_dep q) (ps_locks q) 0 (ps_paid q))
       else Ok (f_led s1, q)) in
    Ok (f_event (f_set_led (set_pos s1 k who q') L) (ERewardPaid who k (ps_reward q))).

  (** extrinsic [dispatch_reward], lines 670-745 *)
  Definition f_dispatch (s : farm) (o : origin) (k : fkey) (payer amount duration : Z) : res farm :=
    let* _ := ensure (farm_update C o) "BadOrigin" in
    let* _ := get_fpool s k in
    let* _ := ensure (negb (duration =? 0)) "NotAValidDuration" in
    let* s1 := update_reward s None k in
    let now := f_now s1 in
    let* p := get_fpool s1 k in
    let* rate :=
      (if fp_finish p <=? now then ok_or (checked_div amount duration) "Overflow"
       else
         let* remaining := ok_or (checked_sub (fp_finish p) now) "Overflow" in
         let* left_over := ok_or (checked_mul remaining (fp_rate p)) "Overflow" in
         let* total := ok_or (checked_add left_over amount) "Overflow" in
         ok_or (checked_div total duration) "Overflow") in
    let* finish := (if U32MAX <? now + duration then Err "Overflow" else Ok (now + duration)) in
    let p' := mkFPool (fp_active p) (fp_total p) (fp_unlock p) (fp_cool p) duration finish now rate (fp_rps p) in
    let* L := (if 0 <? amount then transfer P (f_led s1) k.1.2 payer (pool_acct C k.1.2) amount false else Ok (f_led s1)) in
    Ok (f_event (f_set_led (set_pool s1 k p') L) (ERewardAdded k amount)).

  (** ** Histories *)
  Inductive farm_op :=
  | FCreate (o : origin) (asset reward lock cool : Z)
  | FStatus (o : origin) (k : fkey) (active : bool)
  | FCool (o : origin) (k : fkey) (cool : Z)
  | FReset (o : origin) (k : fkey)
  | FDeposit (who : Z) (k : fkey) (amount : Z)
  | FWithdraw (who : Z) (k : fkey) (amount : Z)
  | FRedeem (who : Z) (k : fkey)
  | FClaim (who : Z) (k : fkey)
  | FDispatch (o : origin) (k : fkey) (payer amount duration : Z)
  | FBlock (n : Z)
  | FTransfer (a from to amt : Z)
  | FMint (a w amt : Z)
  | FBurn (a w amt : Z).

  Definition farm_step (s : farm) (op : farm_op) : res farm :=
    match op with
    | FCreate o a r l c => f_create s o a r l c
    | FStatus o k b => f_set_status s o k b
    | FCool o k c => f_set_cool s o k c
    | FReset o k => f_reset_unlock s o k
    | FDeposit w k amt => f_deposit s w k amt
    | FWithdraw w k amt => f_withdraw s w k amt
    | FRedeem w k => f_redeem s w k
    | FClaim w k => f_claim s w k
    | FDispatch o k p amt d => f_dispatch s o k p amt d
    | FBlock n => Ok (mkFarm (fpools s) (fposns s) (f_led s) (Z.max (f_now s) n) (f_log s))
    | FTransfer a f t amt => let* L := transfer P (f_led s) a f t amt false in Ok (f_set_led s L)
    | FMint a w amt => let* L := mint_into P (f_led s) a w amt in Ok (f_set_led s L)
    | FBurn a w amt => let* L := burn_from P (f_led s) a w amt in Ok (f_set_led s L)
    end.
  Definition farm_exec (s : farm) (op : farm_op) : farm := match farm_step s op with Ok s' => s' | _ => s end.
  Definition farm_init (L : ledger) (now : Z) : farm := mkFarm ∅ ∅ L now [].
End farming.
