(** * BridgeSpec: vocabulary for the bridge properties, over the observable event log (most recent event first). *)
From Verif Require Import Base MapSum Ledger AmmModel BridgeModel.

(** Callers are not the pallet account; amounts are u128, nonces u64; the relayer set has no duplicates. *)
Definition u128 (x : Z) : Prop := 0 <= x <= U128MAX.
Definition btoken_ok (t : btoken) : Prop :=
  u128 (bt_fee t) /\ u128 (bt_out_cap t) /\ u128 (bt_out_amount t) /\ u128 (bt_in_cap t) /\ u128 (bt_in_amount t).
Definition br_op_ok (C : br_cfg) (o : br_op) : Prop :=
  match o with
  | BTeleport w _ _ amt => w <> br_acct C /\ u128 amt
  | BMaterialize _ _ n _ _ amt _ => 0 <= n <= U64MAX /\ u128 amt
  | BRegisterToken _ _ t => btoken_ok t
  | BSetFee _ _ fee => u128 fee
  | BSetCap _ _ _ cap => u128 cap
  | BMembers m => NoDup m
  | BTransfer _ from _ amt => from <> br_acct C /\ 0 <= amt
  | BBurn _ w _ => w <> br_acct C
  | _ => True
  end.
Definition br_cfg_ok (C : br_cfg) : Prop :=
  br_gift C <> br_acct C /\ 0 <= br_ed C /\ 0 < br_life C /\ (forall amt a, 0 <= br_convert C amt a).

Inductive br_reachable (C : br_cfg) (P : policy) : br -> Prop :=
| br_reach_init L m now : ledger_wf L -> NoDup m -> 0 <= now -> br_reachable C P (br_init L m now)
| br_reach_step s o : br_reachable C P s -> br_op_ok C o -> br_reachable C P (br_exec C P s o).

Inductive br_history (C : br_cfg) (P : policy) : br -> list br_op -> br -> Prop :=
| br_hist_nil s : br_history C P s [] s
| br_hist_cons s o os s' : br_op_ok C o -> br_history C P (br_exec C P s o) os s' -> br_history C P s (o :: os) s'.

(** number of times transfer [n] of source chain [c] was settled (paid out or rejected) since [c] was last registered *)
Fixpoint settled (l : list br_event) (c n : Z) : Z :=
  match l with
  | [] => 0
  | EMinted c' n' _ _ _ _ _ :: r | ERejected c' n' :: r =>
      (if bool_decide (c' = c /\ n' = n) then 1 else 0) + settled r c n
  | EChainReg c' :: r => if c' =? c then 0 else settled r c n
  | _ :: r => settled r c n
  end.
(** number of times it was paid out *)
Fixpoint paid_out (l : list br_event) (c n : Z) : Z :=
  match l with
  | [] => 0
  | EMinted c' n' _ _ _ _ _ :: r => (if bool_decide (c' = c /\ n' = n) then 1 else 0) + paid_out r c n
  | EChainReg c' :: r => if c' =? c then 0 else paid_out r c n
  | _ :: r => paid_out r c n
  end.

(** nonces given to teleports towards chain [c] since it was last registered, most recent first *)
Fixpoint out_nonces (l : list br_event) (c : Z) : list Z :=
  match l with
  | [] => []
  | ETeleport _ d n _ _ _ _ _ :: r => if d =? c then n :: out_nonces r c else out_nonces r c
  | EChainReg c' :: r => if c' =? c then [] else out_nonces r c
  | _ :: r => out_nonces r c
  end.

(** amount of token [tok] bridged in (out) since its counter was last cleaned or the token registered *)
Fixpoint in_total (l : list br_event) (tok : Z) : Z :=
  match l with
  | [] => 0
  | EMinted _ _ t _ _ _ amt :: r => (if t =? tok then amt else 0) + in_total r tok
  | ETokenReg t _ i :: r => if t =? tok then i else in_total r tok
  | EClean t BridgeIn :: r => if t =? tok then 0 else in_total r tok
  | _ :: r => in_total r tok
  end.
Fixpoint out_total (l : list br_event) (tok : Z) : Z :=
  match l with
  | [] => 0
  | ETeleport _ _ _ t _ _ actual fee :: r => (if t =? tok then actual + fee else 0) + out_total r tok
  | ETokenReg t o _ :: r => if t =? tok then o else out_total r tok
  | EClean t BridgeOut :: r => if t =? tok then 0 else out_total r tok
  | _ :: r => out_total r tok
  end.

(** what one event adds to the bridge account's holding of asset [a]: deposits of locked tokens and fees, minus
    payouts of locked tokens *)
Definition flow (C : br_cfg) (a : Z) (e : br_event) : Z :=
  match e with
  | ETeleport _ _ _ _ a' ext actual fee => if a' =? a then (if ext then fee else actual + fee) else 0
  | EMinted _ _ _ a' ext to amt => if a' =? a then (if ext || (to =? br_acct C) then 0 else - amt) else 0
  | _ => 0
  end.
Definition flows (C : br_cfg) (a : Z) (l : list br_event) : Z := foldr (fun e acc => flow C a e + acc) 0 l.

(** relayer [w] may vote through origin [o] *)
Definition may_vote (C : br_cfg) (s : br) (o : origin) (w : Z) : Prop :=
  (o = Signed w /\ w ∈ b_members s) \/ (o = Root /\ w = br_root_op C).
