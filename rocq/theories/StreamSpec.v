(** * StreamSpec: vocabulary for the streaming properties. *)
From Verif Require Import Base MapSum Ledger AmmModel StreamModel.

(** amount still owed by an unfinished stream in asset [a] *)
Definition owed (a : Z) (st : stream) : Z :=
  if has_finished st then 0 else if bool_decide (st_asset st = a) then st_remaining st else 0.
(** total owed in asset [a] over all streams *)
Definition total_owed (s : str) (a : Z) : Z := msum (fun _ st => owed a st) (streams s).

(** sums over the event log, per stream id *)
Definition ev_paid (id : Z) (e : str_event) : Z :=
  match e with
  | EWithdrawn i _ _ amt => if bool_decide (i = id) then amt else 0
  | ECancelled i _ _ _ _ rb => if bool_decide (i = id) then rb else 0
  | _ => 0
  end.
Definition ev_refunded (id : Z) (e : str_event) : Z :=
  match e with ECancelled i _ _ _ sb _ => if bool_decide (i = id) then sb else 0 | _ => 0 end.
Definition lsum {A} (f : A -> Z) (l : list A) : Z := foldr (fun x acc => f x + acc) 0 l.
(** total paid to the recipient / refunded to the sender of stream [id] *)
Definition paid (s : str) (id : Z) : Z := lsum (ev_paid id) (s_log s).
Definition refunded (s : str) (id : Z) : Z := lsum (ev_refunded id) (s_log s).
(** what the stream still owes (zero when finished or pruned) *)
Definition outstanding (s : str) (id : Z) : Z :=
  match streams s !! id with Some st => if has_finished st then 0 else st_remaining st | None => 0 end.

(** amount scheduled to have been streamed at time [t] for a deposit streamed over [start, stop] *)
Definition scheduled (deposit start stop t : Z) : Z :=
  (deposit / (stop - start)) * Z.max 0 (Z.min t stop - start).

(** what the recipient of a running stream can take at time [t]: everything that is left once the stop time is
    reached, before that the scheduled amount minus what was already taken *)
Definition accrued (st : stream) (t : Z) : Z :=
  if st_end st <=? t then st_remaining st
  else scheduled (st_deposit st) (st_start st) (st_end st) t - (st_deposit st - st_remaining st).

Definition str_cfg_ok (C : str_cfg) : Prop :=
  0 <= max_finished C /\ max_finished C < max_streams C /\ 0 <= native_ed C.

(** callers (and senders named by other pallets) are not the pallet account; amounts are u128, times u64 *)
Definition str_op_ok (C : str_cfg) (o : str_op) : Prop :=
  match o with
  | SCreate w _ d _ b e _ | STraitCreate w _ d _ b e _ => w <> str_acct C /\ 0 <= d <= U128MAX /\ 0 <= b /\ 0 <= e
  | SCancel w _ => w <> str_acct C
  | SWithdraw w _ amt => w <> str_acct C /\ 0 <= amt <= U128MAX
  | SSetMin _ _ _ => True
  | STime _ => True
  | STransfer _ from _ amt => from <> str_acct C /\ 0 <= amt
  | SMint _ _ amt => True
  | SBurn _ w amt => w <> str_acct C
  end.

Inductive str_reachable (C : str_cfg) (P : policy) : str -> Prop :=
| str_reach_init L now : ledger_wf L -> 0 <= now -> str_reachable C P (str_init L now)
| str_reach_step s o : str_reachable C P s -> str_op_ok C o -> str_reachable C P (str_exec C P s o).

Inductive str_history (C : str_cfg) (P : policy) : str -> list str_op -> str -> Prop :=
| str_hist_nil s : str_history C P s [] s
| str_hist_cons s o os s' : str_op_ok C o -> str_history C P (str_exec C P s o) os s' -> str_history C P s (o :: os) s'.
