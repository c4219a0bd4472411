(** * XcmSpec: vocabulary of the cross-chain properties. *)
From Verif Require Import Base MapSum Ledger AmmModel RegModel XcmModel.

(** The price of [t] picoseconds at [u] units per second, rounded down. *)
Definition charge (u t : Z) : Z := u * t / 10 ^ 12.

(** What a message brought in, of currency [c]. *)
Definition received (C : xcm_cfg) (r : reg) (c : asset) (ops : list vm_op) : Z :=
  foldr (fun o n => match o with VReceive l amt => if bool_decide (x_asset_id C r l = Some c) then amt + n else n | _ => n end) 0 ops.

(** The first purchase of weight in a message, and how much weight is refunded in total. *)
Fixpoint first_buy (ops : list vm_op) : option (Z * loc) :=
  match ops with [] => None | VBuy w l _ :: _ => Some (w.1, l) | _ :: r => first_buy r end.
Definition refunds (ops : list vm_op) : Z := foldr (fun o n => match o with VRefund w => w.1 + n | _ => n end) 0 ops.
Definition weights_ok (ops : list vm_op) : Prop :=
  Forall (fun o => match o with VBuy w _ _ | VRefund w => 0 <= w.1 | _ => True end) ops.

(** How an executor treats a paid message: the first purchase covers the whole message, so no more weight is refunded than was
    bought then; [cheap] excludes prices so low that this purchase was free, or so high that they do not fit *)
Definition prepaid (ops : list vm_op) : Prop :=
  weights_ok ops /\ match first_buy ops with Some (t, _) => refunds ops <= t | None => True end.
Definition priced (C : xcm_cfg) (r : reg) (ops : list vm_op) : Prop :=
  match first_buy ops with
  | Some (t, l) => exists u, x_units C r l = Some u /\ 1 <= charge u t /\ u * t <= U128MAX
  | None => True
  end.
