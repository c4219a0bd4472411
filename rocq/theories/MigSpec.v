(** * MigSpec: vocabulary for the properties of crowdloan storage upgrades. *)
From Verif Require Import Base MapSum Ledger AmmModel StreamModel StreamSpec CrowdModel CrowdSpec MigModel.

(** what the upgrade adds: the vaults of the announced winners *)
Definition rows_of (u : upgrade) (next : Z) : list mig_row :=
  match u with V1 => batch1 next | V2 => batch2 | V3 => batch3 | V4 => [] end.
(** a row may be added where [create_vault] would accept a vault: the key is free, the derivative token agrees with the one
    registered for the lease periods, and the current vault of the parachain (if any) has ended *)
Definition may_add (ct : Z -> bool) (s : cr) (g : mig_row) : Prop :=
  c_vaults s !! row_key g = None /\ (forall c, c_ctok s !! (g_ls g, g_le g) = Some c -> c = g_ctoken g) /\ ct (g_ctoken g) = true /\
  (forall a b v, c_leases s !! g_para g = Some (a, b) -> c_vaults s !! (g_para g, a, b) = Some v -> ended (v_phase v)).
(** the state the authors checked before the upgrade, and rows that may be added *)
Definition fits (ct : Z -> bool) (u : upgrade) (x : release * cr) : Prop :=
  match u with
  | V4 => True
  | _ => pre_migrate u x = true /\ forall g, g ∈ rows_of u (c_next x.2) -> may_add ct x.2 g
  end.

(** a chain that executes crowdloan calls and, between blocks, upgrades *)
Inductive up_reachable (C : cr_cfg) (E : cr_env) (ct : Z -> bool) : release * cr -> Prop :=
| up_start v s : cr_reachable C E ct s -> up_reachable C E ct (v, s)
| up_call v s o : up_reachable C E ct (v, s) -> cr_op_ok C ct o -> up_reachable C E ct (v, cr_exec C E s o)
| up_mig x u y : up_reachable C E ct x -> fits ct u x -> migrate u x = Ok y -> up_reachable C E ct y.

(** derivative tokens (and unclaimed rights to them) that no vault backs: zero when every token can be redeemed *)
Definition shortage (s : cr) (c : Z) : Z := iss (c_led s) c + unclaimed s c - lent_for s c.
