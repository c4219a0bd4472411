(** * CrowdSpec: vocabulary for the crowdloan properties. *)
From Verif Require Import Base MapSum Ledger AmmModel StreamModel StreamSpec CrowdModel.

(** what account [w] has in a vault's book of kind [k] (pending, in flight, contributed) *)
Definition entry (s : cr) (v : vault) (k w : Z) : Z := default 0 (c_con s !! (v_trie v, k, w)).
(** sum of one book of the child trie [t] *)
Definition book (con : gmap (Z * Z * Z) Z) (t k : Z) : Z := msum (fun key x => if bool_decide (key.1 = (t, k)) then x else 0) con.

(** relay tokens the pallet owes to contributors: contributions that are waiting or in flight, over all vaults *)
Definition held (s : cr) : Z := msum (fun _ v => v_pend v + v_fly v) (c_vaults s).
(** relay tokens lent to the relay chain according to the vaults *)
Definition lent (s : cr) : Z := msum (fun _ v => v_contr v) (c_vaults s).
(** the same for the vaults whose derivative token is [c] *)
Definition lent_for (s : cr) (c : Z) : Z := msum (fun _ v => if bool_decide (v_ctoken v = c) then v_contr v else 0) (c_vaults s).
(** contributions to those vaults for which no derivative token was claimed yet *)
Definition unclaimed (s : cr) (c : Z) : Z :=
  msum (fun _ v => if bool_decide (v_ctoken v = c) then book (c_con s) (v_trie v) KContr else 0) (c_vaults s).

Definition ended (p : phase) : Prop := p = Failed \/ p = Expired.

(** distinct accounts and tokens; [ct] are the assets reserved for derivative tokens *)
Definition cr_cfg_ok (C : cr_cfg) (ct : Z -> bool) : Prop :=
  str_cfg_ok (cc_str C) /\ cc_acct C <> cc_xcm C /\ cc_acct C <> str_acct (cc_str C) /\ cc_xcm C <> str_acct (cc_str C) /\
  cc_native C <> cc_relay C /\ ct (cc_relay C) = false.

(** callers are not the pallet accounts; amounts are u128; nobody else mints or burns derivative tokens *)
Definition cr_op_ok (C : cr_cfg) (ct : Z -> bool) (o : cr_op) : Prop :=
  match o with
  | CCreate _ _ c _ _ _ _ _ => ct c = true
  | CContribute w _ amt => w <> cc_acct C /\ w <> str_acct (cc_str C) /\ 0 <= amt <= U128MAX
  | CRedeem w _ _ _ amt => w <> str_acct (cc_str C) /\ 0 <= amt <= U128MAX
  | CRedeemLend _ _ _ w _ _ _ amt => w <> cc_acct C /\ w <> str_acct (cc_str C) /\ 0 <= amt <= U128MAX
  | CRefundFor _ _ _ k amt _ _ => (k = KPend \/ k = KFly \/ k = KContr) /\ 0 <= amt <= U128MAX
  | CBonus _ _ _ b => 0 <= bo_per b <= U128MAX /\ 0 <= bo_start b /\ 0 <= bo_end b
  | CXFee _ x => 0 <= x
  | CStr so => str_op_ok (cc_str C) so /\
      match so with
      | SCreate w _ _ _ _ _ _ | STraitCreate w _ _ _ _ _ _ => w <> cc_acct C
      | STransfer _ from _ _ => from <> cc_acct C
      | SMint a _ _ => ct a = false
      | SBurn a w _ => ct a = false /\ w <> cc_acct C
      | _ => True
      end
  | _ => True
  end.

Inductive cr_reachable (C : cr_cfg) (E : cr_env) (ct : Z -> bool) : cr -> Prop :=
| cr_reach_init st : str_reachable (cc_str C) (ce_pol E) st -> (forall c, ct c = true -> iss (s_led st) c = 0) ->
    cr_reachable C E ct (cr_init st)
| cr_reach_step s o : cr_reachable C E ct s -> cr_op_ok C ct o -> cr_reachable C E ct (cr_exec C E s o).

Inductive cr_history (C : cr_cfg) (E : cr_env) (ct : Z -> bool) : cr -> list cr_op -> cr -> Prop :=
| cr_hist_nil s : cr_history C E ct s [] s
| cr_hist_cons s o os s' : cr_op_ok C ct o -> cr_history C E ct (cr_exec C E s o) os s' -> cr_history C E ct s (o :: os) s'.

(** the changes of phase a call may cause for the vault [k = (para, first lease, last lease)] *)
Definition phase_change (s : cr) (o : cr_op) (k : Z * Z * Z) (p p' : phase) : Prop :=
  match o with
  | COpen _ para => para = k.1.1 /\ p = Pending /\ p' = Contributing
  | CClose _ para => para = k.1.1 /\ p = Contributing /\ p' = Closed
  | CReopen _ para => para = k.1.1 /\ p = Closed /\ p' = Contributing
  | CSucceeded _ para => para = k.1.1 /\ p = Closed /\ p' = Succeeded
  | CNotify _ _ q (Some true) => exists x, c_reqs s !! q = Some (QWithdraw k.1.1 k.1.2 k.2 x p')
  | _ => False
  end.
(** everything contributed to a vault *)
Definition raised (v : vault) : Z := v_contr v + v_fly v + v_pend v.
(** the origin a governance call needs; the others are open to everybody *)
Definition needs_role (o : cr_op) : option (role * origin) :=
  match o with
  | CCreate o _ _ _ _ _ _ _ => Some (RCreate, o)
  | CUpdate o _ _ _ _ | CBonus o _ _ _ => Some (RUpdate, o)
  | COpen o _ | CClose o _ | CReopen o _ => Some (ROpenClose, o)
  | CVrf o _ => Some (RVrf, o)
  | CSucceeded o _ | CFailed o _ => Some (RAuction, o)
  | CSlotExpired o _ | CForceClaim o _ _ _ _ | CRedeemLend o _ _ _ _ _ _ _ => Some (RSlot, o)
  | CMigrate o _ => Some (RMigrate, o)
  | CRefund o _ _ _ | CRefundFor o _ _ _ _ _ _ => Some (RRefund, o)
  | CDissolve o _ _ _ => Some (RDissolve, o)
  | _ => None
  end.

(** the fee one message to the relay chain costs *)
Definition fee_of (s : cr) (k : Z) : Z := default 0 (c_xfee s !! k).
(** from [s] to [s'] the contribution books change in one entry only, by [d] *)
Definition entry_moved (s s' : cr) (t k w d : Z) : Prop :=
  forall t' k' w', default 0 (c_con s' !! (t', k', w')) = default 0 (c_con s !! (t', k', w')) + (if bool_decide (t' = t /\ k' = k /\ w' = w) then d else 0).
(** what one account has in the three books of a trie *)
Definition esum (s : cr) (t w : Z) : Z :=
  default 0 (c_con s !! (t, KPend, w)) + default 0 (c_con s !! (t, KFly, w)) + default 0 (c_con s !! (t, KContr, w)).
(** the waiting contributions [m] (account, amount) of trie [t] became contributions in flight, nothing else moved *)
Definition moved_to_fly (s s' : cr) (t : Z) (m : list (Z * Z)) : Prop :=
  (forall w x, (w, x) ∈ m -> c_con s !! (t, KPend, w) = Some x /\ c_con s' !! (t, KPend, w) = None /\
     default 0 (c_con s' !! (t, KFly, w)) = default 0 (c_con s !! (t, KFly, w)) + x) /\
  (forall t' k w, (t' <> t \/ (k <> KPend /\ k <> KFly) \/ w ∉ m.*1) -> c_con s' !! (t', k, w) = c_con s !! (t', k, w)).
(** everything an account has in the contribution books *)
Definition own (s : cr) (w : Z) : Z := msum (fun key x => if bool_decide (key.2 = w) then x else 0) (c_con s).
