(** * GateSpec: vocabulary of the call-gate properties. *)
From Verif Require Import Base Ledger GateModel.

(** what the other pallets may do to account records: a nonce falls only when the record was removed *)
Definition records_kept {R} (C : gate_cfg R) : Prop :=
  forall o p k args w w' a, gc_other C o p k args w = Ok w' ->
    deaths_of w a <= deaths_of w' a /\ (deaths_of w' a = deaths_of w a -> nonce_of w a <= nonce_of w' a).
(** neither signed nor unsigned transactions are a shutdown origin: only root and the council *)
Definition governed_shutdown {R} (C : gate_cfg R) : Prop :=
  gc_shutdown C ONone = false /\ forall w, gc_shutdown C (OSigned w) = false.
(** the whitelist of all four runtimes contains the shutdown pallet *)
Definition shutdown_whitelisted {R} (C : gate_cfg R) : Prop :=
  (forall p, gc_white C (GTogglePallet p) = true) /\ (forall p k, gc_white C (GToggleCall p k) = true).
(** same shutdown flags *)
Definition same_flags {R} (s s' : gate R) : Prop :=
  (forall p, pallet_disabled s' p = pallet_disabled s p) /\ (forall p k, call_disabled s' p k = call_disabled s p k).
(** the state after the fee of an EVM-signed call: one more nonce, the fee moved to the treasury, nothing else (for an account
    that keeps its existential deposit) *)
Definition charged {R} (C : gate_cfg R) (s s' : gate R) (w : Z) : Prop :=
  g_dp s' = g_dp s /\ g_dc s' = g_dc s /\ w_rest (g_w s') = w_rest (g_w s) /\
  (forall a, nonce_of (g_w s') a = nonce_of (g_w s) a + (if bool_decide (a = w) then 1 else 0)) /\
  (forall a x, bal (w_led (g_w s')) a x = bal (w_led (g_w s)) a x - at_ (gc_nat C) w a x (gc_fee C) + at_ (gc_nat C) (gc_treasury C) a x (gc_fee C)) /\
  (forall a, iss (w_led (g_w s')) a = iss (w_led (g_w s)) a).
