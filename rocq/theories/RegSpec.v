(** * RegSpec: vocabulary of the registry and adapter properties. *)
From Verif Require Import Base Ledger AmmModel RegModel.

(** strictly ascending: sorted without duplicates *)
Definition ascending (l : list Z) : Prop := forall i j x y, (i < j)%nat -> l !! i = Some x -> l !! j = Some y -> x < y.
(** calls that never give an asset a type that some asset already has *)
Definition fresh_type (s : reg) (op : reg_op) : Prop :=
  match op with RRegister _ _ ty | RType _ _ ty => r_ty s !! ty = None | _ => True end.
Inductive reg_reachable_fresh (upd : origin -> bool) : reg -> Prop :=
| rf_init : reg_reachable_fresh upd reg0
| rf_step s op s' : reg_reachable_fresh upd s -> fresh_type s op -> reg_step upd s op = Ok s' -> reg_reachable_fresh upd s'.
