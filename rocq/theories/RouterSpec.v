(** * RouterSpec: vocabulary for the router properties. *)
From Verif Require Import Base MapSum Ledger AmmModel AmmSpec.

(** consecutive tokens of the route have a pool *)
Definition route_connected (ps : gmap (Z * Z) pool) (r : list Z) : Prop :=
  forall i a b, r !! i = Some a -> r !! S i = Some b -> is_Some (ps !! pair_key a b).

(** a simple route from [tin] to [tout]: no token twice, every hop has a pool *)
Definition simple_route (ps : gmap (Z * Z) pool) (tin tout : Z) (r : list Z) : Prop :=
  head r = Some tin /\ last r = Some tout /\ NoDup r /\ route_connected ps r.

(** [ks] lists the keys of the pools, in any order *)
Definition pool_listing (ps : gmap (Z * Z) pool) (ks : list (Z * Z)) : Prop :=
  NoDup ks /\ forall k, k ∈ ks <-> is_Some (ps !! k).

(** balance change of the trader: [x] of the first token out, [y] of the last token in *)
Definition route_delta (r : list Z) (x y : Z) (a : Z) : Z :=
  (if bool_decide (head r = Some a) then - x else 0) + (if bool_decide (last r = Some a) then y else 0).
