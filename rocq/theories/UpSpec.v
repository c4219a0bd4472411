(** * UpSpec: vocabulary for the upgrades of lending and registry. *)
From Verif Require Import Base MapSum Ledger AmmModel LoansModel LoansSpec RegModel UpModel.

(** ordinary books: no negative balance, price or backing *)
Definition sound_books (C : loans_cfg) (s : loans) : Prop :=
  forall a w, 0 <= vouchers s a w /\ 0 <= supply_of s a /\ 0 <= backing C s a /\ 0 <= price_of s a.
(** the factors of an old market are what governance could set *)
Definition old_market_ok (m : v2_market) : Prop := 0 <= o_cf m < PMILL /\ 0 < o_rf m < PMILL /\ 0 < o_scap m.

(** ** Locations.  General keys of XCM versions 2 and 3 and their orders (derived [Ord] of the xcm crate): version 2 compares the
    bytes, version 3 the length first (its key is a length and 32 bytes padded with zeros). *)
Fixpoint bytes_ltb (x y : list Z) : bool :=
  match x, y with
  | [], [] => false | [], _ :: _ => true | _ :: _, [] => false
  | a :: x', b :: y' => (a <? b) || ((a =? b) && bytes_ltb x' y')
  end.
Definition v2_before (x y : list Z) : bool := bytes_ltb x y.
Definition v3_before (x y : list Z) : bool := (Nat.ltb (length x) (length y)) || (Nat.eqb (length x) (length y) && bytes_ltb x y).
(** types are represented by integers in the registry model: the representation agrees with the order on these two keys *)
Definition represents (before : list Z -> list Z -> bool) (e : list Z -> Z) (x y : list Z) : Prop :=
  (before x y = true -> e x < e y) /\ (before y x = true -> e y < e x).
