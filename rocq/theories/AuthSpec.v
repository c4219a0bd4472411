(** * AuthSpec: vocabulary of the delegation properties. *)
From Verif Require Import Base AuthModel.

(** the calls whose whole authority a limited delegation may hand out: no tokens, delegates, multisigs, identities, XCM *)
Definition delegable (p : pallet) : Prop :=
  In p [Loans; LiquidStaking; Crowdloans; Farming; Streaming; AMM; AMMRoute; Democracy; Preimage; GeneralCouncil; TechnicalCommittee;
        Treasury; Utility; Ethereum; EVM; BaseFee; EVMSignatureCall].

Section auth.
  Context {R : Type} (C : auth_cfg R).

  (** accounts derived from [z] by utility.as_derivative *)
  Inductive derived (z : Z) : Z -> Prop :=
  | derived_self : derived z z
  | derived_step y i : derived z y -> derived z (ac_derive C y i).

  (** a group of accounts that only trusts itself: full delegates of its members, the owners of derived members and every signatory of
      member multisigs are members, none of them has announced a delegated call, and no outsider's fresh keyless account is a member *)
  Record own_group (P : Z -> Prop) (s : auth R) : Prop := {
    og_any : forall x e, P x -> e ∈ delegates s x -> pd_type e = PAny -> P (pd_delegate e);
    og_derive : forall w i, P (ac_derive C w i) -> P w;
    og_multi : forall w others th, P (ac_multi_id C (w :: others) th) -> P w;
    og_pure : forall w t i h xi, P (ac_pure C w t i h xi) -> P w;
    og_quiet : forall d, P d -> anns s d = []
  }.

  (** extrinsics in whose making the group has no part; block boundaries and whatever happens outside the modelled storage *)
  Definition by_outsider (P : Z -> Prop) (x : @ext R) : Prop :=
    match x with
    | XSigned w _ => ~ P w
    | XUnsigned (EvmSigned _ signer _ _) => ~ P signer
    | XUnsigned _ => True
    | XGov o _ => False
    | XHook _ | XBlock => True
    end.

  (** what the registered limited delegations permit in the name of [y] *)
  Definition delegated (P : Z -> Prop) (s : auth R) (y : Z) (c : rcall) : Prop :=
    exists z e, P z /\ e ∈ delegates s z /\ pd_type e <> PAny /\ ptype_filter (pd_type e) c = true /\
      (y = z \/ (pd_type e = PGovernance /\ derived z y)).

  (** the calls that ran since [s] *)
  Definition ran (s s' : auth R) (e : caller * rcall) : Prop := exists l, r_log s' = l ++ r_log s /\ e ∈ l.

  Definition blocks (l : list (@ext R)) : Z := Z.of_nat (length (List.filter (fun x : @ext R => match x with XBlock => true | _ => false end) l)).
End auth.
