(** * ErcSpec: vocabulary of the ERC20 precompile properties. *)
From Verif Require Import Base MapSum Ledger ErcModel.

(** ** The ABI: calldata is a four-byte selector, then one 32-byte big-endian word per argument *)
Fixpoint to_be (n : nat) (v : Z) : list Z :=
  match n with O => [] | S m => to_be m (v / 256) ++ [v mod 256] end.
Definition calldata (sel : Z) (args : list Z) : list Z := to_be 4 sel ++ concat (map (to_be 32) args).
(** [bs] is a call of the function [sel] with (at least) these argument words *)
Definition invokes (bs : list Z) (sel : Z) (args : list Z) : Prop := exists rest, bs = calldata sel args ++ rest.
Definition sel_transfer := 0xa9059cbb.        (* transfer(address,uint256) *)
Definition sel_transferFrom := 0x23b872dd.    (* transferFrom(address,address,uint256) *)
Definition sel_approve := 0x095ea7b3.         (* approve(address,uint256) *)
Definition sel_permit := 0xd505accf.          (* permit(address,address,uint256,uint256,uint8,bytes32,bytes32) *)
Definition sel_totalSupply := 0x18160ddd.     (* totalSupply() *)
Definition sel_balanceOf := 0x70a08231.       (* balanceOf(address) *)
Definition sel_allowance := 0xdd62ed3e.       (* allowance(address,address) *)
Definition sel_nonces := 0x7ecebe00.          (* nonces(address) *)
Definition sel_mint := 0x40c10f19.            (* mint(address,uint256) *)
Definition sel_burn := 0x9dc29fac.            (* burn(address,uint256) *)
Definition sel_deposit := 0xd0e30db0.         (* deposit() *)
Definition sel_withdraw := 0x2e1a7d4d.        (* withdraw(uint256) *)

Definition addr_ok (x : Z) : Prop := 0 <= x < 2 ^ 160.
Definition u256_ok (x : Z) : Prop := 0 <= x < 2 ^ 256.
Definition bytes_ok (bs : list Z) : Prop := Forall (fun b => 0 <= b < 256) bs.
(** an address argument: only the low 20 bytes of its word count *)
Definition is_addr (w x : Z) : Prop := u256_ok w /\ x = w mod 2 ^ 160.
Definition ctx_ok (cx : ectx) : Prop :=
  addr_ok (cx_code cx) /\ addr_ok (cx_addr cx) /\ addr_ok (cx_caller cx) /\ u256_ok (cx_value cx).

(** the ERC20 address of the native token *)
Definition native_erc20 : Z := 2050.
(** the token behind an address: the native token at 2050; asset [a] at the addresses ffffffff..a *)
Definition token (C : erc_cfg) (addr : Z) (a : asset) : Prop :=
  (addr = native_erc20 /\ a = ec_native C) \/
  (exists mid, addr = 0xffffffff * 2 ^ 128 + mid * 2 ^ 32 + a /\ 0 <= mid < 2 ^ 96 /\ 0 <= a < 2 ^ 32 /\ ec_exists C a = true).

(** what anyone can read *)
Definition allowance (C : erc_cfg) (s : erc) (a : asset) (owner spender : account) : Z :=
  if a =? ec_native C then default 0 (e_nappr s !! (owner, spender)) else default 0 (e_aappr s !! (a, owner, spender)).
Definition nonce (s : erc) (addr owner : Z) : Z :=
  if addr =? native_erc20 then default 0 (e_nnonce s !! owner) else default 0 (e_anonce s !! (addr, owner)).
Definition same_allowances (C : erc_cfg) (s s' : erc) : Prop :=
  forall a o p, allowance C s' a o p = allowance C s a o p.
Definition same_nonces (s s' : erc) : Prop := forall t o, nonce s' t o = nonce s t o.

(** the asset a pallet_assets call is about *)
Definition fcall_asset (c : fcall) : option asset :=
  match c with
  | NTransfer _ _ => None
  | ATransfer a _ _ | ATransferApproved a _ _ _ | AApprove a _ _ | ACancel a _ | AMint a _ _ | ABurn a _ _ => Some a
  end.
Definition fcall_amount (c : fcall) : Z :=
  match c with
  | NTransfer _ v | ATransfer _ _ v | ATransferApproved _ _ _ v | AApprove _ _ v | AMint _ _ v | ABurn _ _ v => v
  | ACancel _ _ => 0
  end.
(** the native token is not also an asset of pallet_assets; pallet_assets refuses calls about unknown assets; different addresses
    are different accounts *)
Definition erc_cfg_ok (C : erc_cfg) : Prop :=
  ec_exists C (ec_native C) = false /\
  (forall s o c a, fcall_asset c = Some a -> ec_allow C s o c = true -> ec_exists C a = true) /\
  (forall x y, addr_ok x -> addr_ok y -> ec_map C x = ec_map C y -> x = y).

(** the effect on funds of a call: the attached value goes from the caller to the contract, and [v] of [a] from [from] to [to] *)
Definition funds (C : erc_cfg) (cx : ectx) (s s' : erc) (a : asset) (from to : account) (v : Z) : Prop :=
  (forall b w, bal (e_led s') b w = bal (e_led s) b w
     - at_ (ec_native C) (ec_map C (cx_caller cx)) b w (cx_value cx) + at_ (ec_native C) (ec_map C (cx_code cx)) b w (cx_value cx)
     - at_ a from b w v + at_ a to b w v) /\
  (forall b, iss (e_led s') b = iss (e_led s) b).
(** only the attached value moves *)
Definition no_funds (C : erc_cfg) (cx : ectx) (s s' : erc) : Prop :=
  forall a w, funds C cx s s' a w w 0.

(** ** Histories *)
Definition erc_op_ok (C : erc_cfg) (o : erc_op) : Prop :=
  match o with
  | ECall now cx bs => 0 <= now /\ ctx_ok cx /\ bytes_ok bs
  | EDispatch o c => 0 <= fcall_amount c <= U128MAX
  end.
Definition erc_wf (C : erc_cfg) (s : erc) : Prop :=
  ledger_wf (e_led s) /\ (forall a o p, 0 <= allowance C s a o p <= U128MAX) /\ (forall t o, 0 <= nonce s t o).
Definition erc_run (C : erc_cfg) (P : policy) (s : erc) (h : list erc_op) : erc := fold_left (erc_exec C P) h s.
Definition ercs (C : erc_cfg) (P : policy) (s : erc) (cx : ectx) (now : Z) (bs : list Z) (s' : erc) (out : list Z) (logs : list elog) : Prop :=
  evm_call C P now s cx bs = Some (Ok (s', out, logs)).

(** decoding, for sums over histories: the first [n] argument words of a call of [sel] *)
Definition words (bs : list Z) (n : nat) : list (option Z) := map (word bs) (seq 0 n).
Definition decode (sel : Z) (n : nat) (bs : list Z) : option (list Z) :=
  if bool_decide (4 <= length bs)%nat && (be (take 4 bs) =? sel) then mapM id (words bs n) else None.
Definition token_of (C : erc_cfg) (addr : Z) : option asset := if addr =? native_erc20 then Some (ec_native C) else asset_at C addr.

(** what one operation takes from [ow]'s balance of [a] under the allowance of [sp], and the allowances [ow] grants to [sp] *)
Definition pulled (C : erc_cfg) (P : policy) (a : asset) (ow sp : account) (s : erc) (o : erc_op) : Z :=
  match o with
  | ECall now cx bs =>
      match evm_call C P now s cx bs, token_of C (cx_code cx), decode sel_transferFrom 3 bs with
      | Some (Ok _), Some b, Some [wf; _; v] =>
          if bool_decide (b = a /\ ec_map C (wf mod 2 ^ 160) = ow /\ ec_map C (cx_caller cx) = sp) then v else 0
      | _, _, _ => 0
      end
  | EDispatch d ((ATransferApproved b f _ v) as c) =>
      match dispatch C P s d c with
      | Ok _ => if bool_decide (b = a /\ f = ow /\ d = sp) then v else 0
      | _ => 0
      end
  | _ => 0
  end.
Definition granted (C : erc_cfg) (P : policy) (a : asset) (ow sp : account) (s : erc) (o : erc_op) : Z :=
  match o with
  | ECall now cx bs =>
      match evm_call C P now s cx bs, token_of C (cx_code cx) with
      | Some (Ok _), Some b =>
          match decode sel_approve 2 bs with
          | Some [wp; v] =>
              if bool_decide (b = a /\ ec_map C (cx_caller cx) = ow /\ ec_map C (wp mod 2 ^ 160) = sp) then Z.min v U128MAX else 0
          | _ => 0
          end +
          match decode sel_permit 7 bs with
          | Some [wo; wp; v; _; _; _; _] =>
              if bool_decide (b = a /\ ec_map C (wo mod 2 ^ 160) = ow /\ ec_map C (wp mod 2 ^ 160) = sp) then Z.min v U128MAX else 0
          | _ => 0
          end
      | _, _ => 0
      end
  | EDispatch d ((AApprove b p v) as c) =>
      match dispatch C P s d c with
      | Ok _ => if bool_decide (b = a /\ d = ow /\ p = sp) then v else 0
      | _ => 0
      end
  | _ => 0
  end.
(** sums over a history *)
Fixpoint over (C : erc_cfg) (P : policy) (f : erc -> erc_op -> Z) (s : erc) (h : list erc_op) : Z :=
  match h with [] => 0 | o :: h => f s o + over C P f (erc_exec C P s o) h end.

(** signatures are as good as ECDSA's: a signature that recovers to [x] for one message does so for no other *)
Definition one_message (C : erc_cfg) : Prop :=
  forall sg m m' x, ec_recover C sg m = Some x -> ec_recover C sg m' = Some x -> m = m'.

(** nobody can sign or call in the name of the native token's contract *)
Definition not_by_contract (C : erc_cfg) (o : erc_op) : Prop :=
  match o with
  | ECall _ cx _ => cx_caller cx <> native_erc20
  | EDispatch w _ => w <> ec_map C native_erc20
  end.

(** [o]'s calls are not refused by the call filter, a frozen asset or account, or a missing approval deposit *)
Definition ready (C : erc_cfg) (o : account) : Prop :=
  forall s c, (forall a, fcall_asset c = Some a -> ec_exists C a = true) -> ec_allow C s o c = true.
(** an ordinary call: no attached value, not static, not a DELEGATECALL *)
Definition plain (cx : ectx) : Prop := ctx_ok cx /\ cx_addr cx = cx_code cx /\ cx_value cx = 0 /\ cx_static cx = false.
