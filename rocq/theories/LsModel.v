(** * LsModel: the liquid-staking pallet (pallets/liquid-staking/src/{lib,types,distribution}.rs) together with the
    lending pallet it uses for instant unstaking (LoansModel) and the parts of pallets/xcm-helper/src/lib.rs it calls.

    Line numbers without a file are pallets/liquid-staking/src/lib.rs.  Simplifications:
    - the relay chain is the environment: an XCM request is recorded and the answer comes back later, in any order, as a
      [notification_received] call; message contents are not modelled;
    - [StakingLedger.stash] (a function of the derivative index) and [claimed_rewards] (never read) are omitted;
    - Merkle proofs are an arbitrary predicate of the stored relay root ([e_proof_era], [e_proof_led]);
    - [XcmRequest] query ids come from pallet-xcm's counter, modelled as an unbounded counter (u64 in the code);
    - sending can fail for any reason ([e_send]); events, weights and logs are not modelled;
    - whether the staking and the liquid currency have known decimals is part of the configuration. *)
From Verif Require Import Base MapSum Ledger AmmModel LoansModel.

(** ** Matching pool, types.rs *)
(** [ReservableAmount], types.rs:14-17 *)
Record ramount := mkRA { ra_tot : Z; ra_res : Z }.
(** [free], types.rs:20-25 *)
Definition ra_free (r : ramount) : res Z := ok_or (checked_sub (ra_tot r) (ra_res r)) "Underflow".
(** [MatchingLedger], types.rs:30-35 *)
Record mpool := mkMP { mp_s : ramount; mp_u : ramount }.
Definition mpool0 : mpool := mkMP (mkRA 0 0) (mkRA 0 0).

(** [matching], types.rs:43-70: (bond, rebond, unbond) *)
Definition matching (p : mpool) (unbonding : Z) : res (Z * Z * Z) :=
  let* fs := ra_free (mp_s p) in
  let* fu := ra_free (mp_u p) in
  if fs <=? fu then let* x := raw_sub fu fs in Ok (0, 0, x) else
  let* a := raw_sub fs fu in
  if a <? unbonding then Ok (0, a, 0) else
  let* b := raw_sub a unbonding in Ok (b, unbonding, 0).
(** [add_stake_amount], [add_unstake_amount], types.rs:72-88 *)
Definition ra_add (r : ramount) (x : Z) : res ramount :=
  let* t := ok_or (checked_add (ra_tot r) x) "Overflow" in Ok (mkRA t (ra_res r)).
Definition add_stake (p : mpool) (x : Z) : res mpool := let* r := ra_add (mp_s p) x in Ok (mkMP r (mp_u p)).
Definition add_unstake (p : mpool) (x : Z) : res mpool := let* r := ra_add (mp_u p) x in Ok (mkMP (mp_s p) r).
(** [sub_stake_amount], [sub_unstake_amount], types.rs:104-130 *)
Definition ra_sub (r : ramount) (x : Z) : res ramount :=
  let* f := ra_free r in
  if f <? x then Err "Underflow" else
  let* t := ok_or (checked_sub (ra_tot r) x) "Underflow" in Ok (mkRA t (ra_res r)).
Definition sub_stake (p : mpool) (x : Z) : res mpool := let* r := ra_sub (mp_s p) x in Ok (mkMP r (mp_u p)).
Definition sub_unstake (p : mpool) (x : Z) : res mpool := let* r := ra_sub (mp_u p) x in Ok (mkMP (mp_s p) r).
(** [set_stake_amount_lock], [set_unstake_amount_lock], types.rs:132-143, 154-165 *)
Definition ra_lock (r : ramount) (x : Z) : res ramount :=
  let* y := ok_or (checked_add (ra_res r) x) "Overflow" in
  if ra_tot r <? y then Err "Overflow" else Ok (mkRA (ra_tot r) y).
Definition lock_stake (p : mpool) (x : Z) : res mpool := let* r := ra_lock (mp_s p) x in Ok (mkMP r (mp_u p)).
Definition lock_unstake (p : mpool) (x : Z) : res mpool := let* r := ra_lock (mp_u p) x in Ok (mkMP (mp_s p) r).
(** [remove_stake_amount_lock], [remove_unstake_amount_lock], types.rs:145-152, 167-174 *)
Definition ra_unlock (r : ramount) (x : Z) : res ramount :=
  let* y := ok_or (checked_sub (ra_res r) x) "Underflow" in Ok (mkRA (ra_tot r) y).
(** [clear], types.rs:176-194 *)
Definition mp_clear (p : mpool) : res mpool :=
  let* fs := ra_free (mp_s p) in
  let* fu := ra_free (mp_u p) in
  if negb (fs =? fu) then Ok p else
  let* a := ok_or (checked_sub (ra_tot (mp_s p)) fs) "Underflow" in
  let* b := ok_or (checked_sub (ra_tot (mp_u p)) fs) "Underflow" in
  Ok (mkMP (mkRA a (ra_res (mp_s p))) (mkRA b (ra_res (mp_u p)))).
(** [consolidate_stake], [consolidate_unstake], types.rs:90-102 *)
Definition consolidate_stake (p : mpool) (x : Z) : res mpool :=
  let* r := ra_unlock (mp_s p) x in
  let* p1 := sub_stake (mkMP r (mp_u p)) x in
  mp_clear p1.
Definition consolidate_unstake (p : mpool) (x : Z) : res mpool :=
  let* r := ra_unlock (mp_u p) x in
  let* p1 := sub_unstake (mkMP (mp_s p) r) x in
  mp_clear p1.

(** ** Staking ledgers, types.rs *)
(** [UnlockChunk], types.rs:228-235 *)
Record chunk := mkChunk { c_v : Z; c_era : Z }.
Global Instance chunk_eq : EqDecision chunk. Proof. solve_decision. Defined.
(** [StakingLedger], types.rs:239-256 *)
Record sled := mkSled { sl_total : Z; sl_active : Z; sl_unl : list chunk }.
(** [new], types.rs:260-268 *)
Definition sl_new (v : Z) : sled := mkSled v v [].
(** [consolidate_unlocked], types.rs:272-283 *)
Fixpoint cons_total (era : Z) (l : list chunk) (total : Z) : Z :=
  match l with
  | [] => total
  | c :: l' => cons_total era l' (if era <? c_era c then total else saturating_sub total (c_v c))
  end.
Definition sl_consolidate (l : sled) (era : Z) : sled :=
  mkSled (cons_total era (sl_unl l) (sl_total l)) (sl_active l) (List.filter (fun c => era <? c_era c) (sl_unl l)).
(** [rebond], types.rs:286-306: the loop of [while let Some(last)], on the reversed list *)
Fixpoint rebond_rev (rl : list chunk) (value ub active : Z) : res (list chunk * Z) :=
  match rl with
  | [] => Ok ([], active)
  | c :: rest =>
      let* t := raw_add ub (c_v c) in
      if t <=? value then
        let* a := raw_add active (c_v c) in
        if value <=? t then Ok (rest, a) else rebond_rev rest value t a
      else
        let* diff := raw_sub value ub in
        let* a := raw_add active diff in
        let* v := raw_sub (c_v c) diff in
        Ok (mkChunk v (c_era c) :: rest, a)
  end.
Definition sl_rebond (l : sled) (value : Z) : res sled :=
  let* r := rebond_rev (rev (sl_unl l)) value 0 (sl_active l) in
  Ok (mkSled (sl_total l) r.2 (rev r.1)).
(** [bond_extra], types.rs:310-313 *)
Definition sl_bond_extra (l : sled) (value : Z) : res sled :=
  let* t := raw_add (sl_total l) value in
  let* a := raw_add (sl_active l) value in
  Ok (mkSled t a (sl_unl l)).
(** add to the last chunk if it has the target era, else push: types.rs:318-333 and lib.rs:577-586 *)
Fixpoint add_chunk (l : list chunk) (value era : Z) : list chunk :=
  match l with
  | [] => [mkChunk value era]
  | [c] => if c_era c =? era then [mkChunk (saturating_add (c_v c) value) (c_era c)] else [c; mkChunk value era]
  | c :: l' => c :: add_chunk l' value era
  end.
(** [unbond], types.rs:317-339 *)
Definition sl_unbond (l : sled) (value era : Z) : res sled :=
  let* a := raw_sub (sl_active l) value in
  Ok (mkSled (sl_total l) a (add_chunk (sl_unl l) value era)).

(** ** Distribution strategies, distribution.rs *)
(** stable sort ([sort_by]) *)
Fixpoint ins_by {A} (le : A -> A -> bool) (x : A) (l : list A) : list A :=
  match l with [] => [x] | y :: l' => if le x y then x :: l else y :: ins_by le x l' end.
Definition sort_by {A} (le : A -> A -> bool) (l : list A) : list A := foldr (ins_by le) [] l.

Inductive strategy := Average | MaxMin.
(** [AverageDistribution], distribution.rs:8-81 *)
Fixpoint avg_bond (l : list (Z * Z * Z)) (amount cap mnb : Z) : list (Z * Z) :=
  match l with
  | [] => []
  | (i, active, total) :: l' =>
      if saturating_add amount active <? mnb then avg_bond l' amount cap mnb else
      let x := Z.min (saturating_sub cap total) amount in
      if x =? 0 then avg_bond l' amount cap mnb else (i, x) :: avg_bond l' amount cap mnb
  end.
Fixpoint avg_unbond (l : list (Z * Z)) (amount mnb : Z) : list (Z * Z) :=
  match l with
  | [] => []
  | (i, bonded) :: l' =>
      if saturating_sub bonded amount <? mnb then avg_unbond l' amount mnb else
      if amount =? 0 then avg_unbond l' amount mnb else (i, amount) :: avg_unbond l' amount mnb
  end.
Fixpoint avg_rebond (l : list (Z * Z)) (amount : Z) : list (Z * Z) :=
  match l with
  | [] => []
  | (i, unb) :: l' =>
      let x := Z.min amount unb in
      if x =? 0 then avg_rebond l' x else (i, x) :: avg_rebond l' x
  end.
Definition share {A} (l : list A) (input : Z) : Z := default 0 (checked_div input (Z.of_nat (length l))).
(** [MaxMinDistribution], distribution.rs:83-169 *)
Fixpoint mm_bond (l : list (Z * Z * Z)) (remain cap mnb : Z) : list (Z * Z) :=
  match l with
  | [] => []
  | (i, active, total) :: l' =>
      if remain =? 0 then [] else
      let x := Z.min (saturating_sub cap total) remain in
      if x =? 0 then [] else
      if saturating_add x active <? mnb then mm_bond l' remain cap mnb else
      (i, x) :: mm_bond l' (saturating_sub remain x) cap mnb
  end.
Fixpoint mm_unbond (l : list (Z * Z)) (remain mnb : Z) : list (Z * Z) :=
  match l with
  | [] => []
  | (i, bonded) :: l' =>
      if remain =? 0 then [] else
      let x := Z.min remain (saturating_sub bonded mnb) in
      if x =? 0 then mm_unbond l' remain mnb else (i, x) :: mm_unbond l' (saturating_sub remain x) mnb
  end.
Fixpoint mm_rebond (l : list (Z * Z)) (remain : Z) : list (Z * Z) :=
  match l with
  | [] => []
  | (i, unb) :: l' =>
      if remain =? 0 then [] else
      let x := Z.min remain unb in
      if x =? 0 then mm_rebond l' remain else (i, x) :: mm_rebond l' (saturating_sub remain x)
  end.
(** [get_bond_distributions] (index, active, total), [get_unbond_distributions] and [get_rebond_distributions] *)
Definition bond_dist (st : strategy) (l : list (Z * Z * Z)) (input cap mnb : Z) : list (Z * Z) :=
  match st with
  | Average => avg_bond l (share l input) cap mnb
  | MaxMin => mm_bond (sort_by (fun a b => a.1.2 <=? b.1.2) l) input cap mnb
  end.
Definition unbond_dist (st : strategy) (l : list (Z * Z)) (input mnb : Z) : list (Z * Z) :=
  match st with
  | Average => avg_unbond l (share l input) mnb
  | MaxMin => mm_unbond (sort_by (fun a b => b.2 <=? a.2) l) input mnb
  end.
Definition rebond_dist (st : strategy) (l : list (Z * Z)) (input : Z) : list (Z * Z) :=
  match st with
  | Average => avg_rebond l (share l input)
  | MaxMin => mm_rebond (sort_by (fun a b => b.2 <=? a.2) l) input
  end.

(** ** State *)
(** [XcmRequest], types.rs:199-224 *)
Inductive request :=
| RBond (i amt : Z) | RBondExtra (i amt : Z) | RUnbond (i amt : Z) | RRebond (i amt : Z)
| RWithdraw (i spans : Z) | RNominate (i : Z) (targets : list Z).
(** [UnstakeProvider], types.rs:343-347 *)
Inductive provider := RelayChain | Loans | MatchingPool.
Global Instance provider_eq : EqDecision provider. Proof. solve_decision. Defined.
(** [XcmCall] keys of the fee table, primitives/src/ump.rs *)
Definition XBOND : Z := 0. Definition XBONDEXTRA : Z := 1. Definition XUNBOND : Z := 2.
Definition XREBOND : Z := 3. Definition XWITHDRAW : Z := 4. Definition XNOMINATE : Z := 5.
Definition MAX_CHUNKS : Z := 32.

(** [Config], 117-229 *)
Record ls_cfg := mkLsCfg {
  lc_loans : loans_cfg;            (* the lending pallet; [loans_account_id] is its account *)
  lc_acct : account;               (* account_id() *)
  lc_xcm : account;                (* account of pallet-xcm-helper *)
  lc_fee_rcv : account;            (* ProtocolFeeReceiver *)
  lc_stk : asset; lc_liq : asset; lc_col : asset; lc_relay : asset;
  lc_stk_known : bool; lc_liq_known : bool;
  lc_idx : list Z;                 (* DerivativeIndexList *)
  lc_fees : Z; lc_loans_fee : Z; lc_fast_fee : Z; lc_min_stake : Z; lc_min_unstake : Z;
  lc_bonding : Z; lc_mnb : Z; lc_eralen : Z; lc_spans : Z; lc_offset : Z;
  lc_strat : strategy;
  lc_relay_org : origin -> bool; lc_update_org : origin -> bool; lc_member : account -> bool
}.
(** The environment: token policy, whether sending the message with a given id succeeds, and Merkle verification *)
Record ls_env := mkLsEnv {
  e_pol : policy; e_send : Z -> bool;
  e_proof_era : Z -> Z -> Z -> bool;          (* root, era, proof *)
  e_proof_led : Z -> Z -> sled -> Z -> bool   (* root, derivative index, ledger, proof *)
}.
(** Storage, 340-450, with the lending pallet's state (which contains the token ledger), the XCM query counter, the
    relay-chain block number and the XCM fee table *)
Record lst := mkLst {
  ls_ln : loans;
  ls_rate : Z;
  ls_comm : Z;
  ls_rf : Z;
  ls_res : Z;
  ls_urf : Z;
  ls_ures : Z;
  ls_pool : mpool;
  ls_cap : Z;
  ls_reqs : gmap Z request;
  ls_fast : gmap Z Z;
  ls_era : Z;
  ls_start : Z;
  ls_unl : gmap Z (list chunk);
  ls_leds : gmap Z sled;
  ls_upd : gmap Z bool;
  ls_matched : bool;
  ls_vd : option Z;
  ls_qid : Z;
  ls_rblock : Z;
  ls_xfee : gmap Z Z
}.
Definition st_ls_ln (s : lst) (x : loans) : lst := mkLst x (ls_rate s) (ls_comm s) (ls_rf s) (ls_res s) (ls_urf s) (ls_ures s) (ls_pool s) (ls_cap s) (ls_reqs s) (ls_fast s) (ls_era s) (ls_start s) (ls_unl s) (ls_leds s) (ls_upd s) (ls_matched s) (ls_vd s) (ls_qid s) (ls_rblock s) (ls_xfee s).
Definition st_ls_rate (s : lst) (x : Z) : lst := mkLst (ls_ln s) x (ls_comm s) (ls_rf s) (ls_res s) (ls_urf s) (ls_ures s) (ls_pool s) (ls_cap s) (ls_reqs s) (ls_fast s) (ls_era s) (ls_start s) (ls_unl s) (ls_leds s) (ls_upd s) (ls_matched s) (ls_vd s) (ls_qid s) (ls_rblock s) (ls_xfee s).
Definition st_ls_comm (s : lst) (x : Z) : lst := mkLst (ls_ln s) (ls_rate s) x (ls_rf s) (ls_res s) (ls_urf s) (ls_ures s) (ls_pool s) (ls_cap s) (ls_reqs s) (ls_fast s) (ls_era s) (ls_start s) (ls_unl s) (ls_leds s) (ls_upd s) (ls_matched s) (ls_vd s) (ls_qid s) (ls_rblock s) (ls_xfee s).
Definition st_ls_rf (s : lst) (x : Z) : lst := mkLst (ls_ln s) (ls_rate s) (ls_comm s) x (ls_res s) (ls_urf s) (ls_ures s) (ls_pool s) (ls_cap s) (ls_reqs s) (ls_fast s) (ls_era s) (ls_start s) (ls_unl s) (ls_leds s) (ls_upd s) (ls_matched s) (ls_vd s) (ls_qid s) (ls_rblock s) (ls_xfee s).
Definition st_ls_res (s : lst) (x : Z) : lst := mkLst (ls_ln s) (ls_rate s) (ls_comm s) (ls_rf s) x (ls_urf s) (ls_ures s) (ls_pool s) (ls_cap s) (ls_reqs s) (ls_fast s) (ls_era s) (ls_start s) (ls_unl s) (ls_leds s) (ls_upd s) (ls_matched s) (ls_vd s) (ls_qid s) (ls_rblock s) (ls_xfee s).
Definition st_ls_urf (s : lst) (x : Z) : lst := mkLst (ls_ln s) (ls_rate s) (ls_comm s) (ls_rf s) (ls_res s) x (ls_ures s) (ls_pool s) (ls_cap s) (ls_reqs s) (ls_fast s) (ls_era s) (ls_start s) (ls_unl s) (ls_leds s) (ls_upd s) (ls_matched s) (ls_vd s) (ls_qid s) (ls_rblock s) (ls_xfee s).
Definition st_ls_ures (s : lst) (x : Z) : lst := mkLst (ls_ln s) (ls_rate s) (ls_comm s) (ls_rf s) (ls_res s) (ls_urf s) x (ls_pool s) (ls_cap s) (ls_reqs s) (ls_fast s) (ls_era s) (ls_start s) (ls_unl s) (ls_leds s) (ls_upd s) (ls_matched s) (ls_vd s) (ls_qid s) (ls_rblock s) (ls_xfee s).
Definition st_ls_pool (s : lst) (x : mpool) : lst := mkLst (ls_ln s) (ls_rate s) (ls_comm s) (ls_rf s) (ls_res s) (ls_urf s) (ls_ures s) x (ls_cap s) (ls_reqs s) (ls_fast s) (ls_era s) (ls_start s) (ls_unl s) (ls_leds s) (ls_upd s) (ls_matched s) (ls_vd s) (ls_qid s) (ls_rblock s) (ls_xfee s).
Definition st_ls_cap (s : lst) (x : Z) : lst := mkLst (ls_ln s) (ls_rate s) (ls_comm s) (ls_rf s) (ls_res s) (ls_urf s) (ls_ures s) (ls_pool s) x (ls_reqs s) (ls_fast s) (ls_era s) (ls_start s) (ls_unl s) (ls_leds s) (ls_upd s) (ls_matched s) (ls_vd s) (ls_qid s) (ls_rblock s) (ls_xfee s).
Definition st_ls_reqs (s : lst) (x : gmap Z request) : lst := mkLst (ls_ln s) (ls_rate s) (ls_comm s) (ls_rf s) (ls_res s) (ls_urf s) (ls_ures s) (ls_pool s) (ls_cap s) x (ls_fast s) (ls_era s) (ls_start s) (ls_unl s) (ls_leds s) (ls_upd s) (ls_matched s) (ls_vd s) (ls_qid s) (ls_rblock s) (ls_xfee s).
Definition st_ls_fast (s : lst) (x : gmap Z Z) : lst := mkLst (ls_ln s) (ls_rate s) (ls_comm s) (ls_rf s) (ls_res s) (ls_urf s) (ls_ures s) (ls_pool s) (ls_cap s) (ls_reqs s) x (ls_era s) (ls_start s) (ls_unl s) (ls_leds s) (ls_upd s) (ls_matched s) (ls_vd s) (ls_qid s) (ls_rblock s) (ls_xfee s).
Definition st_ls_era (s : lst) (x : Z) : lst := mkLst (ls_ln s) (ls_rate s) (ls_comm s) (ls_rf s) (ls_res s) (ls_urf s) (ls_ures s) (ls_pool s) (ls_cap s) (ls_reqs s) (ls_fast s) x (ls_start s) (ls_unl s) (ls_leds s) (ls_upd s) (ls_matched s) (ls_vd s) (ls_qid s) (ls_rblock s) (ls_xfee s).
Definition st_ls_start (s : lst) (x : Z) : lst := mkLst (ls_ln s) (ls_rate s) (ls_comm s) (ls_rf s) (ls_res s) (ls_urf s) (ls_ures s) (ls_pool s) (ls_cap s) (ls_reqs s) (ls_fast s) (ls_era s) x (ls_unl s) (ls_leds s) (ls_upd s) (ls_matched s) (ls_vd s) (ls_qid s) (ls_rblock s) (ls_xfee s).
Definition st_ls_unl (s : lst) (x : gmap Z (list chunk)) : lst := mkLst (ls_ln s) (ls_rate s) (ls_comm s) (ls_rf s) (ls_res s) (ls_urf s) (ls_ures s) (ls_pool s) (ls_cap s) (ls_reqs s) (ls_fast s) (ls_era s) (ls_start s) x (ls_leds s) (ls_upd s) (ls_matched s) (ls_vd s) (ls_qid s) (ls_rblock s) (ls_xfee s).
Definition st_ls_leds (s : lst) (x : gmap Z sled) : lst := mkLst (ls_ln s) (ls_rate s) (ls_comm s) (ls_rf s) (ls_res s) (ls_urf s) (ls_ures s) (ls_pool s) (ls_cap s) (ls_reqs s) (ls_fast s) (ls_era s) (ls_start s) (ls_unl s) x (ls_upd s) (ls_matched s) (ls_vd s) (ls_qid s) (ls_rblock s) (ls_xfee s).
Definition st_ls_upd (s : lst) (x : gmap Z bool) : lst := mkLst (ls_ln s) (ls_rate s) (ls_comm s) (ls_rf s) (ls_res s) (ls_urf s) (ls_ures s) (ls_pool s) (ls_cap s) (ls_reqs s) (ls_fast s) (ls_era s) (ls_start s) (ls_unl s) (ls_leds s) x (ls_matched s) (ls_vd s) (ls_qid s) (ls_rblock s) (ls_xfee s).
Definition st_ls_matched (s : lst) (x : bool) : lst := mkLst (ls_ln s) (ls_rate s) (ls_comm s) (ls_rf s) (ls_res s) (ls_urf s) (ls_ures s) (ls_pool s) (ls_cap s) (ls_reqs s) (ls_fast s) (ls_era s) (ls_start s) (ls_unl s) (ls_leds s) (ls_upd s) x (ls_vd s) (ls_qid s) (ls_rblock s) (ls_xfee s).
Definition st_ls_vd (s : lst) (x : option Z) : lst := mkLst (ls_ln s) (ls_rate s) (ls_comm s) (ls_rf s) (ls_res s) (ls_urf s) (ls_ures s) (ls_pool s) (ls_cap s) (ls_reqs s) (ls_fast s) (ls_era s) (ls_start s) (ls_unl s) (ls_leds s) (ls_upd s) (ls_matched s) x (ls_qid s) (ls_rblock s) (ls_xfee s).
Definition st_ls_qid (s : lst) (x : Z) : lst := mkLst (ls_ln s) (ls_rate s) (ls_comm s) (ls_rf s) (ls_res s) (ls_urf s) (ls_ures s) (ls_pool s) (ls_cap s) (ls_reqs s) (ls_fast s) (ls_era s) (ls_start s) (ls_unl s) (ls_leds s) (ls_upd s) (ls_matched s) (ls_vd s) x (ls_rblock s) (ls_xfee s).
Definition st_ls_rblock (s : lst) (x : Z) : lst := mkLst (ls_ln s) (ls_rate s) (ls_comm s) (ls_rf s) (ls_res s) (ls_urf s) (ls_ures s) (ls_pool s) (ls_cap s) (ls_reqs s) (ls_fast s) (ls_era s) (ls_start s) (ls_unl s) (ls_leds s) (ls_upd s) (ls_matched s) (ls_vd s) (ls_qid s) x (ls_xfee s).
Definition st_ls_xfee (s : lst) (x : gmap Z Z) : lst := mkLst (ls_ln s) (ls_rate s) (ls_comm s) (ls_rf s) (ls_res s) (ls_urf s) (ls_ures s) (ls_pool s) (ls_cap s) (ls_reqs s) (ls_fast s) (ls_era s) (ls_start s) (ls_unl s) (ls_leds s) (ls_upd s) (ls_matched s) (ls_vd s) (ls_qid s) (ls_rblock s) x.


(** u32 addition with overflow checks *)
Definition raw_add32 (a b : Z) : res Z := if a + b <=? U32MAX then Ok (a + b) else Panic.
Definition ls_led (s : lst) : ledger := ln_led (ls_ln s).
Definition put_led (s : lst) (L : ledger) : lst := st_ls_ln s (st_led (ls_ln s) L).

Section ls.
  Context (C : ls_cfg) (E : ls_env).
  Let P := e_pol E.

  (** [staking_currency], [liquid_currency], 1201-1212 *)
  Definition stk : res Z := if lc_stk_known C then Ok (lc_stk C) else Err "InvalidStakingCurrency".
  Definition liq : res Z := if lc_liq_known C then Ok (lc_liq C) else Err "InvalidLiquidCurrency".
  (** [reducible_balance(asset, who, false)], never more than the balance *)
  Definition red (s : lst) (a : asset) (w : account) : Z :=
    Z.max 0 (Z.min (bal (ls_led s) a w) (reducible P false (ls_led s) a w)).
  (** [staking_to_liquid], [liquid_to_staking], 2121-2129 *)
  Definition staking_to_liquid (s : lst) (x : Z) : option Z :=
    match f_reciprocal (ls_rate s) with Some r => f_checked_mul_int r x | None => None end.
  Definition liquid_to_staking (s : lst) (x : Z) : option Z := f_checked_mul_int (ls_rate s) x.
  (** [target_era], 1194-1198 *)
  Definition target_era (s : lst) : res Z := let* e := raw_add32 (ls_era s) (lc_bonding C) in raw_add32 e 1.
  (** [get_total_unclaimed], 1215-1219 *)
  Definition total_unclaimed (s : lst) (a : asset) : Z :=
    saturating_sub (saturating_sub (red s a (lc_acct C)) (ls_res s)) (ra_tot (mp_s (ls_pool s))).
  (** [total_bonded_of], [active_bonded_of], [unbonding_of], [unbonded_of], 1235-1260 *)
  Definition total_bonded_of (s : lst) (i : Z) : Z := match ls_leds s !! i with Some l => sl_total l | None => 0 end.
  Definition active_bonded_of (s : lst) (i : Z) : Z := match ls_leds s !! i with Some l => sl_active l | None => 0 end.
  Definition unbonding_of (s : lst) (i : Z) : Z :=
    match ls_leds s !! i with Some l => saturating_sub (sl_total l) (sl_active l) | None => 0 end.
  Definition unbonded_of (s : lst) (i : Z) : Z :=
    match ls_leds s !! i with
    | Some l => fold_left (fun acc c => if c_era c <=? ls_era s then saturating_add acc (c_v c) else acc) (sl_unl l) 0
    | None => 0
    end.
  (** the values of [StakingLedgers]; the folds below saturate, so the iteration order does not matter *)
  Definition led_values (s : lst) : list sled := map snd (map_to_list (ls_leds s)).
  (** [get_total_unbonding], [get_total_bonded], [get_total_active_bonded], [get_market_cap], 1262-1282 *)
  Definition total_unbonding (s : lst) : Z :=
    fold_left (fun acc l => saturating_add acc (saturating_sub (sl_total l) (sl_active l))) (led_values s) 0.
  Definition total_bonded (s : lst) : Z := fold_left (fun acc l => saturating_add acc (sl_total l)) (led_values s) 0.
  Definition total_active (s : lst) : Z := fold_left (fun acc l => saturating_add acc (sl_active l)) (led_values s) 0.
  Definition market_cap (s : lst) : Z := sat128 (ls_cap s * Z.of_nat (length (lc_idx C))).
  (** [ensure_origin], 2004-2013; [ensure_market_cap], [ensure_staking_ledger_cap], 2015-2033 *)
  Definition ensure_agent (o : origin) : res unit :=
    if lc_relay_org C o then Ok tt else
    match o with Signed w => ensure (lc_member C w) "BadOrigin" | Root => Err "BadOrigin" end.
  Definition ensure_market_cap (s : lst) (x : Z) : res unit :=
    ensure (saturating_add (total_bonded s) x <=? market_cap s) "CapExceeded".
  Definition ensure_ledger_cap (s : lst) (i x : Z) : res unit :=
    ensure (saturating_add (total_bonded_of s i) x <=? ls_cap s) "CapExceeded".
  Definition known_idx (i : Z) : bool := bool_decide (i ∈ lc_idx C).

  (** ** Staking and unstaking *)
  (** [add_xcm_fees], xcm-helper lib.rs:334-343 *)
  Definition add_xcm_fees (s : lst) (who : account) (x : Z) : res lst :=
    let* L := transfer P (ls_led s) (lc_relay C) who (lc_xcm C) x false in Ok (put_led s L).
  (** [stake], 475-524 *)
  Definition stake (s : lst) (who : account) (amount : Z) : res lst :=
    let* _ := ensure (lc_min_stake C <=? amount) "StakeTooSmall" in
    let reserves := p_mul_floor (ls_rf s) amount in
    let* a1 := ok_or (checked_sub amount (lc_fees C)) "Underflow" in
    let* a := stk in
    let* L := transfer P (ls_led s) a who (lc_acct C) a1 false in
    let s1 := put_led s L in
    let* s2 := add_xcm_fees s1 who (lc_fees C) in
    let* a2 := ok_or (checked_sub a1 reserves) "Underflow" in
    let* v := ok_or (staking_to_liquid s2 a2) "InvalidExchangeRate" in
    let* lq := liq in
    let* _ := ensure_market_cap s2 a2 in
    let* L3 := mint_into P (ls_led s2) lq who v in
    let s3 := put_led s2 L3 in
    let* p := add_stake (ls_pool s3) a2 in
    let* r := ok_or (checked_add (ls_res s3) reserves) "Overflow" in
    Ok (st_ls_res (st_ls_pool s3 p) r).

  (** collateral factor from [Loans::get_market_info], pallets/loans/src/lib.rs:2230-2241 (fails unless a jump model) *)
  Definition market_cf (n : loans) (a : asset) : res Z :=
    let* mk := get_market n a in
    match mk_model mk with Jump _ _ _ _ => Ok (mk_cf mk) | Curve _ => Err "InvalidRateModelParam" end.
  (** [do_loans_instant_unstake], 1884-1905; the result of [do_collateral_asset] is ignored *)
  Definition loans_instant_unstake (s : lst) (who : account) (amount : Z) : res lst :=
    let* fee := ok_or (f_checked_mul_int (lc_loans_fee C) amount) "Overflow" in
    let* b := ok_or (checked_sub amount fee) "Underflow" in
    let* cf := market_cf (ls_ln s) (lc_col C) in
    let* m := p_recip_mul_ceil cf amount in
    let* a := stk in
    let* L := mint_into P (ls_led s) (lc_col C) (lc_acct C) m in
    let s1 := put_led s L in
    let* n2 := do_mint (lc_loans C) P (ls_ln s1) (lc_acct C) (lc_col C) m in
    let* n3 := match do_collateral (lc_loans C) n2 (lc_acct C) (lc_col C) true with
               | Ok n => Ok n | Err _ => Ok n2 | Panic => Panic end in
    let* n4 := do_borrow (lc_loans C) P n3 (lc_acct C) a b in
    let s4 := st_ls_ln s1 n4 in
    let* L5 := transfer P (ls_led s4) a (lc_acct C) who b false in
    Ok (put_led s4 L5).

  Definition fast_of (s : lst) (w : account) : Z := default 0 (ls_fast s !! w).
  (** [unstake], 534-614 *)
  Definition unstake (s : lst) (who : account) (amount : Z) (pr : provider) : res lst :=
    let* _ := ensure (lc_min_unstake C <=? amount) "UnstakeTooSmall" in
    let reserves := p_mul_floor (ls_urf s) amount in
    let* u := ok_or (checked_add (ls_ures s) reserves) "Overflow" in
    let s1 := st_ls_ures s u in
    let* la := ok_or (checked_sub amount reserves) "Underflow" in
    match pr with
    | MatchingPool =>
        let* lq := liq in
        Ok (st_ls_fast s1 (<[who := Z.min (saturating_add (fast_of s1 who) la) (red s1 lq who)]> (ls_fast s1)))
    | _ =>
        let* x := ok_or (liquid_to_staking s1 la) "InvalidExchangeRate" in
        let key := match pr with Loans => ln_acct (lc_loans C) | _ => who end in
        let* era := target_era s1 in
        let chunks := add_chunk (default [] (ls_unl s1 !! key)) x era in
        let* _ := ensure (Z.of_nat (length chunks) <=? MAX_CHUNKS) "NoMoreChunks" in
        let s2 := st_ls_unl s1 (<[key := chunks]> (ls_unl s1)) in
        let* lq := liq in
        let* L := burn_from P (ls_led s2) lq who amount in
        let* L' := mint_into P L lq (lc_acct C) reserves in
        let s3 := put_led s2 L' in
        let* s4 := match pr with Loans => loans_instant_unstake s3 who x | _ => Ok s3 end in
        let* p := add_unstake (ls_pool s4) x in
        Ok (st_ls_pool s4 p)
    end.

  (** [do_claim_for], 1858-1881 *)
  Definition do_claim_for (s : lst) (who : account) (amount : Z) : res lst :=
    let* a := stk in
    if bool_decide (who = ln_acct (lc_loans C)) then
      let* n1 := accrue (lc_loans C) (ls_ln s) a in
      let* b := borrow_balance n1 (lc_acct C) a in
      let* n2 := do_repay (lc_loans C) P n1 (lc_acct C) a (Z.min b amount) in
      let* cf := market_cf n2 (lc_col C) in
      let* x := p_recip_mul_ceil cf amount in
      let* n3 := do_redeem (lc_loans C) P n2 (lc_acct C) (lc_col C) x in
      let s3 := st_ls_ln s n3.1 in
      let* L := burn_from P (ls_led s3) (lc_col C) (lc_acct C) x in
      Ok (put_led s3 L)
    else
      let* L := transfer P (ls_led s) a (lc_acct C) who amount false in Ok (put_led s L).
  (** sum of the due chunks with raw [+=], 791-798 *)
  Fixpoint due_sum (era : Z) (l : list chunk) (acc : Z) : res Z :=
    match l with
    | [] => Ok acc
    | c :: l' => if era <? c_era c then due_sum era l' acc else let* a := raw_add acc (c_v c) in due_sum era l' a
    end.
  (** [claim_for], 781-830 *)
  Definition claim_for (s : lst) (o : origin) (who : account) : res lst :=
    let* _ := ensure_agent o in
    let* chunks := ok_or (ls_unl s !! who) "NoUnlockings" in
    let* amount := due_sum (ls_era s) chunks 0 in
    let rest := List.filter (fun c => ls_era s <? c_era c) chunks in
    let* a := stk in
    let unclaimed := total_unclaimed s a in
    let* _ := ensure (negb (amount =? 0)) "NothingToClaim" in
    let* _ := ensure (negb (unclaimed <? amount)) "NotWithdrawn" in
    let* s1 := do_claim_for s who amount in
    Ok (st_ls_unl s1 (match rest with [] => delete who (ls_unl s1) | _ => <[who := rest]> (ls_unl s1) end)).

  (** [cancel_unstake], 1022-1037 *)
  Definition cancel_unstake (s : lst) (who : account) (amount : Z) : res lst :=
    let* lq := liq in
    Ok (st_ls_fast s (<[who := saturating_sub (Z.min (fast_of s who) (red s lq who)) amount]> (ls_fast s))).
  (** [do_fast_match_unstake], 1936-2002 *)
  Definition fast_match_one (s : lst) (w : account) : res lst :=
    match ls_fast s !! w with
    | None => Ok s
    | Some b =>
        let* lq := liq in
        let request := Z.min b (red s lq w) in
        let* f := ra_free (mp_s (ls_pool s)) in
        let* avail := ok_or (staking_to_liquid s f) "InvalidExchangeRate" in
        let matched := Z.min request avail in
        let* s1 :=
          if matched =? 0 then Ok s else
            let fee := f_saturating_mul_int (lc_fast_fee C) matched in
            let burn := saturating_sub matched fee in
            let* L := burn_from P (ls_led s) lq w burn in
            let* L2 := transfer P L lq w (lc_fee_rcv C) fee false in
            let* x := ok_or (liquid_to_staking s burn) "InvalidExchangeRate" in
            let* p := sub_stake (ls_pool s) x in
            let* a := stk in
            let* L3 := transfer P L2 a (lc_acct C) w x false in
            Ok (st_ls_pool (put_led s L3) p) in
        let rest := saturating_sub request matched in
        Ok (st_ls_fast s1 (if rest =? 0 then delete w (ls_fast s1) else <[w := rest]> (ls_fast s1)))
    end.
  Fixpoint fast_match_all (s : lst) (l : list Z) : res lst :=
    match l with [] => Ok s | w :: l' => let* s1 := fast_match_one s w in fast_match_all s1 l' end.
  (** [fast_match_unstake], 1069-1078 *)
  Definition fast_match_unstake (s : lst) (o : origin) (l : list Z) : res lst :=
    let* _ := ensure_agent o in fast_match_all s l.

  (** ** Relay-chain requests *)
  (** [do_ump_transact] (xcm-helper 345-372: burns the fee), [report_outcome_notify] (258-291: a fresh query id) and
      [send_xcm], as in xcm-helper [do_bond] 574-622 and its siblings; then [XcmRequests::insert] *)
  Definition send (s : lst) (k : Z) (r : request) : res lst :=
    let fee := default 0 (ls_xfee s !! k) in
    let* L := match burn_from P (ls_led s) (lc_relay C) (lc_xcm C) fee with
              | Ok L => Ok L | Err _ => Err "InsufficientXcmFees" | Panic => Panic end in
    let* _ := ensure (e_send E (ls_qid s)) "SendFailure" in
    let s1 := put_led s L in
    Ok (st_ls_qid (st_ls_reqs s1 (<[ls_qid s := r]> (ls_reqs s1))) (ls_qid s + 1)).
  (** [do_bond_extra], 1347-1394 *)
  Definition do_bond_extra (s : lst) (i amt : Z) : res lst :=
    if amt =? 0 then Ok s else
    let* _ := ensure (known_idx i) "InvalidDerivativeIndex" in
    let* _ := ok_or (ls_leds s !! i) "NotBonded" in
    let* _ := ensure_ledger_cap s i amt in
    let* p := lock_stake (ls_pool s) amt in
    send (st_ls_pool s p) XBONDEXTRA (RBondExtra i amt).
  (** [do_bond], 1285-1344 *)
  Definition do_bond (s : lst) (i amt : Z) : res lst :=
    if amt =? 0 then Ok s else
    match ls_leds s !! i with
    | Some _ => do_bond_extra s i amt
    | None =>
        let* _ := ensure (known_idx i) "InvalidDerivativeIndex" in
        let* _ := ensure (lc_mnb C <=? amt) "InsufficientBond" in
        let* _ := ensure_ledger_cap s i amt in
        let* p := lock_stake (ls_pool s) amt in
        send (st_ls_pool s p) XBOND (RBond i amt)
    end.
  (** [do_unbond], 1397-1442 *)
  Definition do_unbond (s : lst) (i amt : Z) : res lst :=
    if amt =? 0 then Ok s else
    let* _ := ensure (known_idx i) "InvalidDerivativeIndex" in
    let* l := ok_or (ls_leds s !! i) "NotBonded" in
    let* _ := ensure (Z.of_nat (length (sl_unl l)) <? MAX_CHUNKS) "NoMoreChunks" in
    let* _ := ensure (lc_mnb C <=? saturating_sub (sl_active l) amt) "InsufficientBond" in
    let* p := lock_unstake (ls_pool s) amt in
    send (st_ls_pool s p) XUNBOND (RUnbond i amt).
  (** [do_rebond], 1445-1483 *)
  Definition do_rebond (s : lst) (i amt : Z) : res lst :=
    if amt =? 0 then Ok s else
    let* _ := ensure (known_idx i) "InvalidDerivativeIndex" in
    let* _ := ok_or (ls_leds s !! i) "NotBonded" in
    let* p := lock_stake (ls_pool s) amt in
    send (st_ls_pool s p) XREBOND (RRebond i amt).
  (** [do_withdraw_unbonded], 1486-1531 *)
  Definition do_withdraw_unbonded (s : lst) (i spans : Z) : res lst :=
    if unbonded_of s i =? 0 then Ok s else
    let* _ := ensure (known_idx i) "InvalidDerivativeIndex" in
    let* _ := ok_or (ls_leds s !! i) "NotBonded" in
    send s XWITHDRAW (RWithdraw i spans).
  (** [do_nominate], 1534-1570 *)
  Definition do_nominate (s : lst) (i : Z) (targets : list Z) : res lst :=
    let* _ := ensure (known_idx i) "InvalidDerivativeIndex" in
    let* _ := ok_or (ls_leds s !! i) "NotBonded" in
    send s XNOMINATE (RNominate i targets).

  Fixpoint run_all (f : lst -> Z -> Z -> res lst) (s : lst) (l : list (Z * Z)) : res lst :=
    match l with [] => Ok s | (i, x) :: l' => let* s1 := f s i x in run_all f s1 l' end.
  (** [do_multi_bond], [do_multi_unbond], [do_multi_rebond], [do_multi_withdraw_unbonded], 1573-1656 *)
  Definition multi_bond (s : lst) (x : Z) : res lst :=
    if x =? 0 then Ok s else
    run_all do_bond s (bond_dist (lc_strat C)
      (map (fun i => (i, active_bonded_of s i, total_bonded_of s i)) (lc_idx C)) x (ls_cap s) (lc_mnb C)).
  Definition multi_unbond (s : lst) (x : Z) : res lst :=
    if x =? 0 then Ok s else
    run_all do_unbond s (unbond_dist (lc_strat C) (map (fun i => (i, active_bonded_of s i)) (lc_idx C)) x (lc_mnb C)).
  Definition multi_rebond (s : lst) (x : Z) : res lst :=
    if x =? 0 then Ok s else
    run_all do_rebond s (rebond_dist (lc_strat C) (map (fun i => (i, unbonding_of s i)) (lc_idx C)) x).
  Definition multi_withdraw (s : lst) (spans : Z) : res lst :=
    run_all do_withdraw_unbonded s (map (fun k => (k, spans)) (map fst (map_to_list (ls_leds s)))).
  (** [do_matching], 1801-1830 *)
  Definition do_matching (s : lst) : res lst :=
    let* m := matching (ls_pool s) (total_unbonding s) in
    let '(b, r, u) := m in
    let* s1 := multi_bond (st_ls_matched s true) b in
    let* s2 := multi_rebond s1 r in
    let* s3 := multi_unbond s2 u in
    multi_withdraw s3 (lc_spans C).

  (** ** Notifications *)
  (** [do_update_ledger], 1784-1798, for a callback that only touches the ledger entry *)
  Definition update_ledger (s : lst) (i : Z) (f : sled -> res sled) : res lst :=
    let* l := ok_or (ls_leds s !! i) "NotBonded" in
    let* l' := f l in
    Ok (st_ls_upd (st_ls_leds s (<[i := l']> (ls_leds s))) (<[i := true]> (ls_upd s))).
  Definition burn_staked (s : lst) (amt : Z) : res lst :=
    let* a := stk in
    let* L := burn_from P (ls_led s) a (lc_acct C) amt in Ok (put_led s L).
  (** [do_notification_received], 1659-1754, executed = true *)
  Definition executed (s : lst) (r : request) : res lst :=
    match r with
    | RBond i amt =>
        let* _ := ensure (negb (bool_decide (is_Some (ls_leds s !! i)))) "AlreadyBonded" in
        let s1 := st_ls_leds s (<[i := sl_new amt]> (ls_leds s)) in
        let* p := consolidate_stake (ls_pool s1) amt in
        burn_staked (st_ls_pool s1 p) amt
    | RBondExtra i amt =>
        let* s1 := update_ledger s i (fun l => sl_bond_extra l amt) in
        let* p := consolidate_stake (ls_pool s1) amt in
        burn_staked (st_ls_pool s1 p) amt
    | RUnbond i amt =>
        let* era := raw_add32 (ls_era s) (lc_bonding C) in
        let* s1 := update_ledger s i (fun l => sl_unbond l amt era) in
        let* p := consolidate_unstake (ls_pool s1) amt in
        Ok (st_ls_pool s1 p)
    | RRebond i amt =>
        let* s1 := update_ledger s i (fun l => sl_rebond l amt) in
        let* p := consolidate_stake (ls_pool s1) amt in
        Ok (st_ls_pool s1 p)
    | RWithdraw i _ =>
        let* l := ok_or (ls_leds s !! i) "NotBonded" in
        let* a := stk in
        let amt := saturating_sub (sl_total l) (sl_total (sl_consolidate l (ls_era s))) in
        let* L := mint_into P (ls_led s) a (lc_acct C) amt in
        update_ledger (put_led s L) i (fun l => Ok (sl_consolidate l (ls_era s)))
    | RNominate _ _ => Ok s
    end.
  (** [notification_received], 753-774; [resp]: the origin is an XCM response; [r]: not an execution result, or
      whether the execution succeeded *)
  Definition notification (s : lst) (resp : bool) (o : origin) (q : Z) (r : option bool) : res lst :=
    let* _ := ensure (resp || lc_update_org C o) "BadOrigin" in
    match r with
    | None => Ok s
    | Some ok =>
        match ls_reqs s !! q with
        | None => Ok s
        | Some req =>
            if negb ok then Ok s else
            let* s1 := executed s req in
            Ok (st_ls_reqs s1 (delete q (ls_reqs s1)))
        end
    end.

  (** ** Eras *)
  (** Σ active + stake - unstake, as in 1758-1770 and 1915-1921 *)
  Definition staked_value (s : lst) : option Z :=
    match checked_add (total_active s) (ra_tot (mp_s (ls_pool s))) with
    | Some x => checked_sub x (ra_tot (mp_u (ls_pool s)))
    | None => None
    end.
  (** [do_update_exchange_rate], 1757-1781 *)
  Definition update_exchange_rate (s : lst) : res lst :=
    let* lq := liq in
    let issuance := iss (ls_led s) lq in
    if issuance =? 0 then Ok s else
    let* v := ok_or (staked_value s) "Overflow" in
    let* r := ok_or (f_checked_from_rational v issuance) "InvalidExchangeRate" in
    if ls_rate s <? r then Ok (st_ls_rate s r) else Ok s.
  (** [do_advance_era], 1833-1855; an error of the rate update is ignored *)
  Definition advance_era (s : lst) (offset : Z) : res lst :=
    if offset =? 0 then Ok s else
    let s1 := st_ls_start s (ls_rblock s) in
    let s2 := st_ls_era s1 (Z.min U32MAX (ls_era s1 + offset)) in
    let* s3 := match update_exchange_rate s2 with Ok s' => Ok s' | Err _ => Ok s2 | Panic => Panic end in
    Ok (st_ls_matched s3 false).
  (** [offset], 1227-1233 *)
  Definition era_offset (s : lst) : Z :=
    if ls_rblock s <? ls_start s then 0 else if lc_eralen C =? 0 then 0 else (ls_rblock s - ls_start s) / lc_eralen C.
  (** [on_initialize], 1141-1167: the closure (rolled back on error) *)
  Definition on_initialize (s : lst) : res lst :=
    let* s1 := if negb (ls_matched s) && (Z.min U32MAX (lc_offset C + ls_start s) <=? ls_rblock s) then do_matching s else Ok s in
    let off := era_offset s1 in
    if off =? 0 then Ok s1 else advance_era s1 off.
  (** [on_finalize], 1169-1174 *)
  Definition on_finalize (s : lst) (vd : option Z) : lst :=
    let s1 := st_ls_upd s ∅ in match vd with Some d => st_ls_vd s1 (Some d) | None => s1 end.

  (** [get_inflate_liquid_amount], 1908-1933 *)
  Definition inflate_amount (s : lst) (rewards : Z) : res Z :=
    let* lq := liq in
    let issuance := iss (ls_led s) lq in
    if (issuance =? 0) || (ls_comm s =? 0) || (rewards =? 0) then Ok 0 else
    let* v := ok_or (staked_value s) "Overflow" in
    let c := f_saturating_mul_int (ls_comm s) rewards in
    let rate := default 0 (f_checked_from_rational c (saturating_sub (saturating_add v rewards) c)) in
    Ok (f_saturating_mul_int rate issuance).
  (** [!is_updated(index) && XcmRequests::iter().count().is_zero()], 897-901, 946-950 *)
  Definition ledger_unlocked (s : lst) (i : Z) : bool :=
    negb (default false (ls_upd s !! i)) && bool_decide (ls_reqs s = ∅).
  (** [set_staking_ledger], 935-984; [verify_merkle_proof], 2042-2073 *)
  Definition set_staking_ledger (s : lst) (o : origin) (i : Z) (l' : sled) (proof : Z) : res lst :=
    let* _ := ensure_agent o in
    let* l := ok_or (ls_leds s !! i) "NotBonded" in
    let* _ := ensure (ledger_unlocked s i) "StakingLedgerLocked" in
    let* _ := ensure ((sl_total l <? sl_total l') && (sl_active l <? sl_active l') && bool_decide (sl_unl l' = sl_unl l))
                "InvalidStakingLedger" in
    let* _ := ensure (match ls_vd s with Some r => e_proof_led E r i l' proof | None => false end) "InvalidProof" in
    let* x := inflate_amount s (saturating_sub (sl_total l') (sl_total l)) in
    let* s1 := if x =? 0 then Ok s else
      let* lq := liq in
      let* L := mint_into P (ls_led s) lq (lc_fee_rcv C) x in Ok (put_led s L) in
    update_ledger s1 i (fun _ => Ok l').
  (** [set_current_era], 911-929 *)
  Definition set_current_era (s : lst) (o : origin) (era proof : Z) : res lst :=
    let* _ := ensure_agent o in
    let* _ := ensure (match ls_vd s with Some r => e_proof_era E r era proof | None => false end) "InvalidProof" in
    advance_era s (saturating_sub era (ls_era s)).

  (** ** Governance *)
  (** [update_reserve_factor], 620-640; [update_unstake_reserve_factor], 1084-1104; [update_commission_rate], 1043-1063;
      [update_staking_ledger_cap], 646-662 *)
  Definition update_reserve_factor (s : lst) (o : origin) (x : Z) : res lst :=
    let* _ := ensure (lc_update_org C o) "BadOrigin" in
    let* _ := ensure ((0 <? x) && (x <? PMILL)) "InvalidFactor" in Ok (st_ls_rf s x).
  Definition update_unstake_reserve_factor (s : lst) (o : origin) (x : Z) : res lst :=
    let* _ := ensure (lc_update_org C o) "BadOrigin" in
    let* _ := ensure ((0 <=? x) && (x <? PMILL)) "InvalidFactor" in Ok (st_ls_urf s x).
  Definition update_commission (s : lst) (o : origin) (x : Z) : res lst :=
    let* _ := ensure (lc_update_org C o) "BadOrigin" in
    let* _ := ensure ((0 <? x) && (x <? FDIV)) "InvalidCommissionRate" in Ok (st_ls_comm s x).
  Definition update_cap (s : lst) (o : origin) (x : Z) : res lst :=
    let* _ := ensure (lc_update_org C o) "BadOrigin" in
    let* _ := ensure (negb (x =? 0)) "InvalidCap" in Ok (st_ls_cap s x).
  (** [reduce_reserves], 990-1016; [reduce_unstake_reserves], 1110-1136 *)
  Definition ls_reduce_reserves (s : lst) (o : origin) (rcv : account) (x : Z) : res lst :=
    let* _ := ensure (lc_update_org C o) "BadOrigin" in
    let* r := ok_or (checked_sub (ls_res s) x) "Underflow" in
    let* a := stk in
    let* L := transfer P (ls_led s) a (lc_acct C) rcv x false in
    Ok (st_ls_res (put_led s L) r).
  Definition reduce_unstake_reserves (s : lst) (o : origin) (rcv : account) (x : Z) : res lst :=
    let* _ := ensure (lc_update_org C o) "BadOrigin" in
    let* r := ok_or (checked_sub (ls_ures s) x) "Underflow" in
    let* lq := liq in
    let* L := transfer P (ls_led s) lq (lc_acct C) rcv x false in
    Ok (st_ls_ures (put_led s L) r).
  (** [force_set_era_start_block], [force_set_current_era], [force_advance_era], [force_matching],
      [force_set_staking_ledger], 836-905 *)
  Definition force_start (s : lst) (o : origin) (b : Z) : res lst :=
    let* _ := ensure (lc_update_org C o) "BadOrigin" in Ok (st_ls_start s b).
  Definition force_era (s : lst) (o : origin) (e : Z) : res lst :=
    let* _ := ensure (lc_update_org C o) "BadOrigin" in Ok (st_ls_era (st_ls_matched s false) e).
  Definition force_advance (s : lst) (o : origin) (x : Z) : res lst :=
    let* _ := ensure (lc_update_org C o) "BadOrigin" in advance_era s x.
  Definition force_matching (s : lst) (o : origin) : res lst :=
    let* _ := ensure (lc_update_org C o) "BadOrigin" in do_matching s.
  Definition force_ledger (s : lst) (o : origin) (i : Z) (l' : sled) : res lst :=
    let* _ := ensure (lc_update_org C o) "BadOrigin" in
    update_ledger s i (fun _ => let* _ := ensure (ledger_unlocked s i) "StakingLedgerLocked" in Ok l').
  (** xcm-helper [update_xcm_weight_fee], lib.rs:144-161 (the fee only; its own UpdateOrigin is taken to be the same) *)
  Definition update_xcm_fee (s : lst) (o : origin) (k x w : Z) : res lst :=
    let* _ := ensure (lc_update_org C o) "BadOrigin" in
    let* _ := ensure (negb (x =? 0)) "ZeroXcmFees" in
    let* _ := ensure (negb (w =? 0)) "ZeroXcmWeightMisc" in
    Ok (st_ls_xfee s (<[k := x]> (ls_xfee s))).
  Definition relay_call (o : origin) (r : res lst) : res lst := let* _ := ensure (lc_relay_org C o) "BadOrigin" in r.
  Definition agent_call (o : origin) (r : res lst) : res lst := let* _ := ensure_agent o in r.

  (** ** Calls and hooks *)
  Inductive ls_call :=
  | KStake (who : account) (amt : Z)
  | KUnstake (who : account) (amt : Z) (pr : provider)
  | KReserveFactor (o : origin) (x : Z)
  | KCap (o : origin) (x : Z)
  | KBond (o : origin) (i amt : Z)
  | KBondExtra (o : origin) (i amt : Z)
  | KUnbond (o : origin) (i amt : Z)
  | KRebond (o : origin) (i amt : Z)
  | KWithdraw (o : origin) (i spans : Z)
  | KNominate (o : origin) (i : Z) (targets : list Z)
  | KNotify (resp : bool) (o : origin) (q : Z) (r : option bool)
  | KClaim (o : origin) (who : account)
  | KForceStart (o : origin) (b : Z)
  | KForceEra (o : origin) (e : Z)
  | KForceAdvance (o : origin) (x : Z)
  | KForceMatching (o : origin)
  | KForceLedger (o : origin) (i : Z) (l : sled)
  | KSetEra (o : origin) (era proof : Z)
  | KSetLedger (o : origin) (i : Z) (l : sled) (proof : Z)
  | KReduceReserves (o : origin) (rcv : account) (x : Z)
  | KCancel (who : account) (x : Z)
  | KCommission (o : origin) (x : Z)
  | KFastMatch (o : origin) (l : list Z)
  | KUnstakeReserveFactor (o : origin) (x : Z)
  | KReduceUnstakeReserves (o : origin) (rcv : account) (x : Z)
  | KXcmFee (o : origin) (k x w : Z)
  | KInit                               (* on_initialize *)
  | KFinal (vd : option Z).             (* on_finalize *)

  Definition ls_exec (s : lst) (c : ls_call) : res lst :=
    match c with
    | KStake w x => stake s w x
    | KUnstake w x pr => unstake s w x pr
    | KReserveFactor o x => update_reserve_factor s o x
    | KCap o x => update_cap s o x
    | KBond o i x => relay_call o (do_bond s i x)                 (* 668-677 *)
    | KBondExtra o i x => relay_call o (do_bond_extra s i x)      (* 683-691 *)
    | KUnbond o i x => relay_call o (do_unbond s i x)             (* 697-705 *)
    | KRebond o i x => relay_call o (do_rebond s i x)             (* 711-719 *)
    | KWithdraw o i x => agent_call o (do_withdraw_unbonded s i x) (* 725-733 *)
    | KNominate o i t => agent_call o (do_nominate s i t)         (* 739-747 *)
    | KNotify resp o q r => notification s resp o q r
    | KClaim o w => claim_for s o w
    | KForceStart o b => force_start s o b
    | KForceEra o e => force_era s o e
    | KForceAdvance o x => force_advance s o x
    | KForceMatching o => force_matching s o
    | KForceLedger o i l => force_ledger s o i l
    | KSetEra o e p => set_current_era s o e p
    | KSetLedger o i l p => set_staking_ledger s o i l p
    | KReduceReserves o r x => ls_reduce_reserves s o r x
    | KCancel w x => cancel_unstake s w x
    | KCommission o x => update_commission s o x
    | KFastMatch o l => fast_match_unstake s o l
    | KUnstakeReserveFactor o x => update_unstake_reserve_factor s o x
    | KReduceUnstakeReserves o r x => reduce_unstake_reserves s o r x
    | KXcmFee o k x w => update_xcm_fee s o k x w
    | KInit => on_initialize s
    | KFinal vd => Ok (on_finalize s vd)
    end.
  (** every call is [#[transactional]] and [on_initialize] rolls back on error (1161-1164) *)
  Definition ls_apply (s : lst) (c : ls_call) : lst := match ls_exec s c with Ok s' => s' | _ => s end.
End ls.
