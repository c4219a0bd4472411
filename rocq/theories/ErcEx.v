(** * ErcEx: a concrete configuration and state for the ERC20 examples. *)
From Verif Require Import Base MapSum Ledger AmmModel AmmSpec AmmProofs AmmInv AmmEx AmmProofs5 ErcModel ErcSpec ErcProofs ErcProofs2 ErcProofs3.

Definition addr100 : Z := asset_id_to_address 100.
Definition erC : erc_cfg := {|
  ec_map := fun x => x; ec_native := 1; ec_is_native := true; ec_exists := fun a => a =? 100;
  ec_issuer := fun _ => 5; ec_admin := fun _ => 5; ec_minbal := fun _ => 1; ec_locked := fun _ => 0;
  ec_chain := 10; ec_name := fun a => a; ec_decimals := fun _ => 12;
  ec_recover := fun sg m =>
    if (fst (fst sg) =? 77) && (pm_chain m =? 10) && (pm_contract m =? addr100) && (pm_name m =? 100) && (pm_owner m =? 7) && (pm_spender m =? 8)
       && (pm_value m =? 1000) && (pm_nonce m =? 0) && (pm_deadline m =? 50) then Some 7 else None;
  ec_allow := fun _ _ c => match fcall_asset c with Some a => a =? 100 | None => true end;
  ec_pure := fun _ _ => Ok [] |}.
Definition er0 : erc :=
  mkErc (mk_ledger [((1, 7), 1000); ((1, 8), 10); ((100, 7), 500)]) (<[(7, 8) := 60]> ∅) ∅ (<[(100, 7, 8) := 90]> ∅) ∅.
(** 7 or 8 calls the native token or asset 100 *)
Definition cxn (caller value : Z) (st : bool) : ectx := mkCx 2050 2050 caller value st.
Definition cxa (caller value : Z) (st : bool) : ectx := mkCx addr100 addr100 caller value st.

Lemma erC_ok : erc_cfg_ok erC.
Proof.
  split; [reflexivity|]. split; [|intros x y _ _ E; exact E]. intros s o c a E H. cbn in *. rewrite E in H. exact H.
Qed.
Lemma erC_one : one_message erC.
Proof.
  intros sg [] [] x. cbn.
  match goal with |- (if ?b then _ else _) = _ -> (if ?c then _ else _) = _ -> _ => destruct b eqn:E1; [|discriminate]; destruct c eqn:E2; [|discriminate] end.
  intros _ _. repeat match goal with X : _ && _ = true |- _ => apply andb_prop in X as [X ?] end. f_equal; lia.
Qed.
Lemma erC_rec sg m : ec_recover erC sg m <> Some native_erc20.
Proof. cbn. destruct (_ && _); [discriminate|discriminate]. Qed.
Lemma er_ready o : ready erC o.
Proof. intros s c H. cbn. destruct (fcall_asset c) as [a|] eqn:E; [apply (H a eq_refl)|reflexivity]. Qed.
Lemma lenient_all : lenient allow_all.
Proof. split; [|split]; reflexivity. Qed.

Definition runb (r : option (res (erc * list Z * list elog))) (f : erc -> list Z -> bool) : bool :=
  match r with Some (Ok (s, out, _)) => f s out | _ => false end.
Lemma runb_ex C P s cx now bs f : runb (evm_call C P now s cx bs) f = true -> exists s' out logs, ercs C P s cx now bs s' out logs /\ f s' out = true.
Proof. unfold runb, ercs. destruct (evm_call C P now s cx bs) as [[[[s' out] logs]| |]|]; try discriminate. intros H. eauto. Qed.

Lemma cxn_ok c v st : addr_ok c -> u256_ok v -> ctx_ok (cxn c v st).
Proof. intros. repeat split; cbn; try lia; try (apply H); apply H0. Qed.
Lemma addr100_ok : addr_ok addr100.
Proof. split; [apply Z.leb_le|apply Z.ltb_lt]; vm_compute; reflexivity. Qed.
Lemma cxa_ok c v st : addr_ok c -> u256_ok v -> ctx_ok (cxa c v st).
Proof. intros. split; [apply addr100_ok|]. split; [apply addr100_ok|]. auto. Qed.
Lemma small_addr x : (0 <=? x) && (x <=? 10000) = true -> addr_ok x.
Proof. intros H. apply andb_prop in H as [H1 H2]. split; [lia|]. apply Z.le_lt_trans with 10000; [lia|]. apply Z.ltb_lt. vm_compute. reflexivity. Qed.
Lemma small_u256 x : (0 <=? x) && (x <=? 10000) = true -> u256_ok x.
Proof. intros H. apply andb_prop in H as [H1 H2]. split; [lia|]. apply Z.le_lt_trans with 10000; [lia|]. apply Z.ltb_lt. vm_compute. reflexivity. Qed.
Lemma small_is_addr x : (0 <=? x) && (x <=? 10000) = true -> is_addr x x.
Proof. intros H. split; [apply small_u256; auto|]. symmetry. apply Z.mod_small. apply (small_addr x H). Qed.
Lemma token_native : token erC 2050 1.
Proof. left. split; reflexivity. Qed.
Lemma token_100 : token erC addr100 100.
Proof. right. exists 0. split; [vm_compute; reflexivity|]. split; [lia|]. split; [lia|reflexivity]. Qed.
Lemma er0_wf : erc_wf erC er0.
Proof.
  split; [apply mk_ledger_wf; vm_compute; reflexivity|]. split.
  - intros a o p. unfold allowance. cbn [e_nappr e_aappr er0]. pose proof U128MAX_pos. assert (90 <= U128MAX) by (apply Z.leb_le; vm_compute; reflexivity).
    destruct (_ =? _).
    + destruct (decide ((o, p) = (7, 8))) as [->|Hn]; [rewrite lookup_insert; cbn; lia|rewrite lookup_insert_ne by congruence; rewrite lookup_empty; cbn; lia].
    + destruct (decide ((a, o, p) = (100, 7, 8))) as [->|Hn]; [rewrite lookup_insert; cbn; lia|rewrite lookup_insert_ne by congruence; rewrite lookup_empty; cbn; lia].
  - intros t o. unfold nonce, er0. cbn [e_nnonce e_anonce]. destruct (_ =? _); rewrite lookup_empty; cbn; lia.
Qed.
