(** * BridgeProofs5: exact effects, liveness of votes, and a concrete bridge with its histories. *)
From Verif Require Import Base MapSum Ledger AmmModel AmmEx StreamProofs4 BridgeModel BridgeSpec BridgeProofs BridgeProofs2 BridgeProofs3 BridgeProofs4.

Section live.
  Context (C : br_cfg) (P : policy).

  Definition may_mint (Q : policy) : Prop := forall L a w v, allow_mint Q L a w v = true.

  (** the state in which the next vote on a live proposal is counted *)
  Definition open_for (s : br) (c n tok to amt : Z) (who : Z) (p : proposal) : Prop :=
    (b_votes s !! (c, n, (tok, to, amt)) = Some p \/
     (b_votes s !! (c, n, (tok, to, amt)) = None /\ p = mkProp [] [] Initiated (b_now s + br_life C) /\ b_now s + br_life C <= U32MAX)) /\
    p_status p = Initiated /\ b_now s < p_expiry p /\ who ∉ p_for p /\ who ∉ p_against p.

  Lemma vote_live s o who c n tok to amt f a t p :
    br_cfg_ok C -> br_inv C s -> 0 <= b_now s -> may_vote C s o who -> is_Some (b_nonces s !! c) -> has_bridged s c n = false -> 0 < n < U64MAX ->
    b_ids s !! tok = Some a -> b_tokens s !! a = Some t -> bt_enable t = true -> 0 < amt -> bt_in_amount t + amt <= bt_in_cap t ->
    open_for s c n tok to amt who p ->
    0 <= b_thr s -> Z.of_nat (length (p_against p)) + 1 + b_thr s <= U32MAX ->
    (b_thr s <= Z.of_nat (length (p_for p)) + 1 ->
       permits P /\ may_mint P /\ (if bt_external t then iss (b_led s) a + amt <= U128MAX else amt <= bal (b_led s) a (br_acct C)) /\
       (br_convert C amt a = 0 \/ br_ed C + br_convert C amt a <= Z.min U128MAX (bal (b_led s) (br_native C) (br_gift C)))) ->
    exists s', materialize C P s o c n tok to amt f = Ok s'.
  Proof.
    intros CF I Hnow Hv Hc Hb Hn Ha Ht En Pos Cap (Hp & Pi & Pl & Pn1 & Pn2) Thr Lim Fin.
    destruct (bi_chain C s I c (default 0 (b_nonces s !! c))) as (r & Er & A & _).
    { destruct Hc as [k ->]. reflexivity. }
    pose proof (proj2 (bi_tok C s I) _ _ Ht) as (_ & F1 & F2 & F3 & F4 & F5). unfold u128 in *.
    unfold materialize.
    assert (ensure_relay_member C s o = Ok who) as ->.
    { destruct Hv as [[-> Hm]|[-> ->]]; auto. unfold ensure_relay_member. rewrite bool_decide_true by auto. reflexivity. }
    assert (ENS : forall s', b_nonces s' = b_nonces s -> ensure_chain_registered s' c = Ok tt).
    { intros s' X. unfold ensure_chain_registered, chain_registered. rewrite X, bool_decide_true by auto. reflexivity. }
    assert (ENT : forall s', b_ids s' = b_ids s -> ensure_bridge_token_registered s' tok = Ok tt).
    { intros s' X. unfold ensure_bridge_token_registered. rewrite X, bool_decide_true by (rewrite Ha; eauto). reflexivity. }
    cbn [rbind]. rewrite ENS by auto. unfold ensure_chain_nonce_valid. rewrite Hb. cbn [negb ensure rbind].
    unfold materialize_allowed. rewrite ENT by auto. cbn [rbind].
    assert (AID : forall s', b_ids s' = b_ids s -> asset_id s' tok = a).
    { intros s' X. unfold asset_id. rewrite X, Ha. reflexivity. }
    assert (BTK : forall s', b_tokens s' = b_tokens s -> bridge_token s' a = t).
    { intros s' X. unfold bridge_token. rewrite X, Ht. reflexivity. }
    rewrite AID, BTK by auto. rewrite En. cbn [ensure rbind].
    assert (CHK : ensure_under_bridge_cap t amt BridgeIn = Ok (bt_in_amount t + amt)).
    { unfold ensure_under_bridge_cap, checked_add. rewrite (proj2 (chk_some (bt_in_amount t + amt) (bt_in_amount t + amt))) by (split; [reflexivity|lia]).
      cbn. replace (_ <=? _) with true by lia. reflexivity. }
    rewrite CHK. cbn [rbind]. unfold ensure_amount_valid. replace (0 <? amt) with true by lia. cbn [ensure rbind].
    assert ((match b_votes s !! (c, n, (tok, to, amt)) with Some p0 => Ok p0 | None => new_proposal C s end) = Ok p) as ->.
    { destruct Hp as [->|(-> & -> & Hp)]; auto. unfold new_proposal, raw_u32. destruct CF as (_ & _ & CF & _).
      replace (_ && _) with true by lia. reflexivity. }
    cbn [rbind]. unfold is_complete. rewrite Pi, bool_decide_true by auto. cbn [negb ensure rbind].
    unfold is_expired. replace (p_expiry p <=? b_now s) with false by lia. cbn [negb ensure rbind].
    unfold has_voted. rewrite !bool_decide_false by auto. cbn [orb negb ensure rbind].
    set (p' := add_vote p who f).
    assert (Ps : p_status p' = Initiated) by (unfold p'; destruct f; auto).
    assert (Pe : p_expiry p' = p_expiry p) by (unfold p'; destruct f; auto).
    assert (Pf : Z.of_nat (length (p_for p')) <= Z.of_nat (length (p_for p)) + 1).
    { unfold p'. destruct f; cbn; rewrite ?app_length; cbn; lia. }
    assert (Pa : Z.of_nat (length (p_against p')) <= Z.of_nat (length (p_against p)) + 1).
    { unfold p'. destruct f; cbn; rewrite ?app_length; cbn; lia. }
    clearbody p'. unfold resolve_proposal. cbn [b_votes emit set_votes]. rewrite lookup_insert.
    unfold is_complete. rewrite Ps, bool_decide_true by auto. cbn [negb ensure rbind].
    unfold is_expired. rewrite Pe. cbn [b_now emit set_votes]. replace (p_expiry p <=? b_now s) with false by lia. cbn [negb ensure rbind].
    destruct (update_registry_total r n ltac:(right; exact Hn)) as [r' Hr'].
    assert (UPD : forall s', b_reg s' = b_reg s -> exists s2, update_bridge_registry s' c n = Ok s2).
    { intros s' X. unfold update_bridge_registry. rewrite X, Er, Hr'. eexists; reflexivity. }
    unfold try_to_complete. cbn [b_thr emit set_votes].
    destruct (b_thr s <=? Z.of_nat (length (p_for p'))) eqn:T1.
    - cbn [rbind]. unfold execute_materialize. rewrite ENS, ENT by auto. cbn [rbind]. rewrite AID by auto.
      unfold update_bridge_token_cap. rewrite BTK by auto. rewrite CHK. cbn [rbind]. unfold bridge_token. cbn [b_tokens set_tok].
      rewrite lookup_insert. cbn [default]. unfold id. cbn [bt_external with_in].
      destruct Fin as (X1 & X2 & X3 & X4); [lia|]. cbn [b_led set_tok set_votes emit].
      pose proof (bi_led C s I) as W.
      assert (PAY : exists L1, (if bt_external t then mint_into P (b_led s) a to amt else transfer P (b_led s) a (br_acct C) to amt true) = Ok L1
         /\ bal (b_led s) (br_native C) (br_gift C) <= bal L1 (br_native C) (br_gift C) /\ ledger_wf L1).
      { destruct (bt_external t).
        - unfold mint_into. replace (amt =? 0) with false by lia. rewrite X2. cbn [negb]. replace (amt <? 0) with false by lia.
          unfold checked_add. rewrite (proj2 (chk_some (iss (b_led s) a + amt) (iss (b_led s) a + amt))).
          2:{ split; [reflexivity|]. pose proof (bal_le_iss (b_led s) a 0 W). pose proof (proj1 W a 0). lia. }
          cbn [ok_or rbind]. eexists. split; [reflexivity|].
          assert (M : mint_into P (b_led s) a to amt = Ok (set_iss (set_bal (b_led s) a to (bal (b_led s) a to + amt)) a (iss (b_led s) a + amt))).
          { unfold mint_into. replace (amt =? 0) with false by lia. rewrite X2. cbn [negb]. replace (amt <? 0) with false by lia.
            unfold checked_add. rewrite (proj2 (chk_some (iss (b_led s) a + amt) (iss (b_led s) a + amt))); [reflexivity|].
            split; [reflexivity|]. pose proof (bal_le_iss (b_led s) a 0 W). pose proof (proj1 W a 0). lia. }
          split; [|eapply mint_wf; eauto]. apply mint_spec in M as (_ & M & _). rewrite M. unfold at_. case_bool_decide; lia.
        - destruct (transfer_ok P (b_led s) a (br_acct C) to amt true X1 ltac:(lia)) as [L1 E1]. exists L1. split; [auto|].
          split; [|eapply transfer_wf; [|eauto..]; lia]. apply transfer_spec in E1 as (E1 & _). rewrite E1. unfold at_.
          rewrite (bool_decide_false (br_native C = a /\ br_gift C = br_acct C)) by (destruct CF as (CF & _); intros [_ ?]; auto). case_bool_decide; lia. }
      destruct PAY as (L1 & -> & GB & W1). cbn [rbind].
      assert (BON : exists s1, grant_bonus C P (b_set_led (set_tok (emit (set_votes (set_votes s (<[(c, n, (tok, to, amt)):=p']> (b_votes s)))
          (<[(c, n, (tok, to, amt)):=set_status p' Approved]> (<[(c, n, (tok, to, amt)):=p']> (b_votes s))))
          (EVote f c n who (tok, to, amt) (b_now s))) (<[a:=with_in t (bt_in_amount t + amt)]> (b_tokens s)) (b_ids s)) L1) to a amt = Ok s1 /\ b_reg s1 = b_reg s).
      { unfold grant_bonus. cbn [b_led b_set_led]. destruct X4 as [X4|X4].
        { rewrite X4. cbn [Z.eqb negb andb]. eexists. split; [reflexivity|reflexivity]. }
        set (g := br_convert C amt a) in *. set (mine := red P true L1 (br_native C) to).
        assert (M0 : 0 <= mine) by (unfold mine, red; lia). clearbody mine.
        destruct (_ && _) eqn:EB; [|eexists; split; [reflexivity|reflexivity]].
        apply andb_prop in EB as [EB EB2]. apply Z.ltb_lt in EB2. destruct CF as (_ & ED & _ & _).
        unfold raw_add, checked_add. rewrite (proj2 (chk_some (br_ed C + g) (br_ed C + g)) ltac:(split; [reflexivity|lia])). cbn [unwrap rbind].
        unfold raw_sub, checked_sub. rewrite (proj2 (chk_some (br_ed C + g - mine) (br_ed C + g - mine)) ltac:(split; [reflexivity|lia])). cbn [unwrap rbind].
        destruct (transfer_ok P L1 (br_native C) (br_gift C) to (br_ed C + g - mine) false X1 ltac:(lia)) as [L2 E2]. rewrite E2. cbn [rbind].
        eexists. split; [reflexivity|reflexivity]. }
      destruct BON as (s1 & E1 & R1).
      match goal with |- context [grant_bonus C P ?x to a amt] => change (grant_bonus C P x to a amt) with (grant_bonus C P x to a amt); replace (grant_bonus C P x to a amt) with (Ok s1) by (symmetry; exact E1) end.
      cbn [rbind]. destruct (UPD s1 R1) as [s2 E2]. rewrite E2. cbn. eauto.
    - destruct (b_thr s <=? members_count _).
      + unfold raw_u32. replace ((0 <=? _) && _) with true by lia. cbn [rbind]. destruct (_ <? _); cbn [rbind]; [|eauto].
        unfold cancel_materialize. edestruct UPD as [s2 E2]; [|rewrite E2; cbn; eauto]. reflexivity.
      + cbn. eauto.
  Qed.
End live.

(** *** a concrete bridge: account 5, gift account 9, this chain 1, lifetime 100 blocks, 80 per cent; three external chains *)
Definition bxroot (o : origin) : bool := match o with Root => true | _ => false end.
Definition bxC : br_cfg :=
  mkBrCfg 5 bxroot bxroot bxroot 1 9 (fun amt a => if (a =? 60) && (300 <=? amt) then 65 else 0) 0 10 1 100 80.
Definition bxL (gift : Z) : ledger := mk_ledger [(61, 100, 10000); (60, 100, 5000); (0, 9, gift); (0, 101, 3)].
Definition bxm : list Z := [201; 202; 203; 204; 205].
Definition bx0 (gift : Z) : br := br_init (bxL gift) bxm 7.
Definition bxrun (g : Z) (os : list br_op) : br := fold_left (br_exec bxC allow_all) os (bx0 g).
(** token 600 is foreign (asset 60), token 610 is locked here (asset 61) *)
Definition bx_ops0 : list br_op :=
  [BMembers bxm; BRegisterChain Root 2; BRegisterChain Root 3;
   BRegisterToken Root 60 (mkBt 600 true 4 true 1000 0 2000 0); BRegisterToken Root 61 (mkBt 610 false 2 true 9000 0 8000 0)].
Definition bv (w n tok to amt : Z) (f : bool) : br_op := BMaterialize (Signed w) 2 n tok to amt f.
Lemma bxC_ok : br_cfg_ok bxC.
Proof. unfold br_cfg_ok; cbn. repeat split; try lia. intros. destruct (_ && _); lia. Qed.
Definition bx_op_ok_b (o : br_op) : bool :=
  match o with
  | BTeleport w _ _ amt => negb (w =? 5) && z_bounds_b amt
  | BMaterialize _ _ n _ _ amt _ => (0 <=? n) && (n <=? U64MAX) && z_bounds_b amt
  | BRegisterToken _ _ t => z_bounds_b (bt_fee t) && z_bounds_b (bt_out_cap t) && z_bounds_b (bt_out_amount t) && z_bounds_b (bt_in_cap t) && z_bounds_b (bt_in_amount t)
  | BSetFee _ _ fee => z_bounds_b fee
  | BSetCap _ _ _ cap => z_bounds_b cap
  | BMembers m => bool_decide (NoDup m)
  | BTransfer _ from _ amt => negb (from =? 5) && (0 <=? amt)
  | BBurn _ w _ => negb (w =? 5)
  | _ => true
  end.
Lemma z_bounds_u128 x : z_bounds_b x = true -> u128 x.
Proof. unfold z_bounds_b, u128. intros H. apply andb_prop in H. lia. Qed.
Lemma bx_op_ok o : bx_op_ok_b o = true -> br_op_ok bxC o.
Proof.
  destruct o; cbn; auto; rewrite ?andb_true_iff; intros H; destruct_and?; try (apply z_bounds_u128; assumption).
  - unfold btoken_ok. repeat split; apply z_bounds_u128; auto.
  - split; [lia|apply z_bounds_u128; auto].
  - split; [lia|apply z_bounds_u128; auto].
  - apply bool_decide_eq_true in H; auto.
  - split; lia.
  - lia.
Qed.
Lemma bx_reach s os : br_reachable bxC allow_all s -> forallb bx_op_ok_b os = true ->
  br_reachable bxC allow_all (fold_left (br_exec bxC allow_all) os s).
Proof.
  revert s. induction os as [|o os IH]; cbn; intros s R H; auto. apply andb_prop in H as [H1 H2].
  apply IH; auto. apply br_reach_step; auto. apply bx_op_ok; auto.
Qed.
Lemma bxrun_reach g os : forallb bx_op_ok_b os = true -> br_reachable bxC allow_all (bxrun g os).
Proof.
  intros H. apply bx_reach; auto. apply br_reach_init; [apply mk_ledger_wf| |lia].
  apply (bool_decide_unpack _). vm_compute. exact Logic.I.
Qed.
