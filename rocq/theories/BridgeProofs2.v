(** * BridgeProofs2: what each successful extrinsic does. *)
From Verif Require Import Base MapSum Ledger AmmModel BridgeModel BridgeSpec BridgeProofs.

Section inv.
  Context (C : br_cfg) (P : policy).

  Lemma relay_inv s o w : ensure_relay_member C s o = Ok w -> may_vote C s o w.
  Proof.
    unfold ensure_relay_member, may_vote. destruct o as [|x]; intros H; [injection H as <-; auto|].
    bstep H u E. injection H as <-. apply bool_decide_eq_true in E. auto.
  Qed.

  (** tokens: registered ids and assets correspond to each other *)
  Definition tok_inv (s : br) : Prop :=
    (forall tok a, b_ids s !! tok = Some a -> exists t, b_tokens s !! a = Some t /\ bt_id t = tok) /\
    (forall a t, b_tokens s !! a = Some t -> b_ids s !! bt_id t = Some a /\ btoken_ok t).

  Record tele_res (s s' : br) (who dest tok amt : Z) (a : Z) (t : btoken) (k : Z) : Prop := mkTele {
    tl_ids : b_ids s !! tok = Some a;
    tl_tok : b_tokens s !! a = Some t;
    tl_nonce : b_nonces s !! dest = Some k;
    tl_pos : 0 < amt;
    tl_en : bt_enable t = true;
    tl_fee : bt_fee t <= amt;
    tl_cap : bt_out_amount t + amt <= bt_out_cap t;
    tl_kmax : 0 <= k + 1 <= U64MAX;
    tl_led : (if bt_external t then
                exists L1, burn_from P (b_led s) a who amt = Ok L1 /\ mint_into P L1 a (br_acct C) (bt_fee t) = Ok (b_led s')
              else transfer P (b_led s) a who (br_acct C) amt false = Ok (b_led s'));
    tl_s' : s' = mkBr (b_thr s) (<[dest := k + 1]> (b_nonces s)) (b_reg s)
                   (<[a := with_out t (bt_out_amount t + amt)]> (b_tokens s)) (b_ids s) (b_votes s) (b_members s)
                   (b_led s') (b_now s)
                   (ETeleport who dest (k + 1) tok a (bt_external t) (amt - bt_fee t) (bt_fee t) :: b_log s)
  }.
  Lemma teleport_inv s who dest tok amt s' :
    tok_inv s -> teleport C P s who dest tok amt = Ok s' ->
    exists a t k, tele_res s s' who dest tok amt a t k.
  Proof.
    intros I H. unfold teleport in H. bstep H u1 E1. unfold ensure_chain_registered, chain_registered in E1. bstep H u2 E2.
    unfold ensure_bridge_token_registered in E2. ok_simpl E1. ok_simpl E2.
    apply bool_decide_eq_true in E1 as [k Ek]. apply bool_decide_eq_true in E2 as [a Ea].
    bstep H u3 E3. unfold ensure_amount_valid in E3. ok_simpl E3.
    unfold asset_id in H. rewrite Ea in H. cbn [default] in H.
    destruct (proj1 I _ _ Ea) as (t & Et & Eid). unfold id in H.
    unfold bridge_token in H. rewrite Et in H. cbn [default] in H. unfold id in H. bstep H u4 E4.
    bstep H s1 E5. unfold update_bridge_token_cap in E5. unfold bridge_token in E5. rewrite Et in E5. cbn [default] in E5. unfold id in E5.
    bstep E5 n En. injection E5 as <-. cbn in En. bstep En n' Em. bstep En u5 E6. injection En as <-. destruct Em as [-> Em].
    bstep H L EL. bstep H act Eact. apply rbind_ok in H as ([n s2] & En & H). injection H as <-.
    unfold bump_nonce in En. cbn in En. rewrite Ek in En. cbn in En. bstep En nn E7. injection En as <- <-.
    unfold raw_u64 in E7. destruct ((0 <=? k + 1) && (k + 1 <=? U64MAX)) eqn:E8; [|discriminate]. injection E7 as <-.
    destruct Eact as [-> Eact]. exists a, t, k. constructor; auto; try lia.
    destruct (bt_external t); cbn in *; auto. bstep EL L1 E9. eauto.
  Qed.

  Lemma grant_bonus_inv s who a amt s' :
    grant_bonus C P s who a amt = Ok s' ->
    s' = s \/
    exists diff, 0 <= diff <= U128MAX /\ 0 <> br_convert C amt a /\
      br_convert C amt a <= red P false (b_led s) (br_native C) (br_gift C) /\
      red P true (b_led s) (br_native C) who < br_convert C amt a /\
      diff = br_ed C + br_convert C amt a - red P true (b_led s) (br_native C) who /\
      transfer P (b_led s) (br_native C) (br_gift C) who diff false = Ok (b_led s') /\ s' = b_set_led s (b_led s').
  Proof.
    unfold grant_bonus. destruct (negb _ && _ && _) eqn:E; [|intros [= <-]; auto].
    apply andb_prop in E as [E E3]. apply andb_prop in E as [E1 E2]. apply negb_true_iff in E1.
    intros H. bstep H x Ex. bstep H diff Ed. bstep H L EL. injection H as <-.
    destruct Ex as [-> Ex]. destruct Ed as [-> Ed]. right. eexists. cbn. repeat split; try exact EL; try lia.
  Qed.

  (** the three outcomes of a vote *)
  Inductive mat_out (s : br) (ev : br_event) (c n tok to amt a : Z) (t : btoken) (r : list (Z * Z)) (p' : proposal) : br -> Prop :=
  | mo_pending :
      Z.of_nat (length (p_for p')) < b_thr s ->
      mat_out s ev c n tok to amt a t r p' (set_votes (emit s ev) (<[(c, n, (tok, to, amt)) := p']> (b_votes s)))
  | mo_rejected r' :
      Z.of_nat (length (p_for p')) < b_thr s ->
      b_thr s <= members_count s < Z.of_nat (length (p_against p')) + b_thr s ->
      update_registry r n = Ok r' ->
      mat_out s ev c n tok to amt a t r p'
        (emit (set_chain (set_votes (emit s ev) (<[(c, n, (tok, to, amt)) := set_status p' Rejected]> (b_votes s)))
                 (b_nonces s) (<[c := r']> (b_reg s))) (ERejected c n))
  | mo_approved r' L1 L2 :
      b_thr s <= Z.of_nat (length (p_for p')) ->
      bt_in_amount t + amt <= bt_in_cap t ->
      update_registry r n = Ok r' ->
      (if bt_external t then mint_into P (b_led s) a to amt = Ok L1
       else transfer P (b_led s) a (br_acct C) to amt true = Ok L1) ->
      (L2 = L1 \/ exists diff, 0 <= diff <= U128MAX /\ transfer P L1 (br_native C) (br_gift C) to diff false = Ok L2 /\
         0 <> br_convert C amt a /\ br_convert C amt a <= red P false L1 (br_native C) (br_gift C) /\
         red P true L1 (br_native C) to < br_convert C amt a /\
         diff = br_ed C + br_convert C amt a - red P true L1 (br_native C) to) ->
      mat_out s ev c n tok to amt a t r p'
        (mkBr (b_thr s) (b_nonces s) (<[c := r']> (b_reg s)) (<[a := with_in t (bt_in_amount t + amt)]> (b_tokens s)) (b_ids s)
           (<[(c, n, (tok, to, amt)) := set_status p' Approved]> (b_votes s)) (b_members s) L2 (b_now s)
           (EMinted c n tok a (bt_external t) to amt :: ev :: b_log s)).

  Record mat_res (s s' : br) (o : origin) (c n tok to amt : Z) (f : bool) (who a : Z) (t : btoken) (r : list (Z * Z)) (p : proposal)
    : Prop := mkMat {
    mt_auth : may_vote C s o who;
    mt_chain : is_Some (b_nonces s !! c);
    mt_reg : b_reg s !! c = Some r;
    mt_fresh : ~ inl r n;
    mt_ids : b_ids s !! tok = Some a;
    mt_tok : b_tokens s !! a = Some t;
    mt_en : bt_enable t = true;
    mt_pos : 0 < amt;
    mt_cap : bt_in_amount t + amt <= bt_in_cap t;
    mt_prop : b_votes s !! (c, n, (tok, to, amt)) = Some p \/
              (b_votes s !! (c, n, (tok, to, amt)) = None /\ p = mkProp [] [] Initiated (b_now s + br_life C));
    mt_init : p_status p = Initiated;
    mt_live : b_now s < p_expiry p;
    mt_new : who ∉ p_for p /\ who ∉ p_against p;
    mt_out : mat_out s (EVote f c n who (tok, to, amt) (b_now s)) c n tok to amt a t r (add_vote p who f) s'
  }.
  Lemma upd_reg_inv s c n s' r : b_reg s !! c = Some r -> update_bridge_registry s c n = Ok s' ->
    exists r', update_registry r n = Ok r' /\ s' = set_chain s (b_nonces s) (<[c := r']> (b_reg s)).
  Proof. unfold update_bridge_registry. intros -> H. bstep H r' E. injection H as <-. eauto. Qed.

  Lemma materialize_inv s o c n tok to amt f s' :
    tok_inv s -> (forall c, is_Some (b_nonces s !! c) -> is_Some (b_reg s !! c)) ->
    materialize C P s o c n tok to amt f = Ok s' ->
    exists who a t r p, mat_res s s' o c n tok to amt f who a t r p.
  Proof.
    intros I J H. unfold materialize in H. bstep H who Ew. apply relay_inv in Ew.
    bstep H u1 E1. unfold ensure_chain_registered, chain_registered in E1. ok_simpl E1. apply bool_decide_eq_true in E1.
    destruct (J _ E1) as [r Er].
    bstep H u2 E2. unfold ensure_chain_nonce_valid, has_bridged in E2. rewrite Er in E2. ok_simpl E2.
    apply negb_true_iff in E2.
    bstep H u3 E3. unfold materialize_allowed in E3. bstep E3 u4 E4. unfold ensure_bridge_token_registered in E4. ok_simpl E4.
    apply bool_decide_eq_true in E4 as [a Ea]. destruct (proj1 I _ _ Ea) as (t & Et & Eid).
    assert (Hb : forall s', b_tokens s' = b_tokens s -> b_ids s' = b_ids s -> bridge_token s' (asset_id s' tok) = t /\ asset_id s' tok = a).
    { intros x X1 X2. unfold bridge_token, asset_id. rewrite X1, X2, Ea. cbn. unfold id. rewrite Et. auto. }
    destruct (Hb s eq_refl eq_refl) as [Hb1 Hb2].
    rewrite Hb1 in E3. bstep E3 u5 E5. bstep E3 u6 E6. unfold ensure_amount_valid in E3. ok_simpl E3.
    unfold ensure_under_bridge_cap in E6. bstep E6 nn E7. bstep E6 u7 E8. injection E6 as <-. destruct E7 as [-> E7].
    bstep H p Ep. bstep H u8 E9. bstep H u9 E10. bstep H u10 E11.
    exists who, a, t, r, p.
    apply negb_true_iff in E9, E10, E11. unfold has_voted in E11. apply orb_false_iff in E11 as [E11 E12].
    apply bool_decide_eq_false in E11, E12. unfold is_expired in E10. unfold is_complete in E9.
    apply negb_false_iff, bool_decide_eq_true in E9.
    constructor; auto; try lia.
    { intros N. apply in_intervals_inl in N. congruence. }
    { destruct (b_votes s !! _) as [p0|] eqn:V; [injection Ep as <-; auto|right].
      unfold new_proposal in Ep. bstep Ep e Ee. injection Ep as <-. unfold raw_u32 in Ee. destruct (_ && _); [|discriminate].
      injection Ee as <-. auto. }
    assert (Ef : p_status (add_vote p who f) = Initiated) by (destruct f; auto).
    assert (Ex : p_expiry (add_vote p who f) = p_expiry p) by (destruct f; auto).
    revert H Ef Ex. generalize (add_vote p who f). intros p' H Ef Ex.
    unfold resolve_proposal in H. cbn [b_votes emit set_votes] in H. rewrite lookup_insert in H.
    bstep H v1 F1. bstep H v2 F2. unfold try_to_complete in H. cbn [b_thr emit set_votes members_count b_members] in H.
    destruct (b_thr s <=? Z.of_nat (length (p_for p'))) eqn:T1.
    - cbn [rbind] in H. cbn zeta in H. unfold execute_materialize in H. bstep H w1 G1. bstep H w2 G2. bstep H s2 G3.
      match type of G3 with update_bridge_token_cap ?x ?y _ _ = _ => assert (y = a) as Ha by (apply Hb; auto) end.
      rewrite Ha in H, G3. clear Ha.
      unfold update_bridge_token_cap in G3. unfold bridge_token in G3. cbn [b_tokens emit set_votes] in G3.
      rewrite Et in G3. cbn [default] in G3. unfold id in G3. unfold ensure_under_bridge_cap in G3.
      bstep G3 m1 G4. bstep G4 m2 G5. bstep G4 m3 G6. injection G4 as <-. destruct G5 as [-> G5]. injection G3 as <-.
      bstep H L1 GL. unfold bridge_token in GL, H. cbn [b_tokens set_tok emit set_votes] in GL, H. rewrite lookup_insert in GL, H.
      cbn [default] in GL, H. unfold id in GL, H.
      bstep H s3 GB. bstep H s4 GR. injection H as <-.
      assert (exists r', update_registry r n = Ok r' /\ s4 = set_chain s3 (b_nonces s3) (<[c := r']> (b_reg s3)) /\
                b_reg s3 = b_reg s) as (r' & R1 & R2 & R3).
      { assert (b_reg s3 = b_reg s) as R3.
        { apply grant_bonus_inv in GB as [->|(d & _ & _ & _ & _ & _ & _ & ->)]; reflexivity. }
        apply (upd_reg_inv _ _ _ _ r) in GR as (r' & X1 & X2); [|rewrite R3; auto]. eauto. }
      subst s4. pose proof (grant_bonus_inv _ _ _ _ _ GB) as GB'.
      assert (mat_out s (EVote f c n who (tok, to, amt) (b_now s)) c n tok to amt a t r p'
        (mkBr (b_thr s) (b_nonces s) (<[c := r']> (b_reg s)) (<[a := with_in t (bt_in_amount t + amt)]> (b_tokens s)) (b_ids s)
           (<[(c, n, (tok, to, amt)) := set_status p' Approved]> (b_votes s)) (b_members s) (b_led s3) (b_now s)
           (EMinted c n tok a (bt_external t) to amt :: EVote f c n who (tok, to, amt) (b_now s) :: b_log s))) as M.
      { eapply (mo_approved _ _ _ _ _ _ _ _ _ _ _ r' L1 (b_led s3)); auto; try lia.
        { cbn in GL. destruct (bt_external t); exact GL. }
        destruct GB' as [->|(d & D0 & D1 & D2 & D3 & D4 & D5 & D6)]; [left; reflexivity|right].
        exists d. repeat split; auto; lia. }
      destruct GB' as [->|(d & D0 & D1 & D2 & D3 & D4 & D5 & D6)].
      + cbn in M. cbn. rewrite (insert_insert (b_votes s)). exact M.
      + rewrite D6. cbn. cbn in M. rewrite (insert_insert (b_votes s)). exact M.
    - change (members_count (emit _ _)) with (members_count s) in H. destruct (b_thr s <=? members_count s) eqn:T2.
      + apply rbind_ok in H as ([st p2] & GT & H). bstep GT x Gx. unfold raw_u32 in Gx. destruct (_ && _); [|discriminate].
        injection Gx as <-. destruct (members_count s <? _) eqn:T3.
        * injection GT as <- <-. unfold cancel_materialize in H. bstep H s3 GR.
          apply (upd_reg_inv _ _ _ _ r) in GR as (r' & X1 & ->); [|auto]. injection H as <-. cbn.
          rewrite (insert_insert (b_votes s)).
          refine (mo_rejected s (EVote f c n who (tok, to, amt) (b_now s)) c n tok to amt a t r p' r' _ _ X1); lia.
        * injection GT as <- <-. injection H as <-. cbn. rewrite (insert_insert (b_votes s)).
          refine (mo_pending s (EVote f c n who (tok, to, amt) (b_now s)) c n tok to amt a t r p' _); lia.
      + cbn in H. injection H as <-. rewrite (insert_insert (b_votes s)).
        refine (mo_pending s (EVote f c n who (tok, to, amt) (b_now s)) c n tok to amt a t r p' _); lia.
  Qed.
End inv.
