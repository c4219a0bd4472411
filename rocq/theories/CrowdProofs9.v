(** * CrowdProofs9: exits that cannot be blocked, bonuses and the term rate. *)
From Verif Require Import Base MapSum Ledger AmmModel AmmProofs5 StreamModel StreamSpec CrowdModel CrowdSpec CrowdProofs CrowdProofs2 CrowdProofs3 CrowdProofs4 CrowdProofs5 CrowdProofs6.

Lemma FDIV_pos : 0 < FDIV. Proof. reflexivity. Qed.
Lemma u32max_pos : 0 < U32MAX. Proof. reflexivity. Qed.
Section live.
  Context (C : cr_cfg) (E : cr_env) (ct : Z -> bool) (HC : cr_cfg_ok C ct).
  Let P := ce_pol E.
  Notation R := (cc_relay C). Notation A := (cc_acct C).

  Lemma sole_sums s key v : c_vaults s !! key = Some v -> (forall k' v', c_vaults s !! k' = Some v' -> v_ctoken v' = v_ctoken v -> k' = key) ->
    lent_for s (v_ctoken v) = v_contr v /\ unclaimed s (v_ctoken v) = book (c_con s) (v_trie v) KContr.
  Proof.
    intros Hv Hs. unfold lent_for, unclaimed. rewrite !(msum_delete _ _ _ _ Hv). rewrite !bool_decide_true by auto. rewrite !msum_zero; [lia| |];
    intros k' v' Hk; apply lookup_delete_Some in Hk as [Hne Hk]; rewrite bool_decide_false; auto; intros Hc; apply Hne; symmetry; eauto.
  Qed.
  Lemma sole_backed s key v : cr_inv C E ct s -> c_vaults s !! key = Some v -> (forall k' v', c_vaults s !! k' = Some v' -> v_ctoken v' = v_ctoken v -> k' = key) ->
    iss (c_led s) (v_ctoken v) + book (c_con s) (v_trie v) KContr = v_contr v.
  Proof.
    intros [Hg _ Ht] Hv Hs. destruct (sole_sums _ _ _ Hv Hs) as [S1 S2]. specialize (Ht (v_ctoken v) (vo_ct _ _ _ _ (cs_vault _ _ _ (proj1 Hg) _ _ Hv))). lia.
  Qed.
  Lemma entry_book s v k w : cst C ct s -> entry s v k w <= book (c_con s) (v_trie v) k.
  Proof.
    intros Hg. unfold entry. destruct (c_con s !! (v_trie v, k, w)) as [x|] eqn:Ex; cbn.
    - eapply book_elem; eauto using cst_pos.
    - apply book_nonneg. apply (cst_pos _ _ _ Hg).
  Qed.
  Lemma entry_nonneg s v k w : cst C ct s -> 0 <= entry s v k w.
  Proof. intros Hg. unfold entry. destruct (c_con s !! (v_trie v, k, w)) as [x|] eqn:Ex; cbn; [|lia]. apply (cst_pos _ _ _ Hg) in Ex. lia. Qed.
  Lemma checked_sub_ok a b : 0 <= b -> b <= a -> a <= U128MAX -> checked_sub a b = Some (a - b).
  Proof. intros. unfold checked_sub. apply chk_some. lia. Qed.
  Lemma checked_add_ok a b : 0 <= a -> 0 <= b -> a + b <= U128MAX -> checked_add a b = Some (a + b).
  Proof. intros. unfold checked_add. apply chk_some. lia. Qed.

  Lemma withdraw_live s w para a b v : cr_inv C E ct s -> lenient P -> c_vaults s !! (para, a, b) = Some v -> v_phase v = Failed ->
    0 < entry s v KContr w -> entry s v KContr w <= v_contr v <= U128MAX -> iss (c_led s) R + entry s v KContr w <= U128MAX ->
    exists s', withdraw_for C E s w para a b = Ok s'.
  Proof.
    intros HI LP Hv Hp He Hc Hi. unfold withdraw_for. rewrite Hv. cbn [ok_or rbind]. rewrite Hp. rewrite bool_decide_true by auto. cbn [ensure rbind].
    change (con_get s (v_trie v) KContr w) with (entry s v KContr w). replace (entry s v KContr w =? 0) with false by lia. cbn [negb ensure rbind].
    rewrite checked_sub_ok by lia. cbn [ok_or rbind]. change (c_led (con_put s (v_trie v) KContr w 0)) with (c_led s).
    pose proof (reach_wf C E ct HC _ (proj2 (ci_good _ _ _ _ HI))) as Hwf.
    destruct (mint_prog (ce_pol E) (c_led s) R w (entry s v KContr w) LP) as [L ->]; try lia; [|eauto].
    pose proof (bal_le_iss _ _ w Hwf : bal (c_led s) R w <= _). pose proof (proj1 Hwf R w). unfold c_led in *. lia.
  Qed.
  Lemma redeem_live s w para a b v amt : cr_inv C E ct s -> lenient P -> (forall ka L a w, reducible P ka L a w = bal L a w) ->
    c_vaults s !! (para, a, b) = Some v -> v_phase v = Expired ->
    0 <= amt <= bal (c_led s) (v_ctoken v) w -> amt <= v_contr v <= U128MAX -> iss (c_led s) R + amt <= U128MAX ->
    exists s', redeem C E s w para a b amt = Ok s'.
  Proof.
    intros HI LP HR Hv Hp He Hc Hi. unfold redeem. destruct (key_eq _ _ _ _ _ _ _ Hv (proj1 (ci_good _ _ _ _ HI))) as [Ka Kb].
    pose proof (vo_ctok _ _ _ _ (cs_vault _ _ _ (proj1 (ci_good _ _ _ _ HI)) _ _ Hv)) as Hct. rewrite Ka, Kb in Hct. rewrite Hct. cbn [ok_or rbind].
    rewrite Hv. cbn [ok_or rbind]. rewrite Hp. rewrite bool_decide_true by auto. cbn [ensure rbind].
    unfold cred. rewrite HR. replace (amt <=? Z.max 0 (Z.min (bal (c_led s) (v_ctoken v) w) (bal (c_led s) (v_ctoken v) w))) with true by lia. cbn [ensure rbind].
    rewrite checked_sub_ok by lia. cbn [ok_or rbind].
    pose proof (reach_wf C E ct HC _ (proj2 (ci_good _ _ _ _ HI))) as Hwf.
    destruct (burn_prog (ce_pol E) (c_led s) (v_ctoken v) w amt LP) as [L HL]; try lia. rewrite HL. cbn [rbind].
    assert (HcR : v_ctoken v <> R) by (intros Hx; pose proof (vo_ct _ _ _ _ (cs_vault _ _ _ (proj1 (ci_good _ _ _ _ HI)) _ _ Hv)) as Hct1; destruct HC as (_ & _ & _ & _ & _ & Hct2); rewrite Hx in Hct1; congruence).
    pose proof (burn_spec _ _ _ _ _ _ HL) as (_ & _ & _ & B3).
    assert (Hir : iss L R = iss (c_led s) R) by (rewrite B3; rewrite bool_decide_false by congruence; lia).
    destruct (mint_prog (ce_pol E) L R w amt LP) as [L2 HL2]; try lia; [|rewrite HL2; cbn [rbind]; eauto].
    rewrite Hir. pose proof (bal_le_iss _ _ w Hwf : bal (c_led s) R w <= _). pose proof (proj1 Hwf R w). unfold c_led in *. lia.
  Qed.
  Lemma claim_live s w para a b v : cr_inv C E ct s -> lenient P -> c_vaults s !! (para, a, b) = Some v -> v_phase v = Succeeded ->
    0 < entry s v KContr w -> iss (c_led s) (v_ctoken v) + entry s v KContr w <= U128MAX ->
    bonus_amount C s a b (entry s v KContr w) = 0 -> exists s', claim C E s w para a b = Ok s'.
  Proof.
    intros HI LP Hv Hp He Hi Hb. unfold claim, do_claim_for. destruct (key_eq _ _ _ _ _ _ _ Hv (proj1 (ci_good _ _ _ _ HI))) as [Ka Kb].
    pose proof (vo_ctok _ _ _ _ (cs_vault _ _ _ (proj1 (ci_good _ _ _ _ HI)) _ _ Hv)) as Hct. rewrite Ka, Kb in Hct. rewrite Hct. cbn [ok_or rbind].
    rewrite Hv. cbn [ok_or rbind]. rewrite Hp. rewrite bool_decide_true by auto. cbn [orb ensure rbind].
    change (con_get s (v_trie v) KContr w) with (entry s v KContr w). replace (entry s v KContr w =? 0) with false by lia. cbn [negb ensure rbind].
    pose proof (reach_wf C E ct HC _ (proj2 (ci_good _ _ _ _ HI))) as Hwf.
    destruct (mint_prog (ce_pol E) (c_led s) (v_ctoken v) w (entry s v KContr w) LP) as [L HL]; try lia.
    { pose proof (bal_le_iss _ _ w Hwf : bal (c_led s) (v_ctoken v) w <= _). pose proof (proj1 Hwf (v_ctoken v) w). unfold c_led in *. lia. }
    rewrite HL. cbn [rbind]. rewrite Hb. cbn [Z.eqb]. eauto.
  Qed.

  Lemma contribute_live s w para a b v amt : cr_inv C E ct s -> lenient P -> c_leases s !! para = Some (a, b) -> c_vaults s !! (para, a, b) = Some v ->
    v_phase v = Pending \/ (v_phase v = Contributing /\ fee_of s XC_CONTRIBUTE <= bal (c_led s) R (cc_xcm C) /\ 0 <= fee_of s XC_CONTRIBUTE /\
                            ce_send E (c_qid s) = true /\ (v_proxy v = true -> is_Some (c_proxy s))) ->
    w <> A -> w <> cc_xcm C -> 0 < amt -> cc_min C <= amt <= bal (c_led s) R w -> c_rblock s <= v_end v -> c_vrf s = false -> raised v + amt <= v_cap v <= U128MAX ->
    exists s', contribute C E s w para amt = Ok s'.
  Proof.
    intros HI LP Hl Hv Hp Hw Hwx H0 Hm Hend Hvrf Hcap. pose proof (ci_good _ _ _ _ HI) as [Hg Hr]. pose proof (cs_vault _ _ _ Hg _ _ Hv) as Hok.
    unfold contribute, current_vault. rewrite Hl, Hv. cbn [ok_or rbind snd]. replace (amt =? 0) with false by lia. cbn [negb ensure rbind].
    replace (c_rblock s <=? v_end v) with true by lia. cbn [ensure rbind]. rewrite bool_decide_true by tauto. cbn [ensure rbind].
    replace (cc_min C <=? amt) with true by lia. cbn [ensure rbind]. rewrite Hvrf. cbn [negb ensure rbind].
    pose proof (book_nonneg (c_con s) (v_trie v) KPend (cst_pos _ _ _ Hg)) as N1. pose proof (book_nonneg (c_con s) (v_trie v) KFly (cst_pos _ _ _ Hg)) as N2.
    pose proof (vo_contr _ _ _ _ Hok) as N3. pose proof (vo_pend _ _ _ _ Hok) as X1. pose proof (vo_fly _ _ _ _ Hok) as X2. unfold raised in Hcap.
    unfold total_contribution. rewrite (checked_add_ok (v_contr v) (v_fly v)) by lia. cbn [ok_or rbind]. rewrite checked_add_ok by lia. cbn [ok_or rbind].
    rewrite checked_add_ok by lia. cbn [ok_or rbind]. replace (v_contr v + v_fly v + v_pend v + amt <=? v_cap v) with true by lia. cbn [ensure rbind].
    destruct (transfer_prog (ce_pol E) (c_led s) R w A amt false LP) as [L HL]; try lia. rewrite HL. cbn [rbind].
    pose proof (transfer_spec _ _ _ _ _ _ _ _ HL) as (T1 & _).
    assert (Hupd : forall k, k = KPend \/ k = KFly -> v_get v k + amt <= U128MAX ->
      upd_con (set_c_led s L) v w amt true k = Ok (con_put (set_c_led s L) (v_trie v) k w (entry s v k w + amt), v_put v k (v_get v k + amt))).
    { intros k Hk Hu. unfold upd_con. change (con_get (set_c_led s L) (v_trie v) k w) with (entry s v k w).
      pose proof (entry_book s v k w Hg). pose proof (entry_nonneg s v k w Hg).
      assert (Hvk : v_get v k = book (c_con s) (v_trie v) k) by (destruct Hk as [->| ->]; cbn; auto).
      assert (0 <= v_get v k) by (destruct Hk as [->| ->]; cbn; lia).
      rewrite (checked_add_ok (v_get v k)) by lia. cbn [ok_or rbind]. rewrite checked_add_ok by lia. reflexivity. }
    destruct Hp as [Hp|(Hp & Hfee & Hf0 & Hs & Hpx)]; rewrite Hp.
    - rewrite bool_decide_false by discriminate. rewrite (Hupd KPend) by (cbn; auto; lia). cbn [rbind]. eauto.
    - rewrite bool_decide_true by auto. rewrite (Hupd KFly) by (cbn; auto; lia). cbn [rbind].
      unfold do_contribute. replace (if v_proxy (v_put v KFly (v_get v KFly + amt)) then _ else true) with true.
      2: { cbn. destruct (v_proxy v); auto. rewrite bool_decide_true; auto. }
      cbn [ensure rbind]. unfold csend.
      change (c_led (con_put (set_c_led s L) (v_trie v) KFly w (entry s v KFly w + amt))) with L.
      change (c_xfee (con_put (set_c_led s L) (v_trie v) KFly w (entry s v KFly w + amt))) with (c_xfee s).
      change (c_qid (con_put (set_c_led s L) (v_trie v) KFly w (entry s v KFly w + amt))) with (c_qid s).
      fold (fee_of s XC_CONTRIBUTE).
      destruct (burn_prog (ce_pol E) L R (cc_xcm C) (fee_of s XC_CONTRIBUTE) LP) as [L2 HL2]; [lia| |].
      { rewrite T1. unfold at_. rewrite (bool_decide_false (R = R /\ cc_xcm C = w)) by (intros [_ Hx]; congruence). case_bool_decide; lia. }
      rewrite HL2. cbn [rbind]. rewrite Hs. cbn [ensure rbind]. eauto.
  Qed.

  (** ** the bonus *)
  Lemma pow10_range n : 0 <= n -> 0 < 10 ^ n. Proof. intros. apply Z.pow_pos_nonneg; lia. Qed.
  Lemma bonus_up s ls le amt r n : cc_dec_relay C = Some r -> cc_dec_native C = Some n -> 0 <= r <= n -> 0 <= amt ->
    let per := bo_per (default bonus_default (c_bonus s !! (ls, le))) in
    0 <= per -> amt * per * 10 ^ (n - r) <= U128MAX -> 10 ^ (n - r) <= U128MAX -> bonus_amount C s ls le amt = amt * per * 10 ^ (n - r).
  Proof.
    intros Hr Hn Hrn Ha per Hp Hu Ht. unfold bonus_amount. fold per. pose proof (pow10_range (n - r) ltac:(lia)) as Hpow.
    assert (0 <= amt * per) by nia. assert (amt * per <= U128MAX) by nia.
    assert (Hs : sat128 (amt * per) = amt * per) by (unfold sat128; lia). rewrite Hs. unfold normalized_amount. rewrite Hr, Hn.
    destruct (r <? n) eqn:El.
    - unfold pow10. rewrite (chk_ok (10 ^ (n - r))) by lia. unfold checked_mul. rewrite chk_ok by lia. reflexivity.
    - assert (r = n) by lia. subst r. rewrite Z.eqb_refl. rewrite Z.sub_diag. cbn. lia.
  Qed.
  Lemma bonus_down s ls le amt r n : cc_dec_relay C = Some r -> cc_dec_native C = Some n -> n < r -> 0 <= amt ->
    let per := bo_per (default bonus_default (c_bonus s !! (ls, le))) in
    0 <= per -> amt * per <= U128MAX -> 10 ^ (r - n) <= U128MAX -> bonus_amount C s ls le amt = amt * per / 10 ^ (r - n).
  Proof.
    intros Hr Hn Hrn Ha per Hp Hu Ht. unfold bonus_amount. fold per. pose proof (pow10_range (r - n) ltac:(lia)) as Hpow.
    assert (0 <= amt * per) by nia.
    assert (Hs : sat128 (amt * per) = amt * per) by (unfold sat128; lia). rewrite Hs. unfold normalized_amount. rewrite Hr, Hn.
    replace (r <? n) with false by lia. replace (r =? n) with false by lia. unfold pow10. rewrite (chk_ok (10 ^ (r - n))) by lia. unfold checked_div.
    replace (10 ^ (r - n) =? 0) with false by lia. reflexivity.
  Qed.
  (** a bonus that does not fit is dropped without an error *)
  Lemma bonus_lost s ls le amt r n : cc_dec_relay C = Some r -> cc_dec_native C = Some n -> 0 <= r < n -> 0 <= amt ->
    let per := bo_per (default bonus_default (c_bonus s !! (ls, le))) in
    0 <= per -> amt * per <= U128MAX -> U128MAX < amt * per * 10 ^ (n - r) -> bonus_amount C s ls le amt = 0.
  Proof.
    intros Hr Hn Hrn Ha per Hp Hu Ht. unfold bonus_amount. fold per. pose proof (pow10_range (n - r) ltac:(lia)) as Hpow.
    assert (0 <= amt * per) by nia.
    assert (Hs : sat128 (amt * per) = amt * per) by (unfold sat128; lia). rewrite Hs. unfold normalized_amount. rewrite Hr, Hn.
    replace (r <? n) with true by lia. destruct (pow10 (n - r)) as [m|] eqn:Em; [|reflexivity].
    unfold pow10 in Em. apply chk_some in Em as [-> _]. unfold checked_mul. destruct (chk (amt * per * 10 ^ (n - r))) as [y|] eqn:Ey; [|reflexivity].
    apply chk_some in Ey as [-> Ey]. lia.
  Qed.

  (** ** the term rate *)
  Lemma term_span ls le : 0 <= cc_period C -> 0 <= cc_offset C -> 0 <= ls <= le ->
    let st := sat32 (sat32 (cc_period C * ls) + cc_offset C) in let en := sat32 (sat32 (cc_period C * (le + 1)) + cc_offset C) in
    let len := sat32 (cc_period C * (le - ls + 1)) in 0 <= st /\ st <= en /\ en - st <= len.
  Proof.
    intros Hp Ho Hl st en len. subst st en len. pose proof u32max_pos. unfold sat32.
    assert (0 <= cc_period C * ls) by nia. assert (cc_period C * (le + 1) = cc_period C * ls + cc_period C * (le - ls + 1)) by nia.
    assert (0 <= cc_period C * (le - ls + 1)) by nia. revert H0 H1 H2. generalize (cc_period C * ls), (cc_period C * (le + 1)), (cc_period C * (le - ls + 1)). intros x y z H0 H1 H2. lia.
  Qed.
  Lemma term_rate_ok s ls le r t : 0 <= cc_period C -> 0 <= cc_offset C -> 0 <= cc_per_year C -> 0 <= ls -> term_rate C s ls le = Ok (Some (r, t)) -> 0 <= r <= FDIV /\ 0 <= t.
  Proof.
    intros Hp Ho Hy Hl H. unfold term_rate in H. destruct (c_rblock s =? 0); [discriminate H|].
    destruct (le + 1 <=? U32MAX); [|discriminate H]. destruct (ls <=? le) eqn:E2; [|discriminate H]. cbn [rbind] in H.
    destruct (term_span ls le Hp Ho ltac:(lia)) as (S1 & S2 & S3). cbn zeta in *.
    set (len := sat32 (cc_period C * (le - ls + 1))) in *. set (st := sat32 (sat32 (cc_period C * ls) + cc_offset C)) in *. set (en := sat32 (sat32 (cc_period C * (le + 1)) + cc_offset C)) in *.
    clearbody st en. assert (Hlen : 0 <= len) by lia. clearbody len. pose proof FDIV_pos as HF.
    unfold f_saturating_from_rational in H. destruct (sat32 (cc_per_year C * cc_period C) =? 0) eqn:Ey; [discriminate H|]. cbn [rbind] in H.
    assert (Hs : forall x, 0 <= sat128 x <= U128MAX) by (intros x; unfold sat128; pose proof U128MAX_pos; lia).
    destruct (c_rblock s <? st) eqn:E3; [injection H as <- <-; split; [lia|apply Hs]|].
    destruct (c_rblock s <? en) eqn:E4; [|injection H as <- <-; split; [lia|apply Hs]].
    destruct (len =? 0) eqn:El; [discriminate H|]. cbn [rbind] in H. injection H as <- <-. split; [|apply Hs]. split; [apply Hs|].
    replace (Z.max 0 (c_rblock s - st)) with (c_rblock s - st) by lia.
    assert ((c_rblock s - st) * FDIV / len <= FDIV) by (apply Z.div_le_upper_bound; [lia|]; nia). unfold sat128. pose proof U128MAX_pos. lia.
  Qed.
  Lemma term_rate_mono s s' ls le r t r' t' : 0 <= cc_period C -> 0 <= cc_offset C -> 0 <= cc_per_year C -> 0 <= ls -> c_rblock s <= c_rblock s' ->
    term_rate C s ls le = Ok (Some (r, t)) -> term_rate C s' ls le = Ok (Some (r', t')) -> r <= r' /\ t' = t.
  Proof.
    intros Hp Ho Hy Hl Hb H H'. pose proof (term_rate_ok _ _ _ _ _ Hp Ho Hy Hl H) as [B1 _]. pose proof (term_rate_ok _ _ _ _ _ Hp Ho Hy Hl H') as [B2 _].
    unfold term_rate in H, H'. destruct (c_rblock s =? 0); [discriminate H|]. destruct (c_rblock s' =? 0); [discriminate H'|].
    destruct (le + 1 <=? U32MAX); [|discriminate H]. destruct (ls <=? le) eqn:E2; [|discriminate H]. cbn [rbind] in H, H'.
    destruct (term_span ls le Hp Ho ltac:(lia)) as (S1 & S2 & S3). cbn zeta in *.
    set (len := sat32 (cc_period C * (le - ls + 1))) in *. set (st := sat32 (sat32 (cc_period C * ls) + cc_offset C)) in *. set (en := sat32 (sat32 (cc_period C * (le + 1)) + cc_offset C)) in *.
    clearbody st en. assert (Hlen : 0 <= len) by lia. clearbody len. pose proof FDIV_pos as HF.
    unfold f_saturating_from_rational in H, H'. destruct (sat32 (cc_per_year C * cc_period C) =? 0) eqn:Ey; [discriminate H|]. cbn [rbind] in H, H'.
    destruct (c_rblock s <? st) eqn:E3.
    { injection H as <- <-. destruct (c_rblock s' <? st); [injection H' as <- <-; split; [lia|auto]|]. destruct (c_rblock s' <? en); [|injection H' as <- <-; split; [lia|auto]].
      destruct (len =? 0); [discriminate H'|]. cbn [rbind] in H'. injection H' as <- <-. split; [|auto]. unfold sat128. pose proof U128MAX_pos. lia. }
    replace (c_rblock s' <? st) with false in H' by lia.
    destruct (c_rblock s <? en) eqn:E4.
    - destruct (len =? 0) eqn:El; [discriminate H|]. cbn [rbind] in H, H'. injection H as <- <-.
      destruct (c_rblock s' <? en); [|injection H' as <- <-; split; [lia|auto]]. injection H' as <- <-. split; [|auto].
      assert (Z.max 0 (c_rblock s - st) * FDIV / len <= Z.max 0 (c_rblock s' - st) * FDIV / len) by (apply Z.div_le_mono; [lia|]; nia).
      unfold sat128. lia.
    - replace (c_rblock s' <? en) with false in H' by lia. injection H as <- <-. injection H' as <- <-. split; [lia|auto].
  Qed.
  (** before the lease, inside it (no saturation), after it *)
  Lemma term_rate_exact s ls le : 0 < cc_period C -> 0 <= cc_offset C -> 0 < cc_per_year C -> 0 <= ls <= le -> c_rblock s <> 0 ->
    cc_period C * (le + 1) + cc_offset C <= U32MAX -> cc_per_year C * cc_period C <= U32MAX ->
    exists t, term_rate C s ls le = Ok (Some (
      if c_rblock s <? cc_period C * ls + cc_offset C then 0
      else if c_rblock s <? cc_period C * (le + 1) + cc_offset C then (c_rblock s - (cc_period C * ls + cc_offset C)) * FDIV / (cc_period C * (le - ls + 1))
      else FDIV, t)).
  Proof.
    intros Hp Ho Hy Hl H0 Hm Hym. unfold term_rate. replace (c_rblock s =? 0) with false by lia.
    pose proof u32max_pos.
    assert (Hle : le + 1 <= U32MAX) by nia. replace (le + 1 <=? U32MAX) with true by lia. replace (ls <=? le) with true by lia. cbn [rbind].
    assert (HA1 : cc_period C * (le + 1) = cc_period C * ls + cc_period C * (le - ls + 1)) by nia.
    assert (0 <= cc_period C * ls) by nia. assert (0 < cc_period C * (le - ls + 1)) by nia. assert (0 < cc_per_year C * cc_period C) by nia.
    revert HA1 H1 H2 H3 Hm Hym. generalize (cc_period C * ls), (cc_period C * (le + 1)), (cc_period C * (le - ls + 1)), (cc_per_year C * cc_period C). intros x y z u HA1 H1 H2 H3 Hm Hym.
    assert (Q1 : sat32 x = x) by (unfold sat32; lia). assert (Q2 : sat32 y = y) by (unfold sat32; lia). assert (Q3 : sat32 z = z) by (unfold sat32; lia). assert (Q4 : sat32 u = u) by (unfold sat32; lia).
    rewrite Q1, Q2, Q3, Q4. assert (Q5 : sat32 (x + cc_offset C) = x + cc_offset C) by (unfold sat32; lia). assert (Q6 : sat32 (y + cc_offset C) = y + cc_offset C) by (unfold sat32; lia). rewrite Q5, Q6.
    unfold f_saturating_from_rational. replace (u =? 0) with false by lia. replace (z =? 0) with false by lia. cbn [rbind].
    destruct (c_rblock s <? x + cc_offset C) eqn:E1; [eauto|]. destruct (c_rblock s <? y + cc_offset C) eqn:E2; [|eauto].
    replace (Z.max 0 (c_rblock s - (x + cc_offset C))) with (c_rblock s - (x + cc_offset C)) by lia.
    assert (Hr : 0 <= (c_rblock s - (x + cc_offset C)) * FDIV / z <= FDIV).
    { pose proof FDIV_pos as HF. split; [apply Z.div_pos; nia|]. apply Z.div_le_upper_bound; [lia|]. nia. }
    assert (FDIV <= U128MAX) by (apply Z.leb_le; vm_compute; reflexivity).
    assert (Hs : sat128 ((c_rblock s - (x + cc_offset C)) * FDIV / z) = (c_rblock s - (x + cc_offset C)) * FDIV / z) by (unfold sat128; lia). rewrite Hs. eauto.
  Qed.
End live.
