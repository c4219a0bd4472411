(** * CrowdProofs8: migration of waiting contributions, exits that cannot be blocked, bonuses and the term rate. *)
From Verif Require Import Base MapSum Ledger AmmModel AmmProofs5 StreamModel StreamSpec CrowdModel CrowdSpec CrowdProofs CrowdProofs2 CrowdProofs3 CrowdProofs4 CrowdProofs5 CrowdProofs6 CrowdProofs7.

Section more.
  Context (C : cr_cfg) (E : cr_env) (ct : Z -> bool) (HC : cr_cfg_ok C ct).
  Let P := ce_pol E.
  Notation R := (cc_relay C). Notation A := (cc_acct C).

  (** ** migrate_pending *)
  Lemma migrate_step_eff s v w amt s1 v1 : migrate_con s v w amt KPend KFly = Ok (s1, v1) -> c_con s !! (v_trie v, KPend, w) = Some amt ->
    v_trie v1 = v_trie v /\ v_ls v1 = v_ls v /\ v_le v1 = v_le v /\ v_proxy v1 = v_proxy v /\ v_phase v1 = v_phase v /\
    v_pend v1 = v_pend v - amt /\ v_fly v1 = v_fly v + amt /\ v_contr v1 = v_contr v /\
    c_con s1 !! (v_trie v, KPend, w) = None /\
    default 0 (c_con s1 !! (v_trie v, KFly, w)) = default 0 (c_con s !! (v_trie v, KFly, w)) + amt /\
    (forall t k y, (t, k, y) <> (v_trie v, KPend, w) -> (t, k, y) <> (v_trie v, KFly, w) -> c_con s1 !! (t, k, y) = c_con s !! (t, k, y)) /\
    c_str s1 = c_str s /\ c_reqs s1 = c_reqs s /\ c_qid s1 = c_qid s /\ c_xfee s1 = c_xfee s /\ c_vaults s1 = c_vaults s.
  Proof.
    intros H Hc. unfold migrate_con in H. apply rbind_ok in H as ([s0 v0] & F1 & F2).
    apply upd_con_eff in F1 as (-> & -> & _). apply upd_con_eff in F2 as (-> & -> & _).
    assert (He : entry s v KPend w = amt) by (unfold entry; rewrite Hc; reflexivity). rewrite He.
    replace (amt + - amt) with 0 by lia.
    assert (Hco : forall s t k w x, c_con (con_put s t k w x) = cput (c_con s) t k w x) by reflexivity.
    change (v_put v KPend (v_get v KPend + - amt)) with (v_set_pend v (v_pend v - amt)).
    split; [reflexivity|]. split; [reflexivity|]. split; [reflexivity|]. split; [reflexivity|]. split; [reflexivity|].
    split; [reflexivity|]. split; [reflexivity|]. split; [reflexivity|].
    change (v_trie (v_set_pend v (v_pend v - amt))) with (v_trie v).
    set (n := entry (con_put s (v_trie v) KPend w 0) (v_set_pend v (v_pend v - amt)) KFly w + amt).
    assert (Hn : n = default 0 (c_con s !! (v_trie v, KFly, w)) + amt).
    { unfold n, entry. change (v_trie (v_set_pend v (v_pend v - amt))) with (v_trie v). rewrite Hco. unfold cput. rewrite Z.eqb_refl.
      rewrite lookup_delete_ne by (intros [= ]). reflexivity. }
    clearbody n.
    assert (Hgen : forall t k y, (t, k, y) <> (v_trie v, KFly, w) -> c_con (con_put (con_put s (v_trie v) KPend w 0) (v_trie v) KFly w n) !! (t, k, y) = delete (v_trie v, KPend, w) (c_con s) !! (t, k, y)).
    { intros t k y Hne. rewrite Hco. change (c_con (con_put s (v_trie v) KPend w 0)) with (delete (v_trie v, KPend, w) (c_con s)). unfold cput.
      destruct (n =? 0); [rewrite lookup_delete_ne|rewrite lookup_insert_ne]; auto. }
    split; [|split; [|split]].
    - rewrite Hgen by (intros [= ]). apply lookup_delete.
    - rewrite !Hco, cput_get, bool_decide_true by auto. exact Hn.
    - intros t k y H1 H2. rewrite Hgen by auto. rewrite lookup_delete_ne by auto. reflexivity.
    - repeat split.
  Qed.


  Lemma migrate_loop_exact t l : forall n s v para s1 v1, migrate_loop C E l n s v para = Ok (s1, v1) -> v_trie v = t ->
    NoDup (l.*1) -> (forall w x, (w, x) ∈ l -> c_con s !! (t, KPend, w) = Some x) ->
    let m := take n l in
    moved_to_fly s s1 t m /\ v_trie v1 = t /\ v_ls v1 = v_ls v /\ v_le v1 = v_le v /\ v_phase v1 = v_phase v /\
    c_vaults s1 = c_vaults s /\
    c_qid s1 = c_qid s + Z.of_nat (length m) /\
    (forall q, q < c_qid s -> c_reqs s1 !! q = c_reqs s !! q) /\
    (forall i w x, m !! i = Some (w, x) -> c_reqs s1 !! (c_qid s + Z.of_nat i) = Some (QContribute para (v_ls v) (v_le v) w x)) /\
    (forall x y, bal (c_led s1) x y = bal (c_led s) x y - at_ R (cc_xcm C) x y (Z.of_nat (length m) * fee_of s XC_CONTRIBUTE)).
  Proof.
    assert (Hnil : forall s v para, let m : list (Z * Z) := [] in
      moved_to_fly s s (v_trie v) m /\ v_trie v = v_trie v /\ v_ls v = v_ls v /\ v_le v = v_le v /\ v_phase v = v_phase v /\ c_vaults s = c_vaults s /\
      c_qid s = c_qid s + Z.of_nat (length m) /\ (forall q, q < c_qid s -> c_reqs s !! q = c_reqs s !! q) /\
      (forall i w x, m !! i = Some (w, x) -> c_reqs s !! (c_qid s + Z.of_nat i) = Some (QContribute para (v_ls v) (v_le v) w x)) /\
      (forall x y, bal (c_led s) x y = bal (c_led s) x y - at_ R (cc_xcm C) x y (Z.of_nat (length m) * fee_of s XC_CONTRIBUTE))).
    { intros s v para m. subst m. split; [split; [intros w x Hin; inversion Hin|auto]|]. do 5 (split; [auto|]); cbn [length].
      split; [lia|]. split; [auto|]. split.
      - intros i w x Hi. rewrite lookup_nil in Hi. discriminate Hi.
      - intros x y. unfold at_. case_bool_decide; lia. }
    induction l as [|[w amt] l IH]; intros n s v para s1 v1 H Ht Hnd Hl.
    { cbn in H. injection H as <- <-. rewrite take_nil. subst t. apply Hnil. }
    destruct n as [|n]; cbn [migrate_loop] in H; [injection H as <- <-; subst t; apply Hnil|].
    apply rbind_ok in H as ([s0 v0] & F1 & H). bstep H s2 F2.
    assert (Hc : c_con s !! (v_trie v, KPend, w) = Some amt) by (rewrite Ht; apply Hl; left).
    destruct (migrate_step_eff _ _ _ _ _ _ F1 Hc) as (V1 & V2 & V3 & V4 & V5 & V6 & V7 & V8 & K1 & K2 & K3 & B1 & B2 & B3 & B4 & B5). rewrite Ht in *.
    unfold do_contribute in F2. bstep F2 u F3. apply csend_eff in F2 as (L & Hb & _ & Hs2). cbn [fst snd] in Hs2. rewrite V2, V3 in Hs2.
    assert (D1 : c_con s2 = c_con s0) by (subst s2; reflexivity).
    assert (D2 : c_qid s2 = c_qid s0 + 1) by (subst s2; reflexivity).
    assert (D3 : c_reqs s2 = <[c_qid s0 := QContribute para (v_ls v) (v_le v) w amt]> (c_reqs s0)) by (subst s2; reflexivity).
    assert (D4 : c_xfee s2 = c_xfee s0) by (subst s2; reflexivity).
    assert (D5 : c_led s2 = L) by (subst s2; reflexivity).
    assert (D6 : c_vaults s2 = c_vaults s0) by (subst s2; reflexivity). clear Hs2.
    cbn in Hnd. apply NoDup_cons in Hnd as [Hn1 Hn2].
    pose proof (burn_spec _ _ _ _ _ _ Hb) as (_ & _ & Bb & _).
    assert (Hf : fee_of s0 XC_CONTRIBUTE = fee_of s XC_CONTRIBUTE) by (unfold fee_of; rewrite B4; reflexivity).
    assert (Hf2 : fee_of s2 XC_CONTRIBUTE = fee_of s XC_CONTRIBUTE) by (unfold fee_of; rewrite D4, B4; reflexivity).
    destruct (IH n s2 v0 para s1 v1 H V1 Hn2) as (I0 & I1 & I2 & I3 & I4 & I5 & I6 & I7 & I8 & I9).
    { intros w' x' Hin. rewrite D1, K3; [apply Hl; right; auto| |intros [= ]]. intros [= ->]. apply Hn1. apply elem_of_list_fmap. exists (w, x'). auto. }
    assert (Hm : take (S n) ((w, amt) :: l) = (w, amt) :: take n l) by reflexivity. rewrite Hm. cbn zeta in *.
    assert (Hw : w ∉ (take n l).*1) by (intros Hin; apply Hn1; apply elem_of_list_fmap in Hin as ([w' x'] & -> & Hin); apply elem_of_list_fmap; exists (w', x'); split; auto; eapply elem_of_take in Hin as (i & Hi & _); eapply elem_of_list_lookup_2; eauto).
    generalize (take n l) Hw I0 I6 I8 I9. clear Hw I0 I6 I8 I9 Hm IH. intros m Hw [I0 I0'] I6 I8 I9.
    split; [split|].
    - intros w' x' Hin. apply elem_of_cons in Hin as [[= -> ->]|Hin].
      + split; [auto|]. rewrite (I0' t KPend w), (I0' t KFly w) by auto. rewrite D1. auto.
      + destruct (I0 w' x' Hin) as (J1 & J2 & J3).
        assert (Hne : w' <> w) by (intros ->; apply Hw; apply elem_of_list_fmap; exists (w, x'); auto).
        rewrite D1 in J1, J3. rewrite K3 in J1 by congruence. rewrite K3 in J3 by congruence. auto.
    - intros t' k w' Hd. rewrite I0'.
      + rewrite D1. apply K3; intros [= -> -> ->]; destruct Hd as [Hd|[[Hd1 Hd2]|Hd]]; try congruence; apply Hd; cbn; left.
      + destruct Hd as [Hd|[Hd|Hd]]; auto. right; right. intros Hin. apply Hd. cbn. right. exact Hin.
    - split; [auto|]. split; [congruence|]. split; [congruence|]. split; [congruence|]. split; [congruence|].
      split; [cbn [length]; lia|]. split.
      + intros q Hq. rewrite I7 by lia. rewrite D3, lookup_insert_ne, B2 by lia. reflexivity.
      + split.
        * intros i w' x' Hi. destruct i as [|i]; cbn in Hi.
          -- injection Hi as <- <-. rewrite Z.add_0_r. rewrite I7 by lia. rewrite D3, B3, lookup_insert. reflexivity.
          -- specialize (I8 i w' x' Hi). rewrite V2, V3 in I8. rewrite <- I8. f_equal. lia.
        * intros x y. rewrite I9, D5, Bb, Hf, Hf2. unfold c_led. rewrite B1. cbn [length]. rewrite Nat2Z.inj_succ, Z.mul_succ_l. unfold at_. destruct (bool_decide (x = R /\ y = cc_xcm C)); lia.
  Qed.

  Lemma migrate_exact s o para s' : cst C ct s -> migrate_pending C E s o para = Ok s' ->
    exists a b v v' m, c_leases s !! para = Some (a, b) /\ c_vaults s !! (para, a, b) = Some v /\ (v_phase v = Pending \/ v_phase v = Contributing) /\ c_vrf s = false /\
      c_vaults s' = <[(para, a, b) := v']> (c_vaults s) /\ v_trie v' = v_trie v /\ v_phase v' = v_phase v /\
      NoDup (m.*1) /\ moved_to_fly s s' (v_trie v) m /\ Z.of_nat (length m) <= Z.max 0 (cc_migrate C) /\
      (Z.of_nat (length m) < cc_migrate C -> forall w x, c_con s !! (v_trie v, KPend, w) = Some x -> (w, x) ∈ m) /\
      c_qid s' = c_qid s + Z.of_nat (length m) /\ (forall q, q < c_qid s -> c_reqs s' !! q = c_reqs s !! q) /\
      (forall i w x, m !! i = Some (w, x) -> c_reqs s' !! (c_qid s + Z.of_nat i) = Some (QContribute para a b w x)) /\
      (forall x y, bal (c_led s') x y = bal (c_led s) x y - at_ R (cc_xcm C) x y (Z.of_nat (length m) * fee_of s XC_CONTRIBUTE)).
  Proof.
    intros Hg H. unfold migrate_pending in H. bstep H u0 E0. bstep H kv E1. destruct kv as [key v]. cbn [snd] in H. bstep H u2 E2. bstep H u3 E3.
    apply rbind_ok in H as ([s1 v1] & F1 & H). injection H as <-. destruct (current_some _ _ _ _ _ _ E1 Hg) as (Hv & Hl & ->).
    apply bool_decide_eq_true in E2. apply negb_true_iff in E3.
    destruct (migrate_loop_exact (v_trie v) _ _ _ _ _ _ _ F1 eq_refl) as (I0 & I1 & I2 & I3 & I4 & I5 & I6 & I7 & I8 & I9).
    { apply contributions_nodup. }
    { intros w x Hin. apply contributions_elem in Hin. exact Hin. }
    assert (Hel : forall w x, c_con s !! (v_trie v, KPend, w) = Some x -> (w, x) ∈ contributions s (v_trie v) KPend) by (intros; apply contributions_elem; auto).
    assert (Hnd := contributions_nodup s (v_trie v) KPend).
    revert I0 I6 I8 I9 Hel Hnd. generalize (contributions s (v_trie v) KPend). intros l I0 I6 I8 I9 Hel Hnd.
    exists (v_ls v), (v_le v), v, v1, (take (Z.to_nat (cc_migrate C)) l). split; [auto|]. split; [auto|]. split; [auto|]. split; [auto|].
    split; [cbn; rewrite I5, I2, I3; reflexivity|]. split; [auto|]. split; [auto|].
    split. { rewrite fmap_take. rewrite <- (take_drop (Z.to_nat (cc_migrate C)) (l.*1)) in Hnd. apply NoDup_app in Hnd. tauto. }
    split; [exact I0|]. split. { rewrite take_length. lia. }
    split. { intros Hlt w x Hc. rewrite take_length in Hlt. rewrite take_ge by lia. auto. }
    split; [exact I6|]. split; [exact I7|]. split; [exact I8|exact I9].
  Qed.
End more.
