(** * CrowdProofs5: lists of contributions, the remaining calls, the invariant of every reachable state. *)
From Verif Require Import Base MapSum Ledger AmmModel StreamModel StreamSpec StreamProofs StreamProofs2 StreamProofs3 CrowdModel CrowdSpec CrowdProofs CrowdProofs2 CrowdProofs3 CrowdProofs4.

Lemma ins_who_perm x l : ins_who x l ≡ₚ x :: l.
Proof. induction l as [|y l IH]; cbn; [reflexivity|]. destruct (x.1 <=? y.1); [reflexivity|]. rewrite IH. apply perm_swap. Qed.
Lemma contributions_perm s t k : contributions s t k ≡ₚ
  omap (fun e => if bool_decide (e.1.1 = (t, k)) then Some (e.1.2, e.2) else None) (map_to_list (c_con s)).
Proof.
  unfold contributions. generalize (omap (fun e : Z * Z * Z * Z => if bool_decide (e.1.1 = (t, k)) then Some (e.1.2, e.2) else None) (map_to_list (c_con s))).
  intros l. induction l as [|x l IH]; cbn; [reflexivity|]. rewrite ins_who_perm, IH. reflexivity.
Qed.
Lemma contributions_elem s t k w x : (w, x) ∈ contributions s t k <-> c_con s !! (t, k, w) = Some x.
Proof.
  rewrite contributions_perm, elem_of_list_omap. split.
  - intros ([[[t' k'] w'] x'] & Hin & He). cbn in He. case_bool_decide as Hd; [|discriminate]. injection Hd as -> ->. injection He as -> ->.
    apply elem_of_map_to_list in Hin. exact Hin.
  - intros H. exists ((t, k, w), x). split; [apply elem_of_map_to_list; auto|]. cbn. rewrite bool_decide_true by auto. reflexivity.
Qed.
Lemma omap_nodup s t k : NoDup (omap (fun e => if bool_decide (e.1.1 = (t, k)) then Some (e.1.2, e.2) else None) (map_to_list (c_con s))).*1.
Proof.
  pose proof (NoDup_fst_map_to_list (c_con s)) as Hn. revert Hn. generalize (map_to_list (c_con s)). intros l.
  induction l as [|[[[t' k'] w'] x'] l IH]; cbn; intros Hn; [constructor|]. apply NoDup_cons in Hn as [H1 H2].
  case_bool_decide as Hd; [|apply IH; auto]. injection Hd as -> ->. cbn. apply NoDup_cons. split; [|apply IH; auto].
  intros Hin. apply elem_of_list_fmap in Hin as ([w0 x0] & -> & Hin). cbn in *. apply H1.
  apply elem_of_list_omap in Hin as ([[[t1 k1] w1] x1] & Hin & He). cbn in He. case_bool_decide as Hd; [|discriminate]. injection Hd as -> ->. injection He as -> ->.
  apply elem_of_list_fmap. exists ((t, k, w0), x0). auto.
Qed.
Lemma contributions_nodup s t k : NoDup (contributions s t k).*1.
Proof. rewrite contributions_perm. apply omap_nodup. Qed.
Lemma contributions_nil s t k : contributions s t k = [] <-> forall w, c_con s !! (t, k, w) = None.
Proof.
  split.
  - intros H w. destruct (c_con s !! (t, k, w)) as [x|] eqn:Ex; auto. apply contributions_elem in Ex. rewrite H in Ex. inversion Ex.
  - intros H. destruct (contributions s t k) as [|[w x] l] eqn:El; auto. assert ((w, x) ∈ contributions s t k) by (rewrite El; left).
    apply contributions_elem in H0. rewrite H in H0. discriminate.
Qed.

Section calls.
  Context (C : cr_cfg) (E : cr_env) (ct : Z -> bool) (HC : cr_cfg_ok C ct).
  Let P := ce_pol E.
  Notation R := (cc_relay C). Notation A := (cc_acct C).
  Notation good := (good C E ct).
  Notation slack := (slack C). Notation relay_total := (relay_total C). Notation moved_ok := (moved_ok C E ct).

  Lemma migrate_moved s o para s' : migrate_pending C E s o para = Ok s' -> good s -> moved_ok s s' ((c_qid s' - c_qid s) * fee_of s XC_CONTRIBUTE).
  Proof.
    intros H Hg. unfold migrate_pending in H. bstep H u0 E0. bstep H kv E1. destruct kv as [key v]. cbn [snd] in H. bstep H u2 E2. bstep H u3 E3.
    apply rbind_ok in H as ([s1 v1] & F1 & H). injection H as <-.
    destruct (current_some _ _ _ _ _ _ E1 (proj1 Hg)) as (Hv & Hl & Hk).
    pose proof (put_id s key v Hv) as Hid. rewrite Hk in Hid.
    destruct (migrate_loop_moved C E ct HC _ _ _ _ _ _ _ F1) as (M & I1 & I2 & I3).
    - rewrite Hid. auto.
    - intros w x Hin. apply contributions_elem in Hin. apply (cs_con _ _ _ (proj1 Hg)) in Hin. split; [lia|tauto].
    - rewrite Hid in M. rewrite I1, I2. exact M.
  Qed.

  Lemma unreq_moved s q : good s -> moved_ok s (set_c_reqs s (delete q (c_reqs s))) 0.
  Proof.
    intros [Hg Hr]. split; [split; auto; apply cst_unreq; auto|]. split; [apply Z.le_refl|]. split; [reflexivity|]. rewrite Z.sub_0_r. reflexivity.
  Qed.
  Lemma notified_moved s q r ok s' : notified C E s q r ok = Ok s' -> good s -> c_reqs s !! q = Some r -> moved_ok s s' 0 /\ c_qid s' = c_qid s.
  Proof.
    intros H Hg Hq. unfold notified in H. apply rbind_ok in H as (s1 & H1 & H). injection H as <-.
    assert (M : moved_ok s s1 0 /\ c_qid s1 = c_qid s).
    { destruct r as [para a b w amt|para a b amt tp].
      - destruct (cs_reqc _ _ _ (proj1 Hg) _ _ _ _ _ _ Hq) as [Ha Hw]. bstep H1 v Hv. destruct ok.
        + bstep H1 L E1. apply rbind_ok in H1 as ([s2 v2] & F1 & H1). injection H1 as <-.
          destruct (burn_gap C E ct HC _ _ _ _ E1 Hg (HA C ct HC)) as (G1 & S1 & S2 & S3). rewrite bool_decide_true in S1 by auto.
          assert (Hv1 : c_vaults (set_c_led s L) !! (para, a, b) = Some v) by exact Hv. rewrite <- (put_id _ _ _ Hv1) in G1, S1, S2, S3.
          destruct (migrate_con_moved C E ct _ _ _ _ _ _ _ _ (para, a, b) F1 G1 ltac:(right; left; reflexivity) ltac:(right; right; reflexivity) Ha Hw) as (G2 & _ & T1 & T2 & T3 & _ & _ & _ & _ & _ & T4 & _).
          cbn in T1, T3. split; [|exact T4]. split; auto. split; [lia|]. split; [intros c Hc; rewrite T2; auto|lia].
        + bstep H1 L E1. apply rbind_ok in H1 as ([s2 v2] & F1 & H1). injection H1 as <-.
          destruct (transfer_gap C E ct _ _ _ _ _ _ E1 Hg (HA C ct HC) Ha) as (G1 & S1 & S2 & S3). rewrite bool_decide_true in S1 by auto.
          assert (Hv1 : c_vaults (set_c_led s L) !! (para, a, b) = Some v) by exact Hv. rewrite <- (put_id _ _ _ Hv1) in G1, S1, S2, S3.
          destruct (upd_moved C E ct _ _ _ _ _ _ _ _ (para, a, b) F1 G1 ltac:(right; left; reflexivity) Ha ltac:(discriminate)) as (G2 & _ & T1 & T2 & T3 & _ & _ & _ & _ & _ & T4 & _).
          cbn in T1, T3. split; [|exact T4]. split; auto. split; [lia|]. split; [intros c Hc; rewrite T2; auto|lia].
      - pose proof (cs_req _ _ _ (proj1 Hg) _ _ _ _ _ _ Hq) as Hp. destruct ok.
        + bstep H1 v Hv. injection H1 as <-. split; [|reflexivity]. eapply vault_moved; eauto.
        + injection H1 as <-. split; [apply moved_refl; auto|reflexivity]. }
    destruct M as [M Mq]. destruct ok; [|auto]. split; [|exact Mq].
    change 0 with (0 + 0). eapply moved_trans; [exact M|]. apply unreq_moved. apply M.
  Qed.
  Lemma notification_moved s resp o q r s' : notification C E s resp o q r = Ok s' -> good s -> moved_ok s s' 0 /\ c_qid s' = c_qid s.
  Proof.
    intros H Hg. unfold notification in H. bstep H u E0. destruct r as [ok|]; [|injection H as <-; split; [apply moved_refl; auto|auto]].
    destruct (c_reqs s !! q) as [r|] eqn:Eq; [|injection H as <-; split; [apply moved_refl; auto|auto]]. eapply notified_moved; eauto.
  Qed.

  Lemma refund_one_moved s w v k amt s1 v1 key : do_refund_for C E s w v k amt = Ok (s1, v1) -> good (put_vault s key v) -> kind_ok k -> 0 <= amt ->
    moved_ok (put_vault s key v) (put_vault s1 key v1) 0 /\ c_qid s1 = c_qid s /\ v_trie v1 = v_trie v.
  Proof.
    intros H Hg Hk Ha. unfold do_refund_for in H. bstep H L E1.
    assert (Hh : good (put_vault (set_c_led s L) key v) /\
      slack (put_vault s key v) - (if k =? KContr then 0 else amt) <= slack (put_vault (set_c_led s L) key v) /\
      (forall c, ct c = true -> tok_gap (put_vault (set_c_led s L) key v) c = tok_gap (put_vault s key v) c) /\
      relay_total (put_vault (set_c_led s L) key v) = relay_total (put_vault s key v) + (if k =? KContr then amt else 0)).
    { rewrite set_led_put. destruct (k =? KContr).
      - destruct (mint_gap C E ct HC (put_vault s key v) _ _ _ E1 Hg) as (G1 & S1 & S2 & S3). split; auto. split; [lia|]. auto.
      - destruct (transfer_gap C E ct (put_vault s key v) _ _ _ _ _ E1 Hg (HA C ct HC) Ha) as (G1 & S1 & S2 & S3). rewrite bool_decide_true in S1 by auto.
        split; auto. split; [lia|]. split; [auto|lia]. }
    destruct Hh as (G1 & S1 & S2 & S3).
    destruct (upd_moved C E ct _ _ _ _ _ _ _ _ key H G1 Hk Ha ltac:(discriminate)) as (G2 & _ & T1 & T2 & T3 & T5 & _ & _ & _ & _ & T4 & _).
    split; [|auto]. split; auto. split; [destruct (k =? KContr); lia|]. split; [intros c Hc; rewrite T2; auto|destruct (k =? KContr); lia].
  Qed.
  Lemma refund_loop_moved key l : forall n s v s1 v1, refund_loop C E l n s v = Ok (s1, v1) -> good (put_vault s key v) ->
    (forall k w x, (k, (w, x)) ∈ l -> kind_ok k /\ 0 <= x) -> moved_ok (put_vault s key v) (put_vault s1 key v1) 0 /\ c_qid s1 = c_qid s.
  Proof.
    induction l as [|[k [w amt]] l IH]; intros n s v s1 v1 H Hg Hl; cbn in H.
    - injection H as <- <-. split; [apply moved_refl; auto|auto].
    - destruct n as [|n]; [injection H as <- <-; split; [apply moved_refl; auto|auto]|]. apply rbind_ok in H as ([s0 v0] & F1 & H).
      destruct (Hl k w amt (elem_of_list_here _ _)) as [Hk Ha].
      destruct (refund_one_moved _ _ _ _ _ _ _ key F1 Hg Hk Ha) as (M & Q & _).
      apply IH in H; [|apply M|intros k0 w0 x0 Hin; apply (Hl k0 w0 x0); right; auto]. destruct H as [M2 Q2]. split; [|congruence].
      change 0 with (0 + 0). eapply moved_trans; eauto.
  Qed.
  Definition refund_todo (s : cr) (v : vault) : list (Z * (Z * Z)) :=
    map (pair KContr) (contributions s (v_trie v) KContr) ++ map (pair KFly) (contributions s (v_trie v) KFly)
      ++ map (pair KPend) (contributions s (v_trie v) KPend).
  Lemma refund_todo_elem s v k w x : (k, (w, x)) ∈ refund_todo s v <-> kind_ok k /\ c_con s !! (v_trie v, k, w) = Some x.
  Proof.
    unfold refund_todo. rewrite !elem_of_app. split.
    - intros [H|[H|H]]; apply elem_of_list_fmap in H as ([w' x'] & [= -> -> ->] & H); apply contributions_elem in H; unfold kind_ok; auto.
    - intros [Hk H]. destruct Hk as [->|[->| ->]]; [right; right|right; left|left]; apply elem_of_list_fmap; exists (w, x); split; auto; apply contributions_elem; auto.
  Qed.
  Lemma refund_moved s o para a b s' : refund C E s o para a b = Ok s' -> good s -> moved_ok s s' 0 /\ c_qid s' = c_qid s.
  Proof.
    intros H Hg. unfold refund in H. bstep H u0 E0. bstep H v Hv. bstep H u1 E1. apply rbind_ok in H as ([s1 v1] & F1 & H). injection H as <-.
    fold (refund_todo s v) in F1. rewrite <- (put_id _ _ _ Hv) in Hg. destruct (refund_loop_moved (para, a, b) _ _ _ _ _ _ F1 Hg) as [M Q].
    - intros k w x Hin. apply refund_todo_elem in Hin as [Hk Hin]. split; auto. apply (cs_con _ _ _ (proj1 Hg)) in Hin. lia.
    - rewrite (put_id _ _ _ Hv) in M. split; auto.
  Qed.
  Lemma refund_for_moved s o w para k amt a b s' : refund_for C E s o w para k amt a b = Ok s' -> good s -> kind_ok k -> 0 <= amt -> moved_ok s s' 0 /\ c_qid s' = c_qid s.
  Proof.
    intros H Hg Hk Ha. unfold refund_for in H. bstep H u0 E0. bstep H v Hv. bstep H u1 E1. bstep H u2 E2. apply rbind_ok in H as ([s1 v1] & F1 & H). injection H as <-.
    rewrite <- (put_id _ _ _ Hv) in Hg. destruct (refund_one_moved _ _ _ _ _ _ _ (para, a, b) F1 Hg Hk Ha) as (M & Q & _).
    rewrite (put_id _ _ _ Hv) in M. auto.
  Qed.

  Lemma dissolve_facts s o para a b s' : dissolve_vault C s o para a b = Ok s' -> cst C ct s ->
    exists v, c_vaults s !! (para, a, b) = Some v /\ (forall k w, kind_ok k -> c_con s !! (v_trie v, k, w) = None) /\ v_contr v = 0 /\ v_fly v = 0 /\ v_pend v = 0 /\
      c_vaults s' = delete (para, a, b) (c_vaults s) /\ (v_phase v = Closed \/ ended (v_phase v)) /\
      (c_leases s' = delete para (c_leases s) /\ c_leases s !! para = Some (a, b) \/ c_leases s' = c_leases s /\ c_leases s !! para <> Some (a, b)) /\
      c_con s' = c_con s /\ c_next s' = c_next s /\ c_ctok s' = c_ctok s /\ c_reqs s' = c_reqs s /\ c_qid s' = c_qid s /\ c_bonus s' = c_bonus s /\ c_str s' = c_str s.
  Proof.
    intros H Hs. unfold dissolve_vault in H. bstep H u0 E0. bstep H v Hv. bstep H u1 E1. bstep H u2 E2. bstep H t E3. bstep H u3 E4. injection H as H.
    exists v. split; auto. destruct (cs_vault _ _ _ Hs _ _ Hv).
    assert (Hnil : forall k, kind_ok k -> contributions s (v_trie v) k = []).
    { unfold has_childstorage in E2. cbn in E2. apply negb_true_iff in E2. rewrite !orb_false_iff in E2. destruct E2 as (X1 & X2 & X3 & _).
      apply negb_false_iff, bool_decide_eq_true in X1, X2, X3. intros k [->|[->| ->]]; auto. }
    split; [intros k w Hk; apply contributions_nil; auto|].
    unfold total_contribution in E3. bstep E3 x E5. apply ok_or_ok in E3. unfold checked_add in E3. apply chk_some in E3.
    assert (Hp : 0 <= v_pend v /\ 0 <= v_fly v) by (rewrite vo_pend, vo_fly; split; apply book_nonneg; eapply cst_pos; eauto).
    split; [lia|]. split; [lia|]. split; [lia|]. apply bool_decide_eq_true in E1.
    destruct (c_leases s !! para) as [id|] eqn:El.
    - destruct (bool_decide (id = (a, b))) eqn:Ed.
      + apply bool_decide_eq_true in Ed as ->. subst s'. unfold ended. repeat split; auto.
      + apply bool_decide_eq_false in Ed. subst s'. unfold ended. repeat split; auto. right. split; auto. congruence.
    - subst s'. unfold ended. repeat split; auto.
  Qed.
  Lemma dissolve_moved s o para a b s' : dissolve_vault C s o para a b = Ok s' -> good s -> moved_ok s s' 0 /\ c_qid s' = c_qid s.
  Proof.
    intros H [Hg Hr]. destruct (dissolve_facts _ _ _ _ _ _ H Hg) as (v & Hv & Hn & Z1 & Z2 & Z3 & B1 & _ & Bl & B2 & B3 & B4 & B6 & B7 & B8 & B9).
    split; [|auto].
    assert (Hbk : forall k, kind_ok k -> book (c_con s) (v_trie v) k = 0) by (intros k Hk; apply book_zero; auto).
    assert (Hst : cst C ct s').
    { split; rewrite ?B1, ?B2, ?B6, ?B7, ?B8.
      - intros k v0 Hv0. apply lookup_delete_Some in Hv0 as [Hne Hv0]. destruct (cs_vault _ _ _ Hg _ _ Hv0) as [G1 G2 G3 G4 G5 G6 G7 G8 G9].
        split; rewrite ?B2, ?B3, ?B4; auto. destruct Bl as [[Bl1 Bl2]|[Bl1 Bl2]]; rewrite Bl1; auto.
        destruct (decide (k.1.1 = para)) as [Hp|Hp]; [|rewrite lookup_delete_ne; auto].
        destruct G9 as [G9|G9]; auto. exfalso. rewrite Hp, Bl2 in G9. injection G9 as -> ->. apply Hne. destruct k as [[x y] z]; cbn in *; subst; auto.
      - intros k1 k2 v1 v2 H1 H2. apply lookup_delete_Some in H1 as [_ H1], H2 as [_ H2]. eapply (cs_uniq _ _ _ Hg); eauto.
      - intros t k w x Hx. destruct (cs_con _ _ _ Hg _ _ _ _ Hx) as (? & ? & Hk & key & v0 & Hv0 & Ht). repeat (split; [assumption|]).
        exists key, v0. split; auto. rewrite lookup_delete_ne; auto. intros <-. rewrite Hv in Hv0. injection Hv0 as <-. subst t. rewrite Hn in Hx by auto. discriminate.
      - intros p x y Hl. destruct Bl as [[Bl1 Bl2]|[Bl1 Bl2]]; rewrite Bl1 in Hl.
        + apply lookup_delete_Some in Hl as [Hne Hl]. apply (cs_lease _ _ _ Hg) in Hl. rewrite lookup_delete_ne; auto. congruence.
        + pose proof (cs_lease _ _ _ Hg _ _ _ Hl) as Hl2. rewrite lookup_delete_ne; auto. intros [= <- <- <-]. congruence.
      - apply (cs_req _ _ _ Hg). - apply (cs_reqc _ _ _ Hg). - apply (cs_qid _ _ _ Hg). - apply (cs_bonus _ _ _ Hg). }
    split; [split; auto; rewrite B9; auto|]. unfold CrowdProofs2.slack, tok_gap, CrowdProofs2.relay_total, held, lent, lent_for, unclaimed, c_led.
    rewrite B1, B2, B9. rewrite (msum_delete (fun _ v => v_pend v + v_fly v) _ _ _ Hv), (msum_delete (fun _ v => v_contr v) _ _ _ Hv).
    split; [lia|]. split; [|lia]. intros c _.
    rewrite (msum_delete (fun _ v => if bool_decide (v_ctoken v = c) then v_contr v else 0) _ _ _ Hv),
      (msum_delete (fun _ v => if bool_decide (v_ctoken v = c) then book (c_con s) (v_trie v) KContr else 0) _ _ _ Hv).
    rewrite Hbk by (right; right; reflexivity). rewrite Z1. case_bool_decide; lia.
  Qed.

  (** the bonus is in range *)
  Lemma normalized_range amt x : 0 <= amt <= U128MAX -> normalized_amount C amt = Some x -> 0 <= x <= U128MAX.
  Proof.
    intros Ha H. unfold normalized_amount in H. destruct (cc_dec_relay C) as [r|]; [|discriminate]. destruct (cc_dec_native C) as [n|]; [|discriminate].
    destruct (r <? n).
    - destruct (pow10 (n - r)); [|discriminate]. unfold checked_mul in H. apply chk_some in H. lia.
    - destruct (r =? n) eqn:En; [injection H as <-; auto|]. destruct (pow10 (r - n)) as [m|] eqn:Ep; [|discriminate]. unfold pow10 in Ep. apply chk_some in Ep. unfold checked_div in H.
      destruct (m =? 0) eqn:Ez; [discriminate|]. injection H as <-. assert (1 <= m) by lia.
      split; [apply Z.div_pos; lia|]. transitivity amt; [|lia]. apply Z.div_le_upper_bound; [lia|]. nia.
  Qed.
  Lemma bonus_range s a b amt : 0 <= bonus_amount C s a b amt <= U128MAX.
  Proof.
    unfold bonus_amount. destruct (normalized_amount C _) as [x|] eqn:Ex; cbn; [|pose proof U128MAX_pos; lia].
    eapply normalized_range; [|exact Ex]. unfold sat128. pose proof U128MAX_pos. lia.
  Qed.

  Lemma cst_kill s key v w : cst C ct s -> c_vaults s !! key = Some v -> cst C ct (con_put s (v_trie v) KContr w 0).
  Proof.
    intros Hs Hk. assert (B1 : c_vaults (con_put s (v_trie v) KContr w 0) = c_vaults s) by reflexivity.
    assert (B2 : c_con (con_put s (v_trie v) KContr w 0) = cput (c_con s) (v_trie v) KContr w 0) by reflexivity.
    assert (B3 : c_next (con_put s (v_trie v) KContr w 0) = c_next s) by reflexivity. assert (B4 : c_ctok (con_put s (v_trie v) KContr w 0) = c_ctok s) by reflexivity.
    assert (B5 : c_leases (con_put s (v_trie v) KContr w 0) = c_leases s) by reflexivity. assert (B6 : c_reqs (con_put s (v_trie v) KContr w 0) = c_reqs s) by reflexivity.
    assert (B7 : c_qid (con_put s (v_trie v) KContr w 0) = c_qid s) by reflexivity. assert (B8 : c_bonus (con_put s (v_trie v) KContr w 0) = c_bonus s) by reflexivity.
    revert B1 B2 B3 B4 B5 B6 B7 B8. generalize (con_put s (v_trie v) KContr w 0). intros s' B1 B2 B3 B4 B5 B6 B7 B8.
    destruct Hs. split; rewrite ?B1, ?B2, ?B5, ?B6, ?B7, ?B8; auto.
    - intros k0 v0 Hv. destruct (cs_vault _ _ Hv) as [G1 G2 G3 G4 G5 G6 G7 G8 G9]. split; rewrite ?B2, ?B3, ?B4, ?B5; auto; rewrite book_cput;
      rewrite bool_decide_false by (intros [_ Hx]; discriminate Hx); lia.
    - intros t k w0 x Hx. apply cput_some in Hx as [(_ & _ & _ & _ & Hz)|[Hx _]]; [lia|]. eauto.
  Qed.

  Lemma claim_moved s w para a b force s' : do_claim_for C E s w para a b force = Ok s' -> good s -> moved_ok s s' 0 /\ c_qid s' = c_qid s.
  Proof.
    intros H [Hg Hr]. unfold do_claim_for in H. bstep H ctoken Hct. bstep H v Hv. bstep H u1 E1. bstep H u2 E2. bstep H L E3.
    destruct (key_eq _ _ _ _ _ _ _ Hv Hg) as [K1 K2]. destruct (cs_vault _ _ _ Hg _ _ Hv) as [G1 G2 G3 G4 G5 G6 G7 G8 G9]. cbn in G1, G2.
    assert (ctoken = v_ctoken v) by (rewrite K1, K2, Hct in G7; congruence). subst ctoken.
    set (amt := con_get s (v_trie v) KContr w) in *. set (s1 := con_put (set_c_led s L) (v_trie v) KContr w 0) in *.
    pose proof (mint_spec _ _ _ _ _ _ E3) as (M1 & M2 & M3).
    assert (Hs1 : moved_ok s s1 0 /\ c_qid s1 = c_qid s /\ c_bonus s1 = c_bonus s).
    { split; [|split; reflexivity]. split; [split|].
      - apply (cst_kill (set_c_led s L) (para, a, b) v w); [|exact Hv]. eapply cst_same; [| | | |exact Hg]; try reflexivity. repeat split.
      - cbn. eapply reach_mint; eauto.
      - destruct HC as (_ & _ & _ & _ & _ & Hrel).
        assert (HR : v_ctoken v <> R) by congruence.
        assert (U : forall c, unclaimed s1 c = unclaimed s c + (if bool_decide (v_ctoken v = c) then - amt else 0)).
        { intros c. unfold s1. rewrite (unclaimed_cput C ct (set_c_led s L) (para, a, b) v KContr w 0 c); [|eapply cst_same; [| | | |exact Hg]; try reflexivity; repeat split|exact Hv].
          change (unclaimed (set_c_led s L) c) with (unclaimed s c). f_equal. unfold amt, con_get, entry. change (c_con (set_c_led s L)) with (c_con s).
          destruct (decide (v_ctoken v = c)); [rewrite !bool_decide_true by auto; lia|rewrite !bool_decide_false by tauto; lia]. }
        unfold CrowdProofs2.slack, tok_gap, CrowdProofs2.relay_total. change (held s1) with (held s). change (lent s1) with (lent s).
        change (c_led s1) with L. rewrite M2, M3. unfold at_. rewrite !bool_decide_false by (intros ?; destruct_and?; congruence).
        split; [lia|]. split; [|lia]. intros c Hc. rewrite U, M3. change (lent_for s1 c) with (lent_for s c).
        destruct (decide (v_ctoken v = c)); [rewrite !bool_decide_true by auto; lia|rewrite !bool_decide_false by congruence; lia]. }
    destruct Hs1 as (Hs1 & Hq1 & Hb1).
    destruct (bonus_amount C s a b amt =? 0); [injection H as <-; auto|]. bstep H st E4. injection H as <-.
    split; [|exact Hq1]. pose proof (trait_create_led _ _ _ _ _ _ _ _ _ _ _ E4) as T. apply transfer_spec in T as (T1 & T2 & _).
    destruct Hs1 as ((Gs & Gr) & S1 & S2 & S3). split; [split|].
    - eapply cst_same; [| | | |exact Gs]; try reflexivity. repeat split.
    - change (c_str (set_c_str s1 st)) with st.
      replace st with (str_exec (cc_str C) P (c_str s1) (STraitCreate A w (bonus_amount C s a b amt) (cc_native C)
        (bo_start (default bonus_default (c_bonus s !! (a, b)))) (bo_end (default bonus_default (c_bonus s !! (a, b)))) false)).
      + apply str_reach_step; auto. cbn. split; [apply (HA C ct HC)|]. split; [apply bonus_range|].
        destruct (c_bonus s !! (a, b)) as [bo|] eqn:Eb; cbn; [|lia]. apply (cs_bonus _ _ _ Hg) in Eb. lia.
      + unfold str_exec. cbn [str_step]. fold P in E4. rewrite E4. reflexivity.
    - unfold CrowdProofs2.slack, tok_gap, CrowdProofs2.relay_total in *. change (held (set_c_str s1 st)) with (held s1). change (lent (set_c_str s1 st)) with (lent s1).
      change (c_led (set_c_str s1 st)) with (s_led st). change (s_led (c_str s1)) with (c_led s1) in T1, T2. rewrite T1, T2. unfold at_.
      destruct HC as (_ & _ & _ & _ & Hn & _). rewrite !bool_decide_false by (intros ?; destruct_and?; congruence). split; [lia|]. split; [|lia].
      intros c Hc. specialize (S2 c Hc). rewrite T2. change (unclaimed (set_c_str s1 st) c) with (unclaimed s1 c). change (lent_for (set_c_str s1 st) c) with (lent_for s1 c). lia.
  Qed.

  Lemma withdraw_moved s w para a b s' : withdraw_for C E s w para a b = Ok s' -> good s -> moved_ok s s' 0 /\ c_qid s' = c_qid s.
  Proof.
    intros H Hg. unfold withdraw_for in H. bstep H v Hv. bstep H u1 E1. bstep H u2 E2. bstep H c E3. bstep H L E4. injection H as <-.
    split; [|reflexivity].
    assert (H0 : do_refund_for C E s w v KContr (con_get s (v_trie v) KContr w) = Ok (con_put (set_c_led s L) (v_trie v) KContr w 0, v_set_contr v c)).
    { unfold do_refund_for. cbn [Z.eqb KContr Pos.eqb]. change (c_led (con_put s (v_trie v) KContr w 0)) with (c_led s) in E4. rewrite E4. cbn [rbind].
      unfold upd_con. change (v_get v KContr) with (v_contr v). destruct E3 as [-> E3].
      unfold checked_sub. rewrite (proj2 (chk_some _ _) (conj eq_refl E3)). cbn [ok_or rbind].
      change (con_get (set_c_led s L) (v_trie v) KContr w) with (con_get s (v_trie v) KContr w). rewrite Z.sub_diag.
      rewrite (proj2 (chk_some 0 0)) by (split; [auto|pose proof U128MAX_pos; lia]). reflexivity. }
    rewrite <- (put_id _ _ _ Hv) in Hg.
    destruct (refund_one_moved _ _ _ _ _ _ _ (para, a, b) H0 Hg ltac:(right; right; reflexivity)) as (M & _ & _).
    { unfold con_get. destruct (c_con s !! (v_trie v, KContr, w)) as [x|] eqn:Ex; cbn; [|lia]. apply (cs_con _ _ _ (proj1 Hg)) in Ex. lia. }
    rewrite (put_id _ _ _ Hv) in M. exact M.
  Qed.

  Lemma redeem_moved s w para a b amt s' : redeem C E s w para a b amt = Ok s' -> good s -> w <> str_acct (cc_str C) -> 0 <= amt -> moved_ok s s' 0 /\ c_qid s' = c_qid s.
  Proof.
    intros H [Hg Hr] Hw Ha. unfold redeem in H. bstep H ctoken Hct. bstep H v Hv. bstep H u1 E1. bstep H u2 E2. bstep H c E3. bstep H L E4. bstep H L2 E5. injection H as <-.
    split; [|reflexivity]. destruct (key_eq _ _ _ _ _ _ _ Hv Hg) as [K1 K2]. destruct (cs_vault _ _ _ Hg _ _ Hv) as [G1 G2 G3 G4 G5 G6 G7 G8 G9]. cbn in G1, G2.
    assert (ctoken = v_ctoken v) by (rewrite K1, K2, Hct in G7; congruence). subst ctoken.
    pose proof (burn_spec _ _ _ _ _ _ E4) as (B1 & _ & B2 & B3). pose proof (mint_spec _ _ _ _ _ _ E5) as (M1 & M2 & M3).
    destruct E3 as [-> E3]. rewrite set_led_put. destruct (sums_vault s (para, a, b) v (v_set_contr v (v_contr v - amt)) Hv eq_refl eq_refl) as (S1 & S2 & S3 & S4).
    assert (Hg2 : cst C ct (put_vault s (para, a, b) (v_set_contr v (v_contr v - amt)))) by (eapply cst_vault; eauto; cbn; lia).
    split; [split|].
    - eapply cst_same; [| | | |exact Hg2]; try reflexivity. repeat split.
    - change (c_str (set_c_led (put_vault s (para, a, b) (v_set_contr v (v_contr v - amt))) L2)) with (s_set_led (s_set_led (c_str s) L) L2).
      assert (Hr1 : str_reachable (cc_str C) P (s_set_led (c_str s) L)) by (eapply reach_burn; eauto). eapply reach_mint; [exact Hr1|]. exact E5.
    - destruct HC as (_ & _ & _ & _ & _ & Hrel). assert (HR : v_ctoken v <> R) by congruence.
      destruct (led_sums (put_vault s (para, a, b) (v_set_contr v (v_contr v - amt))) L2) as (T1 & T2 & T3 & T4 & T5).
      unfold CrowdProofs2.slack, tok_gap, CrowdProofs2.relay_total. rewrite T1, T2, T5, S1, S2, M2, M3, B2, B3. cbn [v_pend v_fly v_contr v_set_contr].
      rewrite (bool_decide_true (R = R)), (bool_decide_false (R = v_ctoken v)) by congruence.
      split; [unfold at_; rewrite (bool_decide_false (R = v_ctoken v /\ _)) by (intros [? _]; congruence); destruct (bool_decide (R = R /\ A = w)); lia|]. split; [|lia].
      intros c Hc. rewrite T3, T4, S3, S4, M3, B3. rewrite (bool_decide_false (c = R)) by congruence. cbn [v_contr v_set_contr].
      destruct (decide (v_ctoken v = c)); [rewrite !bool_decide_true by auto; lia|rewrite !bool_decide_false by congruence; lia].
  Qed.
  Lemma redeem_lend_moved s o n l w para a b amt s' : redeem_and_lend C E s o n l w para a b amt = Ok s' -> good s -> w <> A -> w <> str_acct (cc_str C) -> 0 <= amt ->
    moved_ok s s' 0 /\ c_qid s' = c_qid s.
  Proof.
    intros H Hg Hw Hw2 Ha. unfold redeem_and_lend in H. bstep H u0 E0. bstep H u1 E1. bstep H s1 E2. bstep H u2 E3. bstep H L E4. injection H as <-.
    destruct (redeem_moved _ _ _ _ _ _ _ E2 Hg Hw2 Ha) as [(G1 & A1 & A2 & A3) Q]. split; [|exact Q].
    destruct (transfer_gap C E ct _ _ _ _ _ _ E4 G1 Hw2 Ha) as (G2 & S1 & S2 & S3). rewrite bool_decide_false in S1 by (intros [? _]; congruence).
    split; auto. split; [lia|]. split; [intros c Hc; rewrite S2; auto|lia].
  Qed.
  Lemma str_moved s o st : str_step (cc_str C) P (c_str s) o = Ok st -> good s -> cr_op_ok C ct (CStr o) ->
    good (set_c_str s st) /\ slack s <= slack (set_c_str s st) /\ (forall c, ct c = true -> tok_gap (set_c_str s st) c = tok_gap s c).
  Proof.
    intros H [Hg Hr] [Ho Ho2]. split; [split|].
    - eapply cst_same; [| | | |exact Hg]; try reflexivity. repeat split.
    - change (c_str (set_c_str s st)) with st. replace st with (str_exec (cc_str C) P (c_str s) o); [apply str_reach_step; auto|]. unfold str_exec. rewrite H. reflexivity.
    - destruct (str_step_frame _ _ _ _ _ A (HA C ct HC) H) as [F1 F2]; [destruct o; tauto|].
      unfold CrowdProofs2.slack, tok_gap. change (held (set_c_str s st)) with (held s). change (c_led (set_c_str s st)) with (s_led st).
      split; [specialize (F1 R); unfold c_led; lia|]. intros c Hc. rewrite F2; [reflexivity|]. destruct o; try exact I; destruct_and?; congruence.
  Qed.

  (** ** every call *)
  Definition op_fee (s : cr) (op : cr_op) : Z := match op with CFailed _ _ | CSlotExpired _ _ => fee_of s XC_WITHDRAW | _ => fee_of s XC_CONTRIBUTE end.
  Lemma step_moved s op s' : cr_step C E s op = Ok s' -> good s -> cr_op_ok C ct op ->
    good s' /\ slack s <= slack s' /\ (forall c, ct c = true -> tok_gap s' c = tok_gap s c) /\
    (match op with CStr _ => True | _ => relay_total s' = relay_total s - (c_qid s' - c_qid s) * op_fee s op end).
  Proof.
    assert (Hz : forall s', moved_ok s s' 0 -> c_qid s' = c_qid s -> good s' /\ slack s <= slack s' /\ (forall c, ct c = true -> tok_gap s' c = tok_gap s c) /\
      relay_total s' = relay_total s - (c_qid s' - c_qid s) * op_fee s op).
    { intros s1 (M1 & M2 & M3 & M4) Hq. split; auto. split; auto. split; auto. rewrite Hq, Z.sub_diag. lia. }
    intros H Hg Ho. destruct op; cbn [cr_step] in H; cbn [cr_op_ok] in Ho; cbn [op_fee] in *.
    - apply Hz; [eapply create_moved; eauto|]. unfold create_vault in H. bstep H u0 E0. bstep H u1 E1. bstep H u2 E2. bstep H u3 E3. bstep H u4 E4. bstep H u5 E5. bstep H u6 E6. bstep H u7 E7. injection H as <-. reflexivity.
    - apply Hz; [eapply update_moved; eauto|]. unfold update_vault in H. bstep H u0 E0. bstep H kv E1. cbn [snd] in H. bstep H u2 E2. bstep H u3 E3. injection H as <-. reflexivity.
    - unfold open_vault in H. bstep H u0 E0. apply Hz; [eapply try_phase_moved; eauto|]. unfold try_phase in H. bstep H kv E1. bstep H u2 E2. injection H as <-. reflexivity.
    - destruct Ho as (O1 & O2 & O3). destruct (contribute_moved C E ct HC _ _ _ _ _ H Hg O1 O2 ltac:(lia)) as (M1 & M2 & M3 & M4). auto.
    - unfold set_vrf in H. bstep H u0 E0. injection H as <-. apply Hz; [|reflexivity]. apply moved_same; auto. repeat split.
    - unfold close_vault in H. bstep H u0 E0. apply Hz; [eapply try_phase_moved; eauto|]. unfold try_phase in H. bstep H kv E1. bstep H u2 E2. injection H as <-. reflexivity.
    - unfold reopen_vault in H. bstep H u0 E0. apply Hz; [eapply try_phase_moved; eauto|]. unfold try_phase in H. bstep H kv E1. bstep H u2 E2. injection H as <-. reflexivity.
    - unfold auction_succeeded in H. bstep H u0 E0. apply Hz; [eapply try_phase_moved; eauto|]. unfold try_phase in H. bstep H kv E1. bstep H u2 E2. injection H as <-. reflexivity.
    - unfold auction_failed in H. bstep H u0 E0. destruct (try_withdraw_moved C E ct HC _ _ _ _ _ H Hg ltac:(left; reflexivity)) as (M1 & M2 & M3 & M4). auto.
    - destruct (claim_moved _ _ _ _ _ _ _ H Hg) as [M Q]. apply Hz; auto.
    - destruct (withdraw_moved _ _ _ _ _ _ H Hg) as [M Q]. apply Hz; auto.
    - destruct (redeem_moved _ _ _ _ _ _ _ H Hg (proj1 Ho) ltac:(lia)) as [M Q]. apply Hz; auto.
    - unfold slot_expired in H. bstep H u0 E0. destruct (try_withdraw_moved C E ct HC _ _ _ _ _ H Hg ltac:(right; reflexivity)) as (M1 & M2 & M3 & M4). auto.
    - destruct (migrate_moved _ _ _ _ H Hg) as (M1 & M2 & M3 & M4). auto.
    - destruct (notification_moved _ _ _ _ _ _ H Hg) as [M Q]. apply Hz; auto.
    - destruct (refund_moved _ _ _ _ _ _ H Hg) as [M Q]. apply Hz; auto.
    - destruct (dissolve_moved _ _ _ _ _ _ H Hg) as [M Q]. apply Hz; auto.
    - destruct (refund_for_moved _ _ _ _ _ _ _ _ _ H Hg (proj1 Ho) ltac:(lia)) as [M Q]. apply Hz; auto.
    - unfold update_proxy in H. bstep H u0 E0. injection H as <-. apply Hz; [|reflexivity]. apply moved_same; auto. repeat split.
    - unfold update_bonus in H. bstep H u0 E0. bstep H u1 E1. bstep H u2 E2. injection H as <-. apply Hz; [|reflexivity].
      destruct Hg as [Hg Hr]. split; [split; auto|split; [apply Z.le_refl|split; [reflexivity|rewrite Z.sub_0_r; reflexivity]]].
      destruct Hg. split; cbn; auto; [intros k v Hv; destruct (cs_vault _ _ Hv); split; auto|].
      intros k b0 Hb. apply lookup_insert_Some in Hb as [[_ <-]|[_ Hb]]; [tauto|eauto].
    - unfold force_claim in H. bstep H u0 E0. destruct (claim_moved _ _ _ _ _ _ _ H Hg) as [M Q]. apply Hz; auto.
    - destruct Ho as (O1 & O2 & O3). destruct (redeem_lend_moved _ _ _ _ _ _ _ _ _ _ H Hg O1 O2 ltac:(lia)) as [M Q]. apply Hz; auto.
    - unfold set_xfee in H. bstep H u0 E0. injection H as <-. apply Hz; [|reflexivity]. apply moved_same; auto. repeat split.
    - injection H as <-. apply Hz; [|reflexivity]. apply moved_same; auto. repeat split.
    - bstep H st E0. injection H as <-. destruct (str_moved _ _ _ E0 Hg Ho) as (M1 & M2 & M3). auto.
  Qed.

  Lemma reach_wf st : str_reachable (cc_str C) P st -> ledger_wf (s_led st).
  Proof. intros Hst. eapply i_wf. apply (reachable_str_inv (cc_str C) P ltac:(apply HC) st Hst). Qed.
  Record cr_inv (s : cr) : Prop := {
    ci_good : good s;
    ci_held : held s <= bal (c_led s) R A;
    ci_tok : forall c, ct c = true -> iss (c_led s) c + unclaimed s c = lent_for s c
  }.
  Lemma reachable_inv s : cr_reachable C E ct s -> cr_inv s.
  Proof.
    intros Hr. induction Hr as [st Hst Hi|s o Hr IH Ho].
    - split.
      + split; [|exact Hst]. split; cbn; intros *; rewrite ?lookup_empty; try discriminate.
      + cbn. unfold held. cbn. rewrite msum_empty. apply (reach_wf _ Hst).
      + intros c Hc. unfold unclaimed, lent_for. cbn. rewrite !msum_empty. unfold c_led. cbn. rewrite (Hi c Hc). reflexivity.
    - destruct IH as [I1 I2 I3]. unfold cr_exec. destruct (cr_step C E s o) as [s'|?|] eqn:Es; [|split; auto|split; auto].
      destruct (step_moved _ _ _ Es I1 Ho) as (M1 & M2 & M3 & _). split; auto.
      + unfold CrowdProofs2.slack in M2. lia.
      + intros c Hc. specialize (M3 c Hc). unfold tok_gap in M3. specialize (I3 c Hc). lia.
  Qed.
End calls.
