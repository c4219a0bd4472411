(** * LoansProofs15: reward indices; the rewards credited to suppliers never exceed what the markets emit. *)
From Verif Require Import Base MapSum Ledger AmmModel LoansModel LoansSpec LoansSpec2 LoansProofs LoansProofs2 LoansProofs3 LoansProofs4 LoansProofs5 LoansProofs12 LoansProofs13 LoansProofs14.

(** ** The reward bookkeeping is consistent *)
Record rinv (s : loans) : Prop := mkRinv {
  ri_six : forall a w, 0 <= six_of s a w <= r_si (rew_of s a);
  ri_bix : forall a w, 0 <= bix_of s a w <= r_bi (rew_of s a);
  ri_racc : forall w, 0 <= racc_of s w <= U128MAX;
  ri_speed : forall a, is_u128 (r_ss (rew_of s a)) /\ is_u128 (r_bs (rew_of s a));
  ri_block : forall a, 0 <= r_sb (rew_of s a) <= ln_block s /\ 0 <= r_bb (rew_of s a) <= ln_block s
}.
Lemma rew_of_put s a r b : rew_of (put_rew s a r) b = if decide (b = a) then r else rew_of s b.
Proof. unfold rew_of, put_rew. cbn. destruct (decide (b = a)) as [->|]; [rewrite lookup_insert|rewrite lookup_insert_ne by auto]; reflexivity. Qed.
Lemma rinv_same s s' : same_rew s s' -> rinv s -> rinv s'.
Proof.
  intros (E1 & E2 & E3 & E4 & E5) [H1 H2 H3 H4 H5]. constructor; unfold six_of, bix_of, racc_of, rew_of in *; rewrite ?E1, ?E2, ?E3, ?E4, ?E5; assumption.
Qed.
Lemma rinv_put s a r : rinv s -> r_si (rew_of s a) <= r_si r -> r_bi (rew_of s a) <= r_bi r -> is_u128 (r_ss r) -> is_u128 (r_bs r) ->
  0 <= r_sb r <= ln_block s -> 0 <= r_bb r <= ln_block s -> rinv (put_rew s a r).
Proof.
  intros [H1 H2 H3 H4 H5] G1 G2 G3 G4 G5 G6. constructor; intros b; rewrite ?rew_of_put; try (intros w; rewrite ?rew_of_put).
  - change (six_of (put_rew s a r) b w) with (six_of s b w). specialize (H1 b w). destruct (decide (b = a)) as [->|]; lia.
  - change (bix_of (put_rew s a r) b w) with (bix_of s b w). specialize (H2 b w). destruct (decide (b = a)) as [->|]; lia.
  - apply H3.
  - destruct (decide (b = a)); auto.
  - change (ln_block (put_rew s a r)) with (ln_block s). destruct (decide (b = a)); auto.
Qed.
Lemma delta_index_nonneg dblk speed share d : delta_index dblk speed share = Ok d -> 0 <= d.
Proof. unfold delta_index. destruct (_ =? 0); [intros [= <-]; lia|]. intros H. apply ok_or_ok, chk_some in H as [-> H]. lia. Qed.
Lemma rinv_upd_s s a s' : 0 <= ln_block s -> rinv s -> upd_supply_index s a = Ok s' -> rinv s'.
Proof.
  intros Hb R H. pose proof R as [H1 H2 H3 H4 H5]. unfold upd_supply_index in H. cbn zeta in H. destruct (_ =? 0); [injection H as <-; auto|].
  bstep H i E. injection H as <-. assert (r_si (rew_of s a) <= i).
  { destruct (_ =? 0) in E; [injection E as <-; lia|]. bstep E d Ed. apply ok_or_ok in E. ok_arith E. apply delta_index_nonneg in Ed. lia. }
  apply rinv_put; cbn; auto; try lia; try (apply H4); apply (H5 a).
Qed.
Lemma rinv_upd_b s a s' : 0 <= ln_block s -> rinv s -> upd_borrow_index s a = Ok s' -> rinv s'.
Proof.
  intros Hb R H. pose proof R as [H1 H2 H3 H4 H5]. unfold upd_borrow_index in H. cbn zeta in H. destruct (_ =? 0); [injection H as <-; auto|].
  bstep H i E. injection H as <-. assert (r_bi (rew_of s a) <= i).
  { destruct (_ =? 0) in E; [injection E as <-; lia|]. bstep E sh Es. bstep E d Ed. apply ok_or_ok in E. ok_arith E. apply delta_index_nonneg in Ed. lia. }
  apply rinv_put; cbn; auto; try lia; try (apply H4); apply (H5 a).
Qed.
Lemma racc_put s w t x : default 0 ((<[w := t]> (ln_racc s)) !! x) = if decide (x = w) then t else racc_of s x.
Proof. destruct (decide (x = w)) as [->|]; [rewrite lookup_insert|rewrite lookup_insert_ne by auto]; reflexivity. Qed.
Lemma rinv_dist_s s a w s' : rinv s -> dist_supplier s a w = Ok s' -> rinv s'.
Proof.
  intros [H1 H2 H3 H4 H5] H. unfold dist_supplier in H. cbn zeta in H. bstep H d E1. bstep H x E2. bstep H t E3. injection H as <-. destruct E1 as [-> E1], E3 as [-> E3].
  constructor; try assumption.
  - intros b y. change (rew_of (st_racc _ _) b) with (rew_of s b). unfold six_of. cbn. destruct (decide ((b, y) = (a, w))) as [[= -> ->]|Ne].
    + rewrite lookup_insert. cbn. specialize (H1 a w). lia.
    + rewrite lookup_insert_ne by congruence. apply H1.
  - intros y. change (racc_of (st_racc ?t ?m) y) with (default 0 (m !! y)). rewrite racc_put. destruct (decide _); [exact E3|apply H3].
Qed.
Lemma rinv_dist_b s a w s' : rinv s -> dist_borrower s a w = Ok s' -> rinv s'.
Proof.
  intros [H1 H2 H3 H4 H5] H. unfold dist_borrower in H. cbn zeta in H. bstep H d E1. bstep H b E0. bstep H sh E4. bstep H x E2. bstep H t E3. injection H as <-. destruct E1 as [-> E1], E3 as [-> E3].
  constructor; try assumption.
  - intros c y. change (rew_of (st_racc _ _) c) with (rew_of s c). unfold bix_of. cbn. destruct (decide ((c, y) = (a, w))) as [[= -> ->]|Ne].
    + rewrite lookup_insert. cbn. specialize (H2 a w). lia.
    + rewrite lookup_insert_ne by congruence. apply H2.
  - intros y. change (racc_of (st_racc ?t ?m) y) with (default 0 (m !! y)). rewrite racc_put. destruct (decide _); [exact E3|apply H3].
Qed.
Section r.
  Context (C : loans_cfg) (P : policy) (NB : Prop).
  Lemma rmove_block s p s' : rmove C P NB s p s' -> ln_block s' = ln_block s.
  Proof.
    intros H. destruct H as [s' H|a mk s' H|a s' _ _ H|a s' H|a w s' _ H|a w s' H|a w s' H|a w d e s' H|a x|a x|w L]; try apply H; try reflexivity.
    - apply upd_supply_index_core in H as (?&?&?&?&?&->). reflexivity.
    - apply upd_borrow_index_core in H as (?&?&?&?&?&->). reflexivity.
    - apply dist_supplier_core in H as (?&?&?&?&?&->). reflexivity.
    - apply dist_borrower_core in H as (?&?&?&?&?&->). reflexivity.
  Qed.
  Lemma rmove_rinv s p s' : 0 <= ln_block s -> rinv s -> rmove C P NB s p s' -> rinv s'.
  Proof.
    intros Hb R H. destruct H as [s' H|a mk s' H|a s' _ _ H|a s' H|a w s' _ H|a w s' H|a w s' H|a w d e s' H|a x Hx|a x Hx HN|w L].
    - eapply rinv_same; eauto.
    - eapply rinv_same; eauto.
    - eapply rinv_upd_s; eauto.
    - eapply rinv_upd_b; eauto.
    - eapply rinv_dist_s; eauto.
    - eapply rinv_dist_b; eauto.
    - eapply rinv_same; eauto.
    - eapply rinv_same; eauto.
    - pose proof (ri_speed s R a). pose proof (ri_block s R a). apply rinv_put; cbn; auto; try lia; apply (ri_speed s R a).
    - pose proof (ri_speed s R a). pose proof (ri_block s R a). apply rinv_put; cbn; auto; try lia; apply (ri_speed s R a).
    - destruct R as [H1 H2 H3 H4 H5]. constructor; try assumption. intros x. unfold racc_of. cbn.
      destruct (Z.eq_dec x w) as [->|Ne]; [rewrite lookup_delete; cbn; pose proof U128MAX_pos; lia|rewrite lookup_delete_ne by auto; apply H3].
  Qed.
  Lemma rmoves_rinv s p s' : 0 <= ln_block s -> rinv s -> rmoves C P NB s p s' -> rinv s'.
  Proof.
    intros Hb R H. induction H as [s|s p s1 q s2 H1 H2 IH]; auto. apply IH; [rewrite (rmove_block _ _ _ H1); auto|eapply rmove_rinv; eauto].
  Qed.
End r.
Section r2.
  Context (C : loans_cfg) (P : policy).
  Lemma exec_rinv s c s' : cfg_ok C -> call_ok C c -> linv s -> rinv s -> loans_exec C P s c = Ok s' -> rinv s'.
  Proof.
    intros HC Hc Hi R H. pose proof (proj2 (li_clock s (proj1 Hi))) as [Hb _].
    destruct (match c with LTransferPt _ _ _ _ => true | _ => false end) eqn:Et.
    - destruct c; try discriminate Et. cbn in H. unfold transfer_pt in H. bstep H red E0. bstep H u0 E1. bstep H s1 E2. bstep H s2 E3. bstep H s3 E4. bstep H u E5.
      bstep H v E6. bstep H v' E7. injection H as <-. apply (rinv_same s3).
      + unfold put_dep_or_remove. destruct (_ =? 0); repeat split.
      + eapply rinv_dist_s; [|exact E4]. eapply rinv_dist_s; [|exact E3]. eapply rinv_upd_s; eauto.
    - destruct (exec_moves C P False s c s' HC Hc Hi) as (p & M & _); auto; [intros b; apply (ri_speed s R)|destruct c; auto; [intros []|discriminate Et]|].
      eapply (rmoves_rinv C P False); eauto.
  Qed.
  Lemma step_rinv s s' : cfg_ok C -> linv s -> rinv s -> loans_step C P s s' -> rinv s'.
  Proof.
    intros HC Hi R H. destruct H as [c s' Hc H|L HL Hb|p Hp|t b Ht Hb]; [eapply exec_rinv; eauto| | |].
    - apply (rinv_same s); [repeat split|exact R].
    - apply (rinv_same s); [repeat split|exact R].
    - destruct R as [H1 H2 H3 H4 H5]. constructor; try assumption. intros a. change (rew_of (st_clock s t b) a) with (rew_of s a). change (ln_block (st_clock s t b)) with b.
      specialize (H5 a). lia.
  Qed.
  Lemma genesis_rinv s : loans_genesis s -> rinv s.
  Proof.
    intros (_ & _ & _ & Er & _ & _ & _ & E6 & E7 & E8 & _ & _ & _ & _ & Hb). pose proof U128MAX_pos.
    constructor; unfold six_of, bix_of, racc_of, rew_of; rewrite ?Er, ?E6, ?E7, ?E8; intros; rewrite ?lookup_empty; cbn; unfold is_u128; lia.
  Qed.
  Lemma reachable_rinv s : cfg_ok C -> loans_reachable C P s -> rinv s.
  Proof.
    intros HC (s0 & G & H). assert (linv s0 /\ rinv s0) as [I0 R0] by (split; [apply genesis_linv; auto|apply genesis_rinv; auto]). clear G.
    induction H as [s|s1 s2 s3 H IH Hs]; auto. eapply step_rinv; [exact HC| |apply IH; auto|exact Hs]. eapply steps_linv; eauto.
  Qed.

End r2.
Section r3.
  Context (C : loans_cfg) (P : policy) (NB : Prop).
  (** ** The potential *)
  Notation owed := credited.
  Definition pend (s : loans) : Z := msum (fun k d => d_v d * (r_si (rew_of s k.1) - six_of s k.1 k.2)) (ln_deps s).
  Definition unindexed (s : loans) : Z := msum (fun _ r => r_ss r * (ln_block s - r_sb r)) (ln_rew s).
  Definition phi (s : loans) : Z := RSCALE * owed s + pend s + RSCALE * unindexed s.

  Lemma phi_same s s' : same_rew s s' -> ln_deps s' = ln_deps s -> phi s' = phi s.
  Proof. intros (E1 & E2 & E3 & E4 & E5) E6. unfold phi, credited, pend, unindexed, six_of, rew_of. rewrite E1, E2, E4, E5, E6. reflexivity. Qed.
  Lemma unindexed_put s a r : unindexed (put_rew s a r) = unindexed s - r_ss (rew_of s a) * (ln_block s - r_sb (rew_of s a)) + r_ss r * (ln_block s - r_sb r).
  Proof.
    unfold unindexed, put_rew. cbn. rewrite msum_insert. unfold rew_of. destruct (ln_rew s !! a); cbn; lia.
  Qed.
  Lemma pend_six s s' a : (forall b w, b <> a -> r_si (rew_of s' b) - six_of s' b w = r_si (rew_of s b) - six_of s b w) -> ln_deps s' = ln_deps s ->
    forall D, (forall w, r_si (rew_of s' a) - six_of s' a w = r_si (rew_of s a) - six_of s a w + D) -> pend s' = pend s + D * voucher_sum s a.
  Proof.
    intros H1 H2 D H3. unfold pend, voucher_sum. rewrite H2, <- msum_mul_const, <- msum_add. apply msum_ext. intros [b w] d Hd. cbn.
    case_bool_decide as Eb; [subst b; rewrite H3; lia|]. rewrite H1 by auto. lia.
  Qed.
  Lemma phi_upd_s s a s' : rinv s -> 0 <= supply_of s a -> voucher_sum s a = supply_of s a -> upd_supply_index s a = Ok s' -> phi s' <= phi s.
  Proof.
    intros R Hs0 Hs H. unfold upd_supply_index in H. cbn zeta in H. pose proof (ri_block s R a) as [Hb _]. pose proof (ri_speed s R a) as [[Hss _] _].
    unfold saturating_sub in H. destruct (Z.max 0 _ =? 0) eqn:E0; [injection H as <-; lia|]. rewrite Z.max_r in * by lia.
    bstep H i E. injection H as Hs'.
    assert (HD : (i - r_si (rew_of s a)) * supply_of s a <= RSCALE * (r_ss (rew_of s a) * (ln_block s - r_sb (rew_of s a)))).
    { destruct (r_ss (rew_of s a) =? 0) eqn:Ez; [injection E as <-; nia|]. bstep E d Ed. apply ok_or_ok in E. ok_arith E. destruct E as [-> _].
      replace (r_si (rew_of s a) + d - r_si (rew_of s a)) with d by lia. unfold delta_index in Ed. fold (supply_of s a) in Ed.
      pose proof RSCALE_pos. destruct (supply_of s a =? 0) eqn:Es.
      - injection Ed as <-. assert (0 <= r_ss (rew_of s a) * (ln_block s - r_sb (rew_of s a))) by (apply Z.mul_nonneg_nonneg; lia). rewrite Z.mul_0_l. apply Z.mul_nonneg_nonneg; lia.
      - apply ok_or_ok, chk_some in Ed as [-> _]. pose proof (Z.mul_div_le ((ln_block s - r_sb (rew_of s a)) * r_ss (rew_of s a) * RSCALE) (supply_of s a) ltac:(lia)). lia. }
    unfold phi. assert (Eo : owed s' = owed s) by (rewrite <- Hs'; reflexivity). rewrite Eo.
    assert (Ep : pend s' = pend s + (i - r_si (rew_of s a)) * voucher_sum s a).
    { apply pend_six.
      - intros b w Hb'. rewrite <- Hs', rew_of_put. destruct (decide (b = a)); [congruence|]. reflexivity.
      - rewrite <- Hs'. reflexivity.
      - intros w. rewrite <- Hs', rew_of_put. destruct (decide (a = a)); [|congruence]. cbn. change (six_of (put_rew s a _) a w) with (six_of s a w). lia. }
    assert (Eu : unindexed s' = unindexed s - r_ss (rew_of s a) * (ln_block s - r_sb (rew_of s a))).
    { rewrite <- Hs', unindexed_put. cbn. lia. }
    rewrite Ep, Eu, Hs. lia.
  Qed.
  Lemma phi_put_rew s a r : r_si r = r_si (rew_of s a) -> r_ss r * (ln_block s - r_sb r) <= r_ss (rew_of s a) * (ln_block s - r_sb (rew_of s a)) -> phi (put_rew s a r) <= phi s.
  Proof.
    intros H1 H2. unfold phi. change (owed (put_rew s a r)) with (owed s). rewrite unindexed_put. assert (pend (put_rew s a r) = pend s) as ->.
    { rewrite (pend_six s (put_rew s a r) a) with (D := 0); [lia| |reflexivity|].
      - intros b w Hb. rewrite rew_of_put. destruct (decide (b = a)); [congruence|reflexivity].
      - intros w. rewrite rew_of_put. destruct (decide (a = a)); [|congruence]. rewrite H1. change (six_of (put_rew s a r) a w) with (six_of s a w). lia. }
    pose proof RSCALE_pos. nia.
  Qed.
  Lemma owed_put s w t : msum (fun _ x => x) (<[w := t]> (ln_racc s)) = owed s + (t - racc_of s w).
  Proof. rewrite msum_insert. unfold credited, racc_of. destruct (ln_racc s !! w); cbn; lia. Qed.
  Lemma phi_dist_s s a w s' : dist_supplier s a w = Ok s' -> phi s' <= phi s.
  Proof.
    intros H. unfold dist_supplier in H. cbn zeta in H. bstep H d E1. bstep H x E2. bstep H t E3. injection H as Hs. destruct E1 as [-> E1], E3 as [-> E3].
    unfold reward_delta in E2. apply ok_or_ok, chk_some in E2 as [-> E2].
    unfold phi. assert (Eo : owed s' = owed s + vouchers s a w * (r_si (rew_of s a) - six_of s a w) / RSCALE).
    { rewrite <- Hs. unfold credited at 1. cbn [ln_racc st_racc st_six]. rewrite owed_put. unfold vouchers. lia. }
    assert (Eu : unindexed s' = unindexed s) by (rewrite <- Hs; reflexivity).
    assert (Ep : pend s' = pend s - vouchers s a w * (r_si (rew_of s a) - six_of s a w)).
    { unfold pend. assert (Hdeps : ln_deps s' = ln_deps s) by (rewrite <- Hs; reflexivity). rewrite Hdeps.
      assert (Hsx : forall b y, r_si (rew_of s' b) - six_of s' b y = if decide ((b, y) = (a, w)) then 0 else r_si (rew_of s b) - six_of s b y).
      { intros b y. rewrite <- Hs. change (rew_of (st_racc _ _) b) with (rew_of s b). unfold six_of at 1. cbn. destruct (decide ((b, y) = (a, w))) as [[= -> ->]|Ne].
        - rewrite lookup_insert. cbn. lia.
        - rewrite lookup_insert_ne by congruence. reflexivity. }
      destruct (ln_deps s !! (a, w)) as [d0|] eqn:Ed.
      - rewrite !(msum_delete _ (ln_deps s) (a, w) d0 Ed). cbn. rewrite Hsx, decide_True by auto. unfold vouchers, dep_of. rewrite Ed. cbn.
        rewrite (msum_ext _ (fun k d => d_v d * (r_si (rew_of s k.1) - six_of s k.1 k.2)) (delete (a, w) (ln_deps s))); [lia|].
        intros [b y] d1 Hd1. cbn. rewrite Hsx, decide_False; [reflexivity|]. intros [= -> ->]. rewrite lookup_delete in Hd1. discriminate Hd1.
      - assert (vouchers s a w = 0) as ->. { unfold vouchers, dep_of. rewrite Ed. reflexivity. }
        rewrite (msum_ext _ (fun k d => d_v d * (r_si (rew_of s k.1) - six_of s k.1 k.2)) (ln_deps s)); [lia|].
        intros [b y] d1 Hd1. cbn. rewrite Hsx, decide_False; [reflexivity|]. intros [= -> ->]. congruence. }
    rewrite Eo, Eu, Ep. pose proof (Z.mul_div_le (vouchers s a w * (r_si (rew_of s a) - six_of s a w)) RSCALE RSCALE_pos). lia.
  Qed.
  Lemma phi_dist_b s a w s' : rinv s -> r_bi (rew_of s a) = 0 -> dist_borrower s a w = Ok s' -> phi s' = phi s /\ (forall b, rew_of s' b = rew_of s b).
  Proof.
    intros R Hz H. unfold dist_borrower in H. cbn zeta in H. bstep H d E1. bstep H b E0. bstep H sh E4. bstep H x E2. bstep H t E3. injection H as Hs. destruct E1 as [-> E1], E3 as [-> E3].
    pose proof (ri_bix s R a w). unfold reward_delta in E2. apply ok_or_ok, chk_some in E2 as [-> E2].
    assert (Ez : sh * (r_bi (rew_of s a) - bix_of s a w) / RSCALE = 0).
    { replace (r_bi (rew_of s a) - bix_of s a w) with 0 by lia. rewrite Z.mul_0_r. apply Z.div_0_l. pose proof RSCALE_pos. lia. }
    rewrite Ez in Hs. split; [|intros c; rewrite <- Hs; reflexivity]. unfold phi.
    assert (owed s' = owed s) as ->. { rewrite <- Hs. unfold credited at 1. cbn [ln_racc st_racc st_bix]. rewrite owed_put. lia. }
    rewrite <- Hs. reflexivity.
  Qed.
  Lemma phi_dep s a w s' : same_rew s s' -> six_of s a w = r_si (rew_of s a) -> (forall k, k <> (a, w) -> ln_deps s' !! k = ln_deps s !! k) -> phi s' = phi s.
  Proof.
    intros HS Hx Hk. destruct HS as (E1 & E2 & E3 & E4 & E5). unfold phi, credited, unindexed. rewrite E1, E4, E5. f_equal. f_equal.
    assert (Hf : forall m : gmap (Z * Z) deposit, msum (fun k d => d_v d * (r_si (rew_of s k.1) - six_of s k.1 k.2)) m =
                       msum (fun k d => d_v d * (r_si (rew_of s k.1) - six_of s k.1 k.2)) (delete (a, w) m)).
    { intros m. destruct (m !! (a, w)) as [d0|] eqn:Ed; [|rewrite delete_notin by auto; reflexivity]. rewrite (msum_delete _ m (a, w) d0 Ed) at 1. cbn. rewrite Hx. lia. }
    unfold pend, six_of, rew_of. rewrite E1, E2. fold (six_of s) (rew_of s).
    change (msum (fun k d => d_v d * (r_si (rew_of s k.1) - six_of s k.1 k.2)) (ln_deps s') = msum (fun k d => d_v d * (r_si (rew_of s k.1) - six_of s k.1 k.2)) (ln_deps s)).
    rewrite (Hf (ln_deps s')), (Hf (ln_deps s)). f_equal. apply map_eq. intros k. destruct (decide (k = (a, w))) as [->|Ne]; [rewrite !lookup_delete; reflexivity|].
    rewrite !lookup_delete_ne by auto. auto.
  Qed.
  Lemma phi_flag s a w d e s' : same_rew s s' -> ln_deps s !! (a, w) = Some d -> ln_deps s' = <[(a, w) := mkDep (d_v d) e]> (ln_deps s) -> phi s' = phi s.
  Proof.
    intros HS Hd Hd'. destruct HS as (E1 & E2 & E3 & E4 & E5). unfold phi, credited, unindexed. rewrite E1, E4, E5. f_equal. f_equal.
    unfold pend, six_of, rew_of. rewrite E1, E2, Hd', msum_insert, Hd. cbn. lia.
  Qed.
  Lemma rmove_phi s p s' : rinv s -> no_borrow_rewards s -> rmove C P NB s p s' -> phi s' + RSCALE * p <= phi s.
  Proof.
    intros R NBR H. destruct H as [s' H Hd|a mk s' H Hd|a s' Hs Hv H|a s' H|a w s' _ H|a w s' H|a w s' H Hx _ Hk|a w d e s' H Hd Hd'|a x Hx Hb|a x Hx HN|w L Hp HL].
    - rewrite (phi_same s s' H Hd). lia.
    - rewrite (phi_same s s' H Hd). lia.
    - pose proof (phi_upd_s s a s' R Hs Hv H). lia.
    - unfold upd_borrow_index in H. cbn zeta in H. destruct (_ =? 0); [injection H as <-; lia|]. bstep H i E. injection H as <-.
      assert (phi (put_rew s a (mkMrew (r_ss (rew_of s a)) (r_bs (rew_of s a)) (r_si (rew_of s a)) (r_sb (rew_of s a)) i (ln_block s))) <= phi s); [|lia].
      apply phi_put_rew; cbn; lia.
    - pose proof (phi_dist_s s a w s' H). lia.
    - destruct (phi_dist_b s a w s' R (proj2 (NBR a)) H) as [-> _]. lia.
    - rewrite (phi_dep s a w s' H Hx Hk). lia.
    - rewrite (phi_flag s a w d e s' H Hd Hd'). lia.
    - pose proof (ri_block s R a) as [Hb' _]. match goal with |- phi ?y + _ <= _ => assert (phi y <= phi s); [|lia] end.
      apply phi_put_rew; cbn; [reflexivity|]. replace (ln_block s - r_sb (rew_of s a)) with 0 by lia. lia.
    - match goal with |- phi ?y + _ <= _ => assert (phi y <= phi s); [|lia] end. apply phi_put_rew; cbn; lia.
    - assert (owed (st_racc (st_led s L) (delete w (ln_racc s))) = owed s - racc_of s w) as E.
      { unfold credited. cbn [ln_racc st_racc]. unfold racc_of. destruct (ln_racc s !! w) as [x|] eqn:Ew.
        - rewrite (msum_delete _ (ln_racc s) w x Ew). cbn. lia.
        - rewrite delete_notin by auto. cbn. lia. }
      unfold phi. rewrite E. change (pend (st_racc _ _)) with (pend s). change (unindexed (st_racc _ _)) with (unindexed s). lia.
  Qed.

  Lemma nb_put s a r : no_borrow_rewards s -> r_bs r = 0 -> r_bi r = 0 -> no_borrow_rewards (put_rew s a r).
  Proof. intros H H1 H2 b. rewrite rew_of_put. destruct (decide (b = a)); auto. Qed.
  Lemma nb_same s s' : ln_rew s' = ln_rew s -> no_borrow_rewards s -> no_borrow_rewards s'.
  Proof. intros E H b. unfold rew_of. rewrite E. apply H. Qed.
  Lemma rmove_nb s p s' : NB -> rinv s -> no_borrow_rewards s -> rmove C P NB s p s' -> no_borrow_rewards s'.
  Proof.
    intros HNB R N H. destruct H as [s' H Hd|a mk s' H Hd|a s' Hs Hv H|a s' H|a w s' _ H|a w s' H|a w s' H Hx _ Hk|a w d e s' H Hd Hd'|a x Hx Hb|a x Hx HN|w L Hp HL].
    - apply (nb_same s); [apply H|auto].
    - apply (nb_same s); [apply H|auto].
    - unfold upd_supply_index in H. cbn zeta in H. destruct (_ =? 0); [injection H as <-; auto|]. bstep H i E. injection H as <-. apply nb_put; auto; apply (N a).
    - unfold upd_borrow_index in H. cbn zeta in H. destruct (_ =? 0); [injection H as <-; auto|]. bstep H i E. injection H as <-.
      rewrite (proj2 (Z.eqb_eq _ _) (proj1 (N a))) in E. injection E as <-. apply nb_put; auto; apply (N a).
    - destruct (dist_supplier_frame _ _ _ _ H) as (E & _). intros b. rewrite E. apply N.
    - destruct (phi_dist_b s a w s' R (proj2 (N a)) H) as [_ E]. intros b. rewrite E. apply N.
    - apply (nb_same s); [apply H|auto].
    - apply (nb_same s); [apply H|auto].
    - apply nb_put; auto; apply (N a).
    - apply nb_put; auto. apply (N a).
    - apply (nb_same s); auto.
  Qed.
  Lemma rmoves_phi s p s' : NB -> 0 <= ln_block s -> rinv s -> no_borrow_rewards s -> rmoves C P NB s p s' -> phi s' + RSCALE * p <= phi s /\ no_borrow_rewards s'.
  Proof.
    intros HNB Hb R N H. induction H as [s|s p s1 q s2 H1 H2 IH]; [split; [lia|auto]|].
    destruct IH as [H3 H4]; [rewrite (rmove_block _ _ _ _ _ _ H1); auto|eapply rmove_rinv; eauto|eapply rmove_nb; eauto|].
    pose proof (rmove_phi _ _ _ R N H1). split; [lia|auto].
  Qed.
End r3.
