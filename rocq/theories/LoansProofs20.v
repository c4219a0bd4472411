(** * LoansProofs20: claims go through while the reward account is funded. *)
From Verif Require Import Base MapSum Ledger AmmModel AmmProofs5 LoansModel LoansSpec LoansSpec2 LoansProofs LoansProofs2 LoansProofs3 LoansProofs4 LoansProofs5 LoansProofs7 LoansProofs12 LoansProofs13 LoansProofs14 LoansProofs15 LoansProofs16 LoansProofs17 LoansProofs18 LoansProofs19.

Section live3.
  Context (C : loans_cfg) (P : policy).

  Lemma collect_prog s a w : linv s -> rinv s -> FDIV <= index_of s a -> debt_now s a w <= U128MAX -> rewards_fit s a w -> exists s', collect_reward s a w = Ok s'.
  Proof.
    intros Hi R HX HD HF. pose proof HF as (F1 & F2 & F3). destruct (dist_s_prog s a w Hi R HX HD HF) as (s1 & s2 & E1 & E2).
    pose proof (proj1 (proj2 (li_clock s (proj1 Hi)))) as Hb0.
    pose proof (linv_upd_s _ _ _ Hi E1) as Hi1. pose proof (rinv_upd_s _ _ _ Hb0 R E1) as R1. pose proof (linv_dist_s _ _ _ _ Hi1 E2) as Hi2. pose proof (rinv_dist_s _ _ _ _ R1 E2) as R2.
    destruct (upd_s_now s a s1 Hi R E1) as (A1 & A2 & A3 & A4 & A5 & A6 & A7 & (W1 & HW1)).
    assert (exists s3 s4, upd_borrow_index s2 a = Ok s3 /\ dist_borrower s3 a w = Ok s4) as (s3 & s4 & E3 & E4).
    2: { unfold collect_reward. rewrite E1. cbn [rbind]. rewrite E2. cbn [rbind]. rewrite E3. cbn [rbind]. eauto. }
    unfold dist_supplier in E2. cbn zeta in E2. bstep E2 d1 G1. bstep E2 x1 G2. bstep E2 t1 G3. injection E2 as Hs2. destruct G1 as [-> G1], G3 as [-> G3].
    unfold reward_delta in G2. apply ok_or_ok, chk_some in G2 as [-> G2]. rewrite A1 in *.
    assert (Hacc : forall b, acc_of s2 b = acc_of s b) by (intros b; rewrite <- Hs2, HW1; reflexivity).
    assert (Hix : index_of s2 a = index_of s a) by (unfold index_of; rewrite Hacc; reflexivity).
    assert (Hdn : debt_now s2 a w = debt_now s a w) by (unfold debt_now; rewrite Hix; rewrite <- Hs2, HW1; reflexivity).
    assert (Hone : forall x, at_index_one s2 a x = at_index_one s a x) by (intros x; unfold at_index_one; rewrite Hix; reflexivity).
    assert (Hbn : borrow_index_now s2 a = borrow_index_now s a).
    { unfold borrow_index_now, borrows_of. rewrite Hone, Hacc. rewrite <- Hs2. change (rew_of (st_racc (st_six s1 _) _) a) with (rew_of s1 a). rewrite A3, A4, A5. rewrite HW1. reflexivity. }
    assert (Hbx : bix_of s2 a w = bix_of s a w) by (rewrite <- Hs2, HW1; reflexivity).
    assert (Hv1 : d_v (dep_of s1 a w) = vouchers s a w) by (rewrite HW1; reflexivity). assert (Hsx1 : six_of s1 a w = six_of s a w) by (rewrite HW1; reflexivity).
    assert (Hra : racc_of s2 w = racc_of s w + vouchers s a w * (supply_index_now s a - six_of s a w) / RSCALE).
    { rewrite <- Hs2. change (default 0 ((<[w := racc_of s1 w + d_v (dep_of s1 a w) * (supply_index_now s a - six_of s1 a w) / RSCALE]> (ln_racc s1)) !! w) = racc_of s w + vouchers s a w * (supply_index_now s a - six_of s a w) / RSCALE).
      rewrite lookup_insert. cbn. rewrite Hv1, Hsx1, HW1. reflexivity. }
    apply dist_b_prog0; auto; try (rewrite ?Hix, ?Hdn, ?Hbn; auto; fail). rewrite Hdn, Hbn, Hone, Hbx, Hra. unfold claimable_in, earned_in in F3. rewrite <- RSCALE_val in F3. lia.
  Qed.
  Lemma earned_nonneg s a w : linv s -> rinv s -> FDIV <= index_of s a -> debt_now s a w <= U128MAX -> 0 <= earned_in s a w.
  Proof. intros Hi R HX HD. destruct (earned_parts s a w Hi R HX HD) as (P1 & P2 & _). unfold earned_in. rewrite <- RSCALE_val. lia. Qed.
  Lemma lsum_nonneg f l : (forall a, a ∈ l -> 0 <= f a) -> 0 <= lsum f l.
  Proof. induction l as [|a l IH]; cbn; intros H; [lia|]. pose proof (H a ltac:(left; auto)). assert (0 <= lsum f l); [|lia]. apply IH. intros b Hb. apply H. right; auto. Qed.
  Lemma collect_all_prog w l : NoDup l -> forall s, linv s -> rinv s -> (forall a, a ∈ l -> FDIV <= index_of s a) -> (forall a, a ∈ l -> debt_now s a w <= U128MAX) ->
    (forall a, a ∈ l -> supply_index_now s a <= U128MAX /\ borrow_index_now s a <= U128MAX) -> racc_of s w + lsum (fun a => earned_in s a w) l <= U128MAX -> exists s', collect_all s w l = Ok s'.
  Proof.
    induction l as [|a l IH]; intros ND s Hi R HX HD HF HT; cbn [collect_all]; [eauto|]. apply NoDup_cons in ND as [Hn ND]. cbn [lsum] in HT.
    assert (Ha : a ∈ a :: l) by (left; auto). assert (0 <= lsum (fun a0 => earned_in s a0 w) l) as Hl by (apply lsum_nonneg; intros b Hb; apply earned_nonneg; auto; [apply HX|apply HD]; right; auto).
    destruct (collect_prog s a w Hi R (HX a Ha) (HD a Ha)) as [s1 E]; [split; [apply HF; auto|split; [apply HF; auto|unfold claimable_in; lia]]|]. rewrite E. cbn [rbind].
    pose proof FDIV_pos. pose proof (HX a Ha) as HXa. destruct (collect_exact s a w s1 Hi R ltac:(lia) E) as (A1 & A2 & A3 & A4 & A5 & Hi1 & R1 & Hc & A6).
    assert (forall b, index_of s1 b = index_of s b /\ debt_now s1 b w = debt_now s b w) as Hcc by (destruct Hc as (?&?&?&?&?&->); auto).
    apply IH; auto.
    - intros b Hb. rewrite (proj1 (Hcc b)). apply HX. right; auto.
    - intros b Hb. rewrite (proj2 (Hcc b)). apply HD. right; auto.
    - intros b Hb. destruct (A6 b) as [-> ->]. apply HF. right; auto.
    - rewrite A1, (lsum_ext (fun b => earned_in s1 b w) (fun b => earned_in s b w)); [lia|]. intros b Hb. apply A4. intros ->. auto.
  Qed.
  Lemma claim_prog s w : linv s -> rinv s -> lenient P -> (forall a mk, ln_mkts s !! a = Some mk -> debt_now s a w <= U128MAX /\ supply_index_now s a <= U128MAX /\ borrow_index_now s a <= U128MAX) ->
    claimable s w <= U128MAX -> claimable s w <= bal (ln_led s) (rew_asset C) (rew_acct C) -> exists s', claim_reward C P s w = Ok s'.
  Proof.
    intros Hi R LP HF HT Hb. unfold claim_reward. set (l := map fst (map_to_list (ln_mkts s))). assert (Hin : forall a, a ∈ l -> exists mk, ln_mkts s !! a = Some mk) by (intros a Ha; apply keys_in in Ha as [mk Ha]; eauto).
    pose proof (NoDup_fst_map_to_list (ln_mkts s)) as ND. fold l in ND.
    assert (HX : forall a, a ∈ l -> FDIV <= index_of s a) by (intros a Ha; destruct (Hin a Ha) as [mk Hm]; apply (li_mkt s (proj1 Hi) a mk Hm)).
    assert (HTl : racc_of s w + lsum (fun a => earned_in s a w) l <= U128MAX) by (unfold claimable in HT; rewrite msum_keys in HT; exact HT).
    destruct (collect_all_prog w l ND s Hi R) as [s1 E]; auto.
    - intros a Ha. destruct (Hin a Ha) as [mk Hm]. apply (HF a mk Hm).
    - intros a Ha. destruct (Hin a Ha) as [mk Hm]. apply (HF a mk Hm).
    - rewrite E. cbn [rbind]. pose proof FDIV_pos. destruct (collect_all_exact w l ND s s1 Hi R) as (B1 & _ & _ & _ & _ & Hi1 & R1 & Hc); [intros a Ha; specialize (HX a Ha); lia|exact E|].
      unfold pay_reward. destruct (0 <? racc_of s1 w) eqn:E0; [|eauto]. assert (ln_led s1 = ln_led s) as EL by (destruct Hc as (?&?&?&?&?&->); auto). rewrite EL.
      assert (racc_of s1 w = claimable s w) as EC by (unfold claimable; rewrite msum_keys; exact B1). rewrite EC in *.
      destruct (transfer_prog P (ln_led s) (rew_asset C) (rew_acct C) w (claimable s w) true LP) as [L' ->]; [lia|lia|]. cbn. eauto.
  Qed.
End live3.
