(** * LoansProofs8: solvency of accounts (C31). *)
From Verif Require Import Base MapSum Ledger AmmModel LoansModel LoansSpec LoansProofs LoansProofs2 LoansProofs3 LoansProofs4 LoansProofs5 LoansProofs6.

(** ** sums of values *)
Definition okval (r : res Z) : Z := match r with Ok v => v | _ => 0 end.
Fixpoint vsum (f : Z -> res Z) (l : list Z) : Z := match l with [] => 0 | a :: l' => okval (f a) + vsum f l' end.
Lemma sum_values_ok f l acc t : sum_values f l acc = Ok t ->
  t = acc + vsum f l /\ (forall a, a ∈ l -> f a = Ok (okval (f a))).
Proof.
  revert acc. induction l as [|a l IH]; cbn; intros acc H.
  - injection H as <-. split; [lia|]. intros a Ha. inversion Ha.
  - bstep H v E. bstep H u E2. destruct E2 as [-> E2]. apply IH in H as [-> H]. rewrite E. cbn. split; [lia|].
    intros b Hb. apply elem_of_cons in Hb as [->|Hb]; [rewrite E; reflexivity|]. auto.
Qed.

(** ** arithmetic of values *)
Lemma asset_value_ok s a x v : asset_value s a x = Ok v -> exists p, get_price s a = Ok p /\ v = p * x / FDIV /\ 0 <= v <= U128MAX.
Proof.
  unfold asset_value. intros H. bstep H p E. exists p. split; auto. apply ok_or_ok in H. ok_arith H. exact H.
Qed.
Lemma get_price_pos s a p : linv0 s -> get_price s a = Ok p -> 0 < p.
Proof.
  intros Hi H. unfold get_price in H. bstep H q E. bstep H u E2. injection H as <-. pose proof (li_price s Hi a q E) as [Hp _]. lia.
Qed.
Lemma floor_add2 p x y : 0 < FDIV -> p * (x + y) / FDIV <= p * x / FDIV + p * y / FDIV + 1.
Proof.
  intros HF. rewrite Z.mul_add_distr_l.
  pose proof (Z.div_mod (p * x) FDIV ltac:(lia)). pose proof (Z.mod_pos_bound (p * x) FDIV HF).
  pose proof (Z.div_mod (p * y) FDIV ltac:(lia)). pose proof (Z.mod_pos_bound (p * y) FDIV HF).
  cut (p * x + p * y < FDIV * (p * x / FDIV + p * y / FDIV + 2)).
  { intros Hlt. apply Z.div_lt_upper_bound in Hlt; lia. } lia.
Qed.
Lemma p_mul_ceil_add c x y : 0 <= c -> p_mul_ceil c (x + y) <= p_mul_ceil c x + p_mul_ceil c y.
Proof.
  intros Hc. unfold p_mul_ceil. rewrite Z.mul_add_distr_l. pose proof PMILL_pos.
  pose proof (cdiv_ge (c * x) PMILL). pose proof (cdiv_ge (c * y) PMILL). pose proof (cdiv_lt (c * x + c * y) PMILL).
  set (A := cdiv (c * x + c * y) PMILL) in *. set (X := cdiv (c * x) PMILL) in *. set (Y := cdiv (c * y) PMILL) in *. nia.
Qed.
Lemma p_mul_ceil_mono c x y : 0 <= c -> x <= y -> p_mul_ceil c x <= p_mul_ceil c y.
Proof. intros Hc H. unfold p_mul_ceil, cdiv. pose proof PMILL_pos. apply Z.div_le_mono; nia. Qed.
Lemma p_mul_ceil_one c : is_permill c -> 0 <= p_mul_ceil c 1 <= 1.
Proof.
  intros [H1 H2]. unfold p_mul_ceil, cdiv. pose proof PMILL_pos. split; [apply Z.div_pos; lia|].
  apply Z.lt_succ_r. apply Z.div_lt_upper_bound; lia.
Qed.
Lemma p_mul_ceil_0 c : p_mul_ceil c 0 = 0.
Proof. unfold p_mul_ceil, cdiv. rewrite Z.mul_0_r. pose proof PMILL_pos. apply Z.div_small. lia. Qed.

Section solv.
  Context (C : loans_cfg) (P : policy).

  Lemma account_liquidity_ok s w q : account_liquidity C s w = Ok q ->
    exists B Co lB lC, total_borrowed s w = Ok B /\ total_collateral C s w = Ok Co /\ lf_borrowed C s w = Ok lB /\ lf_base C s w = Ok lC /\
      q = (Z.max 0 (Co - B), Z.max 0 (B - Co), Z.max 0 (lC - lB), Z.max 0 (lB - lC)).
  Proof.
    unfold account_liquidity. intros H. bstep H B E1. bstep H Co E2. bstep H lB E3. bstep H lC E4. injection H as <-.
    exists B, Co, lB, lC. do 4 (split; [assumption|]). unfold liquidity4.
    destruct (B <? Co) eqn:G1, (lB <? lC) eqn:G2; repeat f_equal; lia.
  Qed.
  Lemma ensure_liquidity_ok s w x lf : ensure_liquidity C s w x lf = Ok tt ->
    exists B Co lB lC, total_borrowed s w = Ok B /\ total_collateral C s w = Ok Co /\ lf_borrowed C s w = Ok lB /\ lf_base C s w = Ok lC /\
      (lf = false -> Z.max 0 (lC - lB) + x <= Z.max 0 (Co - B)) /\
      (lf = true -> x <= Z.max 0 (Co - B) \/ x <= Z.max 0 (lC - lB)).
  Proof.
    unfold ensure_liquidity. intros H. bstep H q E. apply account_liquidity_ok in E as (B & Co & lB & lC & E1 & E2 & E3 & E4 & ->).
    exists B, Co, lB, lC. do 4 (split; [assumption|]). destruct lf; cbn [andb] in H.
    - split; [discriminate|]. intros _. destruct (x <=? _) eqn:G; [lia|discriminate].
    - split; [|discriminate]. intros _. bstep H t Et. destruct Et as [-> _]. apply ensure_ok in H. lia.
  Qed.

  (** *** the collateral value of one market when the voucher balance falls *)
  Lemma mul_div_sub r V v : 0 < FDIV -> r * V / FDIV <= r * (V - v) / FDIV + (r * v / FDIV + 1).
  Proof.
    intros HF. replace (r * V) with (r * ((V - v) + v)) by (f_equal; lia). pose proof (floor_add2 r (V - v) v HF). lia.
  Qed.
  Lemma value_drop p c r r' V v x u : 0 < p -> is_permill c -> 0 <= r <= r' -> 0 <= v <= V ->
    u = r * V / FDIV -> x = r * v / FDIV ->
    p * p_mul_ceil c u / FDIV <= p * p_mul_ceil c (r' * (V - v) / FDIV) / FDIV + p * p_mul_ceil c x / FDIV + p / FDIV + 2.
  Proof.
    intros Hp Hc Hr Hv -> ->. pose proof FDIV_pos as HF. destruct Hc as [Hc0 Hc1].
    pose proof (mul_div_sub r V v HF) as H1.
    assert (H2 : r * (V - v) / FDIV <= r' * (V - v) / FDIV) by (apply Z.div_le_mono; nia).
    set (u' := r' * (V - v) / FDIV) in *. set (x := r * v / FDIV) in *.
    assert (H3 : p_mul_ceil c (r * V / FDIV) <= p_mul_ceil c u' + (p_mul_ceil c x + 1)).
    { etransitivity; [apply (p_mul_ceil_mono c _ (u' + (x + 1))); [lia|lia]|].
      pose proof (p_mul_ceil_add c u' (x + 1) Hc0). pose proof (p_mul_ceil_add c x 1 Hc0). pose proof (p_mul_ceil_one c (conj Hc0 Hc1)). lia. }
    assert (H4 : p * p_mul_ceil c (r * V / FDIV) / FDIV <= p * (p_mul_ceil c u' + (p_mul_ceil c x + 1)) / FDIV) by (apply Z.div_le_mono; nia).
    pose proof (floor_add2 p (p_mul_ceil c u') (p_mul_ceil c x + 1) HF) as H5. pose proof (floor_add2 p (p_mul_ceil c x) 1 HF) as H6.
    rewrite Z.mul_1_r in H6. lia.
  Qed.

  Lemma reach_supply_ge s a w : linv s -> vouchers s a w <= supply_of s a.
  Proof.
    intros [Hi Hs]. rewrite <- Hs. unfold voucher_sum, vouchers, dep_of. destruct (ln_deps s !! (a, w)) as [d|] eqn:E; cbn.
    - pose proof (msum_ge_elem (fun k d => if bool_decide (k.1 = a) then d_v d else 0) (ln_deps s) (a, w) d) as M.
      cbn in M. rewrite bool_decide_true in M by auto. apply M; auto.
      intros [b y] d' E'; cbn. pose proof (li_dep s Hi b y) as Hd. unfold vouchers, dep_of in Hd. rewrite E' in Hd; cbn in Hd. case_bool_decide; lia.
    - apply msum_nonneg. intros [b y] d' E'; cbn. pose proof (li_dep s Hi b y) as Hd. unfold vouchers, dep_of in Hd. rewrite E' in Hd; cbn in Hd. case_bool_decide; lia.
  Qed.
  Lemma redeem_eff_acc s w a v x s' c : redeem_eff C P s w a v x s' -> c <> a -> acc_of s' c = acc_of s c.
  Proof.
    intros (R & E & X & Y & Z & r & L & _ & _ & _ & _ & _ & _ & _ & _ & _ & _ & ->) Hne.
    change (acc_of (st_led ?y L) c) with (acc_of y c). rewrite acc_of_put. destruct (decide _); [congruence|].
    unfold put_dep_or_remove. destruct (_ =? 0); reflexivity.
  Qed.
  Lemma redeem_eff_params s w a v x s' : redeem_eff C P s w a v x s' -> ln_mkts s' = ln_mkts s /\ ln_free s' = ln_free s /\ ln_price s' = ln_price s.
  Proof.
    intros (R & E & X & Y & Z & r & L & _ & _ & _ & _ & _ & _ & _ & _ & _ & _ & ->). unfold put_dep_or_remove. destruct (_ =? 0); cbn; auto.
  Qed.

End solv.
