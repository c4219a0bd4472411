(** * PriceProofs: lemmas about the price model. *)
From Verif Require Import Base Ledger AmmModel AmmSpec AmmProofs AmmInv PriceModel PriceSpec.

Lemma pow10_pos d : 0 <= d -> 0 < 10 ^ d. Proof. intros. apply Z.pow_pos_nonneg; lia. Qed.
Lemma mantissa_dec E a d : decimals E a d -> mantissa E a = Some (10 ^ d).
Proof. intros (H & H0 & H1). unfold mantissa. rewrite H. apply chk_some. pose proof (pow10_pos d H0). lia. Qed.
Lemma fdiv_ok p m : 0 <= p -> 0 < m -> p * FDIV / m <= U128MAX -> f_checked_div p m = Some (p * FDIV / m).
Proof.
  intros Hp Hm Hu. unfold f_checked_div. replace (m =? 0) with false by lia. apply chk_some. split; [auto|]. split; [|auto].
  apply Z.div_pos; [|lia]. pose proof FDIV_pos. nia.
Qed.
Lemma emergency_of E s a d p : decimals E a d -> pr_emg s !! a = Some p -> 0 <= p -> p * FDIV / 10 ^ d <= U128MAX -> emergency_price E s a = Some (p * FDIV / 10 ^ d, 0).
Proof. intros Hd Hp H0 Hu. unfold emergency_price. rewrite Hp, (mantissa_dec E a d Hd), fdiv_ok; auto. apply pow10_pos, Hd. Qed.
Lemma emergency_none E s a : pr_emg s !! a = None -> emergency_price E s a = None.
Proof. intros H. unfold emergency_price. rewrite H. reflexivity. Qed.

Lemma ordinary_special C E n s a base : ordinary s a -> special_price C E n s a base = Ok None.
Proof. intros (H1 & H2 & H3 & H4 & H5). destruct n; cbn [special_price]; rewrite H1, H2, H3, H4, H5; reflexivity. Qed.
Lemma special_foreign C E n s s' a base : pr_foreign s = pr_foreign s' -> special_price C E n s a base = special_price C E n s' a base.
Proof.
  intros H. revert a. induction n as [|n IH]; intros a; cbn [special_price]; rewrite H; [reflexivity|].
  destruct (is_ls_token a); [auto|]. destruct (is_vault_token a); [auto|]. destruct (is_lf_lp_token a); [auto|]. destruct (is_auxiliary_token a); [auto|].
  destruct (pr_foreign s' !! a); auto.
Qed.
Lemma get_price_foreign C E n s s' a : pr_foreign s = pr_foreign s' -> emergency_price E s a = emergency_price E s' a -> get_price C E n s a = get_price C E n s' a.
Proof.
  intros H He. unfold get_price. rewrite He. destruct (emergency_price E s' a); [auto|]. destruct (mantissa E a); [|auto].
  destruct (pe_src E (pc_relay C)); [|auto]. rewrite (special_foreign C E n s s' a _ H). reflexivity.
Qed.

(** depth *)
Lemma special_depth C E s a base (rk : Z -> nat) : (forall f b, pr_foreign s !! f = Some b -> (rk b < rk f)%nat) ->
  forall n m, (rk a <= n)%nat -> (rk a <= m)%nat -> special_price C E n s a base = special_price C E m s a base.
Proof.
  intros Hr n. revert a. induction n as [|n IH]; intros a [|m] Hn Hm; [reflexivity| | |].
  - cbn [special_price]. destruct (is_ls_token a); [auto|]. destruct (is_vault_token a); [auto|]. destruct (is_lf_lp_token a); [auto|]. destruct (is_auxiliary_token a); [auto|].
    destruct (pr_foreign s !! a) as [b|] eqn:Ef; [|auto]. apply Hr in Ef. lia.
  - cbn [special_price]. destruct (is_ls_token a); [auto|]. destruct (is_vault_token a); [auto|]. destruct (is_lf_lp_token a); [auto|]. destruct (is_auxiliary_token a); [auto|].
    destruct (pr_foreign s !! a) as [b|] eqn:Ef; [|auto]. apply Hr in Ef. lia.
  - cbn [special_price]. destruct (is_ls_token a); [auto|]. destruct (is_vault_token a); [auto|]. destruct (is_lf_lp_token a); [auto|]. destruct (is_auxiliary_token a); [auto|].
    destruct (pr_foreign s !! a) as [b|] eqn:Ef; [|auto]. apply Hr in Ef. apply IH; lia.
Qed.
Lemma lp_price_no_panic C E a base : pe_iss E a <> 0 -> lp_price C E a base <> Panic.
Proof.
  intros Hi. unfold lp_price, bind_o, lift. cbn [rbind].
  destruct (mantissa E a); [|discriminate]. cbn [rbind].
  destruct (pe_pool E a) as [[[b q] p]|]; [|discriminate]. destruct ((q =? pc_relay C) && pe_isv E b); [|discriminate]. cbn [fst snd rbind].
  destruct (mantissa E b); [|discriminate]. cbn [rbind]. destruct (checked_div z z0); [|discriminate]. cbn [rbind].
  destruct (chk (Z.sqrt (p_base p * p_quote p) * 2)); [|discriminate]. cbn [rbind]. unfold f_saturating_from_rational.
  replace (pe_iss E a =? 0) with false by lia. cbn [rbind].
  destruct (vault_price E b base) as [vp|]; [|discriminate]. cbn [rbind]. destruct (f_checked_mul vp.1 _) as [x|]; [|discriminate]. cbn [rbind].
  destruct (f_checked_mul x _); discriminate.
Qed.
Lemma lp_price_no_pool C E a base : pe_pool E a = None -> lp_price C E a base = Ok None.
Proof. intros H. unfold lp_price, bind_o, lift. cbn [rbind]. rewrite H. destruct (mantissa E a); reflexivity. Qed.
Lemma special_no_panic C E s a base (rk : Z -> nat) n : (forall x, is_lf_lp_token x = true -> pe_pool E x <> None -> pe_iss E x <> 0) ->
  (forall f b, pr_foreign s !! f = Some b -> (rk b < rk f)%nat) -> (rk a <= n)%nat -> special_price C E n s a base <> Panic.
Proof.
  intros Hl Hr. revert a. induction n as [|n IH]; intros a Hn; cbn [special_price].
  all: destruct (is_ls_token a); [discriminate|]; destruct (is_vault_token a); [discriminate|].
  all: destruct (is_lf_lp_token a) eqn:El;
    [destruct (pe_pool E a) eqn:Ep; [apply lp_price_no_panic; apply Hl; [auto|congruence]|rewrite lp_price_no_pool by auto; discriminate]|].
  all: destruct (is_auxiliary_token a); [discriminate|]; destruct (pr_foreign s !! a) as [b|] eqn:Ef; [|discriminate]; apply Hr in Ef; try lia.
  apply IH. lia.
Qed.
(** a self mapping never ends *)
Lemma special_loop C E s a base : is_ls_token a = false -> is_vault_token a = false -> is_lf_lp_token a = false -> is_auxiliary_token a = false ->
  pr_foreign s !! a = Some a -> forall n, special_price C E n s a base = Panic.
Proof. intros H1 H2 H3 H4 H5. induction n as [|n IH]; cbn [special_price]; rewrite H1, H2, H3, H4, H5; auto. Qed.

(** monotonicity of the roundings *)
Lemma fmul_mono2 x y r q a b : 0 <= x -> 0 <= r -> x <= y -> r <= q -> f_checked_mul x r = Some a -> f_checked_mul y q = Some b -> a <= b.
Proof.
  intros Hx Hr Hxy Hrq Ha Hb. apply f_checked_mul_some in Ha as [-> _]. apply f_checked_mul_some in Hb as [-> _].
  apply Z.div_le_mono; [apply FDIV_pos|]. nia.
Qed.
Lemma fdiv_mono x y m a b : x <= y -> 0 < m -> f_checked_div x m = Some a -> f_checked_div y m = Some b -> a <= b.
Proof.
  intros Hxy Hm. unfold f_checked_div. replace (m =? 0) with false by lia. intros Ha Hb. apply chk_some in Ha as [-> _]. apply chk_some in Hb as [-> _].
  apply Z.div_le_mono; [lia|]. pose proof FDIV_pos. nia.
Qed.
Lemma normalize_mono p p' m : p.1 <= p'.1 -> 0 < m -> price_le (normalize p m) (normalize p' m).
Proof.
  intros H Hm. unfold price_le, normalize. destruct (f_checked_div p.1 m) as [a|] eqn:Ea; [|exact I]. destruct (f_checked_div p'.1 m) as [b|] eqn:Eb; [|exact I].
  cbn. eapply fdiv_mono; eauto.
Qed.
Lemma mantissa_pos E a m : mantissa E a = Some m -> 0 < m \/ m = 0.
Proof. unfold mantissa. destruct (pe_dec E a); [|discriminate]. intros H. apply chk_some in H as [-> H]. lia. Qed.

(** the pool of an LP token in a reachable AMM state *)
Lemma pool_by_lp_some s lp b q p : pool_by_lp s lp = Some (b, q, p) -> pools s !! (b, q) = Some p /\ p_lp p = lp.
Proof.
  unfold pool_by_lp. intros H. destruct (filter _ _) as [|[k p0] l] eqn:Ef; [discriminate|]. injection H as <- <- <-.
  assert (Hin : (k, p0) ∈ filter (fun e : (Z * Z) * pool => p_lp e.2 = lp) (map_to_list (pools s))) by (rewrite Ef; left).
  apply elem_of_list_filter in Hin as [H1 H2]. apply elem_of_map_to_list in H2. destruct k. auto.
Qed.
Lemma pool_by_lp_of s b q p : (forall k1 p1 k2 p2, pools s !! k1 = Some p1 -> pools s !! k2 = Some p2 -> p_lp p1 = p_lp p2 -> k1 = k2) ->
  pools s !! (b, q) = Some p -> pool_by_lp s (p_lp p) = Some (b, q, p).
Proof.
  intros Hu Hp. destruct (pool_by_lp s (p_lp p)) as [[[b' q'] p']|] eqn:E.
  - apply pool_by_lp_some in E as [E1 E2]. pose proof (Hu _ _ _ _ E1 Hp E2) as H. injection H as -> ->. rewrite Hp in E1. injection E1 as <-. reflexivity.
  - exfalso. unfold pool_by_lp in E. destruct (filter _ _) as [|[k p0] l] eqn:Ef; [|discriminate].
    assert (Hin : ((b, q), p) ∈ filter (fun e : (Z * Z) * pool => p_lp e.2 = p_lp p) (map_to_list (pools s))) by (apply elem_of_list_filter; split; [auto|apply elem_of_map_to_list; auto]).
    rewrite Ef in Hin. apply elem_of_nil in Hin. exact Hin.
Qed.

(** the LP price as a function of the pool *)
Lemma from_rational_mono a b d r q : 0 <= a <= b -> 0 < d -> f_saturating_from_rational a d = Ok r -> f_saturating_from_rational b d = Ok q -> 0 <= r <= q.
Proof.
  intros Hab Hd. unfold f_saturating_from_rational. replace (d =? 0) with false by lia. intros H1 H2. injection H1 as <-. injection H2 as <-. unfold sat128.
  pose proof FDIV_pos. assert (a * FDIV / d <= b * FDIV / d) by (apply Z.div_le_mono; nia). lia.
Qed.
Lemma lp_price_mono C E s s' a base x x' : 0 < iss (led s) a -> iss (led s') a = iss (led s) a ->
  (forall b q p, pool_by_lp s a = Some (b, q, p) -> exists p', pool_by_lp s' a = Some (b, q, p') /\ p_base p * p_quote p <= p_base p' * p_quote p') ->
  lp_price C (with_amm E s) a base = Ok (Some x) -> lp_price C (with_amm E s') a base = Ok (Some x') -> x.1 <= x'.1.
Proof.
  intros Hi Hi' Hk. unfold lp_price, bind_o, lift. cbn [rbind].
  change (mantissa (with_amm E s)) with (mantissa E). change (mantissa (with_amm E s')) with (mantissa E).
  change (vault_price (with_amm E s)) with (vault_price E). change (vault_price (with_amm E s')) with (vault_price E).
  change (pe_pool (with_amm E s)) with (pool_by_lp s). change (pe_pool (with_amm E s')) with (pool_by_lp s').
  change (pe_iss (with_amm E s)) with (iss (led s)). change (pe_iss (with_amm E s')) with (iss (led s')). rewrite Hi'.
  change (pe_isv (with_amm E s)) with (pe_isv E). change (pe_isv (with_amm E s')) with (pe_isv E).
  destruct (mantissa E a) as [m|]; [|discriminate]. cbn [rbind].
  destruct (pool_by_lp s a) as [[[b q] p]|] eqn:Ep; [|discriminate]. destruct (Hk b q p eq_refl) as (p' & -> & Hpp).
  destruct ((q =? pc_relay C) && pe_isv E b); [|discriminate]. cbn [fst snd rbind].
  destruct (mantissa E b) as [bm|]; [|discriminate]. cbn [rbind]. destruct (checked_div m bm) as [diff|]; [|discriminate]. cbn [rbind].
  destruct (chk (Z.sqrt (p_base p * p_quote p) * 2)) as [l|] eqn:El; [|discriminate]. destruct (chk (Z.sqrt (p_base p' * p_quote p') * 2)) as [l'|] eqn:El'; [|discriminate].
  apply chk_some in El as [-> El]. apply chk_some in El' as [-> El']. cbn [rbind].
  assert (Hl : Z.sqrt (p_base p * p_quote p) * 2 <= Z.sqrt (p_base p' * p_quote p') * 2) by (apply Z.sqrt_le_mono in Hpp; lia).
  destruct (f_saturating_from_rational (Z.sqrt (p_base p * p_quote p) * 2) (iss (led s) a)) as [r| |] eqn:Er; try discriminate.
  destruct (f_saturating_from_rational (Z.sqrt (p_base p' * p_quote p') * 2) (iss (led s) a)) as [r'| |] eqn:Er'; try discriminate. cbn [rbind].
  pose proof (from_rational_mono _ _ _ _ _ (conj (proj1 El) Hl) Hi Er Er') as Hrr.
  destruct (vault_price E b base) as [vp|] eqn:Ev; [|discriminate]. cbn [rbind].
  assert (Hvp : 0 <= vp.1). { unfold vault_price in Ev. destruct (pe_yield E b); [|discriminate]. destruct (pe_isv E b); [|discriminate]. destruct (pe_vrate E b z); [|discriminate]. unfold scale in Ev. destruct (f_checked_mul base.1 z0) eqn:Ez; [|discriminate]. injection Ev as <-. apply f_checked_mul_some in Ez. cbn. lia. }
  destruct (f_checked_mul vp.1 r) as [y|] eqn:Ey; [|discriminate]. destruct (f_checked_mul vp.1 r') as [y'|] eqn:Ey'; [|discriminate]. cbn [rbind].
  destruct (f_checked_mul y (sat128 (diff * FDIV))) as [z|] eqn:Ez; [|discriminate]. destruct (f_checked_mul y' (sat128 (diff * FDIV))) as [z'|] eqn:Ez'; [|discriminate]. cbn [rbind].
  intros H1 H2. injection H1 as <-. injection H2 as <-. cbn [fst].
  pose proof (sat128_range (diff * FDIV)).
  assert (y <= y') by (eapply (fmul_mono2 vp.1 vp.1 r r'); [lia|lia|lia|lia|exact Ey|exact Ey']).
  apply f_checked_mul_some in Ey as [Ey0 Ey1].
  eapply (fmul_mono2 y y'); [| | | |exact Ez|exact Ez']; lia.
Qed.
