(** * PriceProps: the price properties (C105-C109). *)
From Verif Require Import Base Ledger AmmModel AmmSpec AmmProofs AmmInv AmmEx AmmProps AmmProps2 LoansModel LoansSpec LsModel LsSpec LsProps PriceModel PriceSpec PriceProofs.

(** A chain with relay token 100 (10 decimals), liquid token 1000, vault token 100000001 and its LP token 5100, oracle for 100 and 7. *)
Definition qC : pr_cfg := mkPrCfg 100 (fun o => match o with Root => true | _ => false end) (fun o => match o with Root => true | _ => false end).
Definition qE : pr_env := mkPrEnv (fun a => if a =? 7 then Some 6 else Some 10)
  (fun a => if a =? 100 then Some (5 * 10 ^ 18, 77) else if a =? 7 then Some (10 ^ 18, 78) else None)
  (Some 1000) (Some (12 * 10 ^ 17)) (fun a => if a =? 100000001 then Some (10 ^ 17) else None) (fun a => a =? 100000001) (fun _ _ => Some (9 * 10 ^ 17)) (fun _ => None) (fun _ => 0).
Definition q0 : prices := mkPrices ∅ ∅.
Definition q_ops : list amm_op := [OCreate Root (100, 100000001) (4000000, 1000000) 10 5100; OSwap 5 11 (100, 100000001) 10000].
Definition qL : ledger := mk_ledger [(100, 10, 10^15); (100000001, 10, 10^15); (100, 11, 10^15)].
Definition qA : amm := exrun (amm_init qL) q_ops.
Lemma qA_reach : amm_reachable exC allow_all qA.
Proof. apply exrun_reach; [apply amm_reach_init, mk_ledger_wf|vm_compute; reflexivity]. Qed.

(** ** C105.  An emergency price set by the feeder is what the asset is priced at until it is reset, whatever the oracle says; it
    touches no other asset. *)
Theorem C105_emergency_price_wins C E s o a p s' d : pr_step C s (PSet o a p) = Ok s' -> decimals E a d -> 0 <= p -> p * 10 ^ 18 / 10 ^ d <= U128MAX ->
  pc_feeder C o = true /\ (forall n, get_price C E n s' a = Ok (Some (p * 10 ^ 18 / 10 ^ d, 0))) /\
  (forall n b, b <> a -> get_price C E n s' b = get_price C E n s b) /\ (forall n b, get_no_op C E n s' b = get_no_op C E n s b).
Proof.
  change (10 ^ 18) with FDIV. intros H Hd Hp Hu. cbn [pr_step] in H. bstep H u Eu. injection H as <-. split; [auto|]. split; [|split].
  - intros n. unfold get_price. rewrite (emergency_of E _ a d p Hd); auto. cbn [pr_emg]. apply lookup_insert.
  - intros n b Hb. apply get_price_foreign; [reflexivity|]. unfold emergency_price. cbn [pr_emg]. rewrite lookup_insert_ne by auto. reflexivity.
  - intros n b. unfold get_no_op. destruct (mantissa E b); [|auto]. destruct (pe_src E (pc_relay C)); [|auto]. erewrite special_foreign; [reflexivity|reflexivity].
Qed.
Print Assumptions C105_emergency_price_wins.
Theorem C105_reset_restores C E s o a p o' s1 s2 : pr_emg s !! a = None -> pr_step C s (PSet o a p) = Ok s1 -> pr_step C s1 (PReset o' a) = Ok s2 ->
  pc_feeder C o' = true /\ forall n b, get_price C E n s2 b = get_price C E n s b.
Proof.
  intros Hn H1 H2. cbn [pr_step] in *. bstep H1 u Eu. injection H1 as <-. bstep H2 v Ev. injection H2 as <-. split; [auto|]. intros n b. cbn [pr_emg pr_foreign].
  apply get_price_foreign; [reflexivity|]. unfold emergency_price. cbn [pr_emg]. rewrite delete_insert by auto. reflexivity.
Qed.
Print Assumptions C105_reset_restores.
Theorem C105_origins C s op s' : pr_step C s op = Ok s' ->
  match op with PSet o _ _ | PReset o _ => pc_feeder C o = true | PForeign o _ _ => pc_update C o = true end.
Proof. destruct op; cbn [pr_step]; intros H; bstep H u Eu; auto. Qed.
Print Assumptions C105_origins.
(** An emergency price too large to be expressed per smallest unit is silently ignored: the oracle's price stays in force. *)
Theorem C105_too_large_ignored_refuted :
  ~ (forall C E s o a p s' d v t, pr_step C s (PSet o a p) = Ok s' -> decimals E a d -> 0 <= p <= U128MAX -> get_price C E 0 s' a = Ok (Some (v, t)) -> v = p * 10 ^ 18 / 10 ^ d).
Proof.
  intros H. specialize (H qC qE q0 Root 7 (10 ^ 30) (mkPrices {[7 := 10 ^ 30]} ∅) 6 (10 ^ 30) 78).
  assert (X : 10 ^ 30 = 10 ^ 30 * 10 ^ 18 / 10 ^ 6); [|vm_compute in X; discriminate X].
  apply H; [reflexivity|split; [reflexivity|split; [lia|apply Z.leb_le; vm_compute; reflexivity]]|split; apply Z.leb_le; vm_compute; reflexivity|vm_compute; reflexivity].
Qed.
Print Assumptions C105_too_large_ignored_refuted.
(** An emergency price of the relay token does not reach the liquid token: it is still priced by the oracle's relay price. *)
Theorem C105_liquid_follows_emergency_refuted :
  ~ (forall C E s o p s' d r v t l, pr_step C s (PSet o (pc_relay C) p) = Ok s' -> decimals E (pc_relay C) d -> decimals E l d -> is_ls_token l = true -> pe_liquid E = Some l -> pe_lrate E = Some r ->
       pr_emg s !! l = None -> 0 <= p -> get_price C E 0 s' (pc_relay C) = Ok (Some (p * 10 ^ 18 / 10 ^ d, 0)) -> get_price C E 0 s' l = Ok (Some (v, t)) ->
       v = p * r / 10 ^ 18 * 10 ^ 18 / 10 ^ d).
Proof.
  intros H. specialize (H qC qE q0 Root (10 ^ 18) (mkPrices {[100 := 10 ^ 18]} ∅) 10 (12 * 10 ^ 17) (6 * 10 ^ 26) 77 1000).
  assert (X : 6 * 10 ^ 26 = 10 ^ 18 * (12 * 10 ^ 17) / 10 ^ 18 * 10 ^ 18 / 10 ^ 10); [|vm_compute in X; discriminate X].
  assert (D : forall a, (a =? 7) = false -> decimals qE a 10). { intros a Ha. split; [cbn; rewrite Ha; reflexivity|]. split; [lia|apply Z.leb_le; vm_compute; reflexivity]. }
  apply H; try reflexivity; try (apply D; reflexivity); try lia; vm_compute; reflexivity.
Qed.
Print Assumptions C105_liquid_follows_emergency_refuted.
Example C105_example : okb (pr_step qC q0 (PSet Root 7 (2 * 10 ^ 18))) (fun s' => match get_price qC qE 3 s' 7 with Ok (Some (v, t)) => (v =? 2 * 10 ^ 30) && (t =? 0) | _ => false end) = true /\
  decimals qE 7 6 /\ get_price qC qE 3 q0 7 = Ok (Some (10 ^ 30, 78)).
Proof. split; [vm_compute; reflexivity|]. split; [split; [reflexivity|]; split; [lia|apply Z.leb_le; vm_compute; reflexivity]|vm_compute; reflexivity]. Qed.

(** ** C106.  An ordinary asset is priced per smallest unit at exactly the oracle's price, rounded down, with the oracle's
    timestamp; without an oracle price it has no price. *)
Theorem C106_oracle_price_exact C E n s a d : ordinary s a -> pr_emg s !! a = None -> decimals E a d ->
  (forall v t, pe_src E a = Some (v, t) -> 0 <= v -> v * 10 ^ 18 / 10 ^ d <= U128MAX ->
     exists x, get_price C E n s a = Ok (Some (x, t)) /\ x * 10 ^ d <= v * 10 ^ 18 < (x + 1) * 10 ^ d) /\
  (pe_src E a = None -> get_price C E n s a = Ok None).
Proof.
  change (10 ^ 18) with FDIV. intros Ho He Hd. unfold get_price. rewrite emergency_none by auto. rewrite (mantissa_dec E a d Hd).
  replace (match pe_src E (pc_relay C) with Some base => special_price C E n s a base | None => Ok None end) with (@Ok (option (Z * Z)) None).
  2:{ destruct (pe_src E (pc_relay C)); [|reflexivity]. rewrite ordinary_special; auto. }
  cbn [rbind]. pose proof (pow10_pos d (proj1 (proj2 Hd))) as Hp. split.
  - intros v t Hs Hv Hu. rewrite Hs. unfold normalize. cbn [fst snd]. rewrite fdiv_ok by auto. eexists. split; [reflexivity|].
    pose proof (div_le_mul (v * FDIV) (10 ^ d) Hp). pose proof (div_gt_mul (v * FDIV) (10 ^ d) Hp). lia.
  - intros ->. reflexivity.
Qed.
Print Assumptions C106_oracle_price_exact.
(** Hence the value of any amount is right up to one unit of the price's precision per smallest unit. *)
Theorem C106_value_exact C E n s a d v t x amt : ordinary s a -> pr_emg s !! a = None -> decimals E a d -> pe_src E a = Some (v, t) -> 0 <= v -> v * 10 ^ 18 / 10 ^ d <= U128MAX -> 0 <= amt ->
  get_price C E n s a = Ok (Some (x, t)) -> x * amt * 10 ^ d <= v * amt * 10 ^ 18 <= x * amt * 10 ^ d + amt * 10 ^ d.
Proof.
  intros Ho He Hd Hs Hv Hu Ha Hg. destruct (proj1 (C106_oracle_price_exact C E n s a d Ho He Hd) v t Hs Hv Hu) as (y & Hy & H). rewrite Hg in Hy. injection Hy as <-.
  change (10 ^ 18) with FDIV in *. pose proof (pow10_pos d (proj1 (proj2 Hd))). generalize dependent (10 ^ d). intros. nia.
Qed.
Print Assumptions C106_value_exact.
Example C106_example : ordinary q0 7 /\ decimals qE 7 6 /\ get_price qC qE 0 q0 7 = Ok (Some (10 ^ 30, 78)) /\ get_price qC qE 0 q0 8 = Ok None.
Proof. split; [repeat split|]. split; [split; [reflexivity|]; split; [lia|apply Z.leb_le; vm_compute; reflexivity]|vm_compute; auto]. Qed.

(** ** C107.  The liquid token is priced at the relay price times the exchange rate, rounded down, and never falls when only the
    exchange rate grows; by C37 it therefore never falls through liquid staking, at a constant oracle price. *)
Theorem C107_liquid_price_exact C E n s l d v t r : is_ls_token l = true -> pr_emg s !! l = None -> decimals E l d -> pe_liquid E = Some l -> pe_lrate E = Some r ->
  pe_src E (pc_relay C) = Some (v, t) -> 0 <= v -> 0 <= r -> v * r / 10 ^ 18 <= U128MAX -> v * r / 10 ^ 18 * 10 ^ 18 / 10 ^ d <= U128MAX ->
  get_price C E n s l = Ok (Some (v * r / 10 ^ 18 * 10 ^ 18 / 10 ^ d, t)).
Proof.
  change (10 ^ 18) with FDIV. intros Hl He Hd Hq Hr Hs Hv Hr0 Hu1 Hu2. unfold get_price. rewrite emergency_none by auto. rewrite (mantissa_dec E l d Hd), Hs.
  assert (Hx : 0 <= v * r / FDIV) by (apply Z.div_pos; [nia|apply FDIV_pos]).
  assert (Es : special_price C E n s l (v, t) = Ok (Some (v * r / FDIV, t))).
  { destruct n; cbn [special_price]; rewrite Hl; unfold staking_price; rewrite Hq, Z.eqb_refl, Hr; unfold scale, f_checked_mul; cbn [fst snd].
    all: rewrite (proj2 (chk_some (v * r / FDIV) (v * r / FDIV))) by auto; reflexivity. }
  rewrite Es. cbn [rbind]. unfold normalize. cbn [fst snd]. rewrite fdiv_ok; auto. apply pow10_pos, Hd.
Qed.
Print Assumptions C107_liquid_price_exact.
Theorem C107_liquid_price_never_falls C E n s l v t r r' p p' : is_ls_token l = true -> pe_liquid E = Some l -> pe_src E (pc_relay C) = Some (v, t) -> 0 <= v -> 0 <= r <= r' -> v * r' / 10 ^ 18 <= U128MAX ->
  get_price C (with_rate E r) n s l = Ok p -> get_price C (with_rate E r') n s l = Ok p' -> price_le p p'.
Proof.
  change (10 ^ 18) with FDIV. intros Hl Hq Hs Hv Hr Hu. unfold get_price.
  change (emergency_price (with_rate E r) s l) with (emergency_price E s l). change (emergency_price (with_rate E r') s l) with (emergency_price E s l).
  change (mantissa (with_rate E r) l) with (mantissa E l). change (mantissa (with_rate E r') l) with (mantissa E l).
  change (pe_src (with_rate E r)) with (pe_src E). change (pe_src (with_rate E r')) with (pe_src E).
  destruct (emergency_price E s l) as [q|]; [intros H1 H2; injection H1 as <-; injection H2 as <-; cbn; lia|].
  destruct (mantissa E l) as [m|] eqn:Em; [|intros H1 H2; injection H1 as <-; exact I]. rewrite Hs.
  assert (Es : forall x, 0 <= x <= r' -> special_price C (with_rate E x) n s l (v, t) = Ok (Some (v * x / FDIV, t))).
  { intros x Hx. pose proof FDIV_pos. assert (0 <= v * x / FDIV <= U128MAX). { split; [apply Z.div_pos; nia|]. etransitivity; [|exact Hu]. apply Z.div_le_mono; nia. }
    destruct n; cbn [special_price]; rewrite Hl; unfold staking_price; cbn [with_rate pe_liquid pe_lrate]; rewrite Hq, Z.eqb_refl; unfold scale, f_checked_mul; cbn [fst snd].
    all: rewrite (proj2 (chk_some (v * x / FDIV) (v * x / FDIV))) by auto; reflexivity. }
  rewrite (Es r), (Es r') by lia. cbn [rbind]. intros H1 H2. injection H1 as <-. injection H2 as <-.
  pose proof FDIV_pos. assert (v * r / FDIV <= v * r' / FDIV) by (apply Z.div_le_mono; nia).
  destruct (mantissa_pos _ _ _ Em) as [Hm| ->]; [apply normalize_mono; cbn; auto|]. exact I.
Qed.
Print Assumptions C107_liquid_price_never_falls.
Theorem C107_liquid_price_over_history CL EL sl sl' C E n s l v t p p' : ls_cfg_ok CL -> relay_ok EL -> ls_reachable CL EL any_call sl -> ls_steps CL EL any_call sl sl' -> 0 <= ls_rate sl ->
  is_ls_token l = true -> pe_liquid E = Some l -> pe_src E (pc_relay C) = Some (v, t) -> 0 <= v -> v * ls_rate sl' / 10 ^ 18 <= U128MAX ->
  get_price C (with_rate E (ls_rate sl)) n s l = Ok p -> get_price C (with_rate E (ls_rate sl')) n s l = Ok p' -> price_le p p'.
Proof.
  intros H1 H2 H3 H4 H0 Hl Hq Hs Hv Hu. pose proof (C37_rate_never_falls CL EL sl sl' H1 H2 H3 H4).
  apply (C107_liquid_price_never_falls C E n s l v t); auto.
Qed.
Print Assumptions C107_liquid_price_over_history.
Example C107_example : is_ls_token 1000 = true /\ decimals qE 1000 10 /\ get_price qC qE 0 q0 1000 = Ok (Some (6 * 10 ^ 26, 77)) /\ get_price qC (with_rate qE (13 * 10 ^ 17)) 0 q0 1000 = Ok (Some (65 * 10 ^ 25, 77)).
Proof. split; [reflexivity|]. split; [split; [reflexivity|]; split; [lia|apply Z.leb_le; vm_compute; reflexivity]|vm_compute; auto]. Qed.

(** ** C108.  The price of a liquidation LP token is that of its vault token times 2*sqrt(product of the reserves)/issuance; no
    reachable AMM state makes the query panic, and no swap, by anybody, lowers it. *)
Theorem C108_lp_price_exact C E n s a b q p d db base vp y : is_lf_lp_token a = true -> pr_emg s !! a = None -> decimals E a d -> decimals E b db -> db <= d ->
  pe_pool E a = Some (b, q, p) -> q = pc_relay C -> pe_isv E b = true -> 0 < pe_iss E a -> 0 <= p_base p * p_quote p ->
  pe_src E (pc_relay C) = Some base -> vault_price E b base = Some vp ->
  let liq := 2 * Z.sqrt (p_base p * p_quote p) in let rate := liq * 10 ^ 18 / pe_iss E a in let x := vp.1 * rate / 10 ^ 18 in
  liq <= U128MAX -> rate <= U128MAX -> x <= U128MAX -> 10 ^ (d - db) * 10 ^ 18 <= U128MAX -> x * 10 ^ (d - db) <= U128MAX -> y = x * 10 ^ (d - db) * 10 ^ 18 / 10 ^ d -> y <= U128MAX ->
  get_price C E n s a = Ok (Some (y, vp.2)).
Proof.
  intros Ha He Hd Hdb Hdd Hp -> Hi Hiss Hk Hs Hvp liq rate x L1 L2 L3 L4 L5 -> L6. change (10 ^ 18) with FDIV in *. unfold get_price. rewrite emergency_none by auto. rewrite (mantissa_dec E a d Hd), Hs.
  pose proof FDIV_pos as HF. assert (Hliq : 0 <= liq) by (unfold liq; pose proof (Z.sqrt_nonneg (p_base p * p_quote p)); lia).
  assert (Hrate : 0 <= rate) by (unfold rate; apply Z.div_pos; nia).
  assert (Hv0 : 0 <= vp.1). { unfold vault_price in Hvp. destruct (pe_yield E b); [|discriminate]. destruct (pe_isv E b); [|discriminate]. destruct (pe_vrate E b z); [|discriminate]. unfold scale in Hvp. destruct (f_checked_mul base.1 z0) eqn:Ez; [|discriminate]. injection Hvp as <-. apply f_checked_mul_some in Ez. cbn. lia. }
  assert (Hx : 0 <= x) by (unfold x; apply Z.div_pos; nia).
  assert (Hpd : 10 ^ d / 10 ^ db = 10 ^ (d - db)). { destruct Hd as (_ & ? & _), Hdb as (_ & ? & _). symmetry. apply Z.pow_sub_r; lia. }
  assert (Hpp : 0 < 10 ^ (d - db)) by (apply pow10_pos; lia).
  assert (Hpdb : 0 < 10 ^ db) by (apply pow10_pos; apply Hdb).
  assert (El : lp_price C E a base = Ok (Some (x * 10 ^ (d - db), vp.2))).
  { unfold lp_price, bind_o, lift. cbn [rbind]. rewrite (mantissa_dec E a d Hd). cbn [rbind]. rewrite Hp, Z.eqb_refl, Hi. cbn [andb rbind fst snd]. rewrite (mantissa_dec E b db Hdb). cbn [rbind].
    unfold checked_div. replace (10 ^ db =? 0) with false by lia. cbn [rbind]. rewrite Hpd.
    replace (Z.sqrt (p_base p * p_quote p) * 2) with liq by (unfold liq; lia). rewrite (proj2 (chk_some liq liq)) by auto. cbn [rbind].
    unfold f_saturating_from_rational. replace (pe_iss E a =? 0) with false by lia. cbn [rbind]. rewrite Hvp. cbn [rbind].
    fold rate. rewrite (sat128_id rate) by auto. unfold f_checked_mul. fold x. rewrite (proj2 (chk_some x x)) by auto. cbn [rbind].
    rewrite (sat128_id (10 ^ (d - db) * FDIV)) by nia. replace (x * (10 ^ (d - db) * FDIV) / FDIV) with (x * 10 ^ (d - db)). 2:{ rewrite Z.mul_assoc, Z.div_mul by lia. reflexivity. }
    rewrite (proj2 (chk_some (x * 10 ^ (d - db)) (x * 10 ^ (d - db)))) by (split; [auto|nia]). reflexivity. }
  assert (N : is_ls_token a = false /\ is_vault_token a = false). { unfold is_lf_lp_token, is_ls_token, is_vault_token in *. split; lia. }
  assert (Es : special_price C E n s a base = Ok (Some (x * 10 ^ (d - db), vp.2))). { destruct n; cbn [special_price]; rewrite (proj1 N), (proj2 N), Ha; exact El. }
  rewrite Es. cbn [rbind]. unfold normalize. cbn [fst snd]. rewrite fdiv_ok; auto; [nia|apply pow10_pos, Hd].
Qed.
Print Assumptions C108_lp_price_exact.
Theorem C108_no_panic CA P A C E n s a (rk : Z -> nat) : AmmSpec.cfg_ok CA -> 0 < min_liq CA -> amm_reachable CA P A ->
  (forall f b, pr_foreign s !! f = Some b -> (rk b < rk f)%nat) -> (rk a <= n)%nat -> get_price C (with_amm E A) n s a <> Panic.
Proof.
  intros HA Hm HR Hr Hn. unfold get_price. destruct (emergency_price (with_amm E A) s a); [discriminate|]. destruct (mantissa (with_amm E A) a); [|discriminate].
  destruct (pe_src (with_amm E A) (pc_relay C)) as [base|]; [|discriminate].
  assert (X : special_price C (with_amm E A) n s a base <> Panic).
  { eapply special_no_panic; [|exact Hr|exact Hn]. intros x _ Hx. cbn [with_amm pe_pool pe_iss] in *. destruct (pool_by_lp A x) as [[[b q] p]|] eqn:Ep; [|congruence].
    apply pool_by_lp_some in Ep as [Ep <-]. destruct (C07_pool_never_drained CA P A _ _ HA HR Ep) as (_ & _ & _ & H). lia. }
  destruct (special_price C (with_amm E A) n s a base); cbn [rbind]; congruence.
Qed.
Print Assumptions C108_no_panic.
Theorem C108_swap_never_lowers CA P now A who ai ao amt out A' C E n s a p p' : AmmSpec.cfg_ok CA -> 0 < min_liq CA -> amm_reachable CA P A -> 0 <= amt -> who <> amm_acct CA ->
  do_swap CA P now A who (ai, ao) amt = Ok (out, A') -> is_lf_lp_token a = true ->
  pe_src E a = None -> get_price C (with_amm E A) n s a = Ok p -> get_price C (with_amm E A') n s a = Ok p' -> price_le p p'.
Proof.
  intros HA Hm HR Ha Hw Hsw Hl Hns. assert (Hnn : reserves_nonneg A). { intros k q Hk. destruct (C07_pool_never_drained CA P A _ _ HA HR Hk) as (? & ? & _). lia. }
  destruct (C01_swap_preserves_product CA P now A who ai ao amt out A' HA Hnn Ha Hw Hsw) as (q & q' & Hq & Hq' & Hkp & _ & _ & Hiss & _ & _ & Hlp). cbv zeta in Hq.
  unfold get_price. change (emergency_price (with_amm E A) s a) with (emergency_price E s a). change (emergency_price (with_amm E A') s a) with (emergency_price E s a).
  change (mantissa (with_amm E A) a) with (mantissa E a). change (mantissa (with_amm E A') a) with (mantissa E a).
  change (pe_src (with_amm E A)) with (pe_src E). change (pe_src (with_amm E A')) with (pe_src E). rewrite Hns.
  destruct (emergency_price E s a) as [e|]; [intros H1 H2; injection H1 as <-; injection H2 as <-; cbn; lia|].
  destruct (mantissa E a) as [m|] eqn:Em; [|intros H1 H2; injection H1 as <-; exact I].
  destruct (pe_src E (pc_relay C)) as [base|]; [|intros H1 H2; injection H1 as <-; exact I].
  assert (N : is_ls_token a = false /\ is_vault_token a = false). { unfold is_lf_lp_token, is_ls_token, is_vault_token in *. split; lia. }
  assert (Es : forall X, special_price C X n s a base = lp_price C X a base). { intros X. destruct n; cbn [special_price]; rewrite (proj1 N), (proj2 N), Hl; reflexivity. }
  rewrite !Es. intros H1 H2.
  destruct (lp_price C (with_amm E A) a base) as [[x|]| |] eqn:E1; cbn [rbind] in H1; try discriminate H1; [|injection H1 as <-; exact I].
  destruct (lp_price C (with_amm E A') a base) as [[x'|]| |] eqn:E2; cbn [rbind] in H2; try discriminate H2; [|injection H2 as <-; injection H1 as <-; unfold price_le; destruct (normalize x m); exact I].
  injection H1 as <-. injection H2 as <-.
  destruct (mantissa_pos _ _ _ Em) as [Hmm| ->]; [|exact I]. apply normalize_mono; [|auto].
  assert (Hpool : forall b1 q1 p1, pool_by_lp A a = Some (b1, q1, p1) -> exists p2, pool_by_lp A' a = Some (b1, q1, p2) /\ p_base p1 * p_quote p1 <= p_base p2 * p_quote p2).
  { intros b1 q1 p1 Hp1. apply pool_by_lp_some in Hp1 as [Hp1 Hp1l].
    assert (U : forall k1 p1 k2 p2, pools A' !! k1 = Some p1 -> pools A' !! k2 = Some p2 -> p_lp p1 = p_lp p2 -> k1 = k2).
    { rewrite Hq'. intros k1 r1 k2 r2 X1 X2 X3. apply lookup_insert_Some in X1 as [[<- <-]|[X1n X1]]; apply lookup_insert_Some in X2 as [[<- <-]|[X2n X2]]; auto.
      - eapply (C08_lp_tokens_unique CA P A); eauto. congruence.
      - eapply (C08_lp_tokens_unique CA P A); eauto. congruence.
      - eapply (C08_lp_tokens_unique CA P A); eauto. }
    destruct (decide ((b1, q1) = pair_key ai ao)) as [Hk|Hk].
    - rewrite Hk, Hq in Hp1. injection Hp1 as <-. exists q'. split; [|exact Hkp].
      rewrite <- Hp1l, <- Hlp. apply pool_by_lp_of; [exact U|]. rewrite Hq', Hk. apply lookup_insert.
    - exists p1. split; [|lia]. rewrite <- Hp1l. apply pool_by_lp_of; [exact U|]. rewrite Hq', lookup_insert_ne by congruence. exact Hp1. }
  eapply (lp_price_mono C E A A' a base x x'); eauto.
  destruct (pool_by_lp A a) as [[[b1 q1] p1]|] eqn:Ep.
  - apply pool_by_lp_some in Ep as [Ep <-]. destruct (C07_pool_never_drained CA P A _ _ HA HR Ep) as (_ & _ & _ & H). lia.
  - rewrite lp_price_no_pool in E1 by exact Ep. discriminate E1.
Qed.
Print Assumptions C108_swap_never_lowers.
Example C108_example : amm_reachable exC allow_all qA /\ is_lf_lp_token 5100 = true /\ get_price qC (with_amm qE qA) 0 q0 5100 = Ok (Some (900003150000000000000000000, 77)) /\
  okb (do_swap exC allow_all 9 qA 11 (100, 100000001) 500000) (fun r => someb (match get_price qC (with_amm qE r.2) 0 q0 5100 with Ok p => p | _ => None end) (fun x => 900003150000000000000000000 <? x.1)) = true.
Proof. split; [apply qA_reach|]. split; [reflexivity|]. vm_compute. auto. Qed.

(** Auxiliary tokens of the relay token cost what it costs, in their own decimals; the raw query is the same before normalisation. *)
Theorem C106_auxiliary_price_exact C E n s a d v t :
  is_ls_token a = false -> is_vault_token a = false -> is_lf_lp_token a = false -> is_auxiliary_token a = true ->
  pr_emg s !! a = None -> decimals E a d -> pe_src E (pc_relay C) = Some (v, t) -> 0 <= v -> v * 10 ^ 18 / 10 ^ d <= U128MAX ->
  get_price C E n s a = Ok (Some (v * 10 ^ 18 / 10 ^ d, t)) /\ get_no_op C E n s a = Ok (Some (v, t)).
Proof.
  change (10 ^ 18) with FDIV. intros H1 H2 H3 H4 He Hd Hs Hv Hu. unfold get_price, get_no_op. rewrite emergency_none by auto. rewrite (mantissa_dec E a d Hd), Hs.
  assert (Q : special_price C E n s a (v, t) = Ok (Some (v, t))) by (destruct n; cbn [special_price]; rewrite H1, H2, H3, H4; reflexivity).
  rewrite Q. cbn [rbind]. split; [|reflexivity]. unfold normalize. cbn [fst snd]. rewrite fdiv_ok; auto. apply pow10_pos. apply Hd.
Qed.
(** The two queries differ only by the emergency prices and the division by the mantissa. *)
Theorem C106_raw_price C E n s a d :
  pr_emg s !! a = None -> decimals E a d ->
  match get_no_op C E n s a with
  | Ok (Some (v, t)) => 0 <= v -> v * 10 ^ 18 / 10 ^ d <= U128MAX -> get_price C E n s a = Ok (Some (v * 10 ^ 18 / 10 ^ d, t))
  | Ok None => get_price C E n s a = Ok None
  | Err e => get_price C E n s a = Err e
  | Panic => get_price C E n s a = Panic
  end.
Proof.
  change (10 ^ 18) with FDIV. intros He Hd. unfold get_no_op, get_price. rewrite emergency_none by auto. rewrite (mantissa_dec E a d Hd).
  destruct (match pe_src E (pc_relay C) with Some base => special_price C E n s a base | None => Ok None end) as [sp|e|]; cbn [rbind]; auto.
  destruct (match sp with Some x => Some x | None => pe_src E a end) as [[v t]|]; auto.
  intros Hv Hu. unfold normalize. cbn [fst snd]. rewrite fdiv_ok; auto. apply pow10_pos. apply Hd.
Qed.
Example C106_auxiliary_example :
  is_auxiliary_token (U32MAX - 5) = true /\ is_vault_token (U32MAX - 5) = false /\
  get_no_op qC qE 0 q0 (U32MAX - 5) = Ok (Some (5 * 10 ^ 18, 77)) /\ get_price qC qE 0 q0 (U32MAX - 5) = Ok (Some (5 * 10 ^ 26, 77)) /\
  get_no_op qC qE 0 q0 7 = Ok (Some (10 ^ 18, 78)) /\ get_price qC qE 0 q0 7 = Ok (Some (10 ^ 30, 78)).
Proof. vm_compute. auto 10. Qed.
Print Assumptions C106_auxiliary_price_exact.
Print Assumptions C106_raw_price.

(** ** C109.  A foreign token registered for a special token is priced like that token, in its own decimals; if the registered
    links have no cycle the answer does not depend on the depth of the recursion. *)
Theorem C109_foreign_like_native C E n s f b m : ordinary (mkPrices (pr_emg s) ∅) f -> pr_foreign s !! f = Some b -> pr_emg s !! f = None -> mantissa E f = Some m ->
  forall base x, pe_src E (pc_relay C) = Some base -> special_price C E n s b base = Ok (Some x) -> get_price C E (S n) s f = Ok (normalize x m).
Proof.
  intros (N1 & N2 & N3 & N4 & _) Hf He Hm base x Hs Hx. unfold get_price. rewrite emergency_none by auto. rewrite Hm, Hs.
  cbn [special_price]. rewrite N1, N2, N3, N4, Hf, Hx. reflexivity.
Qed.
(** Registering a foreign token links it, and only it, to the token it stands for. *)
Theorem C109_link_exact C s o f a s' :
  pr_step C s (PForeign o f a) = Ok s' ->
  pc_update C o = true /\ pr_emg s' = pr_emg s /\ (forall x, pr_foreign s' !! x = if bool_decide (x = f) then Some a else pr_foreign s !! x).
Proof.
  cbn [pr_step]. intros H. bstep H x E. injection H as <-. split; [exact E|]. split; [reflexivity|]. intros y. cbn [pr_foreign].
  destruct (decide (y = f)) as [->|N]; [rewrite lookup_insert, bool_decide_true by reflexivity; reflexivity|].
  rewrite lookup_insert_ne, bool_decide_false by auto. reflexivity.
Qed.
Print Assumptions C109_link_exact.
Print Assumptions C109_foreign_like_native.
Theorem C109_depth_irrelevant C E s a (rk : Z -> nat) n m : (forall f b, pr_foreign s !! f = Some b -> (rk b < rk f)%nat) -> (rk a <= n)%nat -> (rk a <= m)%nat ->
  get_price C E n s a = get_price C E m s a.
Proof.
  intros Hr Hn Hm. unfold get_price. destruct (emergency_price E s a); [auto|]. destruct (mantissa E a); [|auto]. destruct (pe_src E (pc_relay C)); [|auto].
  rewrite (special_depth C E s a _ rk Hr n m Hn Hm). reflexivity.
Qed.
Print Assumptions C109_depth_irrelevant.
(** The update origin can register a token for itself: every price query of it then recurses without end. *)
Theorem C109_query_terminates_refuted :
  exists C E s o a s', pr_step C s (PForeign o a a) = Ok s' /\ pr_emg s' = ∅ /\ is_Some (pe_src E a) /\ forall n, get_price C E n s' a = Panic.
Proof.
  exists qC, qE, q0, Root, 7, (mkPrices ∅ {[7 := 7]}). split; [reflexivity|]. split; [reflexivity|]. split; [eexists; reflexivity|].
  intros n. unfold get_price. rewrite emergency_none by reflexivity.
  replace (mantissa qE 7) with (Some (10 ^ 6)) by (vm_compute; reflexivity). cbn [qE pe_src qC pc_relay]. replace (100 =? 100) with true by reflexivity.
  rewrite special_loop; reflexivity.
Qed.
Print Assumptions C109_query_terminates_refuted.
Definition q_rank (x : Z) : nat := if x =? 9 then 1%nat else 0%nat.
Example C109_example : get_price qC qE 1 (mkPrices ∅ {[9 := 1000]}) 9 = Ok (Some (6 * 10 ^ 26, 77)) /\
  (forall f b : Z, pr_foreign (mkPrices ∅ {[9 := 1000]}) !! f = Some b -> (q_rank b < q_rank f)%nat).
Proof. split; [vm_compute; reflexivity|]. cbn [pr_foreign]. intros f b H. apply lookup_singleton_Some in H as [<- <-]. cbn. lia. Qed.
