(** * RouterProps2: routed trades go through (C172). *)
From Verif Require Import Base MapSum Ledger AmmModel AmmSpec AmmProofs AmmInv AmmEx AmmProofs5 RouterModel RouterSpec RouterProofs RouterProofs2 RouterProofs4.
From Verif Require Import AmmProps2 RouterProps.

(** ** C172.  A trader who holds the input gets a trade on a valid route whose quote meets the limit.  Exact input: the trade goes through
    and delivers the quote, for routes of any length, as long as each hop fits its pool (at least one fee unit, no overflow). *)
Lemma route_checks_prog R r : r <> [] -> Z.of_nat (length r) <= max_len R -> NoDup r -> route_checks R r = Ok tt.
Proof.
  intros H1 H2 H3. unfold route_checks. rewrite bool_decide_false by exact H1. cbn [negb ensure rbind]. replace (_ <=? max_len R) with true by lia. cbn [ensure rbind].
  assert (H : contains_duplicate r = false); [|rewrite H; reflexivity]. clear -H3. induction H3 as [|a r Ha Hr IH]; [reflexivity|]. cbn. rewrite bool_decide_false by exact Ha. exact IH.
Qed.
Theorem C172_exact_input_goes_through_partial R P now s who r ain minout amounts out :
  cfg_ok (r_amm R) -> amm_reachable (r_amm R) P s -> lenient P -> user (r_amm R) who -> 0 <= now -> 0 < lp_fee (r_amm R) ->
  r <> [] -> Z.of_nat (length r) <= max_len R -> NoDup r -> 0 < ain <= U128MAX ->
  ain <= bal (led s) (hd 0 r) who -> ain <= reducible P (hd 0 r =? native (r_amm R)) (led s) (hd 0 r) who ->
  get_amounts_out (r_amm R) (pools s) ain r = Ok amounts -> last amounts = Some out -> 0 <= minout <= out ->
  route_fits (r_amm R) now (pools s) r amounts ->
  exists s', swap_exact_tokens_for_tokens R P now s who r ain minout = Ok (s', ain, out).
Proof.
  intros HC HR LP HU Hn HF H1 H2 H3 Ha Hb Hred HA HL Hm HO. unfold swap_exact_tokens_for_tokens. rewrite route_checks_prog by auto. cbn [rbind].
  replace (0 <? ain) with true by lia. replace (0 <=? minout) with true by lia. cbn [andb ensure rbind]. replace (ain <=? _) with true by lia. cbn [ensure rbind].
  rewrite HA. cbn [rbind]. rewrite HL. cbn [unwrap rbind]. replace (minout <=? out) with true by lia. cbn [ensure rbind].
  destruct (route_prog R P now (pools s) who r HC LP HU Hn HF s ain amounts) as [s' E]; auto.
  { split; lia. } { intros a Hh. destruct r; [discriminate Hh|]. injection Hh as ->. exact Hb. }
  rewrite E. cbn [rbind]. exists s'. destruct (get_amounts_out_len R _ _ _ _ HA) as [_ Hhd]. destruct amounts; [discriminate Hhd|]. injection Hhd as ->. reflexivity.
Qed.
Print Assumptions C172_exact_input_goes_through_partial.
(** a pool traded in this block only needs the fee unit and the reserve to fit *)
Theorem C172_same_block_fits C now p a b y : p_ts p = now -> PMILL <= lp_fee C * y -> reserve (pair_key a b) p a + y <= U128MAX -> hop_fits C now p a b y.
Proof. intros H1 H2 H3. split; [exact H2|]. split; [exact H3|]. intros out _ _. destruct (a <? b); left; auto. Qed.
Print Assumptions C172_same_block_fits.
(** exact output, one hop: the trader must hold strictly more than the input *)
Theorem C172_exact_output_one_hop_partial R P now s who a b aout maxin x :
  cfg_ok (r_amm R) -> amm_reachable (r_amm R) P s -> lenient P -> user (r_amm R) who -> 0 <= now -> 0 < lp_fee (r_amm R) ->
  2 <= max_len R -> a <> b -> 0 < aout <= U128MAX ->
  get_amounts_in (r_amm R) (pools s) aout [a; b] = Ok [x; aout] -> x <= maxin -> 0 <= maxin ->
  x <= bal (led s) a who -> x < reducible P (a =? native (r_amm R)) (led s) a who ->
  (forall p, pools s !! pair_key a b = Some p -> hop_fits (r_amm R) now p a b x) ->
  exists s', swap_tokens_for_exact_tokens R P now s who [a; b] aout maxin = Ok (s', x, aout).
Proof.
  intros HC HR LP HU Hn HF HM Hne Hao HA Hx Hm Hb Hred HO. unfold swap_tokens_for_exact_tokens.
  rewrite route_checks_prog; [|discriminate|cbn; lia|repeat (apply NoDup_cons; split; [set_solver|]); apply NoDup_nil; exact I]. cbn [rbind].
  replace (0 <? aout) with true by lia. replace (0 <=? maxin) with true by lia. cbn [andb ensure rbind]. rewrite HA. cbn [rbind head unwrap hd]. replace (x <? _) with true by lia. cbn [ensure rbind].
  replace (x <=? maxin) with true by lia. cbn [ensure rbind swap_route last unwrap].
  pose proof HA as HA2. cbn [get_amounts_in] in HA2. bstep HA2 ins Ei. bstep HA2 q Eq. destruct q as [ri ro]. bstep HA2 z Ez. injection HA2 as Hz. apply get_reserves_spec in Eq as (p & Hp & _ & -> & ->).
  pose proof (get_amounts_in_u128 R (pools s) aout [a; b] [x; aout] ltac:(split; lia) HA) as UF. inversion UF as [|? ? Ux _]; subst.
  destruct (HO p Hp) as (F1 & F2 & F3). destruct (C80_swap_succeeds_partial (r_amm R) P now s who a b x p HC HR LP HU Hne Hp HF F1) as (o & s1 & E); auto.
  { split; [apply Ux|exact Hb]. }
  rewrite E. cbn [rbind]. eauto.
Qed.
Print Assumptions C172_exact_output_one_hop_partial.
(** a trader who holds exactly the input is refused an exact-output trade that the exact-input call carries out *)
Definition xo0 : ledger := mk_ledger [(100, 10, 1000000000000); (200, 10, 1000000000000); (100, 12, 5029)].
Definition xo1 : amm := exrun (amm_init xo0) [OCreate Root (100, 200) (2000000, 4000000) 10 900].
Lemma xo1_reachable : amm_reachable exC allow_all xo1.
Proof.
  unfold xo1, exrun. cbn [fold_left].
  repeat (apply amm_reach_step; [|cbn; repeat split; try ex_user; try lia]).
  apply amm_reach_init, mk_ledger_wf.
Qed.
Theorem C172_exact_output_refuted : exists R P now s who r x aout s', cfg_ok (r_amm R) /\ amm_reachable (r_amm R) P s /\ lenient P /\ user (r_amm R) who /\
  get_amounts_in (r_amm R) (pools s) aout r = Ok [x; aout] /\ bal (led s) (hd 0 r) who = x /\
  swap_tokens_for_exact_tokens R P now s who r aout x = Err "InsufficientBalance" /\
  swap_exact_tokens_for_tokens R P now s who r x aout = Ok (s', x, aout).
Proof.
  assert (E : okb (swap_exact_tokens_for_tokens exR allow_all 5 xo1 12 [100; 200] 5029 10000) (fun r => (r.1.2 =? 5029) && (r.2 =? 10000)) = true) by (vm_compute; reflexivity).
  apply okb_spec in E as ([[s' x] o] & E & E1). cbn [fst snd] in E1. apply andb_true_iff in E1 as [E1 E2]. apply Z.eqb_eq in E1, E2. subst x o.
  exists exR, allow_all, 5, xo1, 12, [100; 200], 5029, 10000, s'.
  split; [exact exC_ok|]. split; [exact xo1_reachable|]. split; [apply C80_example|]. split; [cbn; ex_user|].
  split; [vm_compute; reflexivity|]. split; [vm_compute; reflexivity|]. split; [vm_compute; reflexivity|]. exact E.
Qed.
Print Assumptions C172_exact_output_refuted.
(** the hypotheses are met: a three-token route whose hops fit, and an exact-output trade by a trader with a unit to spare *)
Lemma fits_b (C : amm_cfg) (ps : gmap (Z * Z) pool) (a b y : Z) : someb (ps !! pair_key a b) (fun p => (p_ts p =? 0) && (PMILL <=? lp_fee C * y) && (reserve (pair_key a b) p a + y <=? U128MAX)) = true ->
  forall p, ps !! pair_key a b = Some p -> hop_fits C 0 p a b y.
Proof.
  intros H p Hp. rewrite Hp in H. cbn [someb] in H. apply andb_true_iff in H as [H H3]. apply andb_true_iff in H as [H1 H2].
  apply Z.eqb_eq in H1. apply Z.leb_le in H2, H3. apply C172_same_block_fits; auto.
Qed.
Example C172_example :
  lenient allow_all /\ user (r_amm exR) 11 /\ (0 <? lp_fee exC) = true /\
  okb (get_amounts_out exC (pools ex_r) 5000 [100; 200; 300]) (fun l => bool_decide (l = [5000; 4960273; 4921055])) = true /\
  route_fits exC 0 (pools ex_r) [100; 200; 300] [5000; 4960273; 4921055] /\
  okb (swap_exact_tokens_for_tokens exR allow_all 0 ex_r 11 [100; 200; 300] 5000 4921055) (fun r => r.2 =? 4921055) = true /\
  okb (swap_tokens_for_exact_tokens exR allow_all 0 xo1 12 [100; 200] 9998 5029) (fun r => (r.1.2 =? 5028) && (r.2 =? 9998)) = true.
Proof.
  split; [apply C80_example|]. split; [cbn; ex_user|]. split; [vm_compute; reflexivity|]. split; [vm_compute; reflexivity|].
  split; [|split; vm_compute; reflexivity].
  intros i a b p y Ha Hb Hp Hy. destruct i as [|[|[|i]]].
  - cbn in Ha, Hb, Hy. injection Ha as <-. injection Hb as <-. injection Hy as <-. revert p Hp. apply fits_b. vm_compute. reflexivity.
  - cbn in Ha, Hb, Hy. injection Ha as <-. injection Hb as <-. injection Hy as <-. revert p Hp. apply fits_b. vm_compute. reflexivity.
  - discriminate Hb.
  - discriminate Hb.
Qed.
