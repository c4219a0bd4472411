(** * LsProofs7: consequences for whole histories: backing of the claims, backing of the liquid token, the exchange rate. *)
From Verif Require Import Base MapSum Ledger AmmModel LoansModel LoansSpec LoansProofs2 LoansProofs3 LoansProofs4 LoansProofs5 LoansProofs9 LsModel LsSpec LsProofs LsDist LsProofs2 LsProofs3 LsProofs4 LsProofs5 LsProofs6.

Section lsp.
  Context (C : ls_cfg) (E : ls_env) (Q : lst -> ls_call -> Prop).
  Notation P := (e_pol E).
  Notation stkA := (lc_stk C).
  Notation liqA := (lc_liq C).
  Notation colA := (lc_col C).
  Notation me := (lc_acct C).
  Notation lacct := (ln_acct (lc_loans C)).
  Notation leff := (leff C E Q).
  Notation leffs := (leffs C E Q).
  Notation lsi := (lsi C).
  Notation dl := (dl C E).

  (** *** sums over the staking ledgers *)
  Lemma leds_set (f : sled -> Z) (m : gmap Z sled) i l l' : m !! i = Some l -> msum (fun _ l => f l) (<[i := l']> m) = msum (fun _ l => f l) m - f l + f l'.
  Proof. intros H. rewrite msum_insert, H. lia. Qed.
  Lemma leds_new (f : sled -> Z) (m : gmap Z sled) i l' : m !! i = None -> msum (fun _ l => f l) (<[i := l']> m) = msum (fun _ l => f l) m + f l'.
  Proof. intros H. rewrite msum_insert_new by exact H. lia. Qed.
  Lemma fold_sat (f : sled -> Z) l acc : (forall x, x ∈ l -> 0 <= f x) -> 0 <= acc <= U128MAX ->
    fold_left (fun acc x => saturating_add acc (f x)) l acc = Z.min U128MAX (acc + zsum (map f l)).
  Proof.
    revert acc. induction l as [|x l IH]; intros acc Hf Ha; cbn [fold_left map zsum]; [lia|].
    assert (0 <= f x) by (apply Hf; left). assert (0 <= zsum (map f l)).
    { clear IH Ha. assert (Hf' : forall y, y ∈ l -> 0 <= f y) by (intros y Hy; apply Hf; right; exact Hy). clear Hf H. induction l as [|y l IH]; cbn [map zsum]; [lia|]. assert (0 <= f y) by (apply Hf'; left). assert (0 <= zsum (map f l)) by (apply IH; intros z Hz; apply Hf'; right; exact Hz). lia. }
    rewrite IH; [|intros y Hy; apply Hf; right; exact Hy|apply sat128_range]. unfold saturating_add, sat128. lia.
  Qed.
  Lemma msum_led_values (f : sled -> Z) s : zsum (map f (led_values s)) = msum (fun _ l => f l) (ls_leds s).
  Proof. unfold led_values. rewrite msum_list, map_map. generalize (map_to_list (ls_leds s)) as l. induction l as [|[k v] l IH]; cbn; [reflexivity|]. rewrite IH. reflexivity. Qed.
  Lemma led_values_ok s x : leds_ok s -> x ∈ led_values s -> sled_ok x.
  Proof. intros H Hx. unfold led_values in Hx. apply elem_of_list_fmap in Hx as ([k v] & -> & Hk). apply elem_of_map_to_list in Hk. exact (H _ _ Hk). Qed.
  Lemma total_active_eq s : leds_ok s -> total_active s = Z.min U128MAX (active_total s).
  Proof.
    intros H. unfold total_active. rewrite (fold_sat sl_active); [|intros x Hx; apply (led_values_ok s x H) in Hx; apply Hx|pose proof U128MAX_pos; lia].
    rewrite msum_led_values. reflexivity.
  Qed.
  Lemma active_total_nonneg s : leds_ok s -> 0 <= active_total s.
  Proof. intros H. apply msum_nonneg. intros k v K. apply (H _ _ K). Qed.

  (** *** the lending pallet's part of a history is a history of the lending pallet *)
  Lemma leff_loans s s' : leff s s' -> loans_steps (lc_loans C) P (ls_ln s) (ls_ln s').
  Proof.
    intros F. destruct F as [n d Hd D|s' (M1 & _)|net rs v n N1 N2 N3 N4 N5 N6 D|key la x era u n K1 K2 K3 K4 K5 K6 K7 D|w b u W1 W2 W3
      |who l d n L1 L2 L3 D|w x burnt n f' X1 X2 X3 D X4|r n Sk S1 S2 S3 S4 D|resp o q i x p n B0 B1 B2 B3 D|resp o q r i l l' p d n U0 U1 U2 U3 D|resp o q i t T0 T1|r v R1 R2 R3|o i l l' pf x n G0 G1 G2 G3 G4 G5 G6 D|o i l l' G0 G1 G2|x d n X1 X2 D|u n U1 D];
      first [exact (proj2 (proj2 D))|rewrite M1; constructor|constructor].
  Qed.
  Lemma leffs_loans s s' : leffs s s' -> loans_steps (lc_loans C) P (ls_ln s) (ls_ln s').
  Proof. induction 1 as [|s1 s2 s3 F _ IH]; [constructor|]. eapply lsteps_trans; [apply leff_loans; exact F|exact IH]. Qed.
  Lemma ls_loans_reachable s : ls_cfg_ok C -> relay_ok E -> ls_reachable C E Q s -> loans_reachable (lc_loans C) P (ls_ln s).
  Proof. intros HC HE R. destruct (reachable_leffs C E Q s HC HE R) as (s0 & G & _ & H). exists (ls_ln s0). split; [apply G|apply leffs_loans; exact H]. Qed.

  (** *** the exchange rate never falls *)
  Lemma leff_rate s s' : leff s s' -> ls_rate s <= ls_rate s'.
  Proof.
    intros F. destruct F as [n d Hd D|s' (M1 & M2 & _)|net rs v n N1 N2 N3 N4 N5 N6 D|key la x era u n K1 K2 K3 K4 K5 K6 K7 D|w b u W1 W2 W3
      |who l d n L1 L2 L3 D|w x burnt n f' X1 X2 X3 D X4|r n Sk S1 S2 S3 S4 D|resp o q i x p n B0 B1 B2 B3 D|resp o q r i l l' p d n U0 U1 U2 U3 D|resp o q i t T0 T1|r v R1 R2 R3|o i l l' pf x n G0 G1 G2 G3 G4 G5 G6 D|o i l l' G0 G1 G2|x d n X1 X2 D|u n U1 D];
      first [rewrite M2; lia|cbn; lia].
  Qed.
  Lemma leffs_rate s s' : leffs s s' -> ls_rate s <= ls_rate s'.
  Proof. induction 1 as [|s1 s2 s3 F _ IH]; [lia|]. apply leff_rate in F. lia. Qed.

  (** *** backing of the unlocking queue *)
  Definition slack (s : lst) : Z := bal (ls_led s) stkA me - ls_res s - pool_stake s + pool_unstake s + unbonding_total s - queue_total s.
  Lemma slack_eq s s' b : bal (ls_led s') stkA me = bal (ls_led s) stkA me + b ->
    slack s' = slack s + b - (ls_res s' - ls_res s) - (pool_stake s' - pool_stake s) + (pool_unstake s' - pool_unstake s) + (unbonding_total s' - unbonding_total s) - (queue_total s' - queue_total s).
  Proof. unfold slack. lia. Qed.
  Lemma queue_set s w l' : msum (fun _ l => chunk_sum l) (<[w := l']> (ls_unl s)) = queue_total s - chunk_sum (queue_of s w) + chunk_sum l'.
  Proof.
    unfold queue_total, queue_of. destruct (ls_unl s !! w) as [l|] eqn:El; cbn [default].
    - rewrite msum_insert, El. unfold id. lia.
    - rewrite msum_insert, El. assert (chunk_sum (@nil chunk) = 0) as -> by reflexivity. lia.
  Qed.
  Lemma leff_slack s s' : (forall s c, Q s c -> led_kept s c) -> lsi s -> 0 <= slack s -> leff s s' -> 0 <= slack s'.
  Proof.
    intros HQ I H F. destruct F as [n d Hd D|s' (M1 & M2 & M3 & M4 & M5 & M6 & M7 & M8 & M9 & M10 & _)|net rs v n N1 N2 N3 N4 N5 N6 D|key la x era u n K1 K2 K3 K4 K5 K6 K7 D|w b u W1 W2 W3
      |who l d n L1 L2 L3 D|w x burnt n f' X1 X2 X3 D X4|r n Sk S1 S2 S3 S4 D|resp o q i x p n B0 B1 B2 B3 D|resp o q r i l l' p d n U0 U1 U2 U3 D|resp o q i t T0 T1|r v R1 R2 R3|o i l l' pf x n G0 G1 G2 G3 G4 G5 G6 D|o i l l' G0 G1 G2|x d n X1 X2 D|u n U1 D];
      try (destruct D as (D1 & D2 & _)).
    - rewrite (slack_eq s (st_ls_ln s n) d D1). change (pool_stake _) with (pool_stake s) at 1. unfold pool_stake, pool_unstake, unbonding_total, queue_total in *. cbn [ls_res st_ls_ln ls_pool ls_leds ls_unl]. lia.
    - unfold slack, ls_led, pool_stake, pool_unstake, unbonding_total, queue_total in *. rewrite M1, M3, M5, M8, M9. exact H.
    - erewrite (slack_eq s _ (net + rs)) by exact D1. unfold pool_stake, pool_unstake, unbonding_total, queue_total in *. cbn [ls_res st_ls_res st_ls_ln st_ls_pool ls_pool ls_leds ls_unl mp_s mp_u ra_tot]. lia.
    - erewrite (slack_eq s _ 0) by exact D1. unfold pool_stake, pool_unstake, unbonding_total in *. unfold queue_total at 1. cbn [ls_res st_ls_res st_ls_ures st_ls_ln st_ls_unl st_ls_pool ls_pool ls_leds ls_unl mp_s mp_u ra_tot].
      rewrite queue_set. pose proof (add_chunk_sum_le (queue_of s key) x era (queue_ok C s key I) K3). lia.
    - exact H.
    - pose proof (i_unl _ _ I _ _ L1) as (A1 & A2 & A3). erewrite (slack_eq s _ (- d)) by exact D1. unfold pool_stake, pool_unstake, unbonding_total in *. unfold queue_total at 1. cbn [ls_res st_ls_res st_ls_ln st_ls_unl st_ls_pool ls_pool ls_leds ls_unl mp_s mp_u ra_tot].
      assert (msum (fun _ l => chunk_sum l) (claimed_queue s who l) = queue_total s - chunk_sum (due (ls_era s) l)) as ->.
      { unfold claimed_queue. pose proof (due_split (ls_era s) l) as Hs. destruct (not_due (ls_era s) l) as [|c r] eqn:En.
        - assert (Hd : queue_total s = chunk_sum l + msum (fun _ l => chunk_sum l) (delete who (ls_unl s))) by exact (msum_delete (fun _ l => chunk_sum l) _ _ _ L1). change (chunk_sum []) with 0 in Hs. lia.
        - rewrite queue_set. unfold queue_of. rewrite L1. cbn [default]. unfold id. lia. }
      lia.
    - erewrite (slack_eq s _ (- x)) by exact D1. unfold pool_stake, pool_unstake, unbonding_total, queue_total in *. cbn [ls_res st_ls_fast st_ls_res st_ls_ln st_ls_pool ls_pool ls_leds ls_unl mp_s mp_u ra_tot]. lia.
    - erewrite (slack_eq s _ 0) by exact D1. unfold pool_stake, pool_unstake, unbonding_total, queue_total, lock_of in *. cbn [ls_res st_ls_qid st_ls_reqs st_ls_ln st_ls_pool ls_pool ls_leds ls_unl mp_s mp_u ra_tot]. lia.
    - pose proof (i_reqs _ _ I _ _ B1) as (A1 & _). cbn in A1. apply (consolidate_stake_ok _ _ _ (i_pool _ _ I) A1) in B3 as (Y1 & Y2 & Y3 & y & Y4 & Y5 & Y6).
      erewrite (slack_eq s _ (- x)) by exact D1. unfold pool_stake, pool_unstake, queue_total in *. unfold unbonding_total at 1. cbn [ls_res st_ls_leds st_ls_reqs st_ls_ln st_ls_pool ls_pool ls_leds ls_unl mp_s mp_u ra_tot].
      rewrite (leds_new (fun l => chunk_sum (sl_unl l)) _ _ _ B2). change (chunk_sum (sl_unl (sl_new x))) with 0. fold (unbonding_total s). lia.
    - destruct (confirms_ok C _ _ _ _ _ _ _ _ I U1 U2 U3) as (Y1 & Y2 & Y3 & Y4 & y & Y5 & Y6 & Y7 & Y8). pose proof (i_reqs _ _ I _ _ U1) as (A1 & A2 & A3).
      erewrite (slack_eq s _ d) by exact D1. unfold pool_stake, pool_unstake, queue_total in *. unfold unbonding_total at 1. cbn [ls_res st_ls_leds st_ls_upd st_ls_reqs st_ls_ln st_ls_pool ls_pool ls_leds ls_unl mp_s mp_u ra_tot].
      rewrite (leds_set (fun l => chunk_sum (sl_unl l)) _ _ _ _ U2). fold (unbonding_total s). destruct r; try contradiction; cbn [req_stake req_unstake] in *; lia.
    - exact H.
    - exact H.
    - erewrite (slack_eq s _ 0) by exact D1. unfold pool_stake, pool_unstake, queue_total in *. unfold unbonding_total at 1. cbn [ls_res st_ls_leds st_ls_upd st_ls_reqs st_ls_ln st_ls_pool ls_pool ls_leds ls_unl mp_s mp_u ra_tot].
      rewrite (leds_set (fun l => chunk_sum (sl_unl l)) _ _ _ _ G1), G5. fold (unbonding_total s). lia.
    - pose proof (HQ _ _ G0 l G1) as Hk. assert (Hb : bal (ls_led (st_ls_upd (st_ls_leds s (<[i := l']> (ls_leds s))) (<[i := true]> (ls_upd s)))) stkA me = bal (ls_led s) stkA me + 0) by (rewrite Z.add_0_r; reflexivity).
      rewrite (slack_eq s _ 0 Hb). unfold pool_stake, pool_unstake, queue_total in *. unfold unbonding_total at 1. cbn [ls_res st_ls_leds st_ls_upd st_ls_reqs st_ls_ln st_ls_pool ls_pool ls_leds ls_unl mp_s mp_u ra_tot].
      rewrite (leds_set (fun l => chunk_sum (sl_unl l)) _ _ _ _ G1). fold (unbonding_total s). lia.
    - erewrite (slack_eq s _ (- d)) by exact D1. unfold pool_stake, pool_unstake, unbonding_total, queue_total in *. cbn [ls_res st_ls_fast st_ls_res st_ls_ln st_ls_pool ls_pool ls_leds ls_unl mp_s mp_u ra_tot]. lia.
    - erewrite (slack_eq s _ 0) by exact D1. unfold pool_stake, pool_unstake, unbonding_total, queue_total in *. cbn [ls_res st_ls_ures st_ls_fast st_ls_res st_ls_ln st_ls_pool ls_pool ls_leds ls_unl mp_s mp_u ra_tot]. lia.
  Qed.
  Lemma reachable_slack s : ls_cfg_ok C -> relay_ok E -> (forall s c, Q s c -> led_kept s c) -> ls_reachable C E Q s -> 0 <= slack s.
  Proof.
    intros HC HE HQ R. destruct (reachable_leffs C E Q s HC HE R) as (s0 & G & I & H).
    assert (H0 : 0 <= slack s0).
    { unfold slack, pool_stake, pool_unstake, unbonding_total, queue_total. destruct G as (G1 & G2 & G3 & G4 & G5 & G6 & G7 & G8 & G9 & G10 & G11 & G12 & G13 & G14 & G15 & G16 & _).
      rewrite G6, G9, G15, G16. pose proof (proj1 (wf_of C s0 I) stkA me). cbn. change (msum _ ∅) with 0. change (msum _ ∅) with 0. lia. }
    clear G R. induction H as [|s1 s2 s3 F _ IH]; [exact H0|]. apply IH; [eapply leff_lsi; [apply HC|exact I|exact F]|exact (leff_slack _ _ HQ I H0 F)].
  Qed.

  (** *** backing of the liquid token *)
  Definition worth (s : lst) : Z := (active_total s + pool_stake s - pool_unstake s) * FDIV - ls_rate s * iss (ls_led s) liqA.
  Lemma staked_value_le s v : leds_ok s -> staked_value s = Some v -> 0 <= v <= active_total s + pool_stake s - pool_unstake s /\ (active_total s <= U128MAX -> v = active_total s + pool_stake s - pool_unstake s).
  Proof.
    intros H. unfold staked_value. rewrite (total_active_eq s H). destruct (checked_add _ _) eqn:Ea; [|discriminate]. apply checked_add_some in Ea as [-> Ha]. intros Hs. apply checked_sub_some in Hs as [-> Hs]. unfold pool_stake, pool_unstake in *. lia.
  Qed.
  Lemma inflate_ok s rw x : lsi s -> 0 <= rw -> active_total s + pool_stake s + rw <= U128MAX -> 0 <= worth s -> inflate_amount C s rw = Ok x ->
    ls_rate s * (iss (ls_led s) liqA + x) <= (active_total s + pool_stake s - pool_unstake s + rw) * FDIV /\ 0 <= x.
  Proof.
    intros I Hrw Hmax Hw H. assert (HF : 0 < FDIV) by reflexivity. unfold worth in Hw. unfold inflate_amount in H. bstep H lq Elq. apply liq_ok in Elq as ->. set (i := iss (ls_led s) liqA) in *.
    assert (Hi : 0 <= i). { pose proof (bal_le_iss _ liqA me (wf_of C s I)). pose proof (proj1 (wf_of C s I) liqA me). unfold i. lia. }
    pose proof (i_rate _ _ I) as [Hr _]. destruct (_ || _) eqn:E0; [injection H as <-; nia|]. bstep H v Ev.
    destruct (staked_value_le s v (i_leds _ _ I) Ev) as [Hv Hveq].
    pose proof (active_total_nonneg s (i_leds _ _ I)). pose proof (i_pool _ _ I) as [(P1 & P2 & P3) (P4 & P5 & P6)]. fold (pool_stake s) in *. fold (pool_unstake s) in *. fold (locked_stake s) in *. fold (locked_unstake s) in *.
    specialize (Hveq ltac:(lia)). set (c := f_saturating_mul_int (ls_comm s) rw) in *.
    assert (Hc : 0 <= c <= rw). { unfold c, f_saturating_mul_int. pose proof (sat128_range (ls_comm s * rw / FDIV)). split; [lia|]. unfold sat128. pose proof (i_comm _ _ I). assert (ls_comm s * rw / FDIV <= rw) by (apply Z.div_le_upper_bound; nia). lia. }
    assert (Hs1 : saturating_add v rw = v + rw) by (unfold saturating_add, sat128; lia). rewrite Hs1 in H.
    assert (Hs2 : saturating_sub (v + rw) c = v + rw - c) by (unfold saturating_sub; lia). rewrite Hs2 in H. injection H as <-.
    set (D := v + rw - c) in *. assert (HD : v <= D) by lia.
    assert (Hx : exists k, f_saturating_mul_int (default 0 (f_checked_from_rational c D)) i = k /\ 0 <= k /\ k * D <= c * i).
    { eexists. split; [reflexivity|]. unfold f_saturating_mul_int. split; [apply sat128_range|]. destruct (f_checked_from_rational c D) as [r|] eqn:Er; cbn [default]; unfold id.
      - apply f_checked_from_rational_some in Er as (K1 & -> & K2). set (r := c * FDIV / D) in *. assert (r * D <= c * FDIV) by (apply floor_mul; nia).
        assert (sat128 (r * i / FDIV) <= r * i / FDIV). { unfold sat128. assert (0 <= r * i / FDIV) by (apply Z.div_pos; nia). lia. }
        assert (r * i / FDIV * FDIV <= r * i) by (apply floor_mul; nia). set (k := sat128 _) in *. set (k2 := r * i / FDIV) in *. assert (k * D <= k2 * D) by nia.
        assert (k2 * D * FDIV <= c * i * FDIV); [|nia]. assert (k2 * FDIV * D <= r * i * D) by nia. assert (r * D * i <= c * FDIV * i) by nia. lia.
      - change (0 * i) with 0. rewrite Zdiv_0_l. unfold sat128. pose proof U128MAX_pos. replace (Z.max 0 (Z.min 0 U128MAX)) with 0 by lia. nia. }
    destruct Hx as (k & -> & K1 & K2). split; [|exact K1]. rewrite <- Hveq.
    (* rate * i <= v * FDIV, and k * D <= c * i *)
    destruct (Z.eq_dec D 0) as [HD0|HD0].
    - assert (v = 0) by lia. assert (rw = c) by lia. rewrite Hveq in *. assert (ls_rate s * i <= 0) by nia. destruct (Z.eq_dec (ls_rate s) 0) as [->|]; [nia|]. assert (i = 0) by nia. apply orb_false_iff in E0 as [E0 _]. apply orb_false_iff in E0 as [E0 _]. lia.
    - assert (HDp : 0 < D) by lia. assert (ls_rate s * i <= v * FDIV) by (rewrite Hveq; lia).
      assert (Hm : D * (ls_rate s * (i + k)) <= D * ((v + rw) * FDIV)); [|nia].
      assert (ls_rate s * (k * D) <= ls_rate s * (c * i)) by nia. assert (D * (ls_rate s * i) + ls_rate s * (c * i) <= D * ((v + rw) * FDIV)); [|nia].
      replace (D * (ls_rate s * i) + ls_rate s * (c * i)) with ((v + rw) * (ls_rate s * i)) by (unfold D; ring). assert ((v + rw) * (ls_rate s * i) <= (v + rw) * (D * FDIV)); [|nia]. apply Z.mul_le_mono_nonneg_l; [lia|]. nia.
  Qed.
  Lemma leff_worth s s' : (forall s c, Q s c -> value_kept s c) -> lsi s -> 0 <= worth s -> leff s s' -> 0 <= worth s'.
  Proof.
    intros HQ I H F. assert (HF : 0 < FDIV) by reflexivity. destruct F as [n d Hd D|s' (M1 & M2 & M3 & M4 & M5 & M6 & M7 & M8 & M9 & M10 & _)|net rs v n N1 N2 N3 N4 N5 N6 D|key la x era u n K1 K2 K3 K4 K5 K6 K7 D|w b u W1 W2 W3
      |who l d n L1 L2 L3 D|w x burnt n f' X1 X2 X3 D X4|r n Sk S1 S2 S3 S4 D|resp o q i x p n B0 B1 B2 B3 D|resp o q r i l l' p d n U0 U1 U2 U3 D|resp o q i t T0 T1|r v R1 R2 R3|o i l l' pf x n G0 G1 G2 G3 G4 G5 G6 D|o i l l' G0 G1 G2|x d n X1 X2 D|u n U1 D];
      try (destruct D as (D1 & D2 & _)).
    - unfold worth. change (iss (ls_led (st_ls_ln s n)) liqA) with (iss (ln_led n) liqA). rewrite D2, Z.add_0_r. exact H.
    - unfold worth, ls_led, active_total, pool_stake, pool_unstake in *. rewrite M1, M2, M5, M9. exact H.
    - unfold worth. change (iss (ls_led _) liqA) with (iss (ln_led n) liqA). rewrite D2. unfold worth, active_total, pool_stake, pool_unstake in *. cbn [ls_rate st_ls_res st_ls_ln st_ls_pool ls_pool ls_leds mp_s mp_u ra_tot]. nia.
    - unfold worth. change (iss (ls_led _) liqA) with (iss (ln_led n) liqA). rewrite D2. unfold worth, active_total, pool_stake, pool_unstake in *. cbn [ls_rate st_ls_ures st_ls_unl st_ls_res st_ls_ln st_ls_pool ls_pool ls_leds mp_s mp_u ra_tot]. nia.
    - exact H.
    - unfold worth. change (iss (ls_led _) liqA) with (iss (ln_led n) liqA). rewrite D2, Z.add_0_r. exact H.
    - unfold worth. change (iss (ls_led _) liqA) with (iss (ln_led n) liqA). rewrite D2. unfold worth, active_total, pool_stake, pool_unstake in *. cbn [ls_rate st_ls_fast st_ls_res st_ls_ln st_ls_pool ls_pool ls_leds mp_s mp_u ra_tot]. nia.
    - unfold worth. change (iss (ls_led _) liqA) with (iss (ln_led n) liqA). rewrite D2, Z.add_0_r. exact H.
    - pose proof (i_reqs _ _ I _ _ B1) as (A1 & _). cbn in A1. apply (consolidate_stake_ok _ _ _ (i_pool _ _ I) A1) in B3 as (Y1 & Y2 & Y3 & y & Y4 & Y5 & Y6).
      unfold worth. change (iss (ls_led _) liqA) with (iss (ln_led n) liqA). rewrite D2, Z.add_0_r. unfold worth, pool_stake, pool_unstake in *. unfold active_total at 1. cbn [ls_rate st_ls_leds st_ls_reqs st_ls_ln st_ls_pool ls_pool ls_leds mp_s mp_u ra_tot].
      rewrite (leds_new sl_active _ _ _ B2). change (sl_active (sl_new x)) with x. fold (active_total s). rewrite Y5, Y6. nia.
    - destruct (confirms_ok C _ _ _ _ _ _ _ _ I U1 U2 U3) as (Y1 & Y2 & Y3 & Y4 & y & Y5 & Y6 & Y7 & Y8). pose proof (i_reqs _ _ I _ _ U1) as (A1 & A2 & A3).
      unfold worth. change (iss (ls_led _) liqA) with (iss (ln_led n) liqA). rewrite D2, Z.add_0_r. unfold worth, pool_stake, pool_unstake in *. unfold active_total at 1. cbn [ls_rate st_ls_leds st_ls_upd st_ls_reqs st_ls_ln st_ls_pool ls_pool ls_leds mp_s mp_u ra_tot].
      rewrite (leds_set sl_active _ _ _ _ U2). fold (active_total s). rewrite Y6, Y7. destruct r; try contradiction; cbn [req_stake req_unstake] in *; try (destruct Y8 as (_ & -> & _); nia).
      + assert (i0 = i) as -> by apply U3. pose proof (HQ _ _ U0) as K. cbn in K. specialize (K _ _ _ U1 U2). destruct Y8 as (_ & -> & _). nia.
    - exact H.
    - apply (staked_value_le s v (i_leds _ _ I)) in R3 as [R3 _]. unfold worth. change (ls_led (st_ls_rate s r)) with (ls_led s). change (ls_rate (st_ls_rate s r)) with r. change (active_total (st_ls_rate s r)) with (active_total s). change (pool_stake (st_ls_rate s r)) with (pool_stake s). change (pool_unstake (st_ls_rate s r)) with (pool_unstake s). nia.
    - pose proof (HQ _ _ G0) as K. cbn in K. specialize (K _ G1). pose proof (i_leds _ _ I _ _ G1) as Hs.
      assert (Ea : sl_active l' - sl_active l = sl_total l' - sl_total l). { destruct Hs as (S1 & _), G2 as (S2 & _). rewrite S1, S2, G5. lia. }
      rewrite Ea in K. apply inflate_ok in G6 as [G6 _]; [|exact I|lia|lia|exact H].
      unfold worth. change (iss (ls_led _) liqA) with (iss (ln_led n) liqA). rewrite D2. unfold pool_stake, pool_unstake in *. unfold active_total at 1. cbn [ls_rate st_ls_leds st_ls_upd st_ls_reqs st_ls_ln st_ls_pool ls_pool ls_leds mp_s mp_u ra_tot].
      rewrite (leds_set sl_active _ _ _ _ G1). fold (active_total s). nia.
    - pose proof (HQ _ _ G0 l G1) as Hk. unfold worth. change (ls_led (st_ls_upd _ _)) with (ls_led s). unfold worth, pool_stake, pool_unstake in *. unfold active_total at 1. cbn [ls_rate st_ls_leds st_ls_upd st_ls_reqs st_ls_ln st_ls_pool ls_pool ls_leds mp_s mp_u ra_tot].
      rewrite (leds_set sl_active _ _ _ _ G1). fold (active_total s). nia.
    - unfold worth. change (iss (ls_led _) liqA) with (iss (ln_led n) liqA). rewrite D2, Z.add_0_r. exact H.
    - unfold worth. change (iss (ls_led _) liqA) with (iss (ln_led n) liqA). rewrite D2, Z.add_0_r. exact H.
  Qed.
  Lemma reachable_worth s : ls_cfg_ok C -> relay_ok E -> (forall s c, Q s c -> value_kept s c) -> ls_reachable C E Q s -> 0 <= worth s.
  Proof.
    intros HC HE HQ R. destruct (reachable_leffs C E Q s HC HE R) as (s0 & G & I & H).
    assert (H0 : 0 <= worth s0).
    { unfold worth, pool_stake, pool_unstake, active_total. destruct G as (G1 & G2 & G3 & G4 & G5 & G6 & G7 & G8 & G9 & G10 & G11 & G12 & G13 & G14 & G15 & G16 & _).
      rewrite G2, G9, G16. cbn. change (msum _ ∅) with 0. lia. }
    clear G R. induction H as [|s1 s2 s3 F _ IH]; [exact H0|]. apply IH; [eapply leff_lsi; [apply HC|exact I|exact F]|exact (leff_worth _ _ HQ I H0 F)].
  Qed.
End lsp.
