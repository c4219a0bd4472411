(** * LsProofs8: matching is never blocked by its own checks; rebonding takes the latest chunks first. *)
From Verif Require Import Base MapSum Ledger AmmModel LoansModel LoansSpec LoansProofs2 LoansProofs3 LoansProofs4 LoansProofs5 LsModel LsSpec LsProofs LsDist LsProofs2 LsProofs3 LsProofs4 LsProofs5 LsProofs6 LsProofs7.

Lemma avg_bond_min cap mnb l amt : forall i x, (i, x) ∈ avg_bond l amt cap mnb -> exists a t, (i, a, t) ∈ l /\ mnb <= saturating_add amt a /\ x = Z.min (Z.max 0 (cap - t)) amt.
Proof.
  induction l as [|[[i a] t] l IH]; intros j x H; cbn [avg_bond] in H; [set_solver|]. destruct (_ <? _) eqn:E1.
  { destruct (IH _ _ H) as (a0 & t0 & K1 & K2). exists a0, t0. split; [right; exact K1|exact K2]. }
  destruct (Z.min _ _ =? 0) eqn:E2. { destruct (IH _ _ H) as (a0 & t0 & K1 & K2). exists a0, t0. split; [right; exact K1|exact K2]. }
  apply elem_of_cons in H as [[= -> ->]|H]. { exists a, t. split; [left|]. split; [lia|]. unfold saturating_sub. reflexivity. }
  destruct (IH _ _ H) as (a0 & t0 & K1 & K2). exists a0, t0. split; [right; exact K1|exact K2].
Qed.
Lemma bond_dist_new st l input cap mnb i x : 0 <= input -> Forall (fun e => 0 <= e.1.2) l -> (st = Average -> mnb <= cap) -> mnb <= U128MAX -> (i, x) ∈ bond_dist st l input cap mnb ->
  (forall a t, (i, a, t) ∈ l -> a = 0 /\ t = 0) -> mnb <= x.
Proof.
  intros Hi Hl Hm Hu H H0. destruct st; cbn [bond_dist] in H.
  - apply avg_bond_min in H as (a & t & K1 & K2 & ->). destruct (H0 _ _ K1) as [-> ->]. unfold saturating_add, sat128 in K2. specialize (Hm eq_refl). pose proof (share_le l input Hi) as [Hs _]. lia.
  - apply (proj2 (proj2 (mm_bond_spec cap mnb _ input Hi))) in H as (Hx & a & t & K1 & K2 & K3). rewrite sort_by_perm in K1. destruct (H0 _ _ K1) as [-> ->]. unfold saturating_add, sat128 in K3. lia.
Qed.

Section lsp.
  Context (C : ls_cfg) (E : ls_env).
  Notation P := (e_pol E).
  Notation stkA := (lc_stk C).
  Notation liqA := (lc_liq C).
  Notation me := (lc_acct C).

  (** the parts of the state that requests leave alone *)
  Definition keeps (s s' : lst) : Prop :=
    ls_leds s' = ls_leds s /\ ls_cap s' = ls_cap s /\ ls_era s' = ls_era s /\ ls_start s' = ls_start s /\ ls_rblock s' = ls_rblock s /\ ls_rate s' = ls_rate s /\
    pool_stake s' = pool_stake s /\ pool_unstake s' = pool_unstake s.
  Lemma keeps_refl s : keeps s s. Proof. unfold keeps. tauto. Qed.
  Lemma keeps_trans s1 s2 s3 : keeps s1 s2 -> keeps s2 s3 -> keeps s1 s3. Proof. unfold keeps. intuition congruence. Qed.

  Lemma send_live s k r (n : nat) : xcm_open E -> xcm_funded C s (Z.of_nat (S n)) ->
    exists s', send C E s k r = Ok s' /\ keeps s s' /\ ls_pool s' = ls_pool s /\ xcm_funded C s' (Z.of_nat n).
  Proof.
    intros [O1 O2] (F & F0 & F1 & F2). unfold send. set (fee := default 0 (ls_xfee s !! k)).
    assert (Hfee : 0 <= fee <= F). { unfold fee. destruct (ls_xfee s !! k) as [x|] eqn:Ex; cbn; [exact (F1 _ _ Ex)|lia]. }
    assert (exists L, burn_from P (ls_led s) (lc_relay C) (lc_xcm C) fee = Ok L) as [L EL].
    { unfold burn_from. destruct (fee =? 0) eqn:E0; [eauto|]. rewrite O2. cbn [negb]. assert ((0 <? fee) && (fee <=? bal (ls_led s) (lc_relay C) (lc_xcm C)) = true) as -> by lia. eauto. }
    rewrite EL. cbn [rbind]. rewrite O1. cbn. eexists. split; [reflexivity|]. split; [unfold keeps; repeat split|]. split; [reflexivity|].
    exists F. split; [exact F0|]. split; [exact F1|]. change (ls_led _) with L. pose proof (burn_spec _ _ _ _ _ _ EL) as (_ & _ & B & _). rewrite B. unfold at_. rewrite bool_decide_true by auto. lia.
  Qed.
  Lemma lock_stake_live p x : pool_ok p -> 0 <= x <= free_stake p -> lock_stake p x = Ok (mkMP (mkRA (ra_tot (mp_s p)) (ra_res (mp_s p) + x)) (mp_u p)).
  Proof.
    intros [(A1 & A2 & A3) _] Hx. unfold free_stake in Hx. unfold lock_stake, ra_lock. rewrite checked_add_eq by lia. cbn. assert (ra_tot (mp_s p) <? ra_res (mp_s p) + x = false) as -> by lia. reflexivity.
  Qed.
  Lemma lock_unstake_live p x : pool_ok p -> 0 <= x <= free_unstake p -> lock_unstake p x = Ok (mkMP (mp_s p) (mkRA (ra_tot (mp_u p)) (ra_res (mp_u p) + x))).
  Proof.
    intros [_ (A1 & A2 & A3)] Hx. unfold free_unstake in Hx. unfold lock_unstake, ra_lock. rewrite checked_add_eq by lia. cbn. assert (ra_tot (mp_u p) <? ra_res (mp_u p) + x = false) as -> by lia. reflexivity.
  Qed.
  (** one request: it goes out, uses [x] of the free stake (or unstake) and one message *)
  Definition goes (s : lst) (f : lst -> res lst) (ds du : Z) (n : nat) : Prop :=
    exists s', f s = Ok s' /\ keeps s s' /\ pool_ok (ls_pool s') /\ free_stake (ls_pool s') = free_stake (ls_pool s) - ds /\ free_unstake (ls_pool s') = free_unstake (ls_pool s) - du /\ xcm_funded C s' (Z.of_nat n).
  Lemma funded_pool s p m : xcm_funded C s m -> xcm_funded C (st_ls_pool s p) m. Proof. exact id. Qed.
  Lemma send_locked_s s k r x n : xcm_open E -> xcm_funded C s (Z.of_nat (S n)) -> pool_ok (ls_pool s) -> 0 <= x <= free_stake (ls_pool s) ->
    goes s (fun s => let* p := lock_stake (ls_pool s) x in send C E (st_ls_pool s p) k r) x 0 n.
  Proof.
    intros O F Hp Hx. unfold goes. rewrite (lock_stake_live _ _ Hp Hx). cbn [rbind]. destruct (send_live (st_ls_pool s (mkMP (mkRA (ra_tot (mp_s (ls_pool s))) (ra_res (mp_s (ls_pool s)) + x)) (mp_u (ls_pool s)))) k r n O F) as (s' & E1 & K & Ep & F').
    exists s'. split; [exact E1|]. split; [eapply keeps_trans; [|exact K]; unfold keeps; repeat split|]. rewrite Ep. destruct Hp as [(A1 & A2 & A3) A4]. unfold free_stake in *. split; [split; [unfold ra_ok; cbn; lia|exact A4]|]. unfold free_unstake. cbn. split; [lia|]. split; [lia|exact F'].
  Qed.
  Lemma send_locked_u s k r x n : xcm_open E -> xcm_funded C s (Z.of_nat (S n)) -> pool_ok (ls_pool s) -> 0 <= x <= free_unstake (ls_pool s) ->
    goes s (fun s => let* p := lock_unstake (ls_pool s) x in send C E (st_ls_pool s p) k r) 0 x n.
  Proof.
    intros O F Hp Hx. unfold goes. rewrite (lock_unstake_live _ _ Hp Hx). cbn [rbind]. destruct (send_live (st_ls_pool s (mkMP (mp_s (ls_pool s)) (mkRA (ra_tot (mp_u (ls_pool s))) (ra_res (mp_u (ls_pool s)) + x)))) k r n O F) as (s' & E1 & K & Ep & F').
    exists s'. split; [exact E1|]. split; [eapply keeps_trans; [|exact K]; unfold keeps; repeat split|]. rewrite Ep. destruct Hp as [A4 (A1 & A2 & A3)]. unfold free_unstake in *. split; [split; [exact A4|unfold ra_ok; cbn; lia]|]. unfold free_stake. cbn. split; [lia|]. split; [lia|exact F'].
  Qed.
  Lemma known_true i : i ∈ lc_idx C -> known_idx C i = true. Proof. intros H. unfold known_idx. apply bool_decide_eq_true. exact H. Qed.
  Lemma total_of_nonneg s i : leds_ok s -> 0 <= total_bonded_of s i.
  Proof. intros H. unfold total_bonded_of. destruct (ls_leds s !! i) as [l|] eqn:El; [|lia]. destruct (H _ _ El) as (K1 & K2 & _ & K3). pose proof (chunk_sum_nonneg _ K3). lia. Qed.
  Lemma cap_live s i x : leds_ok s -> 0 <= x -> total_bonded_of s i + x <= ls_cap s -> ensure_ledger_cap s i x = Ok tt.
  Proof. intros Hl Hx H. unfold ensure_ledger_cap, ensure. pose proof (total_of_nonneg s i Hl). unfold saturating_add, sat128. assert (Z.max 0 (Z.min (total_bonded_of s i + x) U128MAX) <=? ls_cap s = true) as -> by lia. reflexivity. Qed.

  Lemma bond_goes s i x n : xcm_open E -> xcm_funded C s (Z.of_nat (S n)) -> pool_ok (ls_pool s) -> leds_ok s -> 0 < x <= free_stake (ls_pool s) -> i ∈ lc_idx C ->
    total_bonded_of s i + x <= ls_cap s -> (ls_leds s !! i = None -> lc_mnb C <= x) -> goes s (fun s => do_bond C E s i x) x 0 n.
  Proof.
    intros O F Hp Hl Hx Hi Hc Hn. unfold goes. assert (Hx0 : x =? 0 = false) by lia. unfold do_bond, do_bond_extra. rewrite Hx0, (known_true i Hi). cbn [ensure rbind].
    pose proof (send_locked_s s (if ls_leds s !! i then XBONDEXTRA else XBOND) (if ls_leds s !! i then RBondExtra i x else RBond i x) x n O F Hp ltac:(lia)) as G. unfold goes in G.
    destruct (ls_leds s !! i) as [l|] eqn:El; cbn [ok_or rbind]; rewrite (cap_live s i x Hl) by lia; cbn [rbind]; [exact G|].
    assert (lc_mnb C <=? x = true) as -> by (specialize (Hn eq_refl); lia). exact G.
  Qed.
  Lemma unbond_goes s i x n l : xcm_open E -> xcm_funded C s (Z.of_nat (S n)) -> pool_ok (ls_pool s) -> 0 < x <= free_unstake (ls_pool s) -> i ∈ lc_idx C ->
    ls_leds s !! i = Some l -> Z.of_nat (length (sl_unl l)) < 32 -> lc_mnb C <= sl_active l - x -> goes s (fun s => do_unbond C E s i x) 0 x n.
  Proof.
    intros O F Hp Hx Hi El Hc Hm. unfold goes. assert (Hx0 : x =? 0 = false) by lia. unfold do_unbond. rewrite Hx0, (known_true i Hi), El. cbn [ensure rbind ok_or]. unfold MAX_CHUNKS.
    assert (Z.of_nat (length (sl_unl l)) <? 32 = true) as -> by lia. assert (lc_mnb C <=? saturating_sub (sl_active l) x = true) as -> by (unfold saturating_sub; lia). cbn [ensure rbind].
    exact (send_locked_u s XUNBOND (RUnbond i x) x n O F Hp ltac:(lia)).
  Qed.
  Lemma rebond_goes s i x n : xcm_open E -> xcm_funded C s (Z.of_nat (S n)) -> pool_ok (ls_pool s) -> 0 < x <= free_stake (ls_pool s) -> i ∈ lc_idx C ->
    is_Some (ls_leds s !! i) -> goes s (fun s => do_rebond C E s i x) x 0 n.
  Proof.
    intros O F Hp Hx Hi [l El]. unfold goes. assert (Hx0 : x =? 0 = false) by lia. unfold do_rebond. rewrite Hx0, (known_true i Hi), El. cbn [ensure rbind ok_or].
    exact (send_locked_s s XREBOND (RRebond i x) x n O F Hp ltac:(lia)).
  Qed.
  Lemma funded_less s (m n : nat) : (n <= m)%nat -> xcm_funded C s (Z.of_nat m) -> xcm_funded C s (Z.of_nat n).
  Proof. intros H (F & F0 & F1 & F2). exists F. split; [exact F0|]. split; [exact F1|]. nia. Qed.
  Lemma withdraw_goes s i sp n : xcm_open E -> xcm_funded C s (Z.of_nat (S n)) -> pool_ok (ls_pool s) -> i ∈ lc_idx C -> is_Some (ls_leds s !! i) ->
    goes s (fun s => do_withdraw_unbonded C E s i sp) 0 0 n.
  Proof.
    intros O F Hp Hi [l El]. unfold goes, do_withdraw_unbonded. destruct (_ =? 0).
    - exists s. split; [reflexivity|]. split; [apply keeps_refl|]. split; [exact Hp|]. split; [lia|]. split; [lia|]. eapply funded_less; [|exact F]. lia.
    - rewrite (known_true i Hi), El. cbn [ensure rbind ok_or]. destruct (send_live s XWITHDRAW (RWithdraw i sp) n O F) as (s' & E1 & K & Ep & F'). exists s'. rewrite Ep. split; [exact E1|]. split; [exact K|]. split; [exact Hp|]. split; [lia|]. split; [lia|exact F'].
  Qed.
  Lemma run_goes f l : forall (w1 w2 : Z -> Z) s n, pool_ok (ls_pool s) -> Forall (fun e : Z * Z => 0 <= w1 e.2 /\ 0 <= w2 e.2) l ->
    zsum (map (fun e => w1 e.2) l) <= free_stake (ls_pool s) -> zsum (map (fun e => w2 e.2) l) <= free_unstake (ls_pool s) -> xcm_funded C s (Z.of_nat (length l + n)) ->
    (forall s1 i x m, (i, x) ∈ l -> keeps s s1 -> pool_ok (ls_pool s1) -> w1 x <= free_stake (ls_pool s1) -> w2 x <= free_unstake (ls_pool s1) -> xcm_funded C s1 (Z.of_nat (S m)) -> goes s1 (fun s => f s i x) (w1 x) (w2 x) m) ->
    goes s (fun s => run_all f s l) (zsum (map (fun e => w1 e.2) l)) (zsum (map (fun e => w2 e.2) l)) n.
  Proof.
    induction l as [|[i x] l IH]; intros w1 w2 s n Hp Hw Hz1 Hz2 F Hf; cbn [run_all map zsum length] in *.
    - exists s. split; [reflexivity|]. split; [apply keeps_refl|]. split; [exact Hp|]. split; [lia|]. split; [lia|]. exact F.
    - apply Forall_cons in Hw as [Hw0 Hw]. cbn [snd] in *.
      assert (0 <= zsum (map (fun e => w1 e.2) l) /\ 0 <= zsum (map (fun e => w2 e.2) l)). { clear -Hw. induction Hw as [|y l Hy _ IH]; cbn; lia. }
      destruct (Hf s i x (length l + n)%nat ltac:(left) (keeps_refl s) Hp ltac:(lia) ltac:(lia) F) as (s1 & E1 & K1 & P1 & R1 & R2 & F1).
      destruct (IH w1 w2 s1 n P1 Hw ltac:(lia) ltac:(lia) F1) as (s2 & E2 & K2 & P2 & R3 & R4 & F2).
      { intros s3 j y m Hin K3. apply Hf; [right; exact Hin|]. eapply keeps_trans; eassumption. }
      exists s2. unfold goes in *. rewrite E1. cbn [rbind]. split; [exact E2|]. split; [eapply keeps_trans; eassumption|]. split; [exact P2|]. split; [lia|]. split; [lia|exact F2].
  Qed.
  Lemma zsum_zero {A} (l : list A) : zsum (map (fun _ => 0) l) = 0. Proof. induction l; cbn; lia. Qed.
  Lemma dist_len (d : list (Z * Z)) : NoDup (map fst d) -> (forall i x, (i, x) ∈ d -> i ∈ lc_idx C) -> (length d <= length (lc_idx C))%nat.
  Proof.
    intros H1 H2. rewrite <- (map_length fst d). apply submseteq_length, NoDup_submseteq; [exact H1|]. intros i Hi. apply elem_of_list_fmap in Hi as ([j x] & -> & Hj). exact (H2 _ _ Hj).
  Qed.
  Lemma idx_list_in {A} (f : Z -> A) i y : (i, y) ∈ map (fun i => (i, f i)) (lc_idx C) -> i ∈ lc_idx C /\ y = f i.
  Proof. intros H. apply elem_of_list_fmap in H as (j & [= -> ->] & Hj). auto. Qed.
  Lemma keeps_leds_ok s s' : keeps s s' -> leds_ok s -> leds_ok s'. Proof. intros (H & _). unfold leds_ok. rewrite H. auto. Qed.

  Definition goes_any (s : lst) (f : lst -> res lst) (ds du : Z) (n : nat) : Prop :=
    exists s', f s = Ok s' /\ keeps s s' /\ pool_ok (ls_pool s') /\ free_stake (ls_pool s) - ds <= free_stake (ls_pool s') /\ free_unstake (ls_pool s) - du <= free_unstake (ls_pool s') /\ xcm_funded C s' (Z.of_nat n).
  Lemma multi_bond_live s x n : xcm_open E -> NoDup (lc_idx C) -> pool_ok (ls_pool s) -> leds_ok s -> (lc_strat C = Average -> lc_mnb C <= ls_cap s) -> is_u128 (lc_mnb C) ->
    xcm_funded C s (Z.of_nat (length (lc_idx C) + n)) -> 0 <= x <= free_stake (ls_pool s) -> goes_any s (fun s => multi_bond C E s x) x 0 n.
  Proof.
    intros O ND Hp Hl Hc Hm F Hx. unfold goes_any, multi_bond. destruct (x =? 0) eqn:E0.
    { exists s. split; [reflexivity|]. split; [apply keeps_refl|]. split; [exact Hp|]. split; [lia|]. split; [lia|]. eapply funded_less; [|exact F]. lia. }
    set (L := map (fun i => (i, active_bonded_of s i, total_bonded_of s i)) (lc_idx C)) in *.
    assert (HL : forall i a t, (i, a, t) ∈ L -> i ∈ lc_idx C /\ a = active_bonded_of s i /\ t = total_bonded_of s i). { intros i a t H. unfold L in H. apply elem_of_list_fmap in H as (j & [= -> -> ->] & Hj). auto. }
    assert (Hnn : Forall (fun e : Z * Z * Z => 0 <= e.1.2) L). { apply Forall_forall. intros [[i a] t] H. apply HL in H as (_ & -> & _). apply active_of_nonneg. exact Hl. }
    assert (Hnd : NoDup (map (fun e : Z * Z * Z => e.1.1) L)). { unfold L. rewrite map_map. cbn. rewrite map_id. exact ND. }
    pose proof (bond_dist_ok (lc_strat C) L x (ls_cap s) (lc_mnb C) ltac:(lia) Hnn Hnd) as (D1 & D2 & D3). set (d := bond_dist _ _ _ _ _) in *.
    assert (Hdl : (length d <= length (lc_idx C))%nat). { apply dist_len; [exact D2|]. intros i y H. apply D3 in H as (_ & a & t & K & _). apply HL in K. apply K. }
    destruct (run_goes (fun s i x => do_bond C E s i x) d (fun x => x) (fun _ => 0) s n Hp) as (s' & E1 & K1 & P1 & R1 & R2 & F1).
    - apply Forall_forall. intros [i y] H. cbn. apply D3 in H as (H & _). lia.
    - replace (map (fun e : Z * Z => e.2) d) with (map snd d) by reflexivity. lia.
    - rewrite (zsum_zero d). destruct Hp as [_ (A1 & A2 & A3)]. unfold free_unstake. lia.
    - eapply funded_less; [|exact F]. lia.
    - intros s1 i y m H K H1 H2 H3 H4. pose proof (D3 _ _ H) as (Y1 & a & t & Y2 & Y3 & _). pose proof (HL _ _ _ Y2) as (Hi & -> & ->). pose proof K as (Ka & Kb & _).
      assert (Ht : total_bonded_of s1 i = total_bonded_of s i) by (unfold total_bonded_of; rewrite Ka; reflexivity).
      apply bond_goes; try assumption; try lia.
      + exact (keeps_leds_ok _ _ K Hl).
      + intros Hn. apply (bond_dist_new (lc_strat C) L x (ls_cap s) (lc_mnb C) i y); try assumption; try lia; [apply Hm|]. intros a t Hat. apply HL in Hat as (_ & -> & ->). rewrite Ka in Hn. unfold active_bonded_of, total_bonded_of. rewrite Hn. auto.
    - exists s'. split; [exact E1|]. split; [exact K1|]. split; [exact P1|]. rewrite R1, R2, (zsum_zero d). replace (map (fun e : Z * Z => e.2) d) with (map snd d) by reflexivity. split; [lia|]. split; [lia|exact F1].
  Qed.
  Lemma multi_rebond_live s x n : xcm_open E -> NoDup (lc_idx C) -> pool_ok (ls_pool s) ->
    xcm_funded C s (Z.of_nat (length (lc_idx C) + n)) -> 0 <= x <= free_stake (ls_pool s) -> goes_any s (fun s => multi_rebond C E s x) x 0 n.
  Proof.
    intros O ND Hp F Hx. unfold goes_any, multi_rebond. destruct (x =? 0) eqn:E0.
    { exists s. split; [reflexivity|]. split; [apply keeps_refl|]. split; [exact Hp|]. split; [lia|]. split; [lia|]. eapply funded_less; [|exact F]. lia. }
    set (L := map (fun i => (i, unbonding_of s i)) (lc_idx C)) in *.
    assert (Hnn : Forall (fun e : Z * Z => 0 <= e.2) L). { apply Forall_forall. intros [i a] H. apply idx_list_in in H as [_ ->]. apply unbonding_of_nonneg. }
    assert (Hnd : NoDup (map fst L)) by (unfold L; rewrite map_fst_idx; exact ND).
    pose proof (rebond_dist_ok (lc_strat C) L x ltac:(lia) Hnn Hnd) as (D1 & D2 & _ & D3). set (d := rebond_dist _ _ _) in *.
    assert (Hdl : (length d <= length (lc_idx C))%nat). { apply dist_len; [exact D2|]. intros i y H. apply D3 in H as (_ & b & K & _). apply idx_list_in in K. apply K. }
    destruct (run_goes (fun s i x => do_rebond C E s i x) d (fun x => x) (fun _ => 0) s n Hp) as (s' & E1 & K1 & P1 & R1 & R2 & F1).
    - apply Forall_forall. intros [i y] H. cbn. apply D3 in H as (H & _). lia.
    - replace (map (fun e : Z * Z => e.2) d) with (map snd d) by reflexivity. lia.
    - rewrite (zsum_zero d). destruct Hp as [_ (A1 & A2 & A3)]. unfold free_unstake. lia.
    - eapply funded_less; [|exact F]. lia.
    - intros s1 i y m H K H1 H2 H3 H4. pose proof (D3 _ _ H) as (Y1 & b & Y2 & Y3). apply idx_list_in in Y2 as (Hi & ->). pose proof K as (Ka & _).
      apply rebond_goes; try assumption; try lia. rewrite Ka. unfold unbonding_of in Y3. destruct (ls_leds s !! i); [eauto|lia].
    - exists s'. split; [exact E1|]. split; [exact K1|]. split; [exact P1|]. rewrite R1, R2, (zsum_zero d). replace (map (fun e : Z * Z => e.2) d) with (map snd d) by reflexivity. split; [lia|]. split; [lia|exact F1].
  Qed.
  Lemma multi_unbond_live s x n : xcm_open E -> NoDup (lc_idx C) -> pool_ok (ls_pool s) -> 0 < lc_mnb C -> (forall i l, ls_leds s !! i = Some l -> Z.of_nat (length (sl_unl l)) < 32) ->
    xcm_funded C s (Z.of_nat (length (lc_idx C) + n)) -> 0 <= x <= free_unstake (ls_pool s) -> goes_any s (fun s => multi_unbond C E s x) 0 x n.
  Proof.
    intros O ND Hp Hm Hch F Hx. unfold goes_any, multi_unbond. destruct (x =? 0) eqn:E0.
    { exists s. split; [reflexivity|]. split; [apply keeps_refl|]. split; [exact Hp|]. split; [lia|]. split; [lia|]. eapply funded_less; [|exact F]. lia. }
    set (L := map (fun i => (i, active_bonded_of s i)) (lc_idx C)) in *.
    assert (Hnd : NoDup (map fst L)) by (unfold L; rewrite map_fst_idx; exact ND).
    pose proof (unbond_dist_ok (lc_strat C) L x (lc_mnb C) ltac:(lia) Hm Hnd) as (D1 & D2 & _ & D3). set (d := unbond_dist _ _ _ _) in *.
    assert (Hdl : (length d <= length (lc_idx C))%nat). { apply dist_len; [exact D2|]. intros i y H. apply D3 in H as (_ & b & K & _). apply idx_list_in in K. apply K. }
    destruct (run_goes (fun s i x => do_unbond C E s i x) d (fun _ => 0) (fun x => x) s n Hp) as (s' & E1 & K1 & P1 & R1 & R2 & F1).
    - apply Forall_forall. intros [i y] H. cbn. apply D3 in H as (H & _). lia.
    - rewrite (zsum_zero d). destruct Hp as [(A1 & A2 & A3) _]. unfold free_stake. lia.
    - replace (map (fun e : Z * Z => e.2) d) with (map snd d) by reflexivity. lia.
    - eapply funded_less; [|exact F]. lia.
    - intros s1 i y m H K H1 H2 H3 H4. pose proof (D3 _ _ H) as (Y1 & b & Y2 & Y3). apply idx_list_in in Y2 as (Hi & ->). pose proof K as (Ka & _).
      unfold active_bonded_of in Y3. destruct (ls_leds s !! i) as [l|] eqn:El; [|lia]. apply (unbond_goes s1 i y m l); try assumption; try lia; [rewrite Ka; exact El|exact (Hch _ _ El)].
    - exists s'. split; [exact E1|]. split; [exact K1|]. split; [exact P1|]. rewrite R1, R2, (zsum_zero d). replace (map (fun e : Z * Z => e.2) d) with (map snd d) by reflexivity. split; [lia|]. split; [lia|exact F1].
  Qed.
  Lemma multi_withdraw_live s sp n : xcm_open E -> pool_ok (ls_pool s) -> (forall i, is_Some (ls_leds s !! i) -> i ∈ lc_idx C) ->
    xcm_funded C s (Z.of_nat (size (ls_leds s) + n)) -> goes_any s (fun s => multi_withdraw C E s sp) 0 0 n.
  Proof.
    intros O Hp Hk F. unfold goes_any, multi_withdraw. set (d := map (fun k => (k, sp)) _).
    assert (Hd : forall i y, (i, y) ∈ d -> is_Some (ls_leds s !! i)). { intros i y H. unfold d in H. apply elem_of_list_fmap in H as (j & [= -> ->] & Hj). apply elem_of_list_fmap in Hj as ([k v] & -> & Hkv). apply elem_of_map_to_list in Hkv. cbn. eauto. }
    assert (Hlen : length d = size (ls_leds s)). { unfold d. rewrite !map_length. symmetry. apply map_to_list_length_size || reflexivity. }
    destruct (run_goes (fun s i x => do_withdraw_unbonded C E s i x) d (fun _ => 0) (fun _ => 0) s n Hp) as (s' & E1 & K1 & P1 & R1 & R2 & F1).
    - apply Forall_forall. intros. lia.
    - rewrite (zsum_zero d). destruct Hp as [(A1 & A2 & A3) _]. unfold free_stake. lia.
    - rewrite (zsum_zero d). destruct Hp as [_ (A1 & A2 & A3)]. unfold free_unstake. lia.
    - rewrite Hlen. exact F.
    - intros s1 i y m H K H1 H2 H3 H4. pose proof K as (Ka & _). apply withdraw_goes; try assumption; [apply Hk; exact (Hd _ _ H)|rewrite Ka; exact (Hd _ _ H)].
    - exists s'. split; [exact E1|]. split; [exact K1|]. split; [exact P1|]. rewrite R1, R2, (zsum_zero d). split; [lia|]. split; [lia|exact F1].
  Qed.
  Lemma matching_live s : xcm_open E -> ls_cfg_ok C -> lsi C s -> 0 < lc_mnb C -> (lc_strat C = Average -> lc_mnb C <= ls_cap s) ->
    (forall i l, ls_leds s !! i = Some l -> Z.of_nat (length (sl_unl l)) < 32) ->
    xcm_funded C s (Z.of_nat (3 * length (lc_idx C) + size (ls_leds s))) -> exists s', do_matching C E s = Ok s' /\ keeps s s'.
  Proof.
    intros O HC I Hm Hc Hch F. destruct HC as (_ & _ & _ & _ & _ & _ & _ & _ & _ & _ & ND & _ & _ & _ & Hmu & _).
    unfold do_matching. destruct (matching_ok (ls_pool s) (total_unbonding s) (i_pool _ _ I) (total_unbonding_nonneg s)) as (b & r & u & E1 & M1 & M2 & M3 & M4 & M5 & M6 & M7 & M8 & M9).
    rewrite E1. cbn [rbind]. set (s0 := st_ls_matched s true). set (N := length (lc_idx C)) in *.
    assert (F0 : xcm_funded C s0 (Z.of_nat (N + (N + (N + (size (ls_leds s) + 0)))))) by (eapply funded_less; [|exact F]; lia).
    destruct (multi_bond_live s0 b (N + (N + (size (ls_leds s) + 0))) O ND (i_pool _ _ I) (i_leds _ _ I) Hc Hmu F0) as (s1 & A1 & A2 & A3 & A4 & A5 & A6); [change (ls_pool s0) with (ls_pool s); lia|].
    change (ls_pool s0) with (ls_pool s) in *.
    destruct (multi_rebond_live s1 r (N + (size (ls_leds s) + 0)) O ND A3 A6) as (s2 & B1 & B2 & B3 & B4 & B5 & B6); [lia|].
    pose proof (keeps_trans _ _ _ A2 B2) as K2.
    destruct (multi_unbond_live s2 u (size (ls_leds s) + 0) O ND B3 Hm) as (s3 & D1 & D2 & D3 & D4 & D5 & D6); [|exact B6|lia|].
    { destruct K2 as (K & _). rewrite K. exact Hch. }
    pose proof (keeps_trans _ _ _ K2 D2) as K3. destruct K3 as (K & K'). change (ls_leds s0) with (ls_leds s) in K.
    destruct (multi_withdraw_live s3 (lc_spans C) 0 O D3) as (s4 & G1 & G2 & _); [rewrite K; apply (i_known _ _ I)|rewrite K; exact D6|].
    rewrite A1. cbn [rbind]. rewrite B1. cbn [rbind]. rewrite D1. cbn [rbind]. exists s4. split; [exact G1|]. pose proof (keeps_trans _ _ _ K2 (keeps_trans _ _ _ D2 G2)) as K4.
    unfold keeps in *. exact K4.
  Qed.
  Lemma advance_ok s off : exists s', advance_era C s off = Ok s'.
  Proof.
    unfold advance_era. destruct (off =? 0); [eauto|]. destruct (update_exchange_rate C _) as [s1| |] eqn:Eu; cbn [rbind]; eauto. exfalso.
    unfold update_exchange_rate in Eu. unfold liq in Eu. destruct (lc_liq_known C); cbn [rbind] in Eu; [|discriminate]. destruct (_ =? 0); [discriminate|]. destruct (staked_value _); cbn [ok_or rbind] in Eu; [|discriminate].
    destruct (f_checked_from_rational _ _); cbn [ok_or rbind] in Eu; [|discriminate]. destruct (_ <? _); discriminate.
  Qed.
  (** the era moves on whenever it is due *)
  Lemma init_live s : xcm_open E -> ls_cfg_ok C -> lsi C s -> 0 < lc_mnb C -> (lc_strat C = Average -> lc_mnb C <= ls_cap s) ->
    (forall i l, ls_leds s !! i = Some l -> Z.of_nat (length (sl_unl l)) < 32) ->
    xcm_funded C s (Z.of_nat (3 * length (lc_idx C) + size (ls_leds s))) ->
    exists s', on_initialize C E s = Ok s' /\
      (lc_eralen C <= ls_rblock s - ls_start s -> 0 < lc_eralen C -> 0 <= ls_start s -> ls_era s' = Z.min U32MAX (ls_era s + (ls_rblock s - ls_start s) / lc_eralen C) /\ ls_start s' = ls_rblock s) /\
      (ls_rblock s - ls_start s < lc_eralen C -> ls_era s' = ls_era s /\ ls_start s' = ls_start s).
  Proof.
    intros O HC I Hm Hc Hch F. unfold on_initialize.
    assert (exists s1, (if negb (ls_matched s) && (Z.min U32MAX (lc_offset C + ls_start s) <=? ls_rblock s) then do_matching C E s else Ok s) = Ok s1 /\ keeps s s1) as (s1 & E1 & K).
    { destruct (_ && _); [apply matching_live; assumption|]. exists s. split; [reflexivity|apply keeps_refl]. }
    rewrite E1. cbn [rbind]. destruct K as (K1 & K2 & K3 & K4 & K5 & _). unfold era_offset. rewrite K4, K5.
    destruct HC as (_ & _ & _ & _ & _ & _ & _ & _ & _ & _ & _ & _ & _ & _ & _ & _ & _ & _ & C19 & _).
    destruct (ls_rblock s <? ls_start s) eqn:El; cbn [Z.eqb].
    { exists s1. split; [reflexivity|]. split; [lia|]. intros _. auto. }
    destruct (lc_eralen C =? 0) eqn:Ez; cbn [Z.eqb].
    { exists s1. split; [reflexivity|]. split; [lia|]. intros _. auto. }
    set (off := (ls_rblock s - ls_start s) / lc_eralen C) in *. destruct (off =? 0) eqn:Eo.
    { exists s1. split; [reflexivity|]. split; [|auto]. intros H1 H2 H3. exfalso. assert (1 <= off) by (apply Z.div_le_lower_bound; lia). lia. }
    destruct (advance_ok s1 off) as (s2 & E2). exists s2. split; [exact E2|]. apply advance_eff in E2 as [[? _]|E2]; [lia|]. cbv zeta in E2.
    split.
    - intros H1 H2 H3. destruct E2 as [->|(v & _ & _ & _ & ->)]; cbn; rewrite K3, K5; auto.
    - intros H. exfalso. assert (off = 0) by (apply Z.div_small; lia). lia.
  Qed.
End lsp.

(** *** rebonding takes from the latest chunks *)
Lemma rebond_lifo l v l' : sled_ok l -> 0 <= v -> sl_rebond l v = Ok l' ->
  exists k, sl_unl l' = take k (sl_unl l) \/ exists c c0, sl_unl l' = take k (sl_unl l) ++ [c] /\ sl_unl l !! k = Some c0 /\ c_era c = c_era c0 /\ c_v c <= c_v c0.
Proof.
  intros Hs Hv H. unfold sl_rebond in H. bstep H r Er. injection H as <-. destruct r as [rl act]. cbn [sl_unl snd fst] in *.
  destruct Hs as (_ & _ & _ & Hn). apply rebond_rev_ok in Er as (_ & _ & _ & k & Hk); [|apply nonneg_rev; exact Hn|lia|lia].
  set (u := sl_unl l) in *. assert (Hrd : forall j, rev (drop j (rev u)) = take (length u - j) u).
  { intros j. destruct (le_lt_dec j (length u)) as [Hj|Hj].
    - rewrite <- (rev_length u). rewrite <- (rev_involutive u) at 3. generalize (rev u) as w. intros w. rewrite <- (take_drop j w) at 3. rewrite rev_app_distr. rewrite take_app_alt; [reflexivity|]. rewrite rev_length, drop_length. reflexivity.
    - rewrite drop_ge by (rewrite rev_length; lia). replace (length u - j)%nat with 0%nat by lia. reflexivity. }
  assert (Hrl : forall j c, rev u !! j = Some c -> u !! (length u - S j)%nat = Some c).
  { intros j c Hj. assert (j < length u)%nat by (apply lookup_lt_Some in Hj; rewrite rev_length in Hj; exact Hj).
    change (rev u) with (List.rev u) in Hj. rewrite rev_alt in Hj. change (rev_append u []) with (reverse u) in Hj. rewrite reverse_lookup in Hj by assumption. exact Hj. }
  destruct Hk as [(c & -> & c0 & K1 & K2 & K3)|[->|(c & -> & K1)]].
  - exists (length u - S k)%nat. right. exists c, c0. cbn [rev]. rewrite Hrd. split; [reflexivity|]. split; [apply Hrl; exact K1|]. split; [exact K2|lia].
  - exists (length u - k)%nat. left. apply Hrd.
  - exists (length u - S k)%nat. right. exists c, c. cbn [rev]. rewrite Hrd. split; [reflexivity|]. split; [apply Hrl; exact K1|]. split; [reflexivity|lia].
Qed.
