(** * LsProofs4: every step is a sequence of elementary effects. *)
From Verif Require Import Base MapSum Ledger AmmModel LoansModel LoansSpec LoansProofs2 LoansProofs3 LoansProofs4 LoansProofs5 LsModel LsSpec LsProofs LsDist LsProofs2 LsProofs3.

Ltac at_simpl := unfold at_ in *; repeat case_bool_decide; destruct_and?; subst; try congruence; try lia.

Section lsp.
  Context (C : ls_cfg) (E : ls_env) (Q : lst -> ls_call -> Prop).
  Notation P := (e_pol E).
  Notation stkA := (lc_stk C).
  Notation liqA := (lc_liq C).
  Notation colA := (lc_col C).
  Notation me := (lc_acct C).
  Notation lacct := (ln_acct (lc_loans C)).

  (** the change of the pallet's staking-token balance and of the liquid-token issuance *)
  Definition dl (s : lst) (n : loans) (d1 d2 : Z) : Prop :=
    bal (ln_led n) stkA me = bal (ls_led s) stkA me + d1 /\ iss (ln_led n) liqA = iss (ls_led s) liqA + d2 /\
    loans_steps (lc_loans C) P (ls_ln s) n.

  Lemma lsteps_trans a b c : loans_steps (lc_loans C) P a b -> loans_steps (lc_loans C) P b c -> loans_steps (lc_loans C) P a c.
  Proof. intros H1 H2. induction H2; [exact H1|]. eapply steps_more; [apply IHloans_steps; exact H1|eassumption]. Qed.
  Lemma lsteps_one a b : loans_step (lc_loans C) P a b -> loans_steps (lc_loans C) P a b.
  Proof. intros H. eapply steps_more; [constructor|exact H]. Qed.
  Lemma tok_step n L : ledger_wf L -> (forall a, bal (ln_led n) a lacct <= bal L a lacct) -> loans_steps (lc_loans C) P n (st_led n L).
  Proof. intros H1 H2. apply lsteps_one. apply step_tokens; assumption. Qed.
  Lemma call_step n c n' : call_ok (lc_loans C) c -> loans_exec (lc_loans C) P n c = Ok n' -> loans_steps (lc_loans C) P n n'.
  Proof. intros H1 H2. apply lsteps_one. eapply step_call; eassumption. Qed.

  (** *** the invariant of every history *)
  Record lsi (s : lst) : Prop := mkLsi {
    i_ln : linv (ls_ln s);
    i_rate : is_u128 (ls_rate s);
    i_rf : is_permill (ls_rf s); i_urf : is_permill (ls_urf s); i_comm : 0 <= ls_comm s <= FDIV;
    i_res : 0 <= ls_res s; i_ures : 0 <= ls_ures s;
    i_pool : pool_ok (ls_pool s);
    i_leds : leds_ok s;
    i_reqs : forall q r, ls_reqs s !! q = Some r -> 0 <= req_stake r /\ 0 <= req_unstake r /\ q < ls_qid s;
    i_locks : msum (fun _ r => req_stake r) (ls_reqs s) = locked_stake s;
    i_locku : msum (fun _ r => req_unstake r) (ls_reqs s) = locked_unstake s;
    i_unl : forall w l, ls_unl s !! w = Some l -> w <> me /\ Forall (fun c => 0 <= c_v c) l /\ Z.of_nat (length l) <= 32;
    i_fast : forall w b, ls_fast s !! w = Some b -> ls_user C w /\ 0 <= b;
    i_known : (forall i, is_Some (ls_leds s !! i) -> i ∈ lc_idx C) /\ (forall q r, ls_reqs s !! q = Some r -> req_idx r ∈ lc_idx C);
    i_era : 0 <= ls_era s <= U32MAX;
    i_solv : ls_res s + pool_stake s <= bal (ls_led s) stkA me
  }.

  Definition same_core (s s' : lst) : Prop :=
    ls_ln s' = ls_ln s /\ ls_rate s' = ls_rate s /\ ls_res s' = ls_res s /\ ls_ures s' = ls_ures s /\ ls_pool s' = ls_pool s /\
    ls_reqs s' = ls_reqs s /\ ls_fast s' = ls_fast s /\ ls_unl s' = ls_unl s /\ ls_leds s' = ls_leds s /\ ls_qid s <= ls_qid s' /\
    (is_permill (ls_rf s) -> is_permill (ls_rf s')) /\ (is_permill (ls_urf s) -> is_permill (ls_urf s')) /\
    (0 <= ls_comm s <= FDIV -> 0 <= ls_comm s' <= FDIV) /\ (0 <= ls_era s <= U32MAX -> 0 <= ls_era s' <= U32MAX).

  (** how a confirmed request changes a staking ledger ([l] to [l']), the matching pool and the balance *)
  Definition confirms (s : lst) (r : request) (i : Z) (l l' : sled) (p : mpool) (d : Z) : Prop :=
    match r with
    | RBondExtra j x => j = i /\ sl_bond_extra l x = Ok l' /\ consolidate_stake (ls_pool s) x = Ok p /\ d = - x
    | RUnbond j x => j = i /\ sl_unbond l x (ls_era s + lc_bonding C) = Ok l' /\ consolidate_unstake (ls_pool s) x = Ok p /\ d = 0
    | RRebond j x => j = i /\ sl_rebond l x = Ok l' /\ consolidate_stake (ls_pool s) x = Ok p /\ d = 0
    | RWithdraw j _ => j = i /\ l' = sl_consolidate l (ls_era s) /\ p = ls_pool s /\ d = sl_total l - sl_total l'
    | _ => False
    end.

  Inductive leff (s : lst) : lst -> Prop :=
  | F_ln n d : 0 <= d -> dl s n d 0 -> leff s (st_ls_ln s n)
  | F_misc s' : same_core s s' -> leff s s'
  | F_stake net rs v n : 0 <= net -> 0 <= rs -> 0 <= v -> ls_rate s * v <= net * FDIV -> pool_stake s + net <= U128MAX -> ls_res s + rs <= U128MAX ->
      dl s n (net + rs) v ->
      leff s (st_ls_res (st_ls_pool (st_ls_ln s n) (mkMP (mkRA (pool_stake s + net) (locked_stake s)) (mp_u (ls_pool s)))) (ls_res s + rs))
  | F_unstake key la x era u n : key <> me -> 0 <= la -> 0 <= x -> x * FDIV <= ls_rate s * la -> ls_ures s <= u -> pool_unstake s + x <= U128MAX ->
      Z.of_nat (length (add_chunk (queue_of s key) x era)) <= 32 -> dl s n 0 (- la) ->
      leff s (st_ls_pool (st_ls_ln (st_ls_unl (st_ls_ures s u) (<[key := add_chunk (queue_of s key) x era]> (ls_unl s))) n)
                (mkMP (mp_s (ls_pool s)) (mkRA (pool_unstake s + x) (locked_unstake s))))
  | F_fastset w b u : ls_user C w -> 0 <= b -> ls_ures s <= u -> leff s (st_ls_fast (st_ls_ures s u) (<[w := b]> (ls_fast s)))
  | F_claim who l d n : ls_unl s !! who = Some l -> 0 <= d <= chunk_sum (due (ls_era s) l) ->
      ls_res s + pool_stake s + chunk_sum (due (ls_era s) l) <= bal (ls_led s) stkA me -> dl s n (- d) 0 ->
      leff s (st_ls_unl (st_ls_ln s n) (claimed_queue s who l))
  | F_fast w x burnt n f' : 0 <= x <= free_stake (ls_pool s) -> 0 <= burnt -> x * FDIV <= ls_rate s * burnt -> dl s n (- x) (- burnt) ->
      (f' = delete w (ls_fast s) \/ exists b, 0 <= b /\ is_Some (ls_fast s !! w) /\ f' = <[w := b]> (ls_fast s)) ->
      leff s (st_ls_fast (st_ls_pool (st_ls_ln s n) (mkMP (mkRA (pool_stake s - x) (locked_stake s)) (mp_u (ls_pool s)))) f')
  | F_send r n : req_idx r ∈ lc_idx C -> 0 <= req_stake r -> 0 <= req_unstake r ->
      (req_stake r <> 0 -> locked_stake s + req_stake r <= pool_stake s) -> (req_unstake r <> 0 -> locked_unstake s + req_unstake r <= pool_unstake s) ->
      dl s n 0 0 ->
      leff s (st_ls_qid (st_ls_reqs (st_ls_ln (st_ls_pool s (lock_of (ls_pool s) r)) n) (<[ls_qid s := r]> (ls_reqs s))) (ls_qid s + 1))
  | F_bond resp o q i x p n : Q s (KNotify resp o q (Some true)) -> ls_reqs s !! q = Some (RBond i x) -> ls_leds s !! i = None -> consolidate_stake (ls_pool s) x = Ok p -> dl s n (- x) 0 ->
      leff s (st_ls_reqs (st_ls_ln (st_ls_pool (st_ls_leds s (<[i := sl_new x]> (ls_leds s))) p) n) (delete q (ls_reqs s)))
  | F_upd resp o q r i l l' p d n : Q s (KNotify resp o q (Some true)) -> ls_reqs s !! q = Some r -> ls_leds s !! i = Some l -> confirms s r i l l' p d -> dl s n d 0 ->
      leff s (st_ls_reqs (st_ls_upd (st_ls_ln (st_ls_pool (st_ls_leds s (<[i := l']> (ls_leds s))) p) n) (<[i := true]> (ls_upd s))) (delete q (ls_reqs s)))
  | F_nominate resp o q i t : Q s (KNotify resp o q (Some true)) -> ls_reqs s !! q = Some (RNominate i t) -> leff s (st_ls_reqs s (delete q (ls_reqs s)))
  | F_rate r v : ls_rate s < r <= U128MAX -> r * iss (ls_led s) liqA <= v * FDIV -> staked_value s = Some v -> leff s (st_ls_rate s r)
  | F_setled o i l l' pf x n : Q s (KSetLedger o i l' pf) -> ls_leds s !! i = Some l -> sled_ok l' -> sl_total l < sl_total l' -> sl_active l < sl_active l' -> sl_unl l' = sl_unl l ->
      inflate_amount C s (sl_total l' - sl_total l) = Ok x -> dl s n 0 x ->
      leff s (st_ls_upd (st_ls_leds (st_ls_ln s n) (<[i := l']> (ls_leds s))) (<[i := true]> (ls_upd s)))
  | F_forceled o i l l' : Q s (KForceLedger o i l') -> ls_leds s !! i = Some l -> sled_ok l' ->
      leff s (st_ls_upd (st_ls_leds s (<[i := l']> (ls_leds s))) (<[i := true]> (ls_upd s)))
  | F_reduce x d n : 0 <= x <= ls_res s -> 0 <= d <= x -> dl s n (- d) 0 -> leff s (st_ls_res (st_ls_ln s n) (ls_res s - x))
  | F_ureduce u n : 0 <= u -> dl s n 0 0 -> leff s (st_ls_ures (st_ls_ln s n) u).
  Inductive leffs : lst -> lst -> Prop :=
  | leffs_nil s : leffs s s
  | leffs_cons s1 s2 s3 : leff s1 s2 -> leffs s2 s3 -> leffs s1 s3.
  Lemma leffs_one s s' : leff s s' -> leffs s s'. Proof. intros H. eapply leffs_cons; [exact H|constructor]. Qed.
  Lemma leffs_trans s1 s2 s3 : leffs s1 s2 -> leffs s2 s3 -> leffs s1 s3.
  Proof. induction 1; [auto|]. intros K. eapply leffs_cons; [eassumption|auto]. Qed.

  (** *** preservation *)
  Lemma msum_reqs_delete f s q r : ls_reqs s !! q = Some r -> msum (fun _ r => f r) (delete q (ls_reqs s)) = msum (fun _ r => f r) (ls_reqs s) - f r.
  Proof. intros H. rewrite (msum_delete (fun _ r => f r) _ _ _ H). lia. Qed.
  Lemma i_req_le s q r : lsi s -> ls_reqs s !! q = Some r -> req_stake r <= locked_stake s /\ req_unstake r <= locked_unstake s.
  Proof.
    intros I H. rewrite <- (i_locks s I), <- (i_locku s I). split.
    - apply (msum_ge_elem (fun _ r => req_stake r) _ q r); [|exact H]. intros k v K. apply (i_reqs s I k v K).
    - apply (msum_ge_elem (fun _ r => req_unstake r) _ q r); [|exact H]. intros k v K. apply (i_reqs s I k v K).
  Qed.
  Lemma confirms_ok s q r i l l' p d : lsi s -> ls_reqs s !! q = Some r -> ls_leds s !! i = Some l -> confirms s r i l l' p d ->
    sled_ok l' /\ pool_ok p /\ ra_res (mp_s p) = locked_stake s - req_stake r /\ ra_res (mp_u p) = locked_unstake s - req_unstake r /\
    exists y, 0 <= y /\ ra_tot (mp_u p) = pool_unstake s - req_unstake r - y /\ ra_tot (mp_s p) = pool_stake s - req_stake r - y /\
    match r with
    | RBondExtra _ x => d = - x /\ sl_active l' = sl_active l + x /\ chunk_sum (sl_unl l') = chunk_sum (sl_unl l)
    | RUnbond _ x => d = 0 /\ sl_active l' = sl_active l - x /\ chunk_sum (sl_unl l') = chunk_sum (sl_unl l) + x
    | RRebond _ x => d = 0 /\ sl_active l' = sl_active l + Z.min x (chunk_sum (sl_unl l)) /\ chunk_sum (sl_unl l') = chunk_sum (sl_unl l) - Z.min x (chunk_sum (sl_unl l))
    | RWithdraw _ _ => y = 0 /\ sl_active l' = sl_active l /\ d = chunk_sum (due (ls_era s) (sl_unl l)) /\ 0 <= d /\ chunk_sum (sl_unl l') = chunk_sum (sl_unl l) - d
    | _ => False
    end.
  Proof.
    intros I Hq Hl K. pose proof (i_reqs s I q r Hq) as (R1 & R2 & _). pose proof (i_pool s I) as Hp. pose proof (i_leds s I i l Hl) as Hs.
    unfold locked_stake, locked_unstake, pool_stake, pool_unstake. destruct r as [j x|j x|j x|j x|j x|j x]; cbn [confirms req_stake req_unstake] in *; try contradiction.
    - destruct K as (_ & K1 & K2 & ->). apply (sl_bond_extra_ok _ _ _ Hs R1) in K1 as (A1 & A2 & A3 & A4). apply (consolidate_stake_ok _ _ _ Hp R1) in K2 as (B1 & B2 & B3 & y & B4 & B5 & B6).
      split; [exact A1|]. split; [exact B1|]. split; [lia|]. split; [lia|]. exists y. rewrite A4. repeat split; try lia.
    - destruct K as (_ & K1 & K2 & ->). apply (sl_unbond_ok _ _ _ _ Hs R2) in K1 as (A1 & A2 & A3 & A4). apply (consolidate_unstake_ok _ _ _ Hp R2) in K2 as (B1 & B2 & B3 & y & B4 & B5 & B6).
      split; [exact A1|]. split; [exact B1|]. split; [lia|]. split; [lia|]. exists y. repeat split; try lia.
    - destruct K as (_ & K1 & K2 & ->). apply (sl_rebond_ok _ _ _ Hs R1) in K1 as (A1 & A2 & A3 & A4). apply (consolidate_stake_ok _ _ _ Hp R1) in K2 as (B1 & B2 & B3 & y & B4 & B5 & B6).
      split; [exact A1|]. split; [exact B1|]. split; [lia|]. split; [lia|]. exists y. repeat split; try lia.
    - destruct K as (_ & -> & -> & ->). destruct (sl_consolidate_ok l (ls_era s) Hs) as (A1 & A2 & A3 & A4).
      split; [exact A1|]. split; [exact Hp|]. split; [lia|]. split; [lia|]. exists 0. rewrite A4, A3. pose proof (due_split (ls_era s) (sl_unl l)).
      destruct Hs as (_ & _ & _ & Hs4). pose proof (due_le (ls_era s) _ Hs4). repeat split; try lia.
  Qed.
  Lemma add_chunk_len l v e : (length (add_chunk l v e) <= S (length l))%nat.
  Proof. induction l as [|c l IH]; cbn [add_chunk length]; [lia|]. destruct l as [|c' l']; [destruct (_ =? _); cbn; lia|]. cbn [length] in *. lia. Qed.
  Lemma queue_ok s w : lsi s -> Forall (fun c => 0 <= c_v c) (queue_of s w).
  Proof. intros I. unfold queue_of. destruct (ls_unl s !! w) as [l|] eqn:El; cbn; [|constructor]. apply (i_unl s I _ _ El). Qed.

  Lemma known_set {A} (m : gmap Z A) i0 x : (forall i, is_Some (m !! i) -> i ∈ lc_idx C) -> i0 ∈ lc_idx C -> forall i, is_Some (<[i0 := x]> m !! i) -> i ∈ lc_idx C.
  Proof. intros H H0 i. destruct (decide (i = i0)) as [->|Hne]; [auto|]. rewrite lookup_insert_ne by congruence. apply H. Qed.
  Lemma known_del (m : gmap Z request) q0 : (forall q r, m !! q = Some r -> req_idx r ∈ lc_idx C) -> forall q r, delete q0 m !! q = Some r -> req_idx r ∈ lc_idx C.
  Proof. intros H q r K. apply lookup_delete_Some in K as [_ K]. exact (H _ _ K). Qed.
  Lemma known_ins (m : gmap Z request) q0 r0 : (forall q r, m !! q = Some r -> req_idx r ∈ lc_idx C) -> req_idx r0 ∈ lc_idx C -> forall q r, <[q0 := r0]> m !! q = Some r -> req_idx r ∈ lc_idx C.
  Proof. intros H H0 q r K. destruct (decide (q = q0)) as [->|Hne]; [rewrite lookup_insert in K; congruence|]. rewrite lookup_insert_ne in K by congruence. exact (H _ _ K). Qed.

  Ltac fin I := first [exact (i_ln _ I)|exact (i_rate _ I)|exact (i_rf _ I)|exact (i_urf _ I)|exact (i_comm _ I)|exact (i_res _ I)|exact (i_ures _ I)
    |exact (i_pool _ I)|exact (i_leds _ I)|exact (i_reqs _ I)|exact (i_locks _ I)|exact (i_locku _ I)|exact (i_unl _ I)|exact (i_fast _ I)|exact (i_era _ I)|exact (i_known _ I)].
  Ltac dl_linv I H := pose proof (steps_linv _ _ _ _ (i_ln _ I) (proj2 (proj2 H))).

  Lemma leff_lsi s s' : 0 <= lc_bonding C -> lsi s -> leff s s' -> lsi s'.
  Proof.
    intros Hbond I F. pose proof (i_solv s I) as Hsolv. destruct F as [n d Hd D|s' (M1 & M2 & M3 & M4 & M5 & M6 & M7 & M8 & M9 & M10 & M11 & M12 & M13 & M14)|net rs v n N1 N2 N3 N4 N5 N6 D|key la x era u n K1 K2 K3 K4 K5 K6 K7 D|w b u W1 W2 W3
      |who l d n L1 L2 L3 D|w x burnt n f' X1 X2 X3 D X4|r n Sk S1 S2 S3 S4 D|resp o q i x p n B0 B1 B2 B3 D|resp o q r i l l' p d n U0 U1 U2 U3 D|resp o q i t T0 T1|r v R1 R2 R3|o i l l' pf x n G0 G1 G2 G3 G4 G5 G6 D|o i l l' G0 G1 G2|x d n X1 X2 D|u n U1 D].
    - dl_linv I D. destruct D as (D1 & D2 & _). constructor; try fin I; try assumption. change (ls_led (st_ls_ln s n)) with (ln_led n). rewrite D1. cbn. fold (pool_stake s). unfold pool_stake in *. cbn. lia.
    - pose proof I as I0. destruct I. constructor; unfold leds_ok, locked_stake, locked_unstake, pool_stake, ls_led in *; rewrite ?M1, ?M2, ?M3, ?M4, ?M5, ?M6, ?M7, ?M8, ?M9; auto; try lia.
      intros q r Hq. destruct (i_reqs0 q r Hq) as (A1 & A2 & A3). repeat split; try lia.
    - dl_linv I D. destruct D as (D1 & D2 & _). pose proof (i_pool s I) as [(P1 & P2 & P3) P4]. pose proof (i_res s I). constructor; try fin I; try assumption; try (cbn; lia).
      + split; [|exact P4]. unfold ra_ok, pool_stake, locked_stake in *. cbn. lia.
      + change (ls_led _) with (ln_led n). rewrite D1. unfold pool_stake in *. cbn. lia.
    - dl_linv I D. destruct D as (D1 & D2 & _). pose proof (i_pool s I) as [P4 (P1 & P2 & P3)]. pose proof (i_ures s I). constructor; try fin I; try assumption; try (cbn; lia).
      + split; [exact P4|]. unfold ra_ok, pool_unstake, locked_unstake in *. cbn. lia.
      + cbn [ls_unl st_ls_pool st_ls_ln st_ls_unl]. intros w0 l0. destruct (decide (w0 = key)) as [->|Hne].
        * rewrite lookup_insert. intros [= <-]. split; [exact K1|]. split; [|exact K7]. apply add_chunk_nonneg; [apply queue_ok; exact I|exact K3].
        * rewrite lookup_insert_ne by congruence. apply (i_unl s I).
      + change (ls_led _) with (ln_led n). rewrite D1. unfold pool_stake in *. cbn. lia.
    - pose proof (i_ures s I). constructor; try fin I; try (cbn; lia).
      + cbn [ls_fast st_ls_fast st_ls_ures]. intros w0 b0. destruct (decide (w0 = w)) as [->|Hne].
        * rewrite lookup_insert. intros [= <-]. auto.
        * rewrite lookup_insert_ne by congruence. apply (i_fast s I).
      + exact Hsolv.
    - dl_linv I D. destruct D as (D1 & D2 & _). constructor; try fin I; try assumption.
      + cbn [ls_unl st_ls_unl st_ls_ln]. intros w0 l0. unfold claimed_queue. pose proof (i_unl s I who l L1) as (A1 & A2 & A3).
        assert (Hlen : (length (not_due (ls_era s) l) <= length l)%nat) by (unfold not_due; clear; induction l as [|c l IH]; cbn; [lia|]; destruct (negb _); cbn; lia).
        destruct (not_due (ls_era s) l) as [|c r] eqn:En.
        * intros H0. apply lookup_delete_Some in H0 as [_ H0]. exact (i_unl s I _ _ H0).
        * destruct (decide (w0 = who)) as [->|Hne]; [|rewrite lookup_insert_ne by congruence; apply (i_unl s I)].
          rewrite lookup_insert. intros [= <-]. split; [exact A1|]. split; [rewrite <- En; apply nonneg_filter; exact A2|]. lia.
      + change (ls_led _) with (ln_led n). rewrite D1. unfold pool_stake in *. cbn. lia.
    - dl_linv I D. destruct D as (D1 & D2 & _). pose proof (i_pool s I) as [(P1 & P2 & P3) P4]. constructor; try fin I; try assumption.
      + split; [|exact P4]. unfold ra_ok, pool_stake, locked_stake, free_stake in *. cbn. lia.
      + cbn [ls_fast st_ls_fast st_ls_ures]. intros w0 b0 H0. destruct X4 as [->|(b & Hb & [b1 Hb1] & ->)].
        * apply lookup_delete_Some in H0 as [_ H0]. exact (i_fast s I _ _ H0).
        * destruct (decide (w0 = w)) as [->|Hne].
          -- rewrite lookup_insert in H0. injection H0 as <-. split; [apply (i_fast s I _ _ Hb1)|exact Hb].
          -- rewrite lookup_insert_ne in H0 by congruence. exact (i_fast s I _ _ H0).
      + change (ls_led _) with (ln_led n). rewrite D1. unfold pool_stake in *. cbn. lia.
    - dl_linv I D. destruct D as (D1 & D2 & _). pose proof (i_pool s I) as [(P1 & P2 & P3) (P4 & P5 & P6)].
      assert (Hq : ls_reqs s !! ls_qid s = None). { destruct (ls_reqs s !! ls_qid s) as [r0|] eqn:Eq; [|reflexivity]. destruct (i_reqs s I _ _ Eq) as (_ & _ & K). lia. }
      unfold locked_stake, pool_stake, locked_unstake, pool_unstake in *.
      constructor; try fin I; try assumption.
      + unfold lock_of. split; unfold ra_ok; cbn; [destruct (decide (req_stake r = 0)) as [->|]|destruct (decide (req_unstake r = 0)) as [->|]]; try lia.
      + cbn [ls_reqs ls_qid st_ls_reqs st_ls_qid]. intros q0 r0. destruct (decide (q0 = ls_qid s)) as [->|Hne].
        * rewrite lookup_insert. intros [= <-]. repeat split; try assumption; lia.
        * rewrite lookup_insert_ne by congruence. intros H0. destruct (i_reqs s I _ _ H0) as (A1 & A2 & A3). repeat split; try assumption; lia.
      + cbn [ls_reqs st_ls_reqs st_ls_qid]. rewrite msum_insert_new by exact Hq. rewrite (i_locks s I). unfold locked_stake. cbn. lia.
      + cbn [ls_reqs st_ls_reqs st_ls_qid]. rewrite msum_insert_new by exact Hq. rewrite (i_locku s I). unfold locked_unstake. cbn. lia.
      + split; [exact (proj1 (i_known s I))|]. exact (known_ins _ _ _ (proj2 (i_known s I)) Sk).
      + change (ls_led _) with (ln_led n). rewrite D1. unfold pool_stake in *. cbn. lia.
    - dl_linv I D. destruct D as (D1 & D2 & _). pose proof (i_reqs s I _ _ B1) as (A1 & _ & A3). cbn in A1. pose proof (i_req_le s _ _ I B1) as [A4 _]. cbn in A4.
      apply (consolidate_stake_ok _ _ _ (i_pool s I) A1) in B3 as (Y1 & Y2 & Y3 & y & Y4 & Y5 & Y6).
      pose proof (i_pool s I) as [(P1 & P2 & P3) _]. unfold locked_stake in A4.
      constructor; try fin I; try assumption.
      + intros j l. cbn [ls_leds st_ls_leds st_ls_reqs st_ls_ln st_ls_pool]. destruct (decide (j = i)) as [->|Hne].
        * rewrite lookup_insert. intros [= <-]. apply sl_new_ok. unfold is_u128. lia.
        * rewrite lookup_insert_ne by congruence. apply (i_leds s I).
      + cbn [ls_reqs ls_qid st_ls_reqs st_ls_qid]. intros q0 r0 H0. apply lookup_delete_Some in H0 as [_ H0]. exact (i_reqs s I _ _ H0).
      + cbn [ls_reqs st_ls_reqs]. rewrite (msum_reqs_delete req_stake _ _ _ B1), (i_locks s I). unfold locked_stake. cbn. lia.
      + cbn [ls_reqs st_ls_reqs]. rewrite (msum_reqs_delete req_unstake _ _ _ B1), (i_locku s I). unfold locked_unstake. cbn. lia.
      + split; [exact (known_set _ _ _ (proj1 (i_known s I)) (proj2 (i_known s I) _ _ B1))|]. exact (known_del _ _ (proj2 (i_known s I))).
      + change (ls_led _) with (ln_led n). rewrite D1. unfold pool_stake in *. cbn. lia.
    - dl_linv I D. destruct D as (D1 & D2 & _). destruct (confirms_ok _ _ _ _ _ _ _ _ I U1 U2 U3) as (Y1 & Y2 & Y3 & Y4 & y & Y5 & Y6 & Y7 & Y8).
      pose proof (i_reqs s I _ _ U1) as (A1 & A2 & A3).
      constructor; try fin I; try assumption.
      + intros j l0. cbn [ls_leds st_ls_leds st_ls_reqs st_ls_ln st_ls_pool st_ls_upd]. destruct (decide (j = i)) as [->|Hne].
        * rewrite lookup_insert. intros [= <-]. exact Y1.
        * rewrite lookup_insert_ne by congruence. apply (i_leds s I).
      + cbn [ls_reqs ls_qid st_ls_reqs st_ls_qid]. intros q0 r0 H0. apply lookup_delete_Some in H0 as [_ H0]. exact (i_reqs s I _ _ H0).
      + cbn [ls_reqs st_ls_reqs]. rewrite (msum_reqs_delete req_stake _ _ _ U1), (i_locks s I). unfold locked_stake in *. cbn. lia.
      + cbn [ls_reqs st_ls_reqs]. rewrite (msum_reqs_delete req_unstake _ _ _ U1), (i_locku s I). unfold locked_unstake in *. cbn. lia.
      + split; [exact (known_set _ _ _ (proj1 (i_known s I)) (proj1 (i_known s I) _ (ex_intro _ _ U2)))|]. exact (known_del _ _ (proj2 (i_known s I))).
      + change (ls_led _) with (ln_led n). rewrite D1. unfold pool_stake in *. cbn. destruct r; try contradiction; cbn in *; lia.
    - constructor; try fin I; try exact Hsolv.
      + cbn [ls_reqs ls_qid st_ls_reqs st_ls_qid]. intros q0 r0 H0. apply lookup_delete_Some in H0 as [_ H0]. exact (i_reqs s I _ _ H0).
      + cbn [ls_reqs st_ls_reqs]. rewrite (msum_reqs_delete req_stake _ _ _ T1), (i_locks s I). unfold locked_stake in *. cbn. lia.
      + cbn [ls_reqs st_ls_reqs]. rewrite (msum_reqs_delete req_unstake _ _ _ T1), (i_locku s I). unfold locked_unstake in *. cbn. lia.
      + split; [exact (proj1 (i_known s I))|]. exact (known_del _ _ (proj2 (i_known s I))).
    - pose proof (i_rate s I) as [? ?]. constructor; try fin I; try exact Hsolv. unfold is_u128. cbn. lia.
    - dl_linv I D. destruct D as (D1 & D2 & _). constructor; try fin I; try assumption.
      + intros j l0. cbn [ls_leds st_ls_leds st_ls_upd]. destruct (decide (j = i)) as [->|Hne].
        * rewrite lookup_insert. intros [= <-]. exact G2.
        * rewrite lookup_insert_ne by congruence. apply (i_leds s I).
      + split; [exact (known_set _ _ _ (proj1 (i_known s I)) (proj1 (i_known s I) _ (ex_intro _ _ G1)))|exact (proj2 (i_known s I))].
      + change (ls_led _) with (ln_led n). rewrite D1. unfold pool_stake in *. cbn. lia.
    - constructor; try fin I; try exact Hsolv.
      + intros j l0. cbn [ls_leds st_ls_leds st_ls_upd]. destruct (decide (j = i)) as [->|Hne].
        * rewrite lookup_insert. intros [= <-]. exact G2.
        * rewrite lookup_insert_ne by congruence. apply (i_leds s I).
      + split; [exact (known_set _ _ _ (proj1 (i_known s I)) (proj1 (i_known s I) _ (ex_intro _ _ G1)))|exact (proj2 (i_known s I))].
    - dl_linv I D. destruct D as (D1 & D2 & _). constructor; try fin I; try assumption; try (cbn; lia).
      change (ls_led _) with (ln_led n). rewrite D1. unfold pool_stake in *. cbn. lia.
    - dl_linv I D. destruct D as (D1 & D2 & _). constructor; try fin I; try assumption; try (cbn; lia).
      change (ls_led _) with (ln_led n). rewrite D1. unfold pool_stake in *. cbn. lia.
  Qed.
End lsp.
