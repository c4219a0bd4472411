(** * MigProps: storage upgrades of the crowdloans pallet (C163-C167). *)
From Verif Require Import Base MapSum Ledger AmmModel AmmEx StreamModel StreamSpec CrowdModel CrowdSpec CrowdProofs CrowdProofs2 CrowdProofs5 CrowdEx MigModel MigSpec MigProofs.

Lemma ok_inj {A B} (a a' : A) (b b' : B) : Ok (a, b) = Ok (a', b') -> a = a' /\ b = b'.
Proof. intros H. injection H as <- <-. auto. Qed.

(** ** a concrete chain *)
Definition mxt (c : Z) : bool := (c =? 100150022) || (c =? 200070014) || (c =? 200080015).
Definition mxL : ledger := mk_ledger [(100, 20, 10^17); (100, 21, 10^17); (100, 6, 10^6); (0, 5, 10^9)].
Definition mx0 : cr := cr_init (str_init mxL 0).
Definition mxrun (l : list cr_op) : cr := fold_left (cr_exec cxC cxE) l mx0.
Lemma mxC_ok : cr_cfg_ok cxC mxt.
Proof. unfold cr_cfg_ok, str_cfg_ok. cbn. repeat split; lia. Qed.
Lemma mxrun_reach l : forallb (cr_op_okb cxC mxt) l = true -> cr_reachable cxC cxE mxt (mxrun l).
Proof.
  intros H. unfold mxrun. assert (R0 : cr_reachable cxC cxE mxt mx0).
  { apply cr_reach_init; [apply str_reach_init; [apply mk_ledger_wf|lia]|]. intros c Hc. unfold mxt in Hc. apply orb_true_iff in Hc as [Hc|Hc]; [apply orb_true_iff in Hc as [Hc|Hc]|]; apply Z.eqb_eq in Hc; subst c; vm_compute; reflexivity. }
  revert R0. generalize mx0. revert H. induction l as [|o l IH]; cbn; intros H s R; [exact R|].
  apply andb_true_iff in H as [H1 H2]. apply IH; auto. apply cr_reach_step; auto. apply cr_op_okb_ok; auto.
Qed.
(** the vault the wired upgrade is about, ended, with its derivative tokens claimed: [x] was contributed *)
Definition hm (x : Z) : list cr_op :=
  [CXFee 10 1; CXFee 11 2; CStr (SSetMin Root 0 1); CProxy Root 99; CRelayBlock 100; CCreate Root 2040 200080015 8 15 true (10 ^ 17) 500; CContribute 20 2040 x;
   COpen Root 2040; CMigrate (Signed 77) 2040; CNotify true (Signed 0) 0 (Some true); CClose Root 2040; CSucceeded Root 2040; CClaim 20 2040 8 15;
   CSlotExpired Root 2040; CNotify true (Signed 0) 1 (Some true)].

(** ** C163.  Through any sequence of calls and upgrades that fit, waiting and in-flight contributions stay backed by relay tokens, the
    counters of every vault are the sums of its books, and no two vaults share books. *)
Theorem C163_backed_across_upgrades C E ct v s : cr_cfg_ok C ct -> up_reachable C E ct (v, s) -> held s <= bal (c_led s) (cc_relay C) (cc_acct C).
Proof. intros HC Hr. apply (up_good C E ct HC _ Hr). Qed.
Print Assumptions C163_backed_across_upgrades.
Theorem C163_books_across_upgrades C E ct ver s k v : cr_cfg_ok C ct -> up_reachable C E ct (ver, s) -> c_vaults s !! k = Some v ->
  v_pend v = book (c_con s) (v_trie v) KPend /\ v_fly v = book (c_con s) (v_trie v) KFly /\ 0 <= v_contr v /\
  forall k' v', c_vaults s !! k' = Some v' -> v_trie v' = v_trie v -> k' = k.
Proof.
  intros HC Hr Hv. destruct (up_good C E ct HC _ Hr) as [[Hg _] _]. cbn [snd] in Hg. destruct (cs_vault _ _ _ Hg _ _ Hv). do 3 (split; [auto|]).
  intros k' v' Hv' Ht. eapply (cs_uniq _ _ _ Hg); eauto.
Qed.
Print Assumptions C163_books_across_upgrades.
Theorem C163_entries_across_upgrades C E ct ver s t k w x : cr_cfg_ok C ct -> up_reachable C E ct (ver, s) -> c_con s !! (t, k, w) = Some x ->
  0 < x /\ exists key v, c_vaults s !! key = Some v /\ v_trie v = t.
Proof. intros HC Hr Hx. destruct (up_good C E ct HC _ Hr) as [[Hg _] _]. apply (cs_con _ _ _ Hg) in Hx. tauto. Qed.
Print Assumptions C163_entries_across_upgrades.
(** nine vaults exist, then the second upgrade runs, then a contribution goes on *)
Definition h9 (k0 : Z * Z) : list cr_op :=
  [CXFee 10 1; CXFee 11 2; CProxy Root 99; CRelayBlock 100; CCreate Root k0.1 (if k0.2 =? 7 then 200070014 else 100150022) k0.2 (if k0.2 =? 7 then 14 else 22) true (10 ^ 17) 500; CContribute 20 k0.1 1000;
   CCreate Root 3001 200080015 8 15 true 1000 500; CCreate Root 3002 200080015 8 15 true 1000 500; CCreate Root 3003 200080015 8 15 true 1000 500; CCreate Root 3004 200080015 8 15 true 1000 500;
   CCreate Root 3005 200080015 8 15 true 1000 500; CCreate Root 3006 200080015 8 15 true 1000 500; CCreate Root 3007 200080015 8 15 true 1000 500; CCreate Root 3008 200080015 8 15 true 1000 500].
Definition m9 : cr := mxrun (h9 (3000, 15)).
Definition may_add_b (ct : Z -> bool) (s : cr) (g : mig_row) : bool :=
  negb (bool_decide (is_Some (c_vaults s !! row_key g))) && (match c_ctok s !! (g_ls g, g_le g) with Some c => c =? g_ctoken g | None => true end) && ct (g_ctoken g) && negb (bool_decide (is_Some (c_leases s !! g_para g))).
Lemma may_add_ok ct s g : may_add_b ct s g = true -> may_add ct s g.
Proof.
  unfold may_add_b, may_add. intros H. apply andb_true_iff in H as [H H4]. apply andb_true_iff in H as [H H3]. apply andb_true_iff in H as [H1 H2]. apply negb_true_iff, bool_decide_eq_false in H1, H4.
  split; [destruct (c_vaults s !! row_key g); [destruct H1; eauto|reflexivity]|]. split; [intros c Hc; rewrite Hc in H2; lia|]. split; [auto|]. intros a b v Hl. destruct H4. rewrite Hl. eauto.
Qed.
Lemma m9_fits : fits mxt V2 (1, m9).
Proof.
  split; [vm_compute; reflexivity|]. intros g Hg. apply may_add_ok. assert (F : forallb (may_add_b mxt m9) batch2 = true) by (vm_compute; reflexivity).
  rewrite forallb_forall in F. apply F. apply elem_of_list_In. exact Hg.
Qed.
Lemma m9_reach : cr_reachable cxC cxE mxt m9. Proof. apply mxrun_reach. vm_compute. reflexivity. Qed.
Example C163_example : up_reachable cxC cxE mxt (1, m9) /\ fits mxt V2 (1, m9) /\ exists s', migrate V2 (1, m9) = Ok (2, s') /\ up_reachable cxC cxE mxt (2, s') /\ held s' = 1000 /\
  someb (c_vaults s' !! (2032, 7, 14)) (fun v => (v_contr v =? 4898587497400000) && (v_trie v =? 10)) = true /\ c_next s' = 14.
Proof.
  assert (R : up_reachable cxC cxE mxt (1, m9)) by (apply up_start, m9_reach). split; [exact R|]. split; [apply m9_fits|]. eexists. split; [reflexivity|].
  split; [exact (up_mig _ _ _ _ V2 _ R m9_fits eq_refl)|]. repeat split; vm_compute; reflexivity.
Qed.

(** ** C164.  What an upgrade does, exactly: nothing unless the storage version is the expected one; then only the announced vaults are
    written, and no balance, contribution, stream, request or bonus changes. *)
Definition wants (u : upgrade) : release := match u with V1 => 0 | V2 => 1 | V3 => 2 | V4 => 3 end.
Definition new_phase (u : upgrade) : phase := match u with V3 => Expired | _ => Succeeded end.
Theorem C164_other_versions_untouched u v s : v <> wants u -> migrate u (v, s) = Ok (v, s).
Proof. intros H. destruct u; cbn in *; unfold migrate1, migrate2, migrate3, migrate4; replace (v =? _) with false by lia; reflexivity. Qed.
Print Assumptions C164_other_versions_untouched.
Theorem C164_money_untouched u v s v' s' : migrate u (v, s) = Ok (v', s') ->
  c_str s' = c_str s /\ c_con s' = c_con s /\ c_reqs s' = c_reqs s /\ c_qid s' = c_qid s /\ c_bonus s' = c_bonus s /\ c_vrf s' = c_vrf s /\ c_proxy s' = c_proxy s /\ c_rblock s' = c_rblock s /\ c_xfee s' = c_xfee s.
Proof.
  intros H.
  assert (HR : forall p l n, let s1 := set_c_next (put_rows p s l) n in c_str s1 = c_str s /\ c_con s1 = c_con s /\ c_reqs s1 = c_reqs s /\ c_qid s1 = c_qid s /\ c_bonus s1 = c_bonus s /\ c_vrf s1 = c_vrf s /\ c_proxy s1 = c_proxy s /\ c_rblock s1 = c_rblock s /\ c_xfee s1 = c_xfee s).
  { intros p l n. destruct (put_rows_other p l s) as (A1 & A2 & A3 & A4 & A5 & A6 & A7 & A8 & _). split; [apply (put_rows_str p l s)|]. repeat (split; [assumption|]). assumption. }
  destruct u; cbn [migrate] in H; unfold migrate1, migrate2, migrate3, migrate4 in H.
  - destruct (v =? 0); [destruct (c_next s + 1 <=? U32MAX); [|discriminate H]|]; apply ok_inj in H as [<- <-]; [exact (HR Succeeded (batch1 (c_next s)) (c_next s + 1))|repeat split].
  - destruct (v =? 1); apply ok_inj in H as [<- <-]; [exact (HR Succeeded batch2 14)|repeat split].
  - destruct (v =? 2); apply ok_inj in H as [<- <-]; [exact (HR Expired batch3 31)|repeat split].
  - destruct (v =? 3); apply ok_inj in H as [<- <-]; [|repeat split]. unfold batch4. cbn [fold_left]. unfold fix_row. destruct (c_vaults s !! row_key _) as [x|]; [destruct (bool_decide _)|]; repeat split.
Qed.
Print Assumptions C164_money_untouched.
Theorem C164_vaults_exact u v s v' s' : u <> V4 -> v = wants u -> migrate u (v, s) = Ok (v', s') ->
  v' = v + 1 /\
  (forall g, g ∈ rows_of u (c_next s) -> c_vaults s' !! (g_para g, g_ls g, g_le g) = Some (mkVault (g_ctoken g) (new_phase u) (g_raised g) 0 0 false (g_cap g) (g_end g) (g_trie g) (g_ls g) (g_le g)) /\ c_leases s' !! g_para g = Some (g_ls g, g_le g)) /\
  (forall k, (forall g, g ∈ rows_of u (c_next s) -> (g_para g, g_ls g, g_le g) <> k) -> c_vaults s' !! k = c_vaults s !! k) /\
  (forall q, (forall g, g ∈ rows_of u (c_next s) -> g_para g <> q) -> c_leases s' !! q = c_leases s !! q) /\
  (forall q, (forall g, g ∈ rows_of u (c_next s) -> (g_ls g, g_le g) <> q) -> c_ctok s' !! q = c_ctok s !! q).
Proof.
  intros Hu -> H.
  assert (HR : forall l n, NoDup (map g_para l) -> let s1 := set_c_next (put_rows (new_phase u) s l) n in
    (forall g, g ∈ l -> c_vaults s1 !! row_key g = Some (row_vault (new_phase u) g) /\ c_leases s1 !! g_para g = Some (g_ls g, g_le g)) /\
    (forall k, (forall g, g ∈ l -> row_key g <> k) -> c_vaults s1 !! k = c_vaults s !! k) /\ (forall q, (forall g, g ∈ l -> g_para g <> q) -> c_leases s1 !! q = c_leases s !! q) /\
    (forall q, (forall g, g ∈ l -> (g_ls g, g_le g) <> q) -> c_ctok s1 !! q = c_ctok s !! q)).
  { intros l n Hd. destruct (put_rows_other (new_phase u) l s) as (_ & _ & _ & _ & _ & _ & _ & _ & _ & A10 & A11 & A12). split; [|auto]. intros g Hg. exact (put_rows_in (new_phase u) l s g Hd Hg). }
  assert (N2 : NoDup (map g_para batch2)) by (cbn; repeat (apply NoDup_cons; split; [set_solver|]); apply NoDup_nil; exact I).
  assert (N3 : NoDup (map g_para batch3)) by (cbn; repeat (apply NoDup_cons; split; [set_solver|]); apply NoDup_nil; exact I).
  destruct u; cbn [migrate wants] in H; unfold migrate1, migrate2, migrate3 in H; rewrite ?Z.eqb_refl in H; [destruct (c_next s + 1 <=? U32MAX); [|discriminate H]| | |tauto]; apply ok_inj in H as [<- <-]; (split; [reflexivity|]).
  - exact (HR (batch1 (c_next s)) _ (NoDup_singleton _)).
  - exact (HR batch2 _ N2).
  - exact (HR batch3 _ N3).
Qed.
Print Assumptions C164_vaults_exact.
(** the upgrade wired into the Parallel runtime *)
Theorem C164_wired_exact v s v' s' : on_runtime_upgrade (v, s) = Ok (v', s') ->
  v' = v /\ c_leases s' = c_leases s /\ c_ctok s' = c_ctok s /\ c_next s' = c_next s /\
  (forall k, k <> (2040, 8, 15) -> c_vaults s' !! k = c_vaults s !! k) /\
  c_vaults s' !! (2040, 8, 15) = match c_vaults s !! (2040, 8, 15) with
    | Some x => Some (if bool_decide (v = 3 /\ v_phase x = Expired) then v_set_contr x 3000000000000000 else x) | None => None end.
Proof.
  unfold on_runtime_upgrade. cbn [migrate]. unfold migrate4. intros H. destruct (v =? 3) eqn:V; injection H as <- <-; (split; [reflexivity|]).
  - unfold batch4. cbn [fold_left]. unfold fix_row, row_key. cbn [g_para g_ls g_le g_raised]. destruct (c_vaults s !! (2040, 8, 15)) as [x|] eqn:Hx; [|rewrite Hx; auto].
    destruct (decide (v_phase x = Expired)) as [Hp|Hp].
    + rewrite (bool_decide_true (v_phase x = Expired)), (bool_decide_true (v = 3 /\ v_phase x = Expired)) by (first [assumption | split; [apply Z.eqb_eq; assumption|assumption]]). cbn. do 3 (split; [reflexivity|]). split; [|apply lookup_insert]. intros k Hk. rewrite lookup_insert_ne; auto.
    + rewrite (bool_decide_false (v_phase x = Expired)), (bool_decide_false (v = 3 /\ v_phase x = Expired)) by tauto. rewrite Hx. auto.
  - do 4 (split; [auto|]). destruct (c_vaults s !! (2040, 8, 15)) as [x|]; [|auto]. rewrite bool_decide_false; [auto|lia].
Qed.
Print Assumptions C164_wired_exact.
Example C164_example : exists s', migrate V2 (1, m9) = Ok (2, s') /\ c_vaults s' !! (3000, 15, 22) = c_vaults m9 !! (3000, 15, 22) /\ c_vaults s' !! (2026, 7, 14) <> None /\
  exists s2, on_runtime_upgrade (3, mxrun (hm (5 * 10 ^ 15))) = Ok (3, s2) /\ someb (c_vaults s2 !! (2040, 8, 15)) (fun v => v_contr v =? 3 * 10 ^ 15) = true.
Proof. eexists. split; [reflexivity|]. split; [vm_compute; reflexivity|]. split; [vm_compute; discriminate|]. eexists. split; vm_compute; reflexivity. Qed.

(** ** C165.  An upgrade takes effect once: repeated in a later release it does nothing, whatever happened in between. *)
Theorem C165_once_partial u v s v' s' s2 : u <> V4 -> migrate u (v, s) = Ok (v', s') -> migrate u (v', s2) = Ok (v', s2).
Proof.
  intros Hu H. apply C164_other_versions_untouched. destruct (Z.eq_dec v (wants u)) as [E|N].
  - destruct (C164_vaults_exact u v s v' s' Hu E H) as [-> _]. lia.
  - rewrite (C164_other_versions_untouched u v s N) in H. injection H as <- _. exact N.
Qed.
Print Assumptions C165_once_partial.
(** the wired upgrade does not record that it ran: the next release of the runtime runs it again and undoes the redemptions recorded since *)
Definition m4 : cr := mxrun (hm (3 * 10 ^ 15)).
Lemma m4_reach : cr_reachable cxC cxE mxt m4. Proof. apply mxrun_reach. vm_compute. reflexivity. Qed.
Theorem C165_wired_upgrade_once_refuted : exists C E ct s s1 s2 s3 w amt, cr_cfg_ok C ct /\ up_reachable C E ct (3, s) /\
  on_runtime_upgrade (3, s) = Ok (3, s1) /\ cr_op_ok C ct (CRedeem w 2040 8 15 amt) /\ cr_step C E s1 (CRedeem w 2040 8 15 amt) = Ok s2 /\ on_runtime_upgrade (3, s2) = Ok (3, s3) /\
  amt = 10 ^ 15 /\ (forall v, c_vaults s2 !! (2040, 8, 15) = Some v -> v_contr v = 2 * 10 ^ 15) /\ (exists v, c_vaults s3 !! (2040, 8, 15) = Some v /\ v_contr v = 3 * 10 ^ 15) /\
  iss (c_led s3) 200080015 = 2 * 10 ^ 15.
Proof.
  assert (B : okb (on_runtime_upgrade (3, m4)) (fun x1 => (x1.1 =? 3) && okb (cr_step cxC cxE x1.2 (CRedeem 20 2040 8 15 (10 ^ 15))) (fun s2 => okb (on_runtime_upgrade (3, s2)) (fun x3 => (x3.1 =? 3) &&
    someb (c_vaults s2 !! (2040, 8, 15)) (fun v => v_contr v =? 2 * 10 ^ 15) && someb (c_vaults x3.2 !! (2040, 8, 15)) (fun v => v_contr v =? 3 * 10 ^ 15) && (iss (c_led x3.2) 200080015 =? 2 * 10 ^ 15)))) = true) by (vm_compute; reflexivity).
  apply okb_spec in B as ([v1 s1] & H1 & B). apply andb_true_iff in B as [B1 B]. apply okb_spec in B as (s2 & H2 & B). apply okb_spec in B as ([v3 s3] & H3 & B). cbn [fst snd] in *.
  apply andb_true_iff in B as [B B4]. apply andb_true_iff in B as [B B3]. apply andb_true_iff in B as [B5 B2]. apply someb_spec in B2 as (va & Ha & B2). apply someb_spec in B3 as (vb & Hb & B3).
  apply Z.eqb_eq in B1, B2, B3, B4, B5. subst v1 v3.
  exists cxC, cxE, mxt, m4, s1, s2, s3, 20, (10 ^ 15). split; [apply mxC_ok|]. split; [apply up_start, m4_reach|]. split; [exact H1|]. split; [apply cr_op_okb_ok; vm_compute; reflexivity|].
  split; [exact H2|]. split; [exact H3|]. split; [reflexivity|]. split; [|split; [|exact B4]].
  - intros v Hv. rewrite Ha in Hv. injection Hv as <-. exact B2.
  - exists vb. auto.
Qed.
Print Assumptions C165_wired_upgrade_once_refuted.
Example C165_example : exists s', migrate V2 (1, m9) = Ok (2, s') /\ migrate V2 (2, m9) = Ok (2, m9).
Proof. eexists. split; reflexivity. Qed.

(** ** C166.  Derivative tokens stay redeemable across upgrades: no upgrade leaves more tokens (and claims to tokens) than the vaults
    account for, and afterwards the difference never changes. *)
Theorem C166_tokens_covered_partial C E ct x u y ops s c : cr_cfg_ok C ct -> up_reachable C E ct x -> fits ct u x -> u <> V4 -> migrate u x = Ok y -> ct c = true -> cr_history C E ct y.2 ops s ->
  shortage s c = shortage y.2 c /\ shortage y.2 c <= shortage x.2 c.
Proof.
  intros HC Hr Hf Hu Hm Hc Hh. destruct (up_good C E ct HC _ Hr) as [G _]. destruct (migrate_good C E ct u x y G Hf Hm) as (_ & _ & H2 & H3 & H4).
  destruct x as [vx sx], y as [vy sy]. cbn [fst snd] in *. destruct (up_history C E ct HC vy sy ops s (up_mig _ _ _ _ _ _ Hr Hf Hm) Hh) as [_ H5]. split; [apply H5; auto|].
  unfold shortage. rewrite H2, H3, (H4 Hu). clear. destruct (vx =? vy); [cbn; lia|].
  assert (N : forall l, Forall (fun g => 0 <= g_raised g) l -> 0 <= row_sum c l). { induction 1 as [|g l Hg Hl IH]; unfold row_sum in *; cbn [foldr]; [lia|]. destruct (bool_decide _); lia. }
  enough (0 <= row_sum c (rows_of u (c_next sx))) by lia. apply N. destruct u; cbn; repeat (apply Forall_cons; split; [cbn; lia|]); apply Forall_nil; exact I.
Qed.
Print Assumptions C166_tokens_covered_partial.
(** without upgrades there is no shortage *)
Theorem C166_no_shortage C E ct s c : cr_cfg_ok C ct -> cr_reachable C E ct s -> ct c = true -> shortage s c = 0.
Proof. intros HC Hr Hc. unfold shortage. pose proof (ci_tok _ _ _ _ (reachable_inv C E ct HC s Hr) c Hc). lia. Qed.
Print Assumptions C166_no_shortage.
(** the wired upgrade creates one: two fifths of the tokens of this vault can never be redeemed any more *)
Definition m5 : cr := mxrun (hm (5 * 10 ^ 15)).
Lemma m5_reach : cr_reachable cxC cxE mxt m5. Proof. apply mxrun_reach. vm_compute. reflexivity. Qed.
Theorem C166_wired_upgrade_refuted : exists C E ct s s1 c w, cr_cfg_ok C ct /\ cr_reachable C E ct s /\ ct c = true /\ on_runtime_upgrade (3, s) = Ok (3, s1) /\
  shortage s c = 0 /\ bal (c_led s1) c w = 5 * 10 ^ 15 /\ is_ok (cr_step C E s (CRedeem w 2040 8 15 (5 * 10 ^ 15))) = true /\ is_ok (cr_step C E s1 (CRedeem w 2040 8 15 (5 * 10 ^ 15))) = false /\
  (forall ops s2, cr_history C E ct s1 ops s2 -> shortage s2 c = 2 * 10 ^ 15).
Proof.
  assert (B : okb (on_runtime_upgrade (3, m5)) (fun x => (x.1 =? 3) && (bal (c_led x.2) 200080015 20 =? 5 * 10 ^ 15) && (shortage x.2 200080015 =? 2 * 10 ^ 15) && negb (is_ok (cr_step cxC cxE x.2 (CRedeem 20 2040 8 15 (5 * 10 ^ 15))))) = true) by (vm_compute; reflexivity).
  apply okb_spec in B as ([v1 s1] & H1 & B). cbn [fst snd] in B. apply andb_true_iff in B as [B B4]. apply andb_true_iff in B as [B B3]. apply andb_true_iff in B as [B1 B2]. apply Z.eqb_eq in B1, B2, B3. subst v1. apply negb_true_iff in B4.
  exists cxC, cxE, mxt, m5, s1, 200080015, 20. split; [apply mxC_ok|]. split; [apply m5_reach|]. split; [reflexivity|]. split; [exact H1|].
  split; [apply (C166_no_shortage cxC cxE mxt m5 200080015 mxC_ok m5_reach eq_refl)|]. split; [exact B2|]. split; [vm_compute; reflexivity|]. split; [exact B4|].
  intros ops s2 Hh. rewrite <- B3. apply (up_history cxC cxE mxt mxC_ok 3 s1 ops s2); auto.
  exact (up_mig cxC cxE mxt (3, m5) V4 (3, s1) (up_start cxC cxE mxt 3 m5 m5_reach) I H1).
Qed.
Print Assumptions C166_wired_upgrade_refuted.
Example C166_example : fits mxt V2 (1, m9) /\ shortage m9 200070014 = 0 /\ okb (migrate V2 (1, m9)) (fun y => shortage y.2 200070014 =? - (17574741856000000 + 2 * 4898587497400000 + 3071389985000000)) = true.
Proof. split; [apply m9_fits|split; vm_compute; reflexivity]. Qed.

(** ** C167.  No contribution is lost in an upgrade.  Refuted for the upgrades as they are written: they do not make the checks their
    authors listed, nor those of the call that creates vaults.  A vault that already exists is overwritten and the contributions
    waiting in it belong to no vault any more; and the counter that keeps books apart can go backwards. *)
Definition m9x : cr := mxrun (h9 (2026, 7)).
Lemma m9x_reach : cr_reachable cxC cxE mxt m9x. Proof. apply mxrun_reach. vm_compute. reflexivity. Qed.
Definition no_vault_has (s : cr) (t : Z) : bool := negb (existsb (fun kv : Z * Z * Z * vault => v_trie kv.2 =? t) (map_to_list (c_vaults s))).
Lemma no_vault_has_ok s t : no_vault_has s t = true -> forall k v, c_vaults s !! k = Some v -> v_trie v <> t.
Proof.
  unfold no_vault_has. intros H k v Hv Ht. apply negb_true_iff in H. apply not_true_iff_false in H. apply H. apply existsb_exists. exists (k, v). split; [|cbn; lia].
  apply elem_of_list_In, elem_of_map_to_list. exact Hv.
Qed.
Theorem C167_overwritten_refuted : exists C E ct s s1 t w, cr_cfg_ok C ct /\ cr_reachable C E ct s /\ pre_migrate V2 (1, s) = true /\ migrate V2 (1, s) = Ok (2, s1) /\
  (exists k v, c_vaults s !! k = Some v /\ v_trie v = t /\ v_pend v = 1000) /\ c_con s1 !! (t, KPend, w) = Some 1000 /\ held s = 1000 /\ held s1 = 0 /\
  (forall k v, c_vaults s1 !! k = Some v -> v_trie v <> t).
Proof.
  assert (B : okb (migrate V2 (1, m9x)) (fun x => (x.1 =? 2) && bool_decide (c_con x.2 !! (0, KPend, 20) = Some 1000) && (held x.2 =? 0) && no_vault_has x.2 0) = true) by (vm_compute; reflexivity).
  apply okb_spec in B as ([v1 s1] & H1 & B). cbn [fst snd] in B. apply andb_true_iff in B as [B B4]. apply andb_true_iff in B as [B B3]. apply andb_true_iff in B as [B1 B2]. apply Z.eqb_eq in B1, B3. subst v1. apply bool_decide_eq_true in B2.
  assert (X : someb (c_vaults m9x !! (2026, 7, 14)) (fun v => (v_trie v =? 0) && (v_pend v =? 1000)) = true) by (vm_compute; reflexivity). apply someb_spec in X as (v & Hv & X). apply andb_true_iff in X as [X1 X2]. apply Z.eqb_eq in X1, X2.
  exists cxC, cxE, mxt, m9x, s1, 0, 20. split; [apply mxC_ok|]. split; [apply m9x_reach|]. split; [vm_compute; reflexivity|]. split; [exact H1|]. split; [exists (2026, 7, 14), v; auto|].
  split; [exact B2|]. split; [vm_compute; reflexivity|]. split; [exact B3|]. apply no_vault_has_ok. exact B4.
Qed.
Print Assumptions C167_overwritten_refuted.
Definition h15 : list cr_op := h9 (3000, 15) ++ [CCreate Root 3009 200080015 8 15 true 1000 500; CCreate Root 3010 200080015 8 15 true 1000 500; CCreate Root 3011 200080015 8 15 true 1000 500;
  CCreate Root 3012 200080015 8 15 true 1000 500; CCreate Root 3013 200080015 8 15 true 1000 500; CCreate Root 3014 200080015 8 15 true 1000 500].
Definition m15 : cr := mxrun h15.
Lemma m15_reach : cr_reachable cxC cxE mxt m15. Proof. apply mxrun_reach. vm_compute. reflexivity. Qed.
Theorem C167_shared_books_refuted : exists C E ct s s1 o s2 k1 k2 v1 v2, cr_cfg_ok C ct /\ cr_reachable C E ct s /\ (forall g, g ∈ rows_of V2 (c_next s) -> may_add ct s g) /\ migrate V2 (1, s) = Ok (2, s1) /\
  cr_op_ok C ct o /\ cr_step C E s1 o = Ok s2 /\ c_vaults s2 !! k1 = Some v1 /\ c_vaults s2 !! k2 = Some v2 /\ k1 <> k2 /\ v_trie v1 = v_trie v2.
Proof.
  assert (B : okb (migrate V2 (1, m15)) (fun x => (x.1 =? 2) && okb (cr_step cxC cxE x.2 (CCreate Root 3020 200080015 8 15 true 1000 500)) (fun s2 => someb (c_vaults s2 !! (3014, 8, 15)) (fun v => v_trie v =? 14) && someb (c_vaults s2 !! (3020, 8, 15)) (fun v => v_trie v =? 14))) = true) by (vm_compute; reflexivity).
  apply okb_spec in B as ([v1 s1] & H1 & B). cbn [fst snd] in B. apply andb_true_iff in B as [B1 B]. apply Z.eqb_eq in B1. subst v1. apply okb_spec in B as (s2 & H2 & B). apply andb_true_iff in B as [B2 B3].
  apply someb_spec in B2 as (va & Ha & B2). apply someb_spec in B3 as (vb & Hb & B3). apply Z.eqb_eq in B2, B3.
  exists cxC, cxE, mxt, m15, s1, (CCreate Root 3020 200080015 8 15 true 1000 500), s2, (3014, 8, 15), (3020, 8, 15), va, vb.
  split; [apply mxC_ok|]. split; [apply m15_reach|]. split.
  { intros g Hg. apply may_add_ok. assert (F : forallb (may_add_b mxt m15) batch2 = true) by (vm_compute; reflexivity). rewrite forallb_forall in F. apply F. apply elem_of_list_In. exact Hg. }
  split; [exact H1|]. split; [reflexivity|]. split; [exact H2|]. split; [exact Ha|]. split; [exact Hb|]. split; [congruence|]. congruence.
Qed.
Print Assumptions C167_shared_books_refuted.
(** where the key is free nothing is lost: every vault that existed is unchanged (and C163 covers the books) *)
Theorem C167_old_vaults_kept_partial C E ct x u y k v : cr_cfg_ok C ct -> up_reachable C E ct x -> fits ct u x -> u <> V4 -> migrate u x = Ok y -> c_vaults x.2 !! k = Some v -> c_vaults y.2 !! k = Some v.
Proof.
  intros HC Hr Hf Hu Hm Hv. destruct x as [vx sx], y as [vy sy]. cbn [fst snd] in *. destruct (Z.eq_dec vx (wants u)) as [Ev|N].
  - destruct (C164_vaults_exact u vx sx vy sy Hu Ev Hm) as (_ & _ & K & _). rewrite K; [exact Hv|]. intros g Hg Heq. assert (A : may_add ct sx g) by (destruct u; [apply Hf|apply Hf|apply Hf|tauto]; auto).
    destruct A as [A _]. unfold row_key in A. congruence.
  - rewrite (C164_other_versions_untouched u vx sx N) in Hm. injection Hm as <- <-. exact Hv.
Qed.
Print Assumptions C167_old_vaults_kept_partial.
Example C167_example : fits mxt V2 (1, m9) /\ someb (c_vaults m9 !! (3000, 15, 22)) (fun v => v_pend v =? 1000) = true /\ okb (migrate V2 (1, m9)) (fun y => someb (c_vaults y.2 !! (3000, 15, 22)) (fun v => v_pend v =? 1000)) = true.
Proof. split; [apply m9_fits|split; vm_compute; reflexivity]. Qed.
