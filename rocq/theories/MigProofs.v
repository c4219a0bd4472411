(** * MigProofs: upgrades keep the structural invariant of the crowdloans pallet. *)
From Verif Require Import Base MapSum Ledger AmmModel StreamModel StreamSpec CrowdModel CrowdSpec CrowdProofs CrowdProofs2 CrowdProofs3 CrowdProofs4 CrowdProofs5 MigModel MigSpec.

Section mig.
  Context (C : cr_cfg) (E : cr_env) (ct : Z -> bool) (HC : cr_cfg_ok C ct).

  Definition below (s : cr) (t : Z) : Prop := forall k v, c_vaults s !! k = Some v -> v_trie v < t.

  Lemma cst_next s n : cst C ct s -> c_next s <= n -> cst C ct (set_c_next s n).
  Proof.
    intros Hs Hn. destruct Hs as [V U Co Le Rq Rc Qi Bo]. split; cbn; auto.
    intros k v Hv. destruct (V _ _ Hv). split; cbn; auto. lia.
  Qed.

  Lemma put_row_ok s p g : cst C ct s -> may_add ct s g -> below s (g_trie g) -> g_trie g < c_next s -> 0 <= g_raised g ->
    let s' := put_row p s g in
    cst C ct s' /\ below s' (g_trie g + 1) /\ held s' = held s /\
    lent s' = lent s + g_raised g /\ (forall c, lent_for s' c = lent_for s c + (if bool_decide (g_ctoken g = c) then g_raised g else 0)) /\ (forall c, unclaimed s' c = unclaimed s c).
  Proof.
    intros Hg (Hnew & Hctk & Hc & Hend) Hb Ht Hr s'. set (v := row_vault p g) in *.
    assert (B1 : c_vaults s' = <[row_key g := v]> (c_vaults s)) by reflexivity.
    assert (B2 : c_con s' = c_con s) by reflexivity.
    assert (B3 : c_next s' = c_next s) by reflexivity.
    assert (B4 : c_ctok s' = <[(g_ls g, g_le g) := g_ctoken g]> (c_ctok s)) by reflexivity.
    assert (B5 : c_leases s' = <[g_para g := (g_ls g, g_le g)]> (c_leases s)) by reflexivity.
    assert (B6 : c_reqs s' = c_reqs s) by reflexivity.
    assert (B7 : c_qid s' = c_qid s) by reflexivity.
    assert (B8 : c_bonus s' = c_bonus s) by reflexivity. clearbody s'.
    assert (Hbk : forall k, book (c_con s) (g_trie g) k = 0).
    { intros k. apply book_zero. intros w. destruct (c_con s !! (g_trie g, k, w)) as [x|] eqn:Ex; auto.
      apply (cs_con _ _ _ Hg) in Ex as (_ & _ & _ & key & v0 & Hv & Htt). specialize (Hb _ _ Hv). lia. }
    assert (Hold : forall k v0, c_vaults s !! k = Some v0 -> k <> row_key g /\ v_trie v0 <> g_trie g).
    { intros k v0 Hv. split; [congruence|]. specialize (Hb _ _ Hv). lia. }
    split.
    { split; rewrite ?B1, ?B2, ?B5, ?B6, ?B7, ?B8.
      - intros k v0 Hv. apply lookup_insert_Some in Hv as [[<- <-]|[Hne Hv]].
        + split; rewrite ?B2, ?B3, ?B4, ?B5; cbn; auto; first [symmetry; apply Hbk|apply lookup_insert|left; apply lookup_insert].
        + destruct (cs_vault _ _ _ Hg _ _ Hv) as [G1 G2 G3 G4 G5 G6 G7 G8 G9]. split; rewrite ?B2, ?B3, ?B4, ?B5; auto; try lia.
          * destruct (decide ((g_ls g, g_le g) = (v_ls v0, v_le v0))) as [Heq|Hn]; [|rewrite lookup_insert_ne; auto].
            rewrite Heq, lookup_insert. rewrite <- Heq in G7. f_equal. symmetry. apply Hctk, G7.
          * destruct (decide (k.1.1 = g_para g)) as [Hk|Hn]; [|rewrite lookup_insert_ne; auto].
            destruct G9 as [G9|G9]; auto. right. rewrite Hk in G9. apply (Hend _ _ _ G9). destruct k as [[p0 x] y]. cbn in *. subst p0. exact Hv.
      - intros k1 k2 v1 v2 H1 H2 Htt. apply lookup_insert_Some in H1 as [[<- <-]|[N1 H1]], H2 as [[<- <-]|[N2 H2]]; auto.
        + apply Hold in H2. cbn in Htt. destruct H2. congruence.
        + apply Hold in H1. cbn in Htt. destruct H1. congruence.
        + eapply (cs_uniq _ _ _ Hg); eauto.
      - intros t k w x Hx. apply (cs_con _ _ _ Hg) in Hx as (? & ? & ? & key & v0 & Hv & Htt). repeat (split; [assumption|]).
        exists key, v0. rewrite lookup_insert_ne; auto. apply Hold in Hv. destruct Hv; congruence.
      - intros p0 x y Hl. apply lookup_insert_Some in Hl as [[<- Heq]|[Hne Hl]].
        + injection Heq as <- <-. unfold row_key. rewrite lookup_insert. eauto.
        + apply (cs_lease _ _ _ Hg) in Hl. rewrite lookup_insert_ne; auto. unfold row_key. congruence.
      - apply (cs_req _ _ _ Hg). - apply (cs_reqc _ _ _ Hg). - apply (cs_qid _ _ _ Hg). - apply (cs_bonus _ _ _ Hg). }
    split.
    { intros k v0. rewrite B1. intros Hv. apply lookup_insert_Some in Hv as [[_ <-]|[_ Hv]]; [cbn; lia|]. specialize (Hb _ _ Hv). lia. }
    unfold held, lent, lent_for, unclaimed. rewrite B1, B2. rewrite !msum_insert, Hnew. cbn [v_pend v_fly v_contr v row_vault].
    split; [lia|]. split; [lia|]. split; intros c; rewrite !msum_insert, Hnew; cbn [v_ctoken v_contr v_trie v row_vault]; rewrite ?Hbk; case_bool_decide; lia.
  Qed.

  (** rows whose tries increase from [t] and stay below [n], for different parachains and consistent derivative tokens *)
  Fixpoint rows_ok (t n : Z) (l : list mig_row) : Prop :=
    match l with
    | [] => True
    | g :: r => t <= g_trie g /\ g_trie g < n /\ 0 <= g_raised g /\
        (forall h, h ∈ r -> g_para h <> g_para g /\ ((g_ls h, g_le h) = (g_ls g, g_le g) -> g_ctoken h = g_ctoken g)) /\ rows_ok (g_trie g + 1) n r
    end.
  Lemma rows_ok_weaken t t' n l : rows_ok t n l -> t' <= t -> rows_ok t' n l.
  Proof. destruct l as [|g r]; cbn; [auto|]. intros (H1 & H2) Ht. split; [lia|auto]. Qed.
  Definition row_sum (c : Z) (l : list mig_row) : Z := foldr (fun g x => (if bool_decide (g_ctoken g = c) then g_raised g else 0) + x) 0 l.

  Lemma put_rows_ok p n : forall l s t, cst C ct s -> (forall g, g ∈ l -> may_add ct s g) -> below s t -> c_next s = n -> rows_ok t n l ->
    let s' := put_rows p s l in
    cst C ct s' /\ held s' = held s /\ (forall c, lent_for s' c = lent_for s c + row_sum c l) /\ (forall c, unclaimed s' c = unclaimed s c) /\ c_next s' = n.
  Proof.
    induction l as [|g r IH]; intros s t Hs Hm Hb Hn Hok; cbn in *; [split; [exact Hs|]; split; [reflexivity|]; split; [intros c; cbn; rewrite Z.add_0_r; reflexivity|]; auto|].
    destruct Hok as (O1 & O2 & O3 & O4 & O5).
    destruct (put_row_ok s p g Hs) as (Q1 & Q2 & Q3 & _ & Q4 & Q5); auto; try lia; [apply Hm; left|intros k v Hv; specialize (Hb _ _ Hv); lia|].
    destruct (IH (put_row p s g) (g_trie g + 1) Q1) as (R1 & R2 & R3 & R4 & R5); auto.
    - intros h Hh. destruct (Hm h) as (M1 & M2 & M3 & M4); [right; auto|]. destruct (O4 h Hh) as [N1 N2]. split; [|split; [|split; [auto|]]].
      + cbn. rewrite lookup_insert_ne; auto. unfold row_key. congruence.
      + intros c. cbn. destruct (decide ((g_ls g, g_le g) = (g_ls h, g_le h))) as [Eq|Ne].
        * rewrite Eq, lookup_insert. intros [= <-]. symmetry. apply N2. auto.
        * rewrite lookup_insert_ne by auto. apply M2.
      + intros a b v. cbn. rewrite lookup_insert_ne by auto. intros Hl Hv. rewrite lookup_insert_ne in Hv by (unfold row_key; congruence). eapply M4; eauto.
    - split; [exact R1|]. split; [etransitivity; [exact R2|exact Q3]|]. split; [|split; [|exact R5]]; intros c.
      + etransitivity; [exact (R3 c)|]. rewrite Q4. cbn [row_sum foldr]. unfold row_sum. lia.
      + etransitivity; [exact (R4 c)|]. apply Q5.
  Qed.
  Lemma put_rows_str p l : forall s, c_str (put_rows p s l) = c_str s.
  Proof. induction l as [|g r IH]; intros s; [auto|]. exact (IH (put_row p s g)). Qed.
  Lemma put_rows_other p l : forall s, let s' := put_rows p s l in
    c_con s' = c_con s /\ c_reqs s' = c_reqs s /\ c_qid s' = c_qid s /\ c_bonus s' = c_bonus s /\ c_vrf s' = c_vrf s /\ c_proxy s' = c_proxy s /\ c_rblock s' = c_rblock s /\ c_xfee s' = c_xfee s /\ c_next s' = c_next s /\
    (forall k, (forall g, g ∈ l -> row_key g <> k) -> c_vaults s' !! k = c_vaults s !! k) /\
    (forall q, (forall g, g ∈ l -> g_para g <> q) -> c_leases s' !! q = c_leases s !! q) /\
    (forall q, (forall g, g ∈ l -> (g_ls g, g_le g) <> q) -> c_ctok s' !! q = c_ctok s !! q).
  Proof.
    induction l as [|g r IH]; intros s; [cbn; repeat split; auto|]. change (put_rows p s (g :: r)) with (put_rows p (put_row p s g) r).
    destruct (IH (put_row p s g)) as (A1 & A2 & A3 & A4 & A5 & A6 & A7 & A8 & A9 & A10 & A11 & A12). cbv zeta.
    rewrite A1, A2, A3, A4, A5, A6, A7, A8, A9. do 9 (split; [reflexivity|]). split; [|split].
    - intros k Hk. rewrite A10 by (intros h Hh; apply Hk; right; auto). cbn. apply lookup_insert_ne. apply Hk. left.
    - intros k Hk. rewrite A11 by (intros h Hh; apply Hk; right; auto). cbn. apply lookup_insert_ne. apply Hk. left.
    - intros k Hk. rewrite A12 by (intros h Hh; apply Hk; right; auto). cbn. apply lookup_insert_ne. apply Hk. left.
  Qed.
  Lemma put_rows_in p : forall l s g, NoDup (map g_para l) -> g ∈ l -> let s' := put_rows p s l in
    c_vaults s' !! row_key g = Some (row_vault p g) /\ c_leases s' !! g_para g = Some (g_ls g, g_le g).
  Proof.
    induction l as [|h r IH]; intros s g Hd Hg; [inversion Hg|]. change (put_rows p s (h :: r)) with (put_rows p (put_row p s h) r). cbn in Hd. apply NoDup_cons in Hd as [Hd1 Hd2].
    apply elem_of_cons in Hg as [->|Hg]; [|apply IH; auto].
    destruct (put_rows_other p r (put_row p s h)) as (_ & _ & _ & _ & _ & _ & _ & _ & _ & A10 & A11 & _). cbv zeta.
    assert (Hn : forall x, x ∈ r -> g_para x <> g_para h). { intros x Hx Heq. apply Hd1. rewrite <- Heq. apply elem_of_list_fmap. eauto. }
    rewrite A10, A11.
    - cbn. rewrite !lookup_insert. auto.
    - intros x Hx. apply Hn; auto.
    - intros x Hx Heq. apply (Hn x Hx). unfold row_key in Heq. congruence.
  Qed.

  (** ** each upgrade *)
  Lemma good_below s : cst C ct s -> below s (c_next s).
  Proof. intros Hs k v Hv. apply (vo_trie _ _ _ _ (cs_vault _ _ _ Hs _ _ Hv)). Qed.
  Lemma set_next_sums s n : held (set_c_next s n) = held s /\ (forall c, lent_for (set_c_next s n) c = lent_for s c) /\ (forall c, unclaimed (set_c_next s n) c = unclaimed s c).
  Proof. repeat split. Qed.
  Lemma next_comm p l : forall s n, set_c_next (put_rows p s l) n = put_rows p (set_c_next s n) l.
  Proof. induction l as [|g r IH]; intros s n; [reflexivity|]. exact (IH (put_row p s g) n). Qed.
  Lemma may_add_next s n g : may_add ct s g -> may_add ct (set_c_next s n) g. Proof. auto. Qed.

  Lemma rows_good p l s n : good C E ct s -> (forall g, g ∈ l -> may_add ct s g) -> c_next s <= n -> rows_ok (c_next s) n l ->
    let s' := set_c_next (put_rows p s l) n in
    good C E ct s' /\ held s' = held s /\ (forall c, lent_for s' c = lent_for s c + row_sum c l) /\ (forall c, unclaimed s' c = unclaimed s c) /\ c_led s' = c_led s.
  Proof.
    intros [Hg Hr] Hm Hn Hok. cbv zeta. rewrite next_comm.
    destruct (put_rows_ok p n l (set_c_next s n) (c_next s)) as (Q1 & Q2 & Q3 & Q4 & Q5); auto using cst_next; [apply (good_below s Hg)|].
    split; [split; [auto|rewrite put_rows_str; exact Hr]|]. split; [auto|]. split; [auto|]. split; [auto|]. unfold c_led. rewrite put_rows_str. reflexivity.
  Qed.
  Ltac inlist := repeat match goal with H : _ ∈ _ :: _ |- _ => apply elem_of_cons in H as [->|H] | H : _ ∈ [] |- _ => inversion H end.
  Lemma batch1_ok n : rows_ok n (n + 1) (batch1 n).
  Proof. unfold batch1. cbn. repeat split; try lia; intros; inlist. Qed.
  Lemma batch2_ok : rows_ok 9 14 batch2.
  Proof. unfold batch2. cbn. repeat split; try lia; try (intros; inlist; cbn in *; first [lia|congruence]). Qed.
  Lemma batch3_ok : rows_ok 24 31 batch3.
  Proof. unfold batch3. cbn. repeat split; try lia; try (intros; inlist; cbn in *; first [lia|congruence]). Qed.

  (** v4: the contributed amount of one vault *)
  Lemma fix_good s g : good C E ct s -> 0 <= g_raised g -> let s' := fix_row s g in good C E ct s' /\ held s' = held s /\ c_str s' = c_str s /\ (forall c, unclaimed s' c = unclaimed s c).
  Proof.
    intros [Hg Hr] H0. unfold fix_row. destruct (c_vaults s !! row_key g) as [v|] eqn:Hv; [|cbv zeta; split; [split; [exact Hg|exact Hr]|split; [reflexivity|split; reflexivity]]]. case_bool_decide as Hp; [|cbv zeta; split; [split; [exact Hg|exact Hr]|split; [reflexivity|split; reflexivity]]].
    assert (S : held (put_vault s (row_key g) (v_set_contr v (g_raised g))) = held s /\ forall c, unclaimed (put_vault s (row_key g) (v_set_contr v (g_raised g))) c = unclaimed s c).
    { unfold held, unclaimed. cbn. split; [|intros c]; rewrite msum_insert, Hv; cbn; lia. }
    destruct S as [S1 S2]. cbv zeta. split; [|split; [exact S1|split; [reflexivity|exact S2]]]. split; [|exact Hr].
    destruct Hg as [V U Co Le Rq Rc Qi Bo]. split; cbn; auto.
    - intros k v0 Hv0. apply lookup_insert_Some in Hv0 as [[<- <-]|[Hne Hv0]]; [|destruct (V _ _ Hv0); split; cbn; auto].
      destruct (V _ _ Hv). split; cbn; auto.
    - intros k1 k2 v1 v2 H1 H2 Ht. apply lookup_insert_Some in H1 as [[<- <-]|[N1 H1]], H2 as [[<- <-]|[N2 H2]]; auto; cbn in Ht; eapply U; eauto.
    - intros t k w x Hx. destruct (Co _ _ _ _ Hx) as (? & ? & ? & key & v0 & Hv0 & Ht). repeat (split; [assumption|]).
      destruct (decide (key = row_key g)) as [->|Ne].
      + exists (row_key g), (v_set_contr v (g_raised g)). rewrite lookup_insert. split; auto. rewrite Hv in Hv0. injection Hv0 as <-. exact Ht.
      + exists key, v0. rewrite lookup_insert_ne by auto. auto.
    - intros para a b Hl. destruct (Le _ _ _ Hl) as [v0 Hv0]. destruct (decide ((para, a, b) = row_key g)) as [->|Ne]; [rewrite lookup_insert; eauto|rewrite lookup_insert_ne by auto; eauto].
  Qed.

  Lemma migrate_good u x y : good C E ct x.2 -> fits ct u x -> migrate u x = Ok y ->
    good C E ct y.2 /\ held y.2 = held x.2 /\ c_led y.2 = c_led x.2 /\ (forall c, unclaimed y.2 c = unclaimed x.2 c) /\
    (u <> V4 -> forall c, lent_for y.2 c = lent_for x.2 c + row_sum c (if x.1 =? y.1 then [] else rows_of u (c_next x.2))).
  Proof.
    destruct x as [v s]. intros Hg Hf H. cbn [fst snd] in *. destruct u; cbn [migrate fits] in *.
    - destruct Hf as [Hp Hm]. cbn in Hp. apply andb_true_iff in Hp as [P1 P2]. unfold migrate1 in H. assert (v = 0) by lia. subst v. cbn in H. destruct (c_next s + 1 <=? U32MAX) eqn:EU; [|discriminate].
      injection H as <-. cbn [fst snd]. destruct (rows_good Succeeded (batch1 (c_next s)) s (c_next s + 1) Hg Hm ltac:(lia) (batch1_ok _)) as (R1 & R2 & R3 & R4 & R5).
      do 4 (split; [assumption|]). intros _ c. cbn. apply R3.
    - destruct Hf as [Hp Hm]. cbn in Hp. apply andb_true_iff in Hp as [P1 P2]. unfold migrate2 in H. assert (v = 1) by lia. subst v. cbn in H.
      injection H as <-. cbn [fst snd]. assert (N : c_next s = 9) by lia. assert (RO : rows_ok (c_next s) 14 batch2) by (rewrite N; apply batch2_ok). destruct (rows_good Succeeded batch2 s 14 Hg Hm ltac:(lia) RO) as (R1 & R2 & R3 & R4 & R5).
      do 4 (split; [assumption|]). intros _ c. apply R3.
    - destruct Hf as [Hp Hm]. cbn in Hp. apply andb_true_iff in Hp as [P1 P2]. unfold migrate3 in H. assert (v = 2) by lia. subst v. cbn in H.
      injection H as <-. cbn [fst snd]. assert (N : c_next s = 24) by lia. assert (RO : rows_ok (c_next s) 31 batch3) by (rewrite N; apply batch3_ok). destruct (rows_good Expired batch3 s 31 Hg Hm ltac:(lia) RO) as (R1 & R2 & R3 & R4 & R5).
      do 4 (split; [assumption|]). intros _ c. apply R3.
    - unfold migrate4 in H. destruct (v =? 3); injection H as <-; cbn [fst snd]; [|do 4 (split; [auto|]); tauto].
      unfold batch4. cbn [fold_left]. destruct (fix_good s (mkRow 2040 200080015 3000000000000000 150000000000000000 10881401 25 8 15) Hg ltac:(cbn; lia)) as (R1 & R2 & R3 & R4).
      split; [auto|]. split; [auto|]. split; [unfold c_led; rewrite R3; auto|]. split; [auto|tauto].
  Qed.

  Lemma up_good x : up_reachable C E ct x -> good C E ct x.2 /\ held x.2 <= bal (c_led x.2) (cc_relay C) (cc_acct C).
  Proof.
    induction 1 as [v s Hr|v s o Hr IH Ho|x u y Hr IH Hf Hm]; cbn [snd] in *.
    - destruct (reachable_inv C E ct HC s Hr). auto.
    - destruct IH as [I1 I2]. unfold cr_exec. destruct (cr_step C E s o) as [s'|?|] eqn:Es; auto.
      destruct (step_moved C E ct HC _ _ _ Es I1 Ho) as (M1 & M2 & _). split; auto. unfold slack in M2. lia.
    - destruct IH as [I1 I2]. destruct (migrate_good u x y I1 Hf Hm) as (G & H1 & H2 & _). split; [auto|]. rewrite H1, H2. exact I2.
  Qed.
  Lemma up_history v s ops s' : up_reachable C E ct (v, s) -> cr_history C E ct s ops s' -> up_reachable C E ct (v, s') /\ forall c, ct c = true -> shortage s' c = shortage s c.
  Proof.
    intros Hr Hh. revert Hr. induction Hh as [s|s o os s' Ho Hh IH]; intros Hr; [auto|].
    destruct IH as [I1 I2]; [apply up_call; auto|]. split; [auto|]. intros c Hc. rewrite I2 by auto. clear I2 I1 Hh.
    destruct (up_good _ Hr) as [G _]. cbn [snd] in G. unfold cr_exec. destruct (cr_step C E s o) as [s1|?|] eqn:Es; auto.
    destruct (step_moved C E ct HC _ _ _ Es G Ho) as (_ & _ & M & _). specialize (M c Hc). unfold tok_gap in M. unfold shortage. lia.
  Qed.
End mig.
