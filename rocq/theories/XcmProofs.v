(** * XcmProofs: proofs about naming, charging and crediting incoming assets. *)
From Verif Require Import Base MapSum Ledger AmmModel RegModel RegSpec RegProofs XcmModel XcmSpec.

Lemma REF_val : REF = 10 ^ 12. Proof. reflexivity. Qed.
Lemma loc_key_inj l l' : loc_key l = loc_key l' -> l = l'.
Proof. unfold loc_key. intros [= E]. apply (inj encode) in E. exact E. Qed.
Lemma key_loc_key l : key_loc (loc_key l) = Some l.
Proof. apply decode_encode. Qed.
Lemma reanchor_idem self l : reanchor self (reanchor self l) = reanchor self l.
Proof.
  unfold reanchor. destruct (l_par l =? 0) eqn:E; cbn [negb]; [|rewrite E; reflexivity].
  case_bool_decide as B; [reflexivity|]. rewrite E. cbn [negb]. rewrite bool_decide_false by exact B. reflexivity.
Qed.

(** ** The trader *)
Lemma assets_sub_one l v amt r : assets_sub [(l, v)] l amt = Some r -> amt <= v /\ match r with (_, b) :: _ => b | [] => 0 end = v - amt.
Proof.
  cbn. rewrite bool_decide_true by reflexivity. destruct (amt <=? v) eqn:E; [|discriminate]. intros [= <-].
  destruct (v - amt =? 0) eqn:E2; cbn; lia.
Qed.

Section xcm.
  Context (C : xcm_cfg) (P : policy) (r : reg).
  Local Notation cur := (x_asset_id C r).

  (** what [buy_weight] did *)
  Lemma buy_inv t w l amt t' pay' :
    buy_weight C r t w [(XC l, amt)] = Ok (t', pay') ->
    exists u, x_supported C r l = true /\ x_units C r l = Some u /\
      let a := sat128 (u * w.1) / REF in
      match pay' with (_, b) :: _ => b | [] => 0 end = amt - a /\
      (a = 0 /\ t' = t \/ a <> 0 /\ a <= amt /\
        t_rev t' = match t_rev t with
                   | Some (pid, pa, pu) => if bool_decide (pid = l) then Some (l, sat128 (pa + a), pu) else Some (pid, pa, pu)
                   | None => Some (l, a, u) end).
  Proof.
    cbn [buy_weight]. intros H. bstep H x E. bstep H u E2. exists u. split; [exact E|]. split; [exact E2|]. cbn zeta.
    destruct (sat128 (u * w.1) / REF =? 0) eqn:E3.
    - injection H as <- <-. apply Z.eqb_eq in E3. rewrite E3. split; [lia|left; auto].
    - apply Z.eqb_neq in E3. bstep H un E4. apply assets_sub_one in E4. destruct E4 as [E4 E5].
      destruct (t_rev t) as [[[pid pa] pu]|] eqn:Et; cbn [t_rev] in *.
      + case_bool_decide; injection H as <- <-; cbn; (split; [exact E5|]); right; auto.
      + injection H as <- <-. cbn. split; [exact E5|]. right; auto.
  Qed.
  Lemma sat_div_nonneg x : 0 <= sat128 x / REF.
  Proof. apply Z.div_pos; [apply sat128_range|rewrite REF_val; lia]. Qed.

  Lemma deposit_eff L i amt to L' : deposit_asset C P r L i amt to = Ok L' ->
    exists who a, xc_acct C to = Some who /\ x_currency C r i = Some a /\ mint_into P (gift C P L i amt a who) a who amt = Ok L'.
  Proof.
    unfold deposit_asset. destruct (xc_acct C to) as [who|]; [|discriminate]. destruct (x_currency C r i) as [a|]; [|discriminate].
    destruct (mint_into _ _ _ _ _) eqn:E; try discriminate. intros [= <-]. eauto.
  Qed.
  Lemma gift_iss L i amt a who c : iss (gift C P L i amt a who) c = iss L c.
  Proof.
    unfold gift. case_bool_decide; [|reflexivity]. destruct (_ && _); [|reflexivity].
    destruct (transfer _ _ _ _ _ _ _) eqn:E; try reflexivity. apply transfer_spec in E. apply E.
  Qed.
  Lemma withdraw_eff L i amt from L' : withdraw_asset C P r L i amt from = Ok L' ->
    exists who a, xc_acct C from = Some who /\ x_currency C r i = Some a /\ burn_from P L a who amt = Ok L'.
  Proof.
    unfold withdraw_asset. intros H. bstep H x E. bstep H who E2. bstep H a E3. destruct (burn_from _ _ _ _ _) eqn:E4; try discriminate.
    injection H as <-. eauto.
  Qed.

  (** ** Accounting per currency *)
  Definition heldc (c : asset) (h : gmap loc Z) : Z := msum (fun l v => if bool_decide (cur l = Some c) then v else 0) h.
  Definition pend (c : asset) (t : trader) : Z :=
    match t_rev t with Some (l, pa, _) => if bool_decide (cur l = Some c) then pa else 0 | None => 0 end.
  Lemma heldc_add c h l amt : heldc c (hold_add h l amt) = heldc c h + (if bool_decide (cur l = Some c) then amt else 0).
  Proof.
    unfold heldc, hold_add, held. rewrite msum_insert. destruct (h !! l) as [v|] eqn:E; cbn [from_option]; unfold id; case_bool_decide; lia.
  Qed.
  Definition hold_ok (h : gmap loc Z) : Prop := forall l v, h !! l = Some v -> 0 <= v.
  Lemma held_nonneg h l : hold_ok h -> 0 <= held h l.
  Proof. intros H. unfold held. destruct (h !! l) eqn:E; cbn; [exact (H _ _ E)|lia]. Qed.
  Lemma hold_add_ok h l amt : hold_ok h -> 0 <= held h l + amt -> hold_ok (hold_add h l amt).
  Proof.
    intros H A l' v. unfold hold_add. destruct (decide (l' = l)) as [->|N]; [rewrite lookup_insert; intros [= <-]; lia|].
    rewrite lookup_insert_ne by auto. apply H.
  Qed.
  Lemma heldc_nonneg c h : hold_ok h -> 0 <= heldc c h.
  Proof. intros H. apply msum_nonneg. intros l v E. case_bool_decide; [exact (H _ _ E)|lia]. Qed.

  Definition supply (c : asset) (s : vm) : Z := iss (v_led s) c + heldc c (v_hold s) + pend c (v_tr s).
  (** [g]: (first bought, its units); [rw]: refunded so far *)
  Definition tr_ok (fb : option (Z * Z)) (rw : Z) (t : trader) : Prop :=
    match t_rev t with
    | None => fb = None
    | Some (_, pa, u) => exists t1, fb = Some (t1, u) /\ 0 <= pa <= U128MAX /\ u * t1 / REF - u * rw / REF <= pa
    end.

  Lemma div_add a b n : 0 < n -> a / n + b / n <= (a + b) / n.
  Proof.
    intros H. apply Z.div_le_lower_bound; auto. pose proof (Z.mul_div_le a n H). pose proof (Z.mul_div_le b n H). lia.
  Qed.

  (** the first purchase is the recorded one when it is not free *)
  Definition budget_ok (ops : list vm_op) (fb : option (Z * Z)) (rw : Z) : Prop :=
    match fb with
    | Some (t1, u) => 0 <= u /\ 0 <= rw /\ rw + refunds ops <= t1
    | None => match first_buy ops with
              | Some (t, l) => rw = 0 /\ refunds ops <= t /\ exists u, x_units C r l = Some u /\ 1 <= charge u t /\ u * t <= U128MAX
              | None => True end
    end.

  Lemma refunds_nonneg ops : weights_ok ops -> 0 <= refunds ops.
  Proof. induction 1 as [|o ops H _ IH]; unfold refunds in *; cbn [foldr]; [lia|]. destruct o; lia. Qed.

  Lemma vm_conserve ops : forall s fb rw s' c,
    vm_run C P r s ops = Ok s' ->
    weights_ok ops -> hold_ok (v_hold s) -> tr_ok fb rw (v_tr s) -> budget_ok ops fb rw ->
    (hold_ok (v_hold s') /\ exists fb' rw', tr_ok fb' rw' (v_tr s')) /\ supply c s' <= supply c s + received C r c ops.
  Proof.
    assert (HR : 0 < REF) by (rewrite REF_val; lia).
    induction ops as [|o ops IH]; intros s fb rw s' c H HW HH HT HB; cbn in H.
    { injection H as <-. cbn. split; [eauto|lia]. }
    apply rbind_ok in H. destruct H as (s1 & H1 & H2).
    inversion HW as [|? ? Hw1 HW']; subst.
    destruct o as [l amt|l amt from|w l amt|w|l amt to|l amt]; cbn [vm_step] in H1.
    - (* receive *)
      bstep H1 x E. injection H1 as <-. assert (K : budget_ok ops fb rw) by exact HB.
      destruct (IH _ fb rw s' c H2 HW' ltac:(cbn [v_hold]; apply hold_add_ok; [auto|pose proof (held_nonneg _ l HH); lia]) HT K) as [I1 I2]. split; [exact I1|].
      etransitivity; [exact I2|]. unfold supply. cbn [v_led v_hold v_tr received foldr]. rewrite heldc_add. unfold received.
      case_bool_decide; lia.
    - (* withdraw *)
      bstep H1 L E. injection H1 as <-. apply withdraw_eff in E. destruct E as (who & a & E1 & E2 & E3). change (cur l = Some a) in E2.
      assert (Ha : 0 <= amt). { unfold burn_from in E3. destruct (amt =? 0) eqn:Z0; [lia|]. destruct (negb _); [discriminate|]. destruct (0 <? amt) eqn:Z1; [lia|discriminate]. }
      apply burn_spec in E3. destruct E3 as (_ & _ & _ & E3).
      destruct (IH _ fb rw s' c H2 HW' ltac:(cbn [v_hold]; apply hold_add_ok; [auto|pose proof (held_nonneg _ l HH); lia]) HT HB) as [I1 I2]. split; [exact I1|].
      etransitivity; [exact I2|]. unfold supply. cbn [v_led v_hold v_tr received foldr]. rewrite heldc_add, E3, E2. unfold received.
      repeat case_bool_decide; try lia; congruence.
    - (* buy *)
      bstep H1 x E. apply andb_prop in E. destruct E as [Ea Eb]. apply Z.leb_le in Ea, Eb.
      apply rbind_ok in H1. destruct H1 as ((t' & un) & E1 & H1). injection H1 as <-.
      apply buy_inv in E1. destruct E1 as (u & S1 & S2 & S3 & S4).
      cbn zeta in S3, S4. remember (sat128 (u * w.1) / REF) as a eqn:Qa. assert (A0 : 0 <= a) by (rewrite Qa; apply sat_div_nonneg).
      remember (match un with (_, b) :: _ => b | [] => 0 end) as back eqn:Qb. clear Qb.
      assert (Aa : a <= amt) by (destruct S4 as [[-> _]|(_ & ? & _)]; lia).
      assert (HH' : hold_ok (hold_add (v_hold s) l (back - amt))) by (apply hold_add_ok; [auto|pose proof (held_nonneg _ l HH); lia]).
      assert (G : exists fb', tr_ok fb' rw t' /\ budget_ok ops fb' rw /\ pend c t' <= pend c (v_tr s) + (if bool_decide (cur l = Some c) then a else 0)).
      { assert (BN : fb = None -> rw = 0 /\ refunds ops <= w.1 /\ 1 <= a /\ a = u * w.1 / REF /\ 0 <= u).
        { intros ->. cbn [budget_ok first_buy refunds foldr] in HB. destruct HB as (B1 & B2 & u' & Q1 & Q2 & Q3).
          rewrite S2 in Q1. injection Q1 as <-. unfold charge in Q2. rewrite <- REF_val in Q2.
          assert (U0 : 0 <= u * w.1) by (destruct (Z.le_gt_cases 0 (u * w.1)); [auto|]; pose proof (Z.mul_div_le (u * w.1) REF HR); nia).
          rewrite sat128_id in Qa by lia. subst a. repeat split; auto; try lia.
          destruct (Z.le_gt_cases 0 u); auto. exfalso. assert (u * w.1 <= 0) by nia. assert (U1 : u * w.1 = 0) by lia. rewrite U1, Z.div_0_l in Q2 by lia. lia. }
        destruct S4 as [[Z0 ->]|(Z0 & _ & ET)].
        - exists fb. split; [exact HT|]. split; [|case_bool_decide; lia].
          destruct fb as [[t1 u1]|]; [exact HB|]. destruct (BN eq_refl) as (_ & _ & K & _). lia.
        - unfold tr_ok in HT. unfold tr_ok, pend. rewrite ET. destruct (t_rev (v_tr s)) as [[[pid pa] pu]|] eqn:Et.
          + destruct HT as (t1 & -> & Hp & Hi). exists (Some (t1, pu)).
            assert (Hs : pa <= sat128 (pa + a) <= pa + a) by (unfold sat128; lia).
            pose proof (sat128_range (pa + a)).
            case_bool_decide as Q; [subst pid|]; (split; [exists t1; split; [reflexivity|]; lia|]); (split; [exact HB|]); repeat case_bool_decide; lia.
          + subst fb. destruct (BN eq_refl) as (B1 & B2 & B3 & B4 & B5). exists (Some (w.1, u)). split.
            * exists w.1. split; [reflexivity|]. subst rw. rewrite Z.mul_0_r, Z.div_0_l by lia.
              split; [|lia]. split; [lia|]. rewrite Qa. pose proof (sat128_range (u * w.1)). pose proof (Z.mul_div_le (sat128 (u * w.1)) REF HR). nia.
            * split; [cbn; lia|]. case_bool_decide; lia. }
      destruct G as (fb' & T1 & T2 & T3).
      destruct (IH _ fb' rw s' c H2 HW' HH' T1 T2) as [I1 I2]. split; [exact I1|].
      etransitivity; [exact I2|]. unfold supply. cbn [v_led v_hold v_tr received foldr]. rewrite heldc_add. unfold received.
      clear - T3 S3. case_bool_decide; lia.
    - (* refund *)
      apply rbind_ok in H1. destruct H1 as ((t' & m) & E1 & H1). injection H1 as <-. unfold refund_weight in E1.
      pose proof HT as HT0. unfold tr_ok in HT. destruct (t_rev (v_tr s)) as [[[l pa] u]|] eqn:Et.
      + destruct HT as (t1 & -> & Hp & Hi). bstep E1 mm E2. injection E1 as <- <-. destruct E2 as [-> Hm].
        cbn [budget_ok refunds foldr] in HB. destruct HB as (U0 & R0 & HB). pose proof (refunds_nonneg _ HW') as RN. unfold refunds in RN.
        set (w' := Z.min w.1 (t_wt (v_tr s)).1) in *.
        assert (Hw : (w_min w (t_wt (v_tr s))).1 = w') by reflexivity. rewrite Hw in *. assert (Lw : w' <= w.1) by lia. clearbody w'.
        assert (F1 : u * w' / REF <= u * w.1 / REF) by (apply Z.div_le_mono; [auto|]; apply Z.mul_le_mono_nonneg_l; auto).
        assert (F2 : u * rw / REF + u * w.1 / REF <= u * (rw + w.1) / REF) by (rewrite Z.mul_add_distr_l; apply div_add; auto).
        assert (F3 : u * (rw + w.1) / REF <= u * t1 / REF) by (apply Z.div_le_mono; [auto|]; apply Z.mul_le_mono_nonneg_l; auto; lia).
        set (f := u * w' / REF) in *. assert (F0 : 0 <= f) by (apply Z.div_pos; lia). clearbody f.
        assert (Ff : f <= pa) by lia.
        destruct (IH _ (Some (t1, u)) (rw + w.1) s' c H2 HW' ltac:(cbn [v_hold]; apply hold_add_ok; [auto|pose proof (held_nonneg _ l HH); lia])
          ltac:(cbn [v_tr tr_ok t_rev]; exists t1; split; [reflexivity|]; unfold saturating_sub; lia)
          ltac:(cbn; unfold refunds; lia)) as [I1 I2]. split; [exact I1|].
        etransitivity; [exact I2|]. unfold supply, pend. cbn [v_led v_hold v_tr t_rev received foldr]. rewrite heldc_add, Et. unfold received, saturating_sub.
        clear - Ff F0. case_bool_decide; lia.
      + injection E1 as <- <-. subst fb.
        assert (K : budget_ok ops None rw).
        { cbn [budget_ok first_buy refunds foldr] in HB |- *. destruct (first_buy ops) as [[t0 l0]|]; [|auto]. destruct HB as (? & ? & ?).
          unfold refunds. split; [auto|]. split; [lia|auto]. }
        destruct (IH _ None rw s' c H2 HW' HH HT0 K) as [I1 I2]. split; [exact I1|]. exact I2.
    - (* deposit *)
      bstep H1 x E. apply andb_prop in E. destruct E as [Ea Eb]. apply Z.leb_le in Ea, Eb. bstep H1 L E. injection H1 as <-.
      apply deposit_eff in E. destruct E as (who & a & E1 & E2 & E3). change (cur l = Some a) in E2. apply mint_spec in E3. destruct E3 as (_ & _ & E3).
      destruct (IH _ fb rw s' c H2 HW' ltac:(cbn [v_hold]; apply hold_add_ok; [auto|lia]) HT HB) as [I1 I2]. split; [exact I1|].
      etransitivity; [exact I2|]. unfold supply. cbn [v_led v_hold v_tr received foldr]. rewrite heldc_add, E3, gift_iss, E2. unfold received.
      repeat case_bool_decide; try lia; congruence.
    - (* lose *)
      bstep H1 x E. apply andb_prop in E. destruct E as [Ea Eb]. apply Z.leb_le in Ea, Eb. injection H1 as <-.
      destruct (IH _ fb rw s' c H2 HW' ltac:(cbn [v_hold]; apply hold_add_ok; [auto|lia]) HT HB) as [I1 I2]. split; [exact I1|].
      etransitivity; [exact I2|]. unfold supply. cbn [v_led v_hold v_tr received foldr]. rewrite heldc_add. unfold received.
      clear - Ea. case_bool_decide; lia.
  Qed.

  Lemma take_revenue_iss L t c : (exists fb rw, tr_ok fb rw t) -> iss (take_revenue C P r L t) c <= iss L c + pend c t.
  Proof.
    intros (fb & q & H). assert (N : 0 <= pend c t).
    { unfold pend, tr_ok in *. destruct (t_rev t) as [[[l pa] u]|]; [|lia]. case_bool_decide; [|lia].
      destruct H as (t1 & ? & ? & ?); lia. }
    unfold take_revenue. unfold pend in *. destruct (t_rev t) as [[[l pa] u]|]; [|lia]. destruct (cur l) as [a|]; [|case_bool_decide; lia].
    destruct (pa =? 0); [lia|]. destruct (mint_into _ _ _ _ _) eqn:E; try lia. apply mint_spec in E. destruct E as (_ & _ & E). rewrite E.
    repeat case_bool_decide; try lia; congruence.
  Qed.
  Lemma message_conserve L ops L' c :
    vm_message C P r L ops = Ok L' -> prepaid ops -> priced C r ops -> iss L' c <= iss L c + received C r c ops.
  Proof.
    unfold vm_message. intros H [HW HP] HQ. apply rbind_ok in H. destruct H as (s & H1 & H). injection H as <-.
    destruct (vm_conserve ops (vm0 L) None 0 s c H1 HW) as [[I1 I2] I3]; auto.
    - intros l v. cbn. rewrite lookup_empty. discriminate.
    - reflexivity.
    - cbn. unfold priced in HQ. destruct (first_buy ops) as [[t l]|]; auto.
    - pose proof (take_revenue_iss (v_led s) (v_tr s) c I2). pose proof (heldc_nonneg c _ I1).
      unfold supply in I3. cbn [vm0 v_led v_hold v_tr] in I3. change (pend c tr_new) with 0 in I3. assert (E : heldc c ∅ = 0) by apply msum_empty. rewrite E in I3. lia.
  Qed.
End xcm.
