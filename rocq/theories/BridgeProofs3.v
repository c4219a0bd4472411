(** * BridgeProofs3: the invariant of every reachable bridge state. *)
From Verif Require Import Base MapSum Ledger AmmModel BridgeModel BridgeSpec BridgeProofs BridgeProofs2.

Lemma settled_nonneg l c n : 0 <= settled l c n.
Proof.
  induction l as [|e l IH]; cbn; [lia|]. destruct e; auto; try (case_bool_decide; lia). destruct (_ =? _); auto; lia.
Qed.
Lemma seqZ_snoc k : 0 <= k -> reverse (seqZ 1 (k + 1)) = k + 1 :: reverse (seqZ 1 k).
Proof.
  intros H. rewrite seqZ_app by lia. change (seqZ (1 + k) 1) with [1 + k]. rewrite reverse_snoc. f_equal. lia.
Qed.

Section inv.
  Context (C : br_cfg) (P : policy).

  Definition chain_inv (l : list br_event) (c k : Z) (r : list (Z * Z)) : Prop :=
    iv_ok (-1) r /\ (forall n, inl r n <-> 0 < settled l c n) /\ 0 <= k /\ out_nonces l c = reverse (seqZ 1 k).
  Definition vote_inv (s : br) (l : list br_event) (c n : Z) (k : mcall) (p : proposal) : Prop :=
    NoDup (p_for p ++ p_against p) /\ p_expiry p <= b_now s + br_life C /\
    forall f v, v ∈ (if f : bool then p_for p else p_against p) ->
      exists b, EVote f c n v k b ∈ l /\ b <= b_now s /\ p_expiry p <= b + br_life C.
  Record br_inv (s : br) : Prop := mkBrInv {
    bi_tok : tok_inv s;
    bi_none : forall c, b_nonces s !! c = None -> b_reg s !! c = None;
    bi_chain : forall c k, b_nonces s !! c = Some k -> exists r, b_reg s !! c = Some r /\ chain_inv (b_log s) c k r;
    bi_once : forall c n, settled (b_log s) c n <= 1;
    bi_tot : forall a t, b_tokens s !! a = Some t ->
      bt_in_amount t = in_total (b_log s) (bt_id t) /\ bt_out_amount t = out_total (b_log s) (bt_id t);
    bi_votes : forall c n k p, b_votes s !! (c, n, k) = Some p -> vote_inv s (b_log s) c n k p;
    bi_led : ledger_wf (b_led s);
    bi_mem : NoDup (b_members s)
  }.

  Lemma bi_reg s : br_inv s -> forall c, is_Some (b_nonces s !! c) -> is_Some (b_reg s !! c).
  Proof. intros I c [k H]. destruct (bi_chain s I _ _ H) as (r & -> & _). eauto. Qed.

  Lemma br_inv_init L m now : ledger_wf L -> NoDup m -> br_inv (br_init L m now).
  Proof.
    intros H M. constructor; cbn; auto; try (intros; repeat match goal with X : ∅ !! _ = Some _ |- _ => rewrite lookup_empty in X end; congruence).
    - split; intros ? ? X; cbn in X; rewrite lookup_empty in X; discriminate.
    - intros; lia.
  Qed.

  (** steps that touch neither chains, tokens nor the log *)
  Lemma br_inv_led s L : br_inv s -> ledger_wf L -> br_inv (b_set_led s L).
  Proof. intros [] H. constructor; auto. Qed.

  (** logging an event that none of the counters look at *)
  Definition quiet (e : br_event) : Prop :=
    (forall l c n, settled (e :: l) c n = settled l c n) /\ (forall l c, out_nonces (e :: l) c = out_nonces l c) /\
    (forall l t, in_total (e :: l) t = in_total l t) /\ (forall l t, out_total (e :: l) t = out_total l t).
  Lemma vote_quiet f c n w k b : quiet (EVote f c n w k b).
  Proof. repeat split. Qed.
  Lemma chain_inv_quiet e l c k r : quiet e -> chain_inv l c k r -> chain_inv (e :: l) c k r.
  Proof. intros (Q1 & Q2 & _) (A & B & D & E). unfold chain_inv. rewrite Q2. setoid_rewrite Q1. auto. Qed.
  Lemma vote_inv_cons s e l c n k p : vote_inv s l c n k p -> vote_inv s (e :: l) c n k p.
  Proof.
    intros (A & A' & B). split; auto. split; auto. intros f v H. destruct (B f v H) as (b & B1 & B2). exists b. split; auto.
    apply elem_of_cons; auto.
  Qed.

  Lemma tok_inv_upd s a t (t' : btoken) :
    tok_inv s -> b_tokens s !! a = Some t -> bt_id t' = bt_id t -> btoken_ok t' ->
    forall s', b_tokens s' = <[a := t']> (b_tokens s) -> b_ids s' = b_ids s -> tok_inv s'.
  Proof.
    intros [I1 I2] Et Ei Ok s' E1 E2. unfold tok_inv. rewrite E1, E2. split.
    - intros tok a' H. destruct (I1 _ _ H) as (t0 & T1 & T2). destruct (Z.eq_dec a a') as [->|N].
      + exists t'. rewrite lookup_insert. split; auto. congruence.
      + exists t0. rewrite lookup_insert_ne by auto. auto.
    - intros a' t0 H. destruct (Z.eq_dec a a') as [->|N].
      + rewrite lookup_insert in H. injection H as <-. rewrite Ei. split; [apply I2; auto|auto].
      + rewrite lookup_insert_ne in H by auto. auto.
  Qed.
  (** distinct registered assets carry distinct token ids *)
  Lemma tok_inj s a a' t t' : tok_inv s -> b_tokens s !! a = Some t -> b_tokens s !! a' = Some t' ->
    bt_id t = bt_id t' -> a = a'.
  Proof.
    intros [_ I] H H' E. destruct (I _ _ H) as [X _]. destruct (I _ _ H') as [Y _]. rewrite E in X. congruence.
  Qed.

  Lemma br_inv_tele s s' who dest tok amt a t k :
    br_inv s -> u128 amt -> tele_res C P s s' who dest tok amt a t k -> br_inv s'.
  Proof.
    intros I U R. destruct R. pose proof (bi_tok s I) as T. pose proof (proj2 T _ _ tl_tok) as (T1 & T2).
    destruct T2 as (F1 & F2 & F3 & F4 & F5).
    assert (Tid : bt_id t = tok). { destruct (proj1 T _ _ tl_ids) as (t0 & X & Y). congruence. }
    assert (LW : ledger_wf (b_led s')).
    { destruct (bt_external t).
      - destruct tl_led as (L1 & X & Y). eapply mint_wf; [|exact Y]. eapply burn_wf; [|exact X]. apply I.
      - eapply transfer_wf; [|apply I|exact tl_led]. lia. }
    rewrite tl_s'. rewrite tl_s' in LW. clear tl_s' tl_led. constructor; cbn; auto; try apply I.
    - eapply tok_inv_upd with (t' := with_out t (bt_out_amount t + amt)); [exact T|exact tl_tok|auto| |reflexivity|reflexivity].
      unfold btoken_ok, u128; cbn. unfold u128 in *. lia.
    - intros c H. destruct (Z.eq_dec dest c) as [->|N]; [rewrite lookup_insert in H; discriminate|].
      rewrite lookup_insert_ne in H by auto. apply I; auto.
    - intros c k' H. destruct (Z.eq_dec dest c) as [->|N].
      + rewrite lookup_insert in H. injection H as <-. destruct (bi_chain s I _ _ tl_nonce) as (r & Er & A & B & D & E).
        exists r. split; auto. unfold chain_inv. cbn. rewrite Z.eqb_refl, E, seqZ_snoc by auto. repeat split; auto; try lia; apply B.
      + rewrite lookup_insert_ne in H by auto. destruct (bi_chain s I _ _ H) as (r & Er & A & B & D & E).
        exists r. split; auto. unfold chain_inv. cbn. replace (dest =? c) with false by lia. auto.
    - intros a' t' H. destruct (Z.eq_dec a a') as [->|N].
      + rewrite lookup_insert in H. injection H as <-. cbn. destruct (bi_tot s I _ _ tl_tok). rewrite Tid, Z.eqb_refl in *. lia.
      + rewrite lookup_insert_ne in H by auto. destruct (bi_tot s I _ _ H).
        replace (tok =? bt_id t') with false; [lia|]. symmetry. apply Z.eqb_neq. intros X. apply N.
        eapply tok_inj; eauto. congruence.
    - intros c n k0 p H. apply (vote_inv_cons s). apply I; auto.
  Qed.

  Lemma add_vote_inv s c n k p who f b :
    vote_inv s (b_log s) c n k p -> who ∉ p_for p -> who ∉ p_against p -> b = b_now s ->
    vote_inv s (EVote f c n who k b :: b_log s) c n k (add_vote p who f).
  Proof.
    intros (A & A' & B) N1 N2 ->. split; [|split; [destruct f; auto|]].
    - destruct f; cbn.
      + rewrite <- app_assoc. cbn. apply NoDup_app in A as (A1 & A2 & A3). apply NoDup_app. split; auto. split.
        * intros x Hx Hy. apply elem_of_cons in Hy as [->|Hy]; eauto. eapply A2; eauto.
        * constructor; auto.
      + rewrite app_assoc. apply NoDup_app. split; auto. split; [|apply NoDup_singleton].
        intros x Hx Hy. apply elem_of_list_singleton in Hy as ->. apply elem_of_app in Hx. tauto.
    - intros g v H.
      assert (v ∈ (if g then p_for p else p_against p) \/ (v = who /\ g = f)) as [Hv|[-> ->]].
      { destruct g, f; cbn in H; auto; apply elem_of_app in H as [H|H]; auto; apply elem_of_list_singleton in H as ->; auto. }
      + destruct (B _ _ Hv) as (b & B1 & B2 & B3). exists b. split; [apply elem_of_cons; auto|]. split; auto. destruct f; auto.
      + exists (b_now s). split; [apply elem_of_cons; auto|]. split; [lia|]. destruct f; auto.
  Qed.

  (** a settled transfer is added to the registry *)
  Lemma chain_settle l e c n r r' k :
    (forall l' c' n', settled (e :: l') c' n' = (if bool_decide (c = c' /\ n = n') then 1 else 0) + settled l' c' n') ->
    (forall l' c', out_nonces (e :: l') c' = out_nonces l' c') ->
    0 <= n -> ~ inl r n -> update_registry r n = Ok r' -> chain_inv l c k r -> chain_inv (e :: l) c k r'.
  Proof.
    intros S O Hn N U (A & B & D & E). destruct (update_registry_ok (-1) r n r') as [A' B']; auto; [lia|].
    split; [auto|]. split; [|rewrite O; auto]. intros m. rewrite B', S, B. pose proof (settled_nonneg l c m).
    case_bool_decide as Q; [destruct Q; subst; lia|]. split; [intros [->|X]; [tauto|lia]|right; lia].
  Qed.
  Lemma chain_other l e c n c' r k :
    (forall l' c' n', settled (e :: l') c' n' = (if bool_decide (c = c' /\ n = n') then 1 else 0) + settled l' c' n') ->
    (forall l' c', out_nonces (e :: l') c' = out_nonces l' c') ->
    c <> c' -> chain_inv l c' k r -> chain_inv (e :: l) c' k r.
  Proof.
    intros S O Hn (A & B & D & E). split; [auto|]. split; [|rewrite O; auto]. intros m. rewrite S, B.
    rewrite bool_decide_false by tauto. lia.
  Qed.

  Lemma br_inv_mat s s' o c n tok to amt f who a t r p :
    br_inv s -> br_cfg_ok C -> 0 <= n -> u128 amt -> mat_res C P s s' o c n tok to amt f who a t r p -> br_inv s'.
  Proof.
    intros I (CF1 & CF2 & CF3 & CF4) Hn U R. destruct R. pose proof (bi_tok s I) as T. pose proof (proj2 T _ _ mt_tok) as (T1 & T2).
    destruct T2 as (F1 & F2 & F3 & F4 & F5). destruct mt_new as [N1 N2]. destruct mt_chain as [k0 Hk0].
    assert (Tid : bt_id t = tok). { destruct (proj1 T _ _ mt_ids) as (t0 & X & Y). congruence. }
    assert (V0 : vote_inv s (b_log s) c n (tok, to, amt) p).
    { destruct mt_prop as [Hp|[Hp ->]]; [apply I; auto|]. split; [constructor|]. split; [cbn; lia|].
      intros g v Hv. destruct g; inversion Hv. }
    set (ev := EVote f c n who (tok, to, amt) (b_now s)) in *.
    assert (V1 : vote_inv s (ev :: b_log s) c n (tok, to, amt) (add_vote p who f)) by (apply add_vote_inv; auto).
    assert (Qe : quiet ev) by apply vote_quiet.
    assert (VV : forall l p', (p_for p' = p_for (add_vote p who f)) -> p_against p' = p_against (add_vote p who f) ->
              p_expiry p' = p_expiry (add_vote p who f) ->
              (forall e, e ∈ ev :: b_log s -> e ∈ l) ->
              forall c' n' k' q, <[(c, n, (tok, to, amt)) := p']> (b_votes s) !! (c', n', k') = Some q -> vote_inv s l c' n' k' q).
    { intros l p' X1 X2 X3 X4 c' n' k' q H. 
      assert (MONO : forall c n k q, vote_inv s (ev :: b_log s) c n k q -> vote_inv s l c n k q).
      { intros ? ? ? ? (Y1 & Y2 & Y3). split; auto. split; auto. intros g v Hv. destruct (Y3 g v Hv) as (b & Z1 & Z2). eauto. }
      apply MONO. destruct (decide ((c, n, (tok, to, amt)) = (c', n', k'))) as [E|E].
      - injection E as <- <- <-. rewrite lookup_insert in H. injection H as <-. destruct V1 as (Y1 & Y2 & Y3).
        unfold vote_inv. rewrite X1, X2, X3. auto.
      - rewrite lookup_insert_ne in H by auto. apply vote_inv_cons. apply I; auto. }
    revert mt_out. generalize (add_vote p who f) VV. intros p' VV' M. clear V1 V0 VV mt_prop.
    destruct M as [Hl|r' Hl Hm Hr|r' L1 L2 Hl Hc Hr HL1 HL2].
    - constructor; cbn; auto; try apply I.
      intros c' n' k' q H. apply (VV' (ev :: b_log s) p') in H; auto.
    - assert (SE : forall l' c' n', settled (ERejected c n :: l') c' n' = (if bool_decide (c = c' /\ n = n') then 1 else 0) + settled l' c' n') by reflexivity.
      assert (OE : forall l' c', out_nonces (ERejected c n :: l') c' = out_nonces l' c') by reflexivity.
      constructor; cbn -[settled]; auto; try apply I.
      + intros c' H. rewrite lookup_insert_ne by congruence. apply I; auto.
      + intros c' k' H. destruct (bi_chain s I _ _ H) as (r1 & X & Y). destruct (Z.eq_dec c c') as [->|N].
        * exists r'. rewrite lookup_insert. split; auto. eapply chain_settle; eauto. replace r with r1 by congruence.
          apply chain_inv_quiet; auto.
        * exists r1. rewrite lookup_insert_ne by auto. split; auto. eapply chain_other; [exact SE|exact OE|exact N|]. apply chain_inv_quiet; auto.
      + intros c' n'. rewrite SE. destruct Qe as [Qe _]. rewrite Qe. pose proof (bi_once s I c' n'). case_bool_decide as Q; [|lia].
        destruct Q; subst c' n'. destruct (bi_chain s I _ _ Hk0) as (r1 & X & Y & Z & _). replace r1 with r in * by congruence.
        rewrite Z in mt_fresh. lia.
      + intros c' n' k' q H. eapply VV' in H; [exact H|..]; auto. intros e He. apply elem_of_cons; auto.
    - set (em := EMinted c n tok a (bt_external t) to amt).
      assert (SE : forall l' c' n', settled (em :: l') c' n' = (if bool_decide (c = c' /\ n = n') then 1 else 0) + settled l' c' n') by reflexivity.
      assert (OE : forall l' c', out_nonces (em :: l') c' = out_nonces l' c') by reflexivity.
      assert (LW : ledger_wf L2).
      { assert (ledger_wf L1) as W1.
        { destruct (bt_external t); [eapply mint_wf; [|exact HL1]; apply I|]. eapply transfer_wf; [|apply I|exact HL1]. lia. }
        destruct HL2 as [->|(d & D1 & D2 & _)]; auto. eapply transfer_wf; [|exact W1|exact D2]. lia. }
      constructor; cbn -[settled in_total out_total]; auto; try apply I.
      + eapply tok_inv_upd with (t' := with_in t (bt_in_amount t + amt)); [exact T|exact mt_tok|auto| |reflexivity|reflexivity].
        unfold btoken_ok, u128; cbn. unfold u128 in *. lia.
      + intros c' H. rewrite lookup_insert_ne by congruence. apply I; auto.
      + intros c' k' H. destruct (bi_chain s I _ _ H) as (r1 & X & Y). destruct (Z.eq_dec c c') as [->|N].
        * exists r'. rewrite lookup_insert. split; auto. eapply chain_settle; eauto. replace r with r1 by congruence.
          apply chain_inv_quiet; auto.
        * exists r1. rewrite lookup_insert_ne by auto. split; auto. eapply chain_other; [exact SE|exact OE|exact N|]. apply chain_inv_quiet; auto.
      + intros c' n'. rewrite SE. destruct Qe as [Qe _]. rewrite Qe. pose proof (bi_once s I c' n'). case_bool_decide as Q; [|lia].
        destruct Q; subst c' n'. destruct (bi_chain s I _ _ Hk0) as (r1 & X & Y & Z & _). replace r1 with r in * by congruence.
        rewrite Z in mt_fresh. lia.
      + intros a' t' H. cbn [in_total out_total em ev]. destruct (Z.eq_dec a a') as [->|N].
        * rewrite lookup_insert in H. injection H as <-. cbn [bt_id bt_in_amount bt_out_amount with_in].
          destruct (bi_tot s I _ _ mt_tok). rewrite Tid, Z.eqb_refl in *. lia.
        * rewrite lookup_insert_ne in H by auto. destruct (bi_tot s I _ _ H).
          replace (tok =? bt_id t') with false; [lia|]. symmetry. apply Z.eqb_neq. intros X. apply N.
          eapply tok_inj; eauto. congruence.
      + intros c' n' k' q H. eapply VV' in H; [exact H|..]; auto. intros e He. apply elem_of_cons; auto.
  Qed.

  Lemma mutate_inv s tok g s' : tok_inv s -> try_mutate_bridge_token s tok g = Ok s' ->
    exists a t, b_ids s !! tok = Some a /\ b_tokens s !! a = Some t /\ bt_id t = tok /\
      s' = set_tok s (<[a := g t]> (b_tokens s)) (b_ids s).
  Proof.
    intros I H. unfold try_mutate_bridge_token in H. bstep H u E. unfold ensure_bridge_token_registered in E. ok_simpl E.
    apply bool_decide_eq_true in E as [a Ea]. injection H as <-. destruct (proj1 I _ _ Ea) as (t & Et & Ei).
    exists a, t. unfold asset_id, bridge_token. rewrite Ea. cbn. unfold id. rewrite Et. auto.
  Qed.
  Lemma br_inv_mutate s tok g s' :
    br_inv s -> (forall t, btoken_ok t -> btoken_ok (g t)) -> (forall t, bt_id (g t) = bt_id t) ->
    (forall t, bt_in_amount (g t) = bt_in_amount t) -> (forall t, bt_out_amount (g t) = bt_out_amount t) ->
    try_mutate_bridge_token s tok g = Ok s' -> br_inv s'.
  Proof.
    intros I G1 G2 G3 G4 H. apply mutate_inv in H as (a & t & Ea & Et & Ei & ->); [|apply I].
    constructor; cbn; auto; try apply I.
    - eapply tok_inv_upd with (t' := g t); [apply I|exact Et|apply G2| |reflexivity|reflexivity]. apply G1. apply (bi_tok s I) in Et. apply Et.
    - intros a' t' H. destruct (Z.eq_dec a a') as [->|N].
      + rewrite lookup_insert in H. injection H as <-. rewrite G2, G3, G4. apply (bi_tot s I _ _ Et).
      + rewrite lookup_insert_ne in H by auto. apply (bi_tot s I _ _ H).
  Qed.

  Lemma br_inv_step s op s' : br_cfg_ok C -> br_inv s -> br_op_ok C op -> br_step C P s op = Ok s' -> br_inv s'.
  Proof.
    intros CF I OK H. destruct op; cbn in H.
    - (* register_chain *)
      unfold register_chain in H. bstep H u E. bstep H u2 E2. injection H as <-. apply andb_prop in E2 as [_ E2].
      apply negb_true_iff in E2. unfold chain_registered in E2. apply bool_decide_eq_false in E2.
      constructor; cbn; auto; try apply I.
      + intros c' H. destruct (Z.eq_dec c c') as [->|N]; [rewrite lookup_insert in H; discriminate|].
        rewrite lookup_insert_ne in H by auto. rewrite lookup_insert_ne by auto. apply I; auto.
      + intros c' k H. destruct (Z.eq_dec c c') as [->|N].
        * rewrite lookup_insert in H. rewrite lookup_insert. injection H as <-. exists []. split; auto. unfold chain_inv. cbn. rewrite Z.eqb_refl.
          split; [exact Logic.I|]. split; [|split; [lia|reflexivity]]. intros; lia.
        * rewrite lookup_insert_ne in H by auto. rewrite lookup_insert_ne by auto. destruct (bi_chain s I _ _ H) as (r & X & A & B & D & F). exists r. split; auto.
          unfold chain_inv. cbn. replace (c =? c') with false by lia. auto.
      + intros c' n. destruct (c =? c'); [lia|apply I].
      + intros c' n k p H. apply vote_inv_cons. apply I; auto.
    - (* unregister_chain *)
      unfold unregister_chain in H. bstep H u E. bstep H u2 E2. injection H as <-.
      constructor; cbn; auto; try apply I.
      + intros c' H. destruct (Z.eq_dec c c') as [->|N]; [apply lookup_delete|].
        rewrite lookup_delete_ne in H by auto. rewrite lookup_delete_ne by auto. apply I; auto.
      + intros c' k H. destruct (Z.eq_dec c c') as [->|N]; [rewrite lookup_delete in H; discriminate|].
        rewrite lookup_delete_ne in H by auto. rewrite lookup_delete_ne by auto. apply I; auto.
    - (* register_bridge_token *)
      unfold register_bridge_token in H. bstep H u E. bstep H u2 E2. injection H as <-. apply andb_prop in E2 as [E1 E2].
      apply negb_true_iff, bool_decide_eq_false in E1. apply negb_true_iff, bool_decide_eq_false in E2.
      apply eq_None_not_Some in E1, E2. destruct (bi_tok s I) as [T1 T2].
      constructor; cbn; auto; try apply I.
      + split; cbn.
        * intros tok a' H. destruct (Z.eq_dec (bt_id t) tok) as [<-|N].
          { rewrite lookup_insert in H. injection H as <-. exists t. rewrite lookup_insert. auto. }
          rewrite lookup_insert_ne in H by auto. destruct (T1 _ _ H) as (t0 & X & Y). exists t0.
          rewrite lookup_insert_ne; [auto|]. intros ->. congruence.
        * intros a' t' H. destruct (Z.eq_dec a a') as [->|N].
          { rewrite lookup_insert in H. injection H as <-. rewrite lookup_insert. auto. }
          rewrite lookup_insert_ne in H by auto. destruct (T2 _ _ H) as [X Y]. split; auto.
          rewrite lookup_insert_ne; [auto|]. intros Q. rewrite Q in E2. congruence.
      + intros a' t' H. destruct (Z.eq_dec a a') as [->|N].
        { rewrite lookup_insert in H. injection H as <-. rewrite Z.eqb_refl. auto. }
        rewrite lookup_insert_ne in H by auto. replace (bt_id t =? bt_id t') with false; [apply (bi_tot s I a' t' H)|].
        symmetry. apply Z.eqb_neq. intros Q. destruct (T2 _ _ H) as [X _]. rewrite <- Q in X. congruence.
      + intros c' n k p H. apply vote_inv_cons. apply I; auto.
    - (* unregister_bridge_token *)
      unfold unregister_bridge_token in H. bstep H u E. bstep H u2 E2. unfold ensure_bridge_token_registered in E2. ok_simpl E2.
      apply bool_decide_eq_true in E2 as [a Ea]. injection H as <-. unfold asset_id. rewrite Ea. cbn. unfold id.
      destruct (bi_tok s I) as [T1 T2]. destruct (T1 _ _ Ea) as (t & Et & Ei).
      constructor; cbn; auto; try apply I.
      + split; cbn.
        * intros tok' a' H. destruct (Z.eq_dec tok tok') as [->|N]; [rewrite lookup_delete in H; discriminate|].
          rewrite lookup_delete_ne in H by auto. destruct (T1 _ _ H) as (t0 & X & Y). exists t0.
          rewrite lookup_delete_ne; auto. intros ->. apply N. congruence.
        * intros a' t' H. destruct (Z.eq_dec a a') as [->|N]; [rewrite lookup_delete in H; discriminate|].
          rewrite lookup_delete_ne in H by auto. destruct (T2 _ _ H) as [X Y]. split; auto.
          rewrite lookup_delete_ne; auto. intros Q. rewrite <- Q in X. congruence.
      + intros a' t' H. destruct (Z.eq_dec a a') as [->|N]; [rewrite lookup_delete in H; discriminate|].
        rewrite lookup_delete_ne in H by auto. apply (bi_tot s I a' t' H).
    - unfold set_bridge_token_fee in H. bstep H u E. eapply br_inv_mutate; [exact I|..|exact H]; try reflexivity.
      intros t (A & B & D & F & G). cbn in OK. unfold btoken_ok, with_fee; cbn. auto.
    - unfold set_bridge_token_status in H. bstep H u E. eapply br_inv_mutate; [exact I|..|exact H]; try reflexivity.
      intros t X. exact X.
    - unfold set_bridge_token_cap in H. bstep H u E. destruct ty; (eapply br_inv_mutate; [exact I|..|exact H]); try reflexivity;
        intros t (A & B & D & F & G); cbn in OK; unfold btoken_ok, with_in_cap, with_out_cap; cbn; auto.
    - (* clean *)
      unfold clean_cap in H. bstep H u E. bstep H s1 E1. injection H as <-. apply mutate_inv in E1 as (a & t & Ea & Et & Ei & ->); [|apply I].
      pose proof (proj2 (bi_tok s I) _ _ Et) as (T1 & A & B & D & F & G). pose proof U128MAX_pos.
      constructor; cbn -[in_total out_total]; auto; try apply I.
      + eapply tok_inv_upd with (a := a) (t := t); [apply I|exact Et| | |reflexivity|reflexivity]; destruct ty; auto;
          unfold btoken_ok, with_in, with_out, u128 in *; cbn; intuition lia.
      + intros a' t' H1. destruct (Z.eq_dec a a') as [->|N].
        * rewrite lookup_insert in H1. injection H1 as <-. destruct (bi_tot s I _ _ Et) as [Q1 Q2].
          destruct ty; cbn; rewrite Ei in *; rewrite Z.eqb_refl; auto.
        * rewrite lookup_insert_ne in H1 by auto. destruct (bi_tot s I _ _ H1) as [Q1 Q2].
          assert (tok =? bt_id t' = false) as Q3.
          { apply Z.eqb_neq. intros Q. apply N. eapply tok_inj; eauto; [apply I|congruence]. }
          destruct ty; cbn; rewrite Q3; auto.
      + intros c' n k p H1. apply vote_inv_cons. apply I; auto.
    - apply teleport_inv in H as (a & t & k & H); [|apply I]. eapply br_inv_tele; eauto. apply OK.
    - apply materialize_inv in H as (w & a & t & r & p & H); [|apply I|apply bi_reg; auto]. destruct OK as [[O1 O2] O3].
      eapply br_inv_mat; eauto.
    - (* block *)
      bstep H x E. injection H as <-. unfold raw_u32 in E. destruct (_ && _); [|discriminate]. injection E as <-.
      constructor; cbn; auto; try apply I. intros c n k p H. apply map_filter_lookup_Some in H as [H _].
      apply (bi_votes s I) in H as (X & Y & Z). split; auto. cbn. split; [lia|]. intros f v Hv.
      destruct (Z f v Hv) as (b & B1 & B2 & B3). exists b. split; auto. lia.
    - (* members *)
      injection H as <-. cbn in OK. unfold change_vote_threshold. destruct (ensure_valid_threshold _ _ _); cbn;
        constructor; cbn; auto; apply I.
    - bstep H L E. injection H as <-. apply br_inv_led; auto. eapply transfer_wf; [|apply I|exact E]. apply OK.
    - bstep H L E. injection H as <-. apply br_inv_led; auto. eapply mint_wf; [|exact E]. apply I.
    - bstep H L E. injection H as <-. apply br_inv_led; auto. eapply burn_wf; [|exact E]. apply I.
  Qed.
  Lemma br_inv_exec s op : br_cfg_ok C -> br_inv s -> br_op_ok C op -> br_inv (br_exec C P s op).
  Proof. intros CF I OK. unfold br_exec. destruct (br_step C P s op) eqn:E; auto. eapply br_inv_step; eauto. Qed.
  Lemma br_reachable_inv s : br_cfg_ok C -> br_reachable C P s -> br_inv s.
  Proof. intros CF H. induction H; [apply br_inv_init; auto|apply br_inv_exec; auto]. Qed.
  Lemma br_history_inv s os s' : br_cfg_ok C -> br_inv s -> br_history C P s os s' -> br_inv s'.
  Proof. intros CF I H. revert I. induction H; auto. intros I. apply IHbr_history. apply br_inv_exec; auto. Qed.
End inv.
