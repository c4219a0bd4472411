(** * CrowdProofs7: phases, amounts raised, origins, migration of waiting contributions. *)
From Verif Require Import Base MapSum Ledger AmmModel StreamModel StreamSpec CrowdModel CrowdSpec CrowdProofs CrowdProofs2 CrowdProofs3 CrowdProofs4 CrowdProofs5 CrowdProofs6.

Definition vrel (v v' : vault) : Prop :=
  v_ctoken v' = v_ctoken v /\ v_trie v' = v_trie v /\ v_ls v' = v_ls v /\ v_le v' = v_le v /\ v_phase v' = v_phase v /\ v_cap v' = v_cap v /\ v_end v' = v_end v /\ raised v' <= raised v.
Lemma vrel_refl v : vrel v v. Proof. unfold vrel. repeat split; auto; lia. Qed.
Lemma vrel_trans v1 v2 v3 : vrel v1 v2 -> vrel v2 v3 -> vrel v1 v3.
Proof. unfold vrel. intros. destruct_and?. repeat split; try congruence; lia. Qed.
Lemma vrel_put v k c : kind_ok k -> c <= v_get v k -> vrel v (v_put v k c).
Proof. intros [->|[->| ->]] Hc; unfold vrel, raised, v_put, v_get in *; cbn in *; repeat split; auto; lia. Qed.

Section track.
  Context (C : cr_cfg) (E : cr_env) (ct : Z -> bool) (HC : cr_cfg_ok C ct).
  Let P := ce_pol E.
  Notation R := (cc_relay C). Notation A := (cc_acct C).

  Lemma upd_vrel s v w amt k s1 v1 : upd_con s v w amt false k = Ok (s1, v1) -> kind_ok k -> 0 <= amt -> vrel v v1 /\ c_vaults s1 = c_vaults s.
  Proof. intros H Hk Ha. apply upd_con_eff in H as (-> & -> & _). split; [apply vrel_put; auto; lia|reflexivity]. Qed.
  Lemma migrate_con_vrel s v w amt k1 k2 s1 v1 : migrate_con s v w amt k1 k2 = Ok (s1, v1) -> kind_ok k1 -> kind_ok k2 -> k1 <> k2 -> vrel v v1 /\ c_vaults s1 = c_vaults s.
  Proof.
    intros H K1 K2 Hne. unfold migrate_con in H. apply rbind_ok in H as ([s0 v0] & F1 & F2). apply upd_con_eff in F1 as (-> & -> & _). apply upd_con_eff in F2 as (-> & -> & _).
    split; [|reflexivity]. destruct K1 as [->|[->| ->]], K2 as [->|[->| ->]]; try congruence; unfold vrel, raised, v_put, v_get; cbn; repeat split; auto; lia.
  Qed.
  Lemma migrate_loop_vrel l : forall n s v para s1 v1, migrate_loop C E l n s v para = Ok (s1, v1) -> vrel v v1 /\ c_vaults s1 = c_vaults s.
  Proof.
    induction l as [|[w amt] l IH]; intros n s v para s1 v1 H; cbn in H; [injection H as <- <-; split; [apply vrel_refl|auto]|].
    destruct n as [|n]; [injection H as <- <-; split; [apply vrel_refl|auto]|]. apply rbind_ok in H as ([s0 v0] & F1 & H). bstep H s2 F2.
    apply migrate_con_vrel in F1 as [V1 C1]; [|left; reflexivity|right; left; reflexivity|discriminate]. apply IH in H as [V2 C2].
    unfold do_contribute in F2. bstep F2 u F3. apply csend_eff in F2 as (L & _ & _ & ->). split; [eapply vrel_trans; eauto|]. rewrite C2. exact C1.
  Qed.
  Lemma refund_loop_vrel l : forall n s v s1 v1, refund_loop C E l n s v = Ok (s1, v1) -> (forall k w x, (k, (w, x)) ∈ l -> kind_ok k /\ 0 <= x) -> vrel v v1 /\ c_vaults s1 = c_vaults s.
  Proof.
    induction l as [|[k [w amt]] l IH]; intros n s v s1 v1 H Hl; cbn in H; [injection H as <- <-; split; [apply vrel_refl|auto]|].
    destruct n as [|n]; [injection H as <- <-; split; [apply vrel_refl|auto]|]. apply rbind_ok in H as ([s0 v0] & F1 & H).
    destruct (Hl k w amt (elem_of_list_here _ _)) as [Hk Ha]. unfold do_refund_for in F1. bstep F1 L E1. apply upd_vrel in F1 as [V1 C1]; auto.
    apply IH in H as [V2 C2]; [|intros k0 w0 x0 Hin; apply (Hl k0 w0 x0); right; auto]. split; [eapply vrel_trans; eauto|]. rewrite C2. exact C1.
  Qed.

  Definition track (s : cr) (op : cr_op) (k : Z * Z * Z) (v v' : vault) : Prop :=
    v_ctoken v' = v_ctoken v /\ v_trie v' = v_trie v /\ v_ls v' = v_ls v /\ v_le v' = v_le v /\
    (v_phase v' = v_phase v \/ phase_change s op k (v_phase v) (v_phase v')) /\
    (raised v' <= raised v \/ exists w amt, op = CContribute w k.1.1 amt /\ raised v' = raised v + amt /\ raised v' <= v_cap v) /\
    ((v_cap v' = v_cap v /\ v_end v' = v_end v) \/ exists o cap e px, op = CUpdate o k.1.1 cap e px).
  Lemma vrel_track s op k v v' : vrel v v' -> track s op k v v'.
  Proof. unfold vrel, track. intros. destruct_and?. repeat split; auto. Qed.
  Lemma track_one s op k0 v v1 s' : c_vaults s !! k0 = Some v -> c_vaults s' = <[k0 := v1]> (c_vaults s) -> track s op k0 v v1 ->
    forall k v', c_vaults s' !! k = Some v' -> exists v, c_vaults s !! k = Some v /\ track s op k v v'.
  Proof.
    intros Hv Hs Ht k v' Hv'. rewrite Hs in Hv'. apply lookup_insert_Some in Hv' as [[<- <-]|[Hne Hv']]; [eauto|]. exists v'. split; auto. apply vrel_track, vrel_refl.
  Qed.
  Lemma track_none s op s' : c_vaults s' = c_vaults s -> forall k v', c_vaults s' !! k = Some v' -> exists v, c_vaults s !! k = Some v /\ track s op k v v'.
  Proof. intros -> k v' Hv. exists v'. split; auto. apply vrel_track, vrel_refl. Qed.
  Lemma try_phase_track s op para p1 p2 s' : cst C ct s -> try_phase s para p1 p2 = Ok s' -> (forall a b, phase_change s op (para, a, b) p1 p2) ->
    forall k v', c_vaults s' !! k = Some v' -> exists v, c_vaults s !! k = Some v /\ track s op k v v'.
  Proof.
    intros Hg H Hp. unfold try_phase in H. bstep H kv E1. destruct kv as [key v]. cbn [snd] in H. bstep H u2 E2. injection H as <-.
    destruct (current_some _ _ _ _ _ _ E1 Hg) as (Hv & Hl & ->). apply bool_decide_eq_true in E2. eapply track_one; [exact Hv|reflexivity|].
    unfold track, raised. cbn. rewrite E2. repeat split; auto. left. lia.
  Qed.
  Lemma try_withdraw_track s op para p1 p2 s' : cst C ct s -> try_withdraw C E s para p1 p2 = Ok s' ->
    forall k v', c_vaults s' !! k = Some v' -> exists v, c_vaults s !! k = Some v /\ track s op k v v'.
  Proof.
    intros Hg H. unfold try_withdraw in H. bstep H kv E1. destruct kv as [key v]. cbn [snd] in H. bstep H u2 E2. bstep H s1 E3. injection H as <-.
    destruct (current_some _ _ _ _ _ _ E1 Hg) as (Hv & Hl & ->). unfold do_withdraw in E3. apply csend_eff in E3 as (L & _ & _ & ->).
    eapply track_one; [exact Hv|reflexivity|]. apply vrel_track, vrel_refl.
  Qed.

  Lemma step_track s op s' : cr_step C E s op = Ok s' -> cst C ct s -> ledger_wf (c_led s) -> cr_op_ok C ct op -> forall k v', c_vaults s' !! k = Some v' ->
    (exists v, c_vaults s !! k = Some v /\ track s op k v v') \/
    (c_vaults s !! k = None /\ exists o c px cap e, op = CCreate o k.1.1 c k.1.2 k.2 px cap e /\ v' = vault_new k.1.2 k.2 c px cap e (c_next s)).
  Proof.
    intros H Hg Hwf Ho k v' Hv'.
    assert (HH : (forall k v', c_vaults s' !! k = Some v' -> exists v, c_vaults s !! k = Some v /\ track s op k v v') ->
      (exists v, c_vaults s !! k = Some v /\ track s op k v v') \/
      (c_vaults s !! k = None /\ exists o c px cap e, op = CCreate o k.1.1 c k.1.2 k.2 px cap e /\ v' = vault_new k.1.2 k.2 c px cap e (c_next s))) by (intros X; left; apply X; auto).
    destruct op; cbn [cr_step] in H; cbn [cr_op_ok] in Ho.
    - unfold create_vault in H. bstep H u0 E0. bstep H u1 E1. bstep H u2 E2. bstep H u3 E3. bstep H u4 E4. bstep H u5 E5. bstep H u6 E6. bstep H u7 E7. injection H as H.
      assert (B1 : c_vaults s' = <[(para, ls, le) := vault_new ls le ctoken proxy cap end_ (c_next s)]> (c_vaults s)) by (subst s'; reflexivity).
      rewrite B1 in Hv'. apply lookup_insert_Some in Hv' as [[<- <-]|[Hne Hv']].
      + right. split; [|do 5 eexists; split; reflexivity]. apply negb_true_iff, bool_decide_eq_false in E4. destruct (c_vaults s !! (para, ls, le)); auto. exfalso; eauto.
      + left. exists v'. split; auto. apply vrel_track, vrel_refl.
    - apply HH. unfold update_vault in H. bstep H u0 E0. bstep H kv E1. destruct kv as [key v]. cbn [snd] in H. bstep H u2 E2. bstep H u3 E3. injection H as <-.
      destruct (current_some _ _ _ _ _ _ E1 Hg) as (Hv & Hl & ->). eapply track_one; [exact Hv|reflexivity|].
      unfold track, raised. cbn. repeat split; auto; [left; lia|]. right. eauto.
    - apply HH. unfold open_vault in H. bstep H u0 E0. eapply try_phase_track; eauto; cbn; auto.
    - apply HH. destruct (contribute_exact C E ct _ _ _ _ _ Hg H) as (a & b & v & Hl & Hv & _ & _ & _ & _ & Hcap & _ & [(_ & Hs & _)|(_ & Hs & _)]).
      + eapply track_one; [exact Hv|exact Hs|]. unfold track, raised. cbn. repeat split; auto. right. do 2 eexists. split; [reflexivity|]. split; lia.
      + eapply track_one; [exact Hv|exact Hs|]. unfold track, raised. cbn. repeat split; auto. right. do 2 eexists. split; [reflexivity|]. split; lia.
    - apply HH. unfold set_vrf in H. bstep H u0 E0. injection H as <-. apply track_none. reflexivity.
    - apply HH. unfold close_vault in H. bstep H u0 E0. eapply try_phase_track; eauto; cbn; auto.
    - apply HH. unfold reopen_vault in H. bstep H u0 E0. eapply try_phase_track; eauto; cbn; auto.
    - apply HH. unfold auction_succeeded in H. bstep H u0 E0. eapply try_phase_track; eauto; cbn; auto.
    - apply HH. unfold auction_failed in H. bstep H u0 E0. eapply try_withdraw_track; eauto.
    - apply HH. apply track_none. unfold claim, do_claim_for in H. bstep H c Hct. bstep H v Hv. bstep H u1 E1. bstep H u2 E2. bstep H L E3.
      destruct (bonus_amount C s ls le (con_get s (v_trie v) KContr w) =? 0); [injection H as <-; reflexivity|]. bstep H st E4. injection H as <-. reflexivity.
    - apply HH. destruct (withdraw_exact C E _ _ _ _ _ _ H) as (v & Hv & _ & _ & Hle & Hs & _). eapply track_one; [exact Hv|exact Hs|].
      unfold track, raised. cbn. repeat split; auto. left. assert (0 <= entry s v KContr w); [|lia].
      unfold entry. destruct (c_con s !! (v_trie v, KContr, w)) eqn:Ex; cbn; [|lia]. apply (cs_con _ _ _ Hg) in Ex. lia.
    - apply HH. destruct (redeem_exact C E ct _ _ _ _ _ _ _ Hg Hwf H) as (v & Hv & _ & _ & _ & Hs & _). eapply track_one; [exact Hv|exact Hs|].
      unfold track, raised. cbn. repeat split; auto. left. lia.
    - apply HH. unfold slot_expired in H. bstep H u0 E0. eapply try_withdraw_track; eauto.
    - apply HH. unfold migrate_pending in H. bstep H u0 E0. bstep H kv E1. destruct kv as [key v]. cbn [snd] in H. bstep H u2 E2. bstep H u3 E3.
      apply rbind_ok in H as ([s1 v1] & F1 & H). injection H as <-. destruct (current_some _ _ _ _ _ _ E1 Hg) as (Hv & Hl & ->).
      apply migrate_loop_vrel in F1 as [V1 C1]. pose proof V1 as (_ & _ & I1 & I2 & _). eapply track_one; [exact Hv| |apply vrel_track; exact V1].
      cbn. rewrite C1, I1, I2. reflexivity.
    - apply HH. unfold notification in H. bstep H u E0. destruct r as [ok|]; [|injection H as <-; apply track_none; reflexivity].
      destruct (c_reqs s !! q) as [r|] eqn:Eq; [|injection H as <-; apply track_none; reflexivity].
      destruct r as [para a b w amt|para a b amt tp].
      + destruct (settle_exact C E _ _ _ _ _ _ _ _ _ H) as (v & Hv & L1 & L2 & X). pose proof (cs_reqc _ _ _ Hg _ _ _ _ _ _ Eq) as [Ha _]. destruct ok.
        * destruct X as (Hs & _). eapply track_one; [exact Hv|exact Hs|]. apply vrel_track. unfold vrel, raised. cbn. repeat split; auto; lia.
        * destruct X as (Hs & _). eapply track_one; [exact Hv|exact Hs|]. apply vrel_track. unfold vrel, raised. cbn. repeat split; auto; lia.
      + unfold notified in H. apply rbind_ok in H as (s1 & H1 & H). injection H as <-. destruct ok; [|injection H1 as <-; apply track_none; reflexivity].
        bstep H1 v Hv. injection H1 as <-. eapply track_one; [exact Hv|reflexivity|]. unfold track, raised. cbn. repeat split; auto; [right; eauto|left; lia].
    - apply HH. unfold refund in H. bstep H u0 E0. bstep H v Hv. bstep H u1 E1. apply rbind_ok in H as ([s1 v1] & F1 & H). injection H as <-. fold (refund_todo s v) in F1.
      apply refund_loop_vrel in F1 as [V1 C1]; [eapply track_one; [exact Hv|cbn; rewrite C1; reflexivity|apply vrel_track; exact V1]|].
      intros k0 w x Hin. apply refund_todo_elem in Hin as [Hk Hin]. split; auto. apply (cs_con _ _ _ Hg) in Hin. lia.
    - apply HH. destruct (dissolve_facts C ct _ _ _ _ _ _ H Hg) as (v & Hv & _ & _ & _ & _ & B1 & _). intros k0 v0 Hv0. rewrite B1 in Hv0. apply lookup_delete_Some in Hv0 as [_ Hv0].
      exists v0. split; auto. apply vrel_track, vrel_refl.
    - apply HH. unfold refund_for in H. bstep H u0 E0. bstep H v Hv. bstep H u1 E1. bstep H u2 E2. apply rbind_ok in H as ([s1 v1] & F1 & H). injection H as <-.
      unfold do_refund_for in F1. bstep F1 L E3. apply upd_vrel in F1 as [V1 C1]; [|apply Ho|lia]. eapply track_one; [exact Hv|cbn; rewrite C1; reflexivity|apply vrel_track; exact V1].
    - apply HH. unfold update_proxy in H. bstep H u0 E0. injection H as <-. apply track_none. reflexivity.
    - apply HH. unfold update_bonus in H. bstep H u0 E0. bstep H u1 E1. bstep H u2 E2. injection H as <-. apply track_none. reflexivity.
    - apply HH. unfold force_claim in H. bstep H u0 E0. apply track_none. unfold do_claim_for in H. bstep H c Hct. bstep H v Hv. bstep H u1 E1. bstep H u2 E2. bstep H L E3.
      destruct (bonus_amount C s ls le (con_get s (v_trie v) KContr w) =? 0); [injection H as <-; reflexivity|]. bstep H st E4. injection H as <-. reflexivity.
    - apply HH. unfold redeem_and_lend in H. bstep H u0 E0. bstep H u1 E1. bstep H s1 E2. bstep H u2 E3. bstep H L E4. injection H as <-.
      destruct (redeem_exact C E ct _ _ _ _ _ _ _ Hg Hwf E2) as (v & Hv & _ & _ & _ & Hs & _). eapply track_one; [exact Hv|exact Hs|].
      unfold track, raised. cbn. repeat split; auto. left. lia.
    - apply HH. unfold set_xfee in H. bstep H u0 E0. injection H as <-. apply track_none. reflexivity.
    - apply HH. injection H as <-. apply track_none. reflexivity.
    - apply HH. bstep H st E0. injection H as <-. apply track_none. reflexivity.
  Qed.

  (** ** origins *)
  Lemma ensure_role_ok r o u : ensure_role C r o = Ok u -> cc_org C r o = true \/ exists w, o = Signed w /\ cc_member C w = true.
  Proof. unfold ensure_role. destruct (cc_org C r o) eqn:Eo; auto. destruct o; [discriminate|]. intros H. apply ensure_ok in H. eauto. Qed.
  Lemma step_role s op s' r o : cr_step C E s op = Ok s' -> needs_role op = Some (r, o) -> cc_org C r o = true \/ exists w, o = Signed w /\ cc_member C w = true.
  Proof.
    intros H Hn. destruct op; cbn in Hn; try discriminate; injection Hn as <- <-; cbn [cr_step] in H;
    unfold create_vault, update_vault, open_vault, set_vrf, close_vault, reopen_vault, auction_succeeded, auction_failed, slot_expired, migrate_pending, refund, dissolve_vault,
      refund_for, update_bonus, force_claim, redeem_and_lend in H; apply rbind_ok in H as (u & H & _); eapply ensure_role_ok; eauto.
  Qed.
  Lemma step_proxy s o a s' : cr_step C E s (CProxy o a) = Ok s' -> cc_org C RProxy o = true.
  Proof. cbn. unfold update_proxy. intros H. bstep H u E0. exact E0. Qed.
  Lemma step_notify s resp o q r s' : cr_step C E s (CNotify resp o q r) = Ok s' -> resp = true \/ cc_org C RUpdate o = true.
  Proof. cbn. unfold notification. intros H. bstep H u E0. apply orb_true_iff in E0. exact E0. Qed.

  (** ** the derivative token of a lease never changes *)
  Lemma step_ctok s op s' l c : cr_step C E s op = Ok s' -> c_ctok s !! l = Some c -> c_ctok s' !! l = Some c.
  Proof.
    intros H Hl. assert (Hx : match op with CCreate _ _ _ _ _ _ _ _ => True | _ => c_ctok s' = c_ctok s end -> c_ctok s' !! l = Some c).
    { destruct op; try (intros ->; exact Hl). intros _. cbn [cr_step] in H. unfold create_vault in H. bstep H u0 E0. bstep H u1 E1. bstep H u2 E2. bstep H u3 E3. bstep H u4 E4. bstep H u5 E5. bstep H u6 E6. bstep H u7 E7. injection H as <-.
      cbn. destruct (decide (l = (ls, le))) as [->|Hne]; [rewrite lookup_insert; rewrite Hl in E3; f_equal; lia|rewrite lookup_insert_ne; auto]. }
    apply Hx. clear Hx Hl.
    assert (Hsend : forall s k r s', csend C E s k r = Ok s' -> c_ctok s' = c_ctok s) by (intros ? ? ? ? Hc; apply csend_eff in Hc as (? & _ & _ & ->); reflexivity).
    assert (Hupd : forall s v w amt add k s1 v1, upd_con s v w amt add k = Ok (s1, v1) -> c_ctok s1 = c_ctok s) by (intros ? ? ? ? ? ? ? ? Hc; apply upd_con_eff in Hc as (_ & -> & _); reflexivity).
    assert (Hmig : forall s v w amt k1 k2 s1 v1, migrate_con s v w amt k1 k2 = Ok (s1, v1) -> c_ctok s1 = c_ctok s).
    { intros s0 v w amt k1 k2 s1 v1 Hc. unfold migrate_con in Hc. apply rbind_ok in Hc as ([s2 v2] & F1 & F2). rewrite (Hupd _ _ _ _ _ _ _ _ F2). eauto. }
    assert (Hcon : forall s w k px amt s', do_contribute C E s w k px amt = Ok s' -> c_ctok s' = c_ctok s).
    { intros s0 w k px amt s1 Hc. unfold do_contribute in Hc. bstep Hc u F. eauto. }
    assert (Hclaim : forall w para a b f s', do_claim_for C E s w para a b f = Ok s' -> c_ctok s' = c_ctok s).
    { intros w para a b f s1 H1. unfold do_claim_for in H1. bstep H1 c0 Hct. bstep H1 v Hv. bstep H1 u1 E1. bstep H1 u2 E2. bstep H1 L E3.
      destruct (bonus_amount C s a b (con_get s (v_trie v) KContr w) =? 0); [injection H1 as <-; reflexivity|]. bstep H1 st E4. injection H1 as <-. reflexivity. }
    assert (Hph : forall para p1 p2 s', try_phase s para p1 p2 = Ok s' -> c_ctok s' = c_ctok s).
    { intros para p1 p2 s1 H1. unfold try_phase in H1. bstep H1 kv E1. bstep H1 u2 E2. injection H1 as <-. reflexivity. }
    assert (Hwd : forall para p1 p2 s', try_withdraw C E s para p1 p2 = Ok s' -> c_ctok s' = c_ctok s).
    { intros para p1 p2 s1 H1. unfold try_withdraw in H1. bstep H1 kv E1. bstep H1 u2 E2. bstep H1 s2 E3. injection H1 as <-. unfold do_withdraw in E3. cbn. eauto. }
    assert (Hred : forall w para a b amt s', redeem C E s w para a b amt = Ok s' -> c_ctok s' = c_ctok s).
    { intros w para a b amt s1 H1. unfold redeem in H1. bstep H1 ctoken Hct. bstep H1 v Hv. bstep H1 u1 E1. bstep H1 u2 E2. bstep H1 c0 E3. bstep H1 L E4. bstep H1 L2 E5. injection H1 as <-. reflexivity. }
    destruct op; cbn [cr_step] in H; try exact I.
    - unfold update_vault in H. bstep H u0 E0. bstep H kv E1. bstep H u2 E2. bstep H u3 E3. injection H as <-. reflexivity.
    - unfold open_vault in H. bstep H u0 E0. eauto.
    - unfold contribute in H. bstep H kv E0. bstep H u1 E1. bstep H u2 E2. bstep H u3 E3. bstep H u4 E4. bstep H u5 E5. bstep H t E6. bstep H t' E7. bstep H u6 E8. bstep H L E9.
      destruct (bool_decide (v_phase kv.2 = Contributing)); apply rbind_ok in H as ([s2 v2] & F1 & H).
      + bstep H s3 F2. injection H as <-. cbn. rewrite (Hcon _ _ _ _ _ _ F2), (Hupd _ _ _ _ _ _ _ _ F1). reflexivity.
      + injection H as <-. cbn. rewrite (Hupd _ _ _ _ _ _ _ _ F1). reflexivity.
    - unfold set_vrf in H. bstep H u0 E0. injection H as <-. reflexivity.
    - unfold close_vault in H. bstep H u0 E0. eauto.
    - unfold reopen_vault in H. bstep H u0 E0. eauto.
    - unfold auction_succeeded in H. bstep H u0 E0. eauto.
    - unfold auction_failed in H. bstep H u0 E0. eauto.
    - eauto.
    - unfold withdraw_for in H. bstep H v Hv. bstep H u1 E1. bstep H u2 E2. bstep H c0 E3. bstep H L E4. injection H as <-. reflexivity.
    - eauto.
    - unfold slot_expired in H. bstep H u0 E0. eauto.
    - unfold migrate_pending in H. bstep H u0 E0. bstep H kv E1. bstep H u2 E2. bstep H u3 E3. apply rbind_ok in H as ([s1 v1] & F1 & H). injection H as <-. cbn.
      revert F1. generalize (contributions s (v_trie kv.2) KPend). intros l0. generalize (Z.to_nat (cc_migrate C)), kv.2. clear -Hmig Hcon.
      revert s s1 v1. induction l0 as [|[w amt] l0 IH]; intros s s1 v1 n v F1; cbn in F1; [injection F1 as <- <-; auto|]. destruct n; [injection F1 as <- <-; auto|].
      apply rbind_ok in F1 as ([s2 v2] & F1 & F2). bstep F2 s3 F3. apply IH in F2. rewrite F2, (Hcon _ _ _ _ _ _ F3), (Hmig _ _ _ _ _ _ _ _ F1). reflexivity.
    - unfold notification in H. bstep H u E0. destruct r as [ok|]; [|injection H as <-; reflexivity].
      destruct (c_reqs s !! q) as [r|] eqn:Eq; [|injection H as <-; reflexivity]. unfold notified in H. apply rbind_ok in H as (s1 & H1 & H). injection H as <-.
      assert (c_ctok s1 = c_ctok s); [|destruct ok; auto]. destruct r.
      + bstep H1 v Hv. destruct ok.
        * bstep H1 L E1. apply rbind_ok in H1 as ([s2 v2] & F1 & H1). injection H1 as <-. cbn. rewrite (Hmig _ _ _ _ _ _ _ _ F1). reflexivity.
        * bstep H1 L E1. apply rbind_ok in H1 as ([s2 v2] & F1 & H1). injection H1 as <-. cbn. rewrite (Hupd _ _ _ _ _ _ _ _ F1). reflexivity.
      + destruct ok; [|injection H1 as <-; auto]. bstep H1 v Hv. injection H1 as <-. reflexivity.
    - unfold refund in H. bstep H u0 E0. bstep H v Hv. bstep H u1 E1. apply rbind_ok in H as ([s1 v1] & F1 & H). injection H as <-. cbn. fold (refund_todo s v) in F1.
      revert F1. generalize (refund_todo s v). intros l0. generalize (Z.to_nat (cc_remove C)). clear -Hupd. revert s v s1 v1. induction l0 as [|[k [w amt]] l0 IH]; intros s v s1 v1 n F1; cbn in F1; [injection F1 as <- <-; auto|].
      destruct n; [injection F1 as <- <-; auto|]. apply rbind_ok in F1 as ([s2 v2] & F1 & F2). apply IH in F2. rewrite F2. unfold do_refund_for in F1. bstep F1 L E1. rewrite (Hupd _ _ _ _ _ _ _ _ F1). reflexivity.
    - unfold dissolve_vault in H. bstep H u0 E0. bstep H v Hv. bstep H u1 E1. bstep H u2 E2. bstep H t E3. bstep H u3 E4. injection H as <-. destruct (c_leases s !! para) as [p|]; [destruct (bool_decide (p = (ls, le)))|]; reflexivity.
    - unfold refund_for in H. bstep H u0 E0. bstep H v Hv. bstep H u1 E1. bstep H u2 E2. apply rbind_ok in H as ([s1 v1] & F1 & H). injection H as <-. unfold do_refund_for in F1. bstep F1 L E3. cbn. rewrite (Hupd _ _ _ _ _ _ _ _ F1). reflexivity.
    - unfold update_proxy in H. bstep H u0 E0. injection H as <-. reflexivity.
    - unfold update_bonus in H. bstep H u0 E0. bstep H u1 E1. bstep H u2 E2. injection H as <-. reflexivity.
    - unfold force_claim in H. bstep H u0 E0. eauto.
    - unfold redeem_and_lend in H. bstep H u0 E0. bstep H u1 E1. bstep H s1 E2. bstep H u2 E3. bstep H L E4. injection H as <-. cbn. eauto.
    - unfold set_xfee in H. bstep H u0 E0. injection H as <-. reflexivity.
    - injection H as <-. reflexivity.
    - bstep H st E0. injection H as <-. reflexivity.
  Qed.
End track.
