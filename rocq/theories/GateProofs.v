(** * GateProofs: lemmas about the call gate. *)
From Verif Require Import Base Ledger GateModel GateSpec.

Section proofs.
  Context {R : Type} (C : gate_cfg R).

  Lemma charge_fee_ok w x w' : charge_fee C w x = Ok w' ->
    exists L, transfer (gc_pol C) (w_led w) (gc_nat C) x (gc_treasury C) (gc_fee C) false = Ok L /\ w_rest w' = w_rest w /\
      ((gc_ed C <= bal L (gc_nat C) x /\ w_led w' = L /\ w_nonce w' = w_nonce w /\ w_deaths w' = w_deaths w) \/
       (bal L (gc_nat C) x < gc_ed C /\ gc_keeps C (w_rest w) x = true /\ w_nonce w' = w_nonce w /\ w_deaths w' = w_deaths w) \/
       (bal L (gc_nat C) x < gc_ed C /\ gc_keeps C (w_rest w) x = false /\ w_nonce w' = delete x (w_nonce w) /\
        w_deaths w' = <[x := deaths_of w x + 1]> (w_deaths w))).
  Proof.
    unfold charge_fee. intros H. bstep H L EL. exists L. split; [exact EL|].
    destruct (gc_ed C <=? bal L (gc_nat C) x) eqn:E.
    { injection H as <-. split; [reflexivity|]. left. repeat split; auto. lia. }
    destruct (gc_keeps C (w_rest w) x) eqn:E2.
    { injection H as <-. split; [reflexivity|]. right; left. repeat split; auto. lia. }
    injection H as <-. split; [reflexivity|]. right; right. repeat split; auto. lia.
  Qed.

  (** records along a charge: the nonce of everybody is kept unless the payer's record goes *)
  Lemma charge_records w x w' a : charge_fee C w x = Ok w' ->
    deaths_of w a <= deaths_of w' a /\ (deaths_of w' a = deaths_of w a -> nonce_of w' a = nonce_of w a).
  Proof.
    intros H. destruct (charge_fee_ok _ _ _ H) as (L & _ & _ & [(_ & _ & En & Ed)|[(_ & _ & En & Ed)|(_ & _ & En & Ed)]]).
    1,2: unfold deaths_of, nonce_of; rewrite En, Ed; split; [lia|auto].
    unfold deaths_of, nonce_of in *; rewrite En, Ed. destruct (decide (a = x)) as [->|N].
    - rewrite lookup_insert. cbn. split; [lia|]. intros. lia.
    - rewrite lookup_insert_ne, lookup_delete_ne by auto. split; [lia|auto].
  Qed.

  Lemma evm_pre_ok s o c x sg n s1 : evm_pre C s o c x sg n = Ok s1 ->
    o = ONone /\ n = nonce_of (g_w s) x /\ length sg = 65%nat /\ (gc_verify C = true -> gc_sig C sg (gc_magic C, n, c) x = true) /\
    nonce_of (g_w s) x < U32MAX /\ g_dp s1 = g_dp s /\ g_dc s1 = g_dc s /\
    charge_fee C (mkWorld (w_led (g_w s)) (<[x := nonce_of (g_w s) x + 1]> (w_nonce (g_w s))) (w_deaths (g_w s)) (w_rest (g_w s))) x = Ok (g_w s1).
  Proof.
    unfold evm_pre. intros H. bstep H u Eo. bstep H u1 En. bstep H u2 Es. bstep H u3 Ev.
    destruct (U32MAX <=? nonce_of (g_w s) x) eqn:Em; [discriminate|].
    destruct (charge_fee _ _ _) as [w2| |] eqn:Ec; cbn in H; try discriminate. injection H as <-. cbn.
    destruct o; try discriminate.
    split; [reflexivity|]. split; [lia|]. split; [apply Nat.eqb_eq; exact Es|].
    split; [|split; [lia|auto]].
    intros Hv. unfold valid_signature in Ev. rewrite Hv in Ev. exact Ev.
  Qed.

  (** records of an account only move forward, unless removed *)
  Definition forward (w w' : world R) (a : Z) : Prop :=
    deaths_of w a <= deaths_of w' a /\ (deaths_of w' a = deaths_of w a -> nonce_of w a <= nonce_of w' a).
  Lemma forward_refl w a : forward w w a.
  Proof. split; lia. Qed.
  Lemma forward_trans w1 w2 w3 a : forward w1 w2 a -> forward w2 w3 a -> forward w1 w3 a.
  Proof. intros [A1 B1] [A2 B2]. split; [lia|]. intros E. assert (deaths_of w2 a = deaths_of w1 a) by lia. rewrite B1, B2; lia. Qed.

  Lemma evm_pre_forward s o c x sg n s1 a : evm_pre C s o c x sg n = Ok s1 -> forward (g_w s) (g_w s1) a.
  Proof.
    intros H. apply evm_pre_ok in H. destruct H as (_ & _ & _ & _ & _ & _ & _ & Hc).
    pose proof (charge_records _ _ _ a Hc) as [Hd Hn]. unfold deaths_of in *. cbn in *. split; [exact Hd|].
    intros E. rewrite (Hn E). unfold nonce_of. cbn. destruct (decide (a = x)) as [->|N].
    - rewrite lookup_insert. cbn. lia.
    - rewrite lookup_insert_ne by auto. lia.
  Qed.
  (** and the signer's own nonce strictly *)
  Lemma evm_pre_strict s o c x sg n s1 : evm_pre C s o c x sg n = Ok s1 ->
    deaths_of (g_w s) x <= deaths_of (g_w s1) x /\ (deaths_of (g_w s1) x = deaths_of (g_w s) x -> n < nonce_of (g_w s1) x).
  Proof.
    intros H. apply evm_pre_ok in H. destruct H as (_ & En & _ & _ & _ & _ & _ & Hc).
    pose proof (charge_records _ _ _ x Hc) as [Hd Hn]. unfold deaths_of in *. cbn in *. split; [exact Hd|].
    intros E. rewrite (Hn E). unfold nonce_of at 1. cbn. rewrite lookup_insert. cbn. lia.
  Qed.

  Lemma dispatch_forward : records_kept C -> forall c o s s' a, dispatch C c o s = Ok s' -> forward (g_w s) (g_w s') a.
  Proof.
    intros HK. induction c as [p|p k|c IH x sg n|aa ad v|p k args]; intros o s s' a H; cbn in H.
    - unfold toggle_pallet in H. bstep H u E. injection H as <-. apply forward_refl.
    - unfold toggle_call in H. bstep H u E. injection H as <-. apply forward_refl.
    - bstep H s1 E1. pose proof (evm_pre_forward _ _ _ _ _ _ _ a E1) as F1.
      destruct (dispatch C c (OSigned x) s1) as [s2| |] eqn:E2; try discriminate; injection H as <-; auto.
      eapply forward_trans; eauto.
    - unfold evm_withdraw in H. bstep H d E. bstep H L EL. injection H as <-. unfold forward, deaths_of, nonce_of; cbn; split; lia.
    - bstep H w E. injection H as <-. exact (HK _ _ _ _ _ _ a E).
  Qed.

  Lemma run_call_forward : records_kept C -> forall c o s s' a, run_call C o c s = Ok s' -> forward (g_w s) (g_w s') a.
  Proof.
    intros HK c o s s' a H. unfold run_call in H. destruct o; [eapply dispatch_forward; eauto| | |];
      (bstep H u E; eapply dispatch_forward; eauto).
  Qed.

  Lemma signed_nonce s w n c s' : gstep C s (XSigned w n c) = Ok s' -> n = nonce_of (g_w s) w.
  Proof. intros H. cbn in H. bstep H u E. lia. Qed.

  Lemma signed_strict : records_kept C -> forall s w n c s', gstep C s (XSigned w n c) = Ok s' ->
    deaths_of (g_w s) w <= deaths_of (g_w s') w /\ (deaths_of (g_w s') w = deaths_of (g_w s) w -> n < nonce_of (g_w s') w).
  Proof.
    intros HK s w n c s' H. cbn -[run_call] in H. bstep H u En. destruct (U32MAX <=? _); [discriminate|]. bstep H L EL.
    match type of H with context [run_call C _ c ?x] => set (s1 := x) in * end.
    assert (F1 : deaths_of (g_w s1) w = deaths_of (g_w s) w /\ n < nonce_of (g_w s1) w).
    { unfold s1, deaths_of, nonce_of. cbn. rewrite lookup_insert. cbn. split; [reflexivity|]. unfold nonce_of in En. lia. }
    clearbody s1.
    destruct (run_call C (OSigned w) c s1) as [s2| |] eqn:E2; try discriminate; injection H as <-.
    - destruct (run_call_forward HK _ _ _ _ w E2) as [A B]. split; [lia|]. intros E. assert (deaths_of (g_w s2) w = deaths_of (g_w s1) w) by lia. lia.
    - split; lia.
  Qed.

  Lemma gstep_forward : records_kept C -> forall s x s' a, gstep C s x = Ok s' -> forward (g_w s) (g_w s') a.
  Proof.
    intros HK s x s' a H. destruct x as [w n c|c|c|c]; cbn -[run_call] in H.
    - bstep H u En. destruct (U32MAX <=? _); [discriminate|]. bstep H L EL.
      match type of H with context [run_call C _ c ?x] => set (s1 := x) in * end.
      assert (F1 : forward (g_w s) (g_w s1) a).
      { unfold s1, forward, deaths_of, nonce_of. cbn. split; [lia|]. intros _. destruct (decide (a = w)) as [->|N].
        - rewrite lookup_insert. cbn. lia.
        - rewrite lookup_insert_ne by auto. lia. }
      clearbody s1. destruct (run_call C (OSigned w) c s1) as [s2| |] eqn:E2; try discriminate; injection H as <-; auto.
      eapply forward_trans; [exact F1|]. eapply run_call_forward; eauto.
    - destruct c; try discriminate; eapply run_call_forward; eauto.
    - eapply run_call_forward; eauto.
    - eapply run_call_forward; eauto.
  Qed.
  Lemma grun_forward : records_kept C -> forall l s a, forward (g_w s) (g_w (grun C s l)) a.
  Proof.
    intros HK. induction l as [|x l IH]; intros s a; [apply forward_refl|]. cbn.
    eapply forward_trans; [|apply IH]. unfold gexec. destruct (gstep C s x) as [s'| |] eqn:E; [|apply forward_refl..].
    eapply gstep_forward; eauto.
  Qed.

  (** an unsigned EVM-signed call that succeeds *)
  Lemma unsigned_evm s c x sg n s' : gstep C s (XUnsigned (GEvm c x sg n)) = Ok s' ->
    base_filter C s (GEvm c x sg n) = true /\ exists s1, evm_pre C s ONone c x sg n = Ok s1 /\
      ((exists s2, dispatch C c (OSigned x) s1 = Ok s2 /\ s' = s2) \/ (exists e, dispatch C c (OSigned x) s1 = Err e /\ s' = s1)).
  Proof.
    intros H. cbn -[base_filter evm_pre] in H. bstep H u Ef. split; [exact Ef|]. bstep H s1 E1. exists s1. split; [exact E1|].
    destruct (dispatch C c (OSigned x) s1) as [s2|e|] eqn:E2; try discriminate; injection H as <-; eauto.
  Qed.

  Lemma unsigned_strict : records_kept C -> forall s c x sg n s', gstep C s (XUnsigned (GEvm c x sg n)) = Ok s' ->
    n = nonce_of (g_w s) x /\
    deaths_of (g_w s) x <= deaths_of (g_w s') x /\ (deaths_of (g_w s') x = deaths_of (g_w s) x -> n < nonce_of (g_w s') x).
  Proof.
    intros HK s c x sg n s' H. destruct (unsigned_evm _ _ _ _ _ _ H) as (_ & s1 & E1 & D).
    split. { apply evm_pre_ok in E1. tauto. }
    destruct (evm_pre_strict _ _ _ _ _ _ _ E1) as [A B].
    destruct D as [(s2 & E2 & ->)|(e & _ & ->)]; [|auto].
    destruct (dispatch_forward HK _ _ _ _ x E2) as [A2 B2]. split; [lia|]. intros E. assert (deaths_of (g_w s2) x = deaths_of (g_w s1) x) by lia.
    assert (n < nonce_of (g_w s1) x) by (apply B; lia). lia.
  Qed.

  (** *** flags *)
  Lemma same_flags_refl (s : gate R) : same_flags s s.
  Proof. split; auto. Qed.
  Lemma same_flags_trans (s1 s2 s3 : gate R) : same_flags s1 s2 -> same_flags s2 s3 -> same_flags s1 s3.
  Proof. intros [A B] [A' B']. split; intros; rewrite ?A', ?B', ?A, ?B; auto. Qed.
  Lemma flags_eq (s s' : gate R) : g_dp s' = g_dp s -> g_dc s' = g_dc s -> same_flags s s'.
  Proof. intros A B. unfold same_flags, pallet_disabled, call_disabled. rewrite A, B. split; auto. Qed.

  Lemma dispatch_flags : governed_shutdown C -> forall c o s s', gc_shutdown C o = false -> dispatch C c o s = Ok s' -> same_flags s s'.
  Proof.
    intros [_ HS]. induction c as [p|p k|c IH x sg n|aa ad v|p k args]; intros o s s' Ho H; cbn in H.
    - unfold toggle_pallet in H. rewrite Ho in H. discriminate.
    - unfold toggle_call in H. rewrite Ho in H. discriminate.
    - bstep H s1 E1. pose proof (evm_pre_ok _ _ _ _ _ _ _ E1) as (_ & _ & _ & _ & _ & Ed & Ec & _).
      destruct (dispatch C c (OSigned x) s1) as [s2| |] eqn:E2; try discriminate; injection H as <-.
      + eapply same_flags_trans; [apply flags_eq; eauto|]. eapply IH; [apply HS|exact E2].
      + apply flags_eq; auto.
    - unfold evm_withdraw in H. bstep H d E. bstep H L EL. injection H as <-. apply flags_eq; reflexivity.
    - bstep H w E. injection H as <-. apply flags_eq; reflexivity.
  Qed.
End proofs.
