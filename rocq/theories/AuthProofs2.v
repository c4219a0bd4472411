(** * AuthProofs2: the call filter at every depth; announcements. *)
From Verif Require Import Base AuthModel AuthSpec AuthProofs.

Section proofs.
  Context {R : Type} (C : auth_cfg R).
  Local Notation auth := (auth R).

  Lemma or_keep_ind (K : auth -> Prop) s s1 r : K s1 -> (forall s', r = Ok s' -> K s') -> or_keep s1 r = Ok s -> K s.
  Proof. intros K1 H E. destruct r; cbn in E; [injection E as <-; auto|injection E as <-; exact K1|discriminate E]. Qed.

  Section filter.
    Context (J : R -> Prop) (Q : rcall -> Prop) (s0 : auth).
    Context (HQ : forall s c, J (r_rest s) -> base_filter C s c = true -> Q c).
    Context (Jother : forall o p f a r r', o <> CRoot -> o <> CNone -> J r -> ac_other C o p f a r = Ok r' -> J r').
    Context (Jmulti : forall r w th os c r' b, J r -> ac_multi C r w th os c = Ok (r', b) -> J r').
    Definition grown (s : auth) : Prop := J (r_rest s) /\ exists l, r_log s = l ++ r_log s0 /\ forall o c, (o, c) ∈ l -> Q c.
    Lemma grown_note s o c : grown s -> o_caller o <> CRoot -> passes C s o c = true -> grown (note s (o_caller o) c).
    Proof.
      intros (K1 & l & K2 & K3) N F. split; [exact K1|]. exists ((o_caller o, c) :: l). split; [cbn; rewrite K2; reflexivity|].
      intros o' c' Hin. apply elem_of_cons in Hin as [E|Hin]; [|exact (K3 _ _ Hin)]. injection E as -> ->.
      apply (HQ s c K1). unfold passes in F. destruct (o_caller o); [congruence|apply andb_prop in F; tauto..].
    Qed.
    Lemma grown_same s s' : grown s -> r_rest s' = r_rest s -> r_log s' = r_log s -> grown s'.
    Proof. intros K E1 E2. unfold grown. rewrite E1, E2. exact K. Qed.
    Lemma grown_edit s d drop e s' : grown s -> edit_anns s d drop e = Ok s' -> grown s'.
    Proof. intros K H. apply edit_anns_spec in H as (_ & _ & _ & E1 & E2 & _). exact (grown_same s s' K E1 E2). Qed.

    Lemma run_grown c : forall o s s', o_caller o <> CRoot -> o_caller o <> CNone -> grown s -> run C c false o s = Ok s' -> grown s'.
    Proof.
      induction c as [p f a|k cs IH|i c IH|ao c IH|c IH|r f c IH|d r f c IH|d t dl|d t dl| |t dl i|sp t i h xi|r h|r h|d h|os c IH|th os c IH|b c IH|b th c IH|c g sg n IH] using rcall_rect';
        intros o s s' NR NN K H.
      all: assert (N : is_root o = false) by (unfold is_root; destruct (o_caller o); congruence).
      all: first [rewrite run_batch in H|cbn [run] in H]; cbn [orb] in H.
      all: match type of H with (if negb ?b then _ else _) = _ => destruct b eqn:F; cbn [negb] in H; [|discriminate H] end; cbv zeta in H.
      all: pose proof (grown_note s o _ K NR F) as Kn.
      - bstep H r E. injection H as <-. split; [exact (Jother _ _ _ _ _ _ NR NN (proj1 K) E)|exact (proj2 Kn)].
      - rewrite N in H. bstep H u1 E1. bstep H u2 E2.
        assert (Ec : o_caller (batch_org k o) = o_caller o) by (unfold batch_org; destruct k; try reflexivity; rewrite N; reflexivity).
        rewrite <- Ec in NR, NN. clear - H IH Kn NR NN Jother Jmulti HQ. revert H Kn. generalize (note s (o_caller o) (Batch k cs)) as s1.
        induction IH as [|c cs Hc _ IH']; intros s1 H K; cbn [batch_from] in H; [injection H as <-; exact K|].
        destruct (run C c false (batch_org k o) s1) as [s2|e|] eqn:E; [|destruct k|discriminate H].
        + exact (IH' s2 H (Hc _ s1 s2 NR NN K E)).
        + injection H as <-. exact K.
        + discriminate H.
        + exact (IH' s1 H K).
      - bstep H w Ew. refine (IH _ _ _ _ _ Kn H); discriminate.
      - rewrite N in H. discriminate H.
      - rewrite N in H. discriminate H.
      - bstep H w Ew. bstep H e Ee. bstep H u Eu.
        refine (or_keep_ind _ _ _ _ Kn (fun s2 H2 => IH _ _ _ _ _ Kn H2) H); discriminate.
      - bstep H w Ew. bstep H e Ee. bstep H s1 E1. pose proof (grown_edit _ _ _ _ _ Kn E1) as K1.
        refine (or_keep_ind _ _ _ _ K1 (fun s2 H2 => IH _ _ _ _ _ K1 H2) H); discriminate.
      - unfold do_add in H. bstep H w Ew. bstep H u1 E1. bstep H u2 E2. bstep H u3 E3. bstep H u4 E4. injection H as <-. exact Kn.
      - unfold do_remove in H. bstep H w Ew. bstep H u1 E1. injection H as <-. exact Kn.
      - unfold do_clear in H. bstep H w Ew. injection H as <-. exact Kn.
      - unfold do_pure in H. bstep H w Ew. bstep H u1 E1. bstep H u2 E2. injection H as <-. exact Kn.
      - unfold do_kill in H. bstep H w Ew. bstep H u1 E1. injection H as <-. exact Kn.
      - unfold do_announce in H. bstep H w Ew. bstep H u1 E1. bstep H u2 E2. bstep H u3 E3. injection H as <-. exact Kn.
      - bstep H w Ew. exact (grown_edit _ _ _ _ _ Kn H).
      - bstep H w Ew. exact (grown_edit _ _ _ _ _ Kn H).
      - bstep H w Ew. refine (IH _ _ _ _ _ Kn H); discriminate.
      - bstep H w Ew. bstep H rb Er. destruct rb as [r' b']. cbn [fst snd] in H.
        assert (K1 : grown (set_rest (note s (o_caller o) (AsMulti th os c)) r')) by (split; [exact (Jmulti _ _ _ _ _ _ _ (proj1 K) Er)|exact (proj2 Kn)]).
        destruct b'; [|injection H as <-; exact K1].
        refine (or_keep_ind _ _ _ _ K1 (fun s2 H2 => IH _ _ _ _ _ K1 H2) H); discriminate.
      - bstep H w Ew. bstep H u Eu. refine (or_keep_ind _ _ _ _ Kn (fun s2 H2 => IH _ _ _ _ _ Kn H2) H); discriminate.
      - bstep H w Ew. bstep H u Eu. destruct (th <? 2).
        + refine (or_keep_ind _ _ _ _ Kn (fun s2 H2 => IH _ _ _ _ _ Kn H2) H); discriminate.
        + bstep H r Er. injection H as <-. split; [exact (Jother _ _ _ _ _ _ NR NN (proj1 K) Er)|exact (proj2 Kn)].
      - bstep H u Eu. destruct (o_caller o); try discriminate Eu. congruence.
    Qed.
  End filter.

  (** announcements are made now or were there before; the clock stands still *)
  Section notice.
    Context (s0 : auth).
    Definition noticed (s : auth) : Prop :=
      r_now s = r_now s0 /\ r_xi s = r_xi s0 /\ forall d a, a ∈ anns s d -> a ∈ anns s0 d \/ an_height a = r_now s0.
    Lemma noticed_same s s' : noticed s -> r_now s' = r_now s -> r_xi s' = r_xi s -> r_ann s' = r_ann s -> noticed s'.
    Proof. intros (K1 & K2 & K3) E1 E2 E3. unfold noticed, anns. rewrite E1, E2, E3. auto. Qed.
    Lemma noticed_edit s d drop e s' : noticed s -> edit_anns s d drop e = Ok s' -> noticed s'.
    Proof.
      intros (K1 & K2 & K3) H. apply edit_anns_spec in H as (_ & E1 & E2 & _ & _ & E3 & _). split; [congruence|]. split; [congruence|].
      intros x a Ha. rewrite E3 in Ha. destruct (decide (x = d)) as [->|]; [|auto].
      apply elem_of_list_In, filter_In in Ha as [Ha _]. apply K3, elem_of_list_In, Ha.
    Qed.
    Lemma run_noticed c : forall bp o s s', noticed s -> run C c bp o s = Ok s' -> noticed s'.
    Proof.
      induction c as [p f a|k cs IH|i c IH|ao c IH|c IH|r f c IH|d r f c IH|d t dl|d t dl| |t dl i|sp t i h xi|r h|r h|d h|os c IH|th os c IH|b c IH|b th c IH|c g sg n IH] using rcall_rect';
        intros bp o s s' K H.
      all: first [rewrite run_batch in H|cbn [run] in H].
      all: match type of H with (if ?b then _ else _) = _ => destruct b; [discriminate H|] end; cbv zeta in H.
      all: match type of H with context [note ?s ?o ?c] => assert (Kn : noticed (note s o c)) by exact K end.
      - bstep H r E. injection H as <-. exact Kn.
      - bstep H u1 E1. bstep H u2 E2. clear - H IH Kn. revert H Kn. generalize (note s (o_caller o) (Batch k cs)) as s1.
        induction IH as [|c cs Hc _ IH']; intros s1 H K; cbn [batch_from] in H; [injection H as <-; exact K|].
        destruct (run C c (is_root o) (batch_org k o) s1) as [s2|e|] eqn:E; [|destruct k|discriminate H].
        + exact (IH' s2 H (Hc _ _ s1 s2 K E)).
        + injection H as <-. exact K.
        + discriminate H.
        + exact (IH' s1 H K).
      - bstep H w Ew. exact (IH _ _ _ _ Kn H).
      - bstep H u Eu. exact (or_keep_ind _ _ _ _ Kn (fun s2 H2 => IH _ _ _ _ Kn H2) H).
      - bstep H u Eu. exact (IH _ _ _ _ Kn H).
      - bstep H w Ew. bstep H e Ee. bstep H u Eu. exact (or_keep_ind _ _ _ _ Kn (fun s2 H2 => IH _ _ _ _ Kn H2) H).
      - bstep H w Ew. bstep H e Ee. bstep H s1 E1. pose proof (noticed_edit _ _ _ _ _ Kn E1) as K1.
        exact (or_keep_ind _ _ _ _ K1 (fun s2 H2 => IH _ _ _ _ K1 H2) H).
      - unfold do_add in H. bstep H w Ew. bstep H u1 E1. bstep H u2 E2. bstep H u3 E3. bstep H u4 E4. injection H as <-. exact Kn.
      - unfold do_remove in H. bstep H w Ew. bstep H u1 E1. injection H as <-. exact Kn.
      - unfold do_clear in H. bstep H w Ew. injection H as <-. exact Kn.
      - unfold do_pure in H. bstep H w Ew. bstep H u1 E1. bstep H u2 E2. injection H as <-. exact Kn.
      - unfold do_kill in H. bstep H w Ew. bstep H u1 E1. injection H as <-. exact Kn.
      - unfold do_announce in H. bstep H w Ew. bstep H u1 E1. bstep H u2 E2. bstep H u3 E3. injection H as <-.
        destruct Kn as (K1 & K2 & K3). split; [exact K1|]. split; [exact K2|]. intros x a Ha. unfold anns at 1 in Ha. cbn [r_ann set_ann] in Ha.
        destruct (decide (x = w)) as [->|N]; [|rewrite lookup_insert_ne in Ha by auto; apply K3, Ha].
        rewrite lookup_insert in Ha. cbn in Ha. apply elem_of_app in Ha as [Ha|Ha]; [apply K3, Ha|]. apply elem_of_list_singleton in Ha as ->.
        right. exact K1.
      - bstep H w Ew. exact (noticed_edit _ _ _ _ _ Kn H).
      - bstep H w Ew. exact (noticed_edit _ _ _ _ _ Kn H).
      - bstep H w Ew. exact (IH _ _ _ _ Kn H).
      - bstep H w Ew. bstep H rb Er. destruct (snd rb); [|injection H as <-; exact Kn].
        match type of H with or_keep ?x _ = _ => assert (K1 : noticed x) by exact K end.
        exact (or_keep_ind _ _ _ _ K1 (fun s2 H2 => IH _ _ _ _ K1 H2) H).
      - bstep H w Ew. bstep H u Eu. exact (or_keep_ind _ _ _ _ Kn (fun s2 H2 => IH _ _ _ _ Kn H2) H).
      - bstep H w Ew. bstep H u Eu. destruct (th <? 2).
        + exact (or_keep_ind _ _ _ _ Kn (fun s2 H2 => IH _ _ _ _ Kn H2) H).
        + bstep H r Er. injection H as <-. exact Kn.
      - bstep H u Eu. bstep H r Er.
        match type of H with or_keep ?x _ = _ => assert (K1 : noticed x) by exact K end.
        exact (or_keep_ind _ _ _ _ K1 (fun s2 H2 => IH _ _ _ _ K1 H2) H).
    Qed.
  End notice.

  (** over a history: what was announced since is no older than the start *)
  Lemma hist_noticed l : forall s, r_now (fold_left (exec C) l s) = r_now s + blocks l /\
    forall d a, a ∈ anns (fold_left (exec C) l s) d -> a ∈ anns s d \/ r_now s <= an_height a.
  Proof.
    induction l as [|x l IH]; intros s; [split; [unfold blocks; cbn; lia|auto]|]. cbn [fold_left].
    assert (S : r_now (exec C s x) = r_now s + match x with XBlock => 1 | _ => 0 end /\
                forall d a, a ∈ anns (exec C s x) d -> a ∈ anns s d \/ r_now s <= an_height a).
    { assert (Z0 : noticed s s) by (split; [reflexivity|split; [reflexivity|auto]]).
      assert (Run : forall c bp o, (match x with XHook _ | XBlock => False | _ => True end) -> step C s x = run C c bp o s ->
        r_now (exec C s x) = r_now s /\ forall d a, a ∈ anns (exec C s x) d -> a ∈ anns s d \/ r_now s <= an_height a).
      { intros c bp o Hx E. unfold exec. rewrite E. destruct (run C c bp o s) as [s'|e|] eqn:Er.
        - destruct (run_noticed s c bp o s s' Z0 Er) as (N1 & _ & N3).
          destruct x; try contradiction; (split; [exact N1|]; intros d a Ha; destruct (N3 d a Ha) as [Ha'|Ha']; [left; exact Ha'|right; lia]).
        - destruct x; try contradiction; (split; [reflexivity|]; intros d a Ha; left; exact Ha).
        - destruct x; try contradiction; (split; [reflexivity|]; intros d a Ha; left; exact Ha). }
      destruct x as [w c|c|o c|f|].
      - rewrite Z.add_0_r. exact (Run c false _ I eq_refl).
      - rewrite Z.add_0_r. exact (Run c false _ I eq_refl).
      - rewrite Z.add_0_r. destruct o; try exact (Run c false _ I eq_refl). split; [reflexivity|intros d a Ha; left; exact Ha].
      - split; [cbn; lia|intros d a Ha; left; exact Ha].
      - split; [reflexivity|intros d a Ha; left; exact Ha]. }
    destruct S as [S1 S2], (IH (exec C s x)) as [I1 I2]. split.
    - rewrite I1, S1. unfold blocks. cbn. destruct x; cbn; lia.
    - intros d a Ha. assert (L : r_now s <= r_now (exec C s x)) by (rewrite S1; destruct x; lia).
      destruct (I2 d a Ha) as [H|H]; [apply S2, H|right; lia].
  Qed.
End proofs.
