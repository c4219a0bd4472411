(** * AuthProofs: delegation never grows. *)
From Verif Require Import Base AuthModel AuthSpec.

Lemma rcall_rect' (Q : rcall -> Prop) :
  (forall p f a, Q (Leaf p f a)) ->
  (forall k cs, Forall Q cs -> Q (Batch k cs)) ->
  (forall i c, Q c -> Q (AsDerivative i c)) ->
  (forall o c, Q c -> Q (DispatchAs o c)) ->
  (forall c, Q c -> Q (WithWeight c)) ->
  (forall r f c, Q c -> Q (ProxyCall r f c)) ->
  (forall d r f c, Q c -> Q (ProxyAnnounced d r f c)) ->
  (forall d t dl, Q (AddProxy d t dl)) ->
  (forall d t dl, Q (RemoveProxy d t dl)) ->
  Q RemoveProxies ->
  (forall t dl i, Q (CreatePure t dl i)) ->
  (forall sp t i h xi, Q (KillPure sp t i h xi)) ->
  (forall r h, Q (Announce r h)) ->
  (forall r h, Q (RemoveAnnouncement r h)) ->
  (forall d h, Q (RejectAnnouncement d h)) ->
  (forall os c, Q c -> Q (MultiOne os c)) ->
  (forall th os c, Q c -> Q (AsMulti th os c)) ->
  (forall b c, Q c -> Q (CouncilExecute b c)) ->
  (forall b th c, Q c -> Q (CouncilPropose b th c)) ->
  (forall c g sg n, Q c -> Q (EvmSigned c g sg n)) ->
  forall c, Q c.
Proof.
  intros H1 H2 H3 H4 H5 H6 H7 H8 H9 H10 H11 H12 H13 H14 H15 H16 H17 H18 H19 H20.
  fix IH 1. intros [p f a|k cs|i c|o c|c|r f c|d r f c|d t dl|d t dl| |t dl i|sp t i h xi|r h|r h|d h|os c|th os c|b c|b th c|c g sg n].
  - apply H1.
  - apply H2. induction cs as [|c cs IHc]; constructor; [apply IH|apply IHc].
  - apply H3, IH.
  - apply H4, IH.
  - apply H5, IH.
  - apply H6, IH.
  - apply H7, IH.
  - apply H8.
  - apply H9.
  - apply H10.
  - apply H11.
  - apply H12.
  - apply H13.
  - apply H14.
  - apply H15.
  - apply H16, IH.
  - apply H17, IH.
  - apply H18, IH.
  - apply H19, IH.
  - apply H20, IH.
Qed.

Section proofs.
  Context {R : Type} (C : auth_cfg R).
  Local Notation auth := (auth R).

  (** the calls of a batch, one after the other *)
  Fixpoint batch_from (k : batch_kind) (root : bool) (o : org) (cs : list rcall) (s : auth) : res auth :=
    match cs with
    | [] => Ok s
    | c' :: cs' =>
        match run C c' root o s with
        | Ok s1 => batch_from k root o cs' s1
        | Err e => match k with BBatch => Ok s | BAll => Err e | BForce => batch_from k root o cs' s end
        | Panic => Panic
        end
    end.
  Definition batch_org (k : batch_kind) (o : org) : org :=
    match k with BAll => if is_root o then o else mkOrg (o_caller o) (FBatchAll :: o_filters o) | _ => o end.
  Lemma run_batch k cs bp o s :
    run C (Batch k cs) bp o s =
    if negb (bp || passes C s o (Batch k cs)) then Err "CallFiltered" else
    let s1 := note s (o_caller o) (Batch k cs) in
    let* _ := ensure (match o_caller o with CNone => false | _ => true end) "BadOrigin" in
    let* _ := ensure (Z.of_nat (length cs) <=? ac_maxb C) "TooManyCalls" in
    batch_from k (is_root o) (batch_org k o) cs s1.
  Proof.
    cbn [run]. destruct (negb _); [reflexivity|]. cbv zeta. destruct (ensure _ _); [|reflexivity..]. cbn [rbind].
    destruct (ensure _ _); [|reflexivity..]. cbn [rbind]. fold (batch_org k o).
    generalize (note s (o_caller o) (Batch k cs)) as s1. induction cs as [|c cs IH]; intros s1; [reflexivity|]. cbn [batch_from].
    destruct (run C c (is_root o) (batch_org k o) s1); [apply IH| |reflexivity]. destruct k; auto.
  Qed.


  Lemma passes_false (s : auth) o c : passes C s o c = true -> is_root o = false -> forall f, f ∈ o_filters o -> of_pass f c = true.
  Proof.
    unfold passes, is_root. intros H Hr f Hf.
    assert (F : forallb (fun f => of_pass f c) (o_filters o) = true).
    { destruct (o_caller o); try discriminate Hr; apply andb_prop in H; tauto. }
    rewrite forallb_forall in F. apply F, elem_of_list_In, Hf.
  Qed.
  Lemma of_pass_filter t c : of_pass (FProxy t) c = true -> ptype_filter t c = true.
  Proof. cbn. destruct c; cbn; auto; repeat case_match; auto; discriminate. Qed.
  Lemma limited_call t c : t <> PAny -> ptype_filter t c = true ->
    match c with
    | Leaf _ _ _ | CouncilExecute _ _ | CouncilPropose _ _ _ | EvmSigned _ _ _ _ => True
    | Batch _ _ | AsDerivative _ _ | DispatchAs _ _ | WithWeight _ => t = PGovernance
    | _ => False
    end.
  Proof.
    intros Ht H. destruct c as [p f a|k cs|i c|o c|c|r f c|d r f c|d t' dl|d t' dl| |t' dl i|sp t' i h xi|r h|r h|d h|os c|th os c|b c|b th c|c g sg n];
      try exact I; try (destruct t; try discriminate H; tauto).
    destruct k, t; try discriminate H; tauto.
  Qed.

  Lemma find_proxy_spec (s : auth) real d force e : find_proxy s real d force = Ok e -> e ∈ delegates s real /\ pd_delegate e = d /\
    match force with None => True | Some t => pd_type e = t end.
  Proof.
    unfold find_proxy. intros H. destruct (List.find _ _) as [e'|] eqn:F; [|discriminate H]. injection H as <-.
    apply List.find_some in F as [F1 F2]. apply andb_prop in F2 as [F2 F3]. apply bool_decide_eq_true in F2. split; [apply elem_of_list_In, F1|].
    split; [exact F2|]. destruct force; [|exact I]. apply bool_decide_eq_true in F3. exact F3.
  Qed.
  Lemma edit_anns_spec (s : auth) d drop e s' : edit_anns s d drop e = Ok s' ->
    r_prox s' = r_prox s /\ r_now s' = r_now s /\ r_xi s' = r_xi s /\ r_rest s' = r_rest s /\ r_log s' = r_log s /\
    (forall x, anns s' x = if decide (x = d) then List.filter (fun a => negb (drop a)) (anns s d) else anns s x) /\
    (exists a, a ∈ anns s d /\ drop a = true).
  Proof.
    unfold edit_anns. intros H. bstep H u E. injection H as <-. split; [reflexivity|]. split; [reflexivity|].
    split; [reflexivity|]. split; [reflexivity|]. split; [reflexivity|]. split.
    - intros x. unfold anns at 1. cbn [r_ann set_ann]. destruct (decide (x = d)) as [->|N].
      + destruct (List.filter _ (anns s d)); [rewrite lookup_delete|rewrite lookup_insert]; reflexivity.
      + destruct (List.filter _ (anns s d)); [rewrite lookup_delete_ne by auto|rewrite lookup_insert_ne by auto]; reflexivity.
    - assert (L : forall l : list pann, (length (List.filter (fun a => negb (drop a)) l) < length l)%nat -> exists a, a ∈ l /\ drop a = true).
      { induction l as [|a l IH]; cbn; [lia|]. destruct (drop a) eqn:Da; cbn.
        - intros _. exists a. split; [left|exact Da].
        - intros Hl. destruct IH as (b & B1 & B2); [lia|]. exists b. split; [right; exact B1|exact B2]. }
      apply L. first [apply Nat.ltb_lt; exact E|exact E].
  Qed.

  Section group.
    Context (P : Z -> Prop) (s0 : auth) (G : own_group C P s0).
    (** what holds throughout: the group's delegates are untouched, nobody in it announced anything, and what ran in its name was delegated *)
    Definition kept (s : auth) : Prop :=
      (forall y, P y -> delegates s y = delegates s0 y) /\ (forall d, P d -> anns s d = []) /\
      (exists l, r_log s = l ++ r_log s0 /\ forall y c, (CSigned y, c) ∈ l -> P y -> delegated C P s0 y c).
    (** origins reachable without the group's doing *)
    Definition tame (c : rcall) (bp : bool) (o : org) : Prop :=
      match o_caller o with
      | CRoot => False
      | CSigned y => P y -> (bp = false /\ exists z e, P z /\ e ∈ delegates s0 z /\ pd_type e <> PAny /\ FProxy (pd_type e) ∈ o_filters o /\
                                 (y = z \/ (pd_type e = PGovernance /\ derived C z y)))
      | CNone => match c with EvmSigned _ g _ _ => ~ P g | _ => True end
      | _ => True
      end.

    Lemma kept_rest s r : kept s -> kept (set_rest s r).
    Proof. intros H; exact H. Qed.
    Lemma kept_or_keep s s1 r : kept s1 -> (forall s', r = Ok s' -> kept s') -> or_keep s1 r = Ok s -> kept s.
    Proof. intros K H E. destruct r; cbn in E; [injection E as <-; auto|injection E as <-; exact K|discriminate E]. Qed.
    Lemma fresh_tame c y : ~ P y -> tame c false (fresh (CSigned y)).
    Proof. intros H Py. contradiction. Qed.

    Lemma tame_cases c bp o s : tame c bp o -> bp || passes C s o c = true ->
      match o_caller o with
      | CSigned y => P y -> exists z e, P z /\ e ∈ delegates s0 z /\ pd_type e <> PAny /\ FProxy (pd_type e) ∈ o_filters o /\
                                 (y = z \/ (pd_type e = PGovernance /\ derived C z y)) /\ ptype_filter (pd_type e) c = true
      | _ => True
      end.
    Proof.
      intros Ht F. unfold tame in Ht. destruct (o_caller o) as [|y|y|k n|] eqn:Ho; try exact I.
      intros Py. destruct (Ht Py) as (-> & z & e & Pz & He & Hn & Hf & Hy).
      exists z, e. split; [exact Pz|]. split; [exact He|]. split; [exact Hn|]. split; [exact Hf|]. split; [exact Hy|].
      apply of_pass_filter, (passes_false s o c F); [unfold is_root; rewrite Ho; reflexivity|exact Hf].
    Qed.
    Lemma kept_note c bp o s : tame c bp o -> bp || passes C s o c = true -> kept s -> kept (note s (o_caller o) c).
    Proof.
      intros Ht F (K1 & K2 & l & Kl & K3). pose proof (tame_cases c bp o s Ht F) as X.
      split; [exact K1|]. split; [exact K2|]. exists ((o_caller o, c) :: l). split; [cbn; rewrite Kl; reflexivity|].
      intros y c' Hin Py. apply elem_of_cons in Hin as [E|Hin]; [|apply K3; auto].
      injection E as Ey ->. rewrite <- Ey in X. destruct (X Py) as (z & e & Pz & He & Hn & Hf & Hy & Hp).
      exists z, e. repeat (split; [assumption|]). exact Hy.
    Qed.
    (** a call that a limited delegation never permits comes from an outsider *)
    Lemma outsider c bp o s w : tame c bp o -> bp || passes C s o c = true -> who o = Ok w ->
      match c with
      | Leaf _ _ _ | CouncilExecute _ _ | CouncilPropose _ _ _ | EvmSigned _ _ _ _ => True
      | Batch _ _ | AsDerivative _ _ | DispatchAs _ _ | WithWeight _ => True
      | _ => ~ P w
      end.
    Proof.
      intros Ht F Hw. pose proof (tame_cases c bp o s Ht F) as X. unfold who in Hw. destruct (o_caller o); try discriminate Hw. injection Hw as ->.
      enough (Y : P w -> match c with
      | Leaf _ _ _ | CouncilExecute _ _ | CouncilPropose _ _ _ | EvmSigned _ _ _ _ => True
      | Batch _ _ | AsDerivative _ _ | DispatchAs _ _ | WithWeight _ => True | _ => False end) by (destruct c; auto).
      intros Pw. destruct (X Pw) as (z & e & _ & _ & Hn & _ & _ & Hp). pose proof (limited_call _ c Hn Hp). destruct c; tauto.
    Qed.

    Lemma kept_prox s m : kept s -> (forall y, P y -> default [] (m !! y) = delegates s y) -> kept (set_prox s m).
    Proof. intros (K1 & K2 & K3) H. split; [|split; [exact K2|exact K3]]. intros y Py. rewrite <- (K1 y Py). apply H, Py. Qed.
    Lemma kept_anns s s' : kept s -> r_prox s' = r_prox s -> r_log s' = r_log s -> (forall y, P y -> anns s' y = []) -> kept s'.
    Proof.
      intros (K1 & K2 & K3) E1 E2 E3. split; [intros y Py; unfold delegates; rewrite E1; apply K1, Py|].
      split; [exact E3|]. rewrite E2. exact K3.
    Qed.
    Lemma kept_edit s d drop e s' : kept s -> edit_anns s d drop e = Ok s' -> kept s' /\ ~ P d.
    Proof.
      intros K H. apply edit_anns_spec in H as (E1 & _ & _ & _ & E2 & E3 & a & Ha & _). destruct K as (K1 & K2 & K3).
      assert (Nd : ~ P d) by (intros Pd; rewrite (K2 d Pd) in Ha; set_solver). split; [|exact Nd].
      apply (kept_anns s); [split; auto|exact E1|exact E2|]. intros y Py. rewrite E3. destruct (decide (y = d)) as [->|]; [contradiction|]. auto.
    Qed.
    (** the origin a delegated call runs with *)
    Lemma proxied_tame c s real d force e : kept s -> find_proxy s real d force = Ok e -> ~ P d ->
      tame c false (mkOrg (CSigned real) [FProxy (pd_type e)]).
    Proof.
      intros (K1 & _) F Nd. apply find_proxy_spec in F as (F1 & F2 & _). unfold tame. cbn.
intros Pr. split; [reflexivity|].
      rewrite (K1 real Pr) in F1. exists real, e. split; [exact Pr|]. split; [exact F1|]. split; [|split; [left|left; reflexivity]].
      intros Ea. apply Nd. rewrite <- F2. exact (og_any C P s0 G real e Pr F1 Ea).
    Qed.

    Lemma run_kept c : forall bp o s s', tame c bp o -> kept s -> run C c bp o s = Ok s' -> kept s'.
    Proof.
      induction c as [p f a|k cs IH|i c IH|ao c IH|c IH|r f c IH|d r f c IH|d t dl|d t dl| |t dl i|sp t i h xi|r h|r h|d h|os c IH|th os c IH|b c IH|b th c IH|c g sg n IH] using rcall_rect';
        intros bp o s s' Ht K H.
      all: assert (N : is_root o = false) by (unfold tame in Ht; unfold is_root; destruct (o_caller o); tauto).
      all: first [rewrite run_batch in H|cbn [run] in H].
      all: match type of H with (if negb ?b then _ else _) = _ => destruct b eqn:F; cbn [negb] in H; [|discriminate H] end; cbv zeta in H.
      all: pose proof (kept_note _ bp o s Ht F K) as Kn; pose proof (fun w => outsider _ bp o s w Ht F) as Out; cbv beta iota in Out.
      - (* Leaf *) bstep H r E. injection H as <-. exact Kn.
      - (* Batch *) rewrite N in H. bstep H u1 E1. bstep H u2 E2.
        pose proof (tame_cases _ bp o s Ht F) as X.
        assert (To : forall c, tame c false (batch_org k o)).
        { intros c. unfold tame in *. assert (Ec : o_caller (batch_org k o) = o_caller o) by (unfold batch_org; destruct k; try reflexivity; rewrite N; reflexivity).
          rewrite Ec. destruct (o_caller o); try tauto; [|discriminate E1]. intros Py. split; [reflexivity|].
          destruct (Ht Py) as (_ & z & e & X1 & X2 & X3 & X4 & X5). exists z, e. split; [exact X1|]. split; [exact X2|]. split; [exact X3|].
          split; [|exact X5]. unfold batch_org. destruct k; auto. rewrite N. right. exact X4. }
        clear - H IH To Kn. revert H Kn. generalize (note s (o_caller o) (Batch k cs)) as s1.
        induction IH as [|c cs Hc _ IH']; intros s1 H K; cbn [batch_from] in H; [injection H as <-; exact K|].
        destruct (run C c false (batch_org k o) s1) as [s2|e|] eqn:E; [|destruct k|discriminate H].
        + exact (IH' s2 H (Hc false _ s1 s2 (To c) K E)).
        + injection H as <-. exact K.
        + discriminate H.
        + exact (IH' s1 H K).
      - (* AsDerivative *) bstep H w Ew. unfold who in Ew. pose proof (tame_cases _ bp o s Ht F) as X. unfold tame in Ht.
        destruct (o_caller o) eqn:Eo; try discriminate Ew. injection Ew as ->.
        refine (IH _ _ _ _ _ Kn H). unfold tame. cbn. intros Pd. split; [reflexivity|].
        destruct (X (og_derive C P s0 G _ _ Pd)) as (z & e & X1 & X2 & X3 & X4 & X5 & X6). exists z, e. repeat (split; [assumption|]).
        right. split; [exact (limited_call _ _ X3 X6)|]. constructor. destruct X5 as [->|[_ X5]]; [constructor|exact X5].
      - (* DispatchAs *) rewrite N in H. discriminate H.
      - rewrite N in H. discriminate H.
      - (* ProxyCall *) bstep H w Ew. bstep H e Ee. bstep H u Eu.
        refine (kept_or_keep _ _ _ Kn (fun s2 H2 => IH _ _ _ _ _ Kn H2) H). exact (proxied_tame _ _ _ _ _ _ Kn Ee (Out w Ew)).
      - (* ProxyAnnounced *) bstep H w Ew. bstep H e Ee. bstep H s1 E1.
        destruct (kept_edit _ _ _ _ _ Kn E1) as [K1 Nd].
        refine (kept_or_keep _ _ _ K1 (fun s2 H2 => IH _ _ _ _ _ K1 H2) H). exact (proxied_tame _ _ _ _ _ _ Kn Ee Nd).
      - unfold do_add in H. bstep H w Ew. bstep H u1 E1. bstep H u2 E2. bstep H u3 E3. bstep H u4 E4. injection H as <-.
        pose proof (Out w Ew) as Nw. apply kept_prox; [exact Kn|]. intros y Py. rewrite lookup_insert_ne by (intros ->; contradiction). reflexivity.
      - unfold do_remove in H. bstep H w Ew. bstep H u1 E1. injection H as <-.
        pose proof (Out w Ew) as Nw. apply kept_prox; [exact Kn|]. intros y Py. case_match; [rewrite lookup_delete_ne|rewrite lookup_insert_ne]; try (intros ->; contradiction); reflexivity.
      - unfold do_clear in H. bstep H w Ew. injection H as <-.
        pose proof (Out w Ew) as Nw. apply kept_prox; [exact Kn|]. intros y Py. rewrite lookup_delete_ne by (intros ->; contradiction). reflexivity.
      - unfold do_pure in H. bstep H w Ew. bstep H u1 E1. bstep H u2 E2. injection H as <-.
        pose proof (Out w Ew) as Nw. apply kept_prox; [exact Kn|]. intros y Py.
        rewrite lookup_insert_ne by (intros <-; exact (Nw (og_pure C P s0 G _ _ _ _ _ Py))). reflexivity.
      - unfold do_kill in H. bstep H w Ew. bstep H u1 E1. injection H as <-.
        pose proof (Out w Ew) as Nw. apply kept_prox; [exact Kn|]. intros y Py. rewrite lookup_delete_ne by (intros ->; contradiction). reflexivity.
      - unfold do_announce in H. bstep H w Ew. bstep H u1 E1. bstep H u2 E2. bstep H u3 E3. injection H as <-.
        pose proof (Out w Ew) as Nw. eapply kept_anns; [exact Kn|reflexivity|reflexivity|]. intros y Py. unfold anns at 1. cbn [r_ann set_ann].
        rewrite lookup_insert_ne by (intros ->; contradiction). apply (proj1 (proj2 Kn)), Py.
      - bstep H w Ew. exact (proj1 (kept_edit _ _ _ _ _ Kn H)).
      - bstep H w Ew. exact (proj1 (kept_edit _ _ _ _ _ Kn H)).
      - bstep H w Ew. refine (IH _ _ _ _ _ Kn H). apply fresh_tame. intros Pm. exact (Out w Ew (og_multi C P s0 G _ _ _ Pm)).
      - bstep H w Ew. bstep H rb Er. destruct (snd rb); [|injection H as <-; exact Kn].
        refine (kept_or_keep _ _ _ _ (fun s2 H2 => IH _ _ _ _ _ _ H2) H); [exact Kn| |exact Kn].
        apply fresh_tame. intros Pm. exact (Out w Ew (og_multi C P s0 G _ _ _ Pm)).
      - bstep H w Ew. bstep H u Eu. refine (kept_or_keep _ _ _ Kn (fun s2 H2 => IH _ _ _ _ _ Kn H2) H); exact I.
      - bstep H w Ew. bstep H u Eu. destruct (th <? 2).
        + refine (kept_or_keep _ _ _ Kn (fun s2 H2 => IH _ _ _ _ _ Kn H2) H); exact I.
        + bstep H r Er. injection H as <-. exact Kn.
      - bstep H u Eu. bstep H r Er.
        refine (kept_or_keep _ _ _ _ (fun s2 H2 => IH _ _ _ _ _ _ H2) H); [exact Kn| |exact Kn].
        unfold tame in Ht. destruct (o_caller o); try discriminate Eu. intros Pg. contradiction.
    Qed.

    Lemma exec_kept s x : by_outsider P x -> kept s -> kept (exec C s x).
    Proof.
      intros Hx K. unfold exec.
      assert (K' : kept (match step C s x with Ok s' => s' | _ => s end)).
      { destruct (step C s x) as [s'|e|] eqn:E; [|exact K..]. destruct x as [w c|c|o c|f|]; cbn [step by_outsider] in *.
        - refine (run_kept c _ _ _ _ _ K E). apply fresh_tame, Hx.
        - refine (run_kept c _ _ _ _ _ K E). unfold tame. cbn. destruct c; auto.
        - contradiction.
        - injection E as <-. exact K.
        - injection E as <-. exact K. }
      cbv zeta. destruct x; exact K'.
    Qed.
    Lemma hist_kept l s : Forall (by_outsider P) l -> kept s -> kept (fold_left (exec C) l s).
    Proof. intros F. revert s. induction F as [|x l Hx _ IH]; intros s K; [exact K|]. cbn. apply IH, exec_kept; auto. Qed.
  End group.
End proofs.
