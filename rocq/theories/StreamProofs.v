(** * StreamProofs: per-account stream lists (sorting, pruning). *)
From Coq Require Import Sorting.Sorted.
From Verif Require Import Base MapSum Ledger AmmModel StreamModel StreamSpec.

(** strictly descending lists *)
Definition desc (l : list Z) : Prop := StronglySorted (fun a b => b < a) l.
Definition without (id : Z) (l : list Z) : list Z := List.filter (fun x => negb (x =? id)) l.

Lemma desc_nil : desc []. Proof. constructor. Qed.
Lemma desc_cons x l : desc (x :: l) <-> (forall y, y ∈ l -> y < x) /\ desc l.
Proof.
  split.
  - intros H. inversion H; subst. rewrite Forall_forall in *. auto.
  - intros [H1 H2]. constructor; auto. rewrite Forall_forall. auto.
Qed.

Lemma ins_desc_elem x l y : y ∈ ins_desc x l <-> y = x \/ y ∈ l.
Proof.
  induction l as [|z l IH]; cbn; [rewrite elem_of_list_singleton, elem_of_nil; tauto|].
  destruct (z <=? x); rewrite !elem_of_cons; [tauto|]. rewrite IH. tauto.
Qed.
Lemma ins_desc_length x l : length (ins_desc x l) = S (length l).
Proof. induction l; cbn; auto. destruct (_ <=? _); cbn; auto. Qed.
Lemma ins_desc_desc x l : desc l -> x ∉ l -> desc (ins_desc x l).
Proof.
  induction l as [|z l IH]; intros D N.
  - cbn. apply desc_cons. split; [|apply desc_nil]. intros y Hy. inversion Hy.
  - rewrite elem_of_cons in N. apply desc_cons in D as [D1 D2]. cbn. destruct (z <=? x) eqn:E.
    + apply desc_cons. split; [|apply desc_cons; auto].
      intros y. rewrite elem_of_cons. intros [->|H]; [lia|]. apply D1 in H. lia.
    + apply desc_cons. split; [|apply IH; tauto]. intros y. rewrite ins_desc_elem. intros [->|H]; [lia|auto].
Qed.
Lemma ins_desc_top x l : (forall y, y ∈ l -> y < x) -> ins_desc x l = x :: l.
Proof.
  destruct l as [|z l]; cbn; auto. intros H. assert (z < x) by (apply H; apply elem_of_cons; auto).
  destruct (z <=? x) eqn:E; auto. lia.
Qed.

Lemma sort_elem l y : y ∈ sort_ids l <-> y ∈ l.
Proof.
  induction l as [|x l IH]; cbn; [tauto|]. fold (sort_ids l). rewrite ins_desc_elem, elem_of_cons, IH. tauto.
Qed.
Lemma sort_length l : length (sort_ids l) = length l.
Proof. induction l as [|x l IH]; cbn; auto. fold (sort_ids l). rewrite ins_desc_length. auto. Qed.
Lemma sort_desc l : NoDup l -> desc (sort_ids l).
Proof.
  induction l as [|x l IH]; intros H; [apply desc_nil|]. inversion H; subst. cbn. fold (sort_ids l).
  apply ins_desc_desc; auto. rewrite sort_elem. auto.
Qed.
Lemma sort_desc_id l : desc l -> sort_ids l = l.
Proof.
  induction l as [|x l IH]; auto. intros D. apply desc_cons in D as [D1 D2]. cbn. fold (sort_ids l).
  rewrite IH by auto. apply ins_desc_top; auto.
Qed.
Lemma desc_nodup l : desc l -> NoDup l.
Proof.
  induction l as [|x l IH]; intros D; constructor; apply desc_cons in D as [D1 D2]; auto.
  intros H. apply D1 in H. lia.
Qed.

Lemma without_elem id l y : y ∈ without id l <-> y ∈ l /\ y <> id.
Proof.
  unfold without. rewrite !elem_of_list_In, filter_In. split; intros [H1 H2]; split; auto; lia.
Qed.
Lemma without_desc id l : desc l -> desc (without id l).
Proof.
  induction l as [|x l IH]; intros D; [apply desc_nil|]. apply desc_cons in D as [D1 D2]. cbn.
  destruct (negb (x =? id)); [|apply IH; auto].
  apply desc_cons. split; [|apply IH; auto]. intros y Hy. apply D1. fold (without id l) in Hy.
  apply without_elem in Hy. tauto.
Qed.
Lemma without_length id l : (length (without id l) <= length l)%nat.
Proof. unfold without. induction l as [|x l IH]; cbn; auto. destruct (negb _); cbn; lia. Qed.
Lemma without_notin id l : id ∉ l -> without id l = l.
Proof.
  induction l as [|x l IH]; cbn; auto. rewrite elem_of_cons. intros H.
  destruct (x =? id) eqn:E; cbn; [assert (x = id) by lia; subst; tauto|].
  fold (without id l). rewrite IH; auto.
Qed.
Lemma without_length_in id l : id ∈ l -> (length (without id l) < length l)%nat.
Proof.
  induction l as [|x l IH]; [intros H; inversion H|]. rewrite elem_of_cons. intros [->|H]; cbn.
  - rewrite Z.eqb_refl. cbn. pose proof (without_length x l). unfold without in *. lia.
  - pose proof (IH H). unfold without in *. destruct (negb _); cbn; lia.
Qed.
Lemma remove_first_without id l : desc l -> remove_first id l = without id l.
Proof.
  induction l as [|x l IH]; auto. intros D. apply desc_cons in D as [D1 D2]. cbn.
  destruct (x =? id) eqn:E; cbn.
  - fold (without id l). symmetry. apply without_notin. intros H. apply D1 in H. lia.
  - fold (without id l). rewrite IH; auto.
Qed.
Lemma removelast_without l id : desc l -> last l = Some id -> removelast l = without id l.
Proof.
  induction l as [|x l IH]; [discriminate|]. intros D HL. pose proof D as D0. apply desc_cons in D as [D1 D2].
  destruct l as [|y l].
  - cbn in *. injection HL as ->. rewrite Z.eqb_refl. reflexivity.
  - change (removelast (x :: y :: l)) with (x :: removelast (y :: l)).
    change (last (x :: y :: l)) with (last (y :: l)) in HL.
    rewrite IH by auto. assert (id ∈ y :: l) as Hin by (apply last_Some_elem_of; auto).
    apply D1 in Hin. unfold without. cbn [List.filter]. destruct (x =? id) eqn:E; [lia|]. reflexivity.
Qed.

(** ** the library map *)
Lemma lib_get_ins l a k v a' k' :
  lib_get (<[(a, k) := v]> l) a' k' = if bool_decide (a' = a /\ k' = k) then v else lib_get l a' k'.
Proof.
  unfold lib_get. case_bool_decide as E.
  - destruct E; subst. rewrite lookup_insert. auto.
  - rewrite lookup_insert_ne; auto. intros [= -> ->]; auto.
Qed.

(** all lists strictly descending *)
Definition lib_desc (l : gmap (Z * Z) (list Z)) : Prop := forall a k, desc (lib_get l a k).
(** where a stream may be listed *)
Definition listed (k acct : Z) (st : stream) : Prop :=
  (k = KSend /\ acct = st_sender st) \/ (k = KReceive /\ acct = st_recipient st) \/
  (k = KFinish /\ has_finished st = true /\ (acct = st_sender st \/ acct = st_recipient st)).
Definition lib_sound (ss : gmap Z stream) (l : gmap (Z * Z) (list Z)) : Prop :=
  forall a k id, id ∈ lib_get l a k -> exists st, ss !! id = Some st /\ listed k a st.

(** one pruning step *)
Definition pruned (id : Z) (ss : gmap Z stream) (l : gmap (Z * Z) (list Z)) (ss' : gmap Z stream) (l' : gmap (Z * Z) (list Z)) : Prop :=
  (exists st, ss !! id = Some st /\ has_finished st = true) /\
  ss' = delete id ss /\ forall a k, lib_get l' a k = without id (lib_get l a k).

Section proofs.
  Context (C : str_cfg) (P : policy).

  Lemma remove_kind_get l acct id k a' k' :
    lib_desc l -> lib_get (remove_kind l acct id k) a' k' =
      if bool_decide (a' = acct /\ k' = k) then without id (lib_get l a' k') else lib_get l a' k'.
  Proof.
    intros D. unfold remove_kind. rewrite lib_get_ins. case_bool_decide as E; auto. destruct E; subst.
    rewrite remove_first_without by auto. rewrite sort_desc_id; auto. apply without_desc; auto.
  Qed.
  Lemma remove_kind_desc l acct id k : lib_desc l -> lib_desc (remove_kind l acct id k).
  Proof. intros D a' k'. rewrite remove_kind_get by auto. case_bool_decide; auto. apply without_desc; auto. Qed.
  Lemma remove_all_get l acct id a' k' :
    lib_desc l -> lib_get (remove_all l acct id) a' k' =
      if bool_decide (a' = acct /\ (k' = KSend \/ k' = KReceive \/ k' = KFinish)) then without id (lib_get l a' k') else lib_get l a' k'.
  Proof.
    intros D. unfold remove_all.
    rewrite !remove_kind_get by (repeat apply remove_kind_desc; auto).
    unfold KSend, KReceive, KFinish.
    repeat case_bool_decide; destruct_and?; subst; try tauto; try lia.
  Qed.
  Lemma remove_all_desc l acct id : lib_desc l -> lib_desc (remove_all l acct id).
  Proof. intros D. unfold remove_all. repeat apply remove_kind_desc. auto. Qed.

  Lemma without_idem id l : without id (without id l) = without id l.
  Proof. apply without_notin. rewrite without_elem. tauto. Qed.

  Lemma checked_pop_spec ss l acct ss' l' :
    lib_desc l -> lib_sound ss l ->
    checked_pop C ss l acct = Ok (ss', l') ->
    (ss' = ss /\ (forall a k, lib_get l' a k = lib_get l a k) /\ Z.of_nat (length (lib_get l acct KFinish)) <= max_finished C \/
     ss' = ss /\ (forall a k, lib_get l' a k = lib_get l a k) /\ lib_get l acct KFinish = []) \/
    (exists id, pruned id ss l ss' l' /\ id ∈ lib_get l acct KFinish).
  Proof.
    intros D S H. unfold checked_pop in H.
    assert (forall a k, lib_get (<[(acct, KFinish) := lib_get l acct KFinish]> l) a k = lib_get l a k) as Hid.
    { intros a k. rewrite lib_get_ins. case_bool_decide as E; auto. destruct E; subst; auto. }
    destruct (_ <=? _) eqn:E.
    { injection H as <- <-. left. left. repeat split; auto. lia. }
    destruct (last (lib_get l acct KFinish)) as [id|] eqn:EL.
    2:{ injection H as <- <-. left. right. repeat split; auto. apply last_None. auto. }
    right. exists id. bstep H st Est. injection H as <- <-.
    assert (id ∈ lib_get l acct KFinish) as Hin by (apply last_Some_elem_of; auto).
    split; [|auto].
    destruct (S _ _ _ Hin) as (st' & Hst' & Hl). rewrite Est in Hst'. injection Hst' as <-.
    assert (has_finished st = true) as Hf.
    { destruct Hl as [[? _]|[[? _]|(_ & ? & _)]]; auto; discriminate. }
    split; [eauto|]. split; [auto|]. intros a k. rewrite lib_get_ins. case_bool_decide as E2.
    - destruct E2; subst. apply removelast_without; auto.
    - rewrite remove_all_get by (apply remove_all_desc; auto). rewrite remove_all_get by auto.
      assert (id ∈ lib_get l a k -> (a = st_sender st \/ a = st_recipient st) /\ (k = KSend \/ k = KReceive \/ k = KFinish)) as Hw.
      { intros Hi. destruct (S _ _ _ Hi) as (st' & Hst' & Hl'). rewrite Est in Hst'. injection Hst' as <-.
        destruct Hl' as [[? ?]|[[? ?]|(? & ? & ?)]]; subst; auto. }
      destruct (decide (id ∈ lib_get l a k)) as [Hi|Hi].
      + specialize (Hw Hi). repeat case_bool_decide; auto; try apply without_idem; tauto.
      + rewrite (without_notin id (lib_get l a k)) by auto.
        repeat case_bool_decide; auto; rewrite ?without_notin; auto; rewrite ?without_notin; auto.
  Qed.

  Lemma pruned_desc id ss l ss' l' : pruned id ss l ss' l' -> lib_desc l -> lib_desc l'.
  Proof. intros (_ & _ & H) D a k. rewrite H. apply without_desc; auto. Qed.
  Lemma pruned_sound id ss l ss' l' : pruned id ss l ss' l' -> lib_sound ss l -> lib_sound ss' l'.
  Proof.
    intros (_ & -> & H) S a k x. rewrite H, without_elem. intros [Hx Hne].
    destruct (S _ _ _ Hx) as (st & ? & ?). exists st. split; auto. rewrite lookup_delete_ne; auto.
  Qed.

  (** several pruning steps: finished streams removed from the map and from every list, everything else kept *)
  Definition prunes (ss : gmap Z stream) (l : gmap (Z * Z) (list Z)) (ss' : gmap Z stream) (l' : gmap (Z * Z) (list Z)) : Prop :=
    (forall id, ss' !! id = ss !! id \/ (ss' !! id = None /\ exists st, ss !! id = Some st /\ has_finished st = true)) /\
    (forall a k x, x ∈ lib_get l' a k <-> x ∈ lib_get l a k /\ (ss' !! x = ss !! x)) /\
    (forall a k, (length (lib_get l' a k) <= length (lib_get l a k))%nat) /\
    (forall asset, msum (fun _ st => owed asset st) ss' = msum (fun _ st => owed asset st) ss).

  Lemma prunes_refl ss l l' : (forall a k, lib_get l' a k = lib_get l a k) -> prunes ss l ss l'.
  Proof. intros H. repeat split; intros; rewrite ?H in *; auto; tauto. Qed.
  Lemma pruned_prunes id ss l ss' l' : pruned id ss l ss' l' -> prunes ss l ss' l'.
  Proof.
    intros ((st & Hst & Hf) & -> & H). split; [|split; [|split]].
    - intros x. destruct (decide (x = id)) as [->|]; [right; rewrite lookup_delete; eauto|].
      left. rewrite lookup_delete_ne; auto.
    - intros a k x. rewrite H, without_elem. split; intros [H1 H2]; split; auto.
      + rewrite lookup_delete_ne; auto.
      + intros ->. rewrite lookup_delete, Hst in H2. discriminate.
    - intros. rewrite H. apply without_length.
    - intros a. rewrite (msum_delete _ ss id st) by auto. unfold owed at 2. rewrite Hf. lia.
  Qed.
  Lemma prunes_trans ss l ss1 l1 ss2 l2 : prunes ss l ss1 l1 -> prunes ss1 l1 ss2 l2 -> prunes ss l ss2 l2.
  Proof.
    intros (A1 & A2 & A3 & A4) (B1 & B2 & B3 & B4). split; [|split; [|split]].
    - intros id. destruct (A1 id) as [E|[E (st & ? & ?)]], (B1 id) as [E'|[E' (st' & ? & ?)]]; try congruence; auto.
      + left. congruence.
      + right. split; auto. exists st'. split; auto. congruence.
      + right. split; eauto. congruence.
    - intros a k x. rewrite B2, A2. split; [intros [[? ?] ?]; split; auto; congruence|].
      intros [H1 H2]. destruct (A1 x) as [E|[E (st & ? & ?)]].
      + repeat split; auto. congruence.
      + destruct (B1 x) as [E'|[E' _]]; congruence.
    - intros. etransitivity; eauto.
    - intros. rewrite B4; auto.
  Qed.

  Lemma checked_pop_all ss l acct ss' l' :
    lib_desc l -> lib_sound ss l -> 0 <= max_finished C ->
    Z.of_nat (length (lib_get l acct KFinish)) <= max_finished C + 1 ->
    checked_pop C ss l acct = Ok (ss', l') ->
    lib_desc l' /\ lib_sound ss' l' /\ prunes ss l ss' l' /\
    Z.of_nat (length (lib_get l' acct KFinish)) <= max_finished C.
  Proof.
    intros D S Hm Hl H. destruct (checked_pop_spec _ _ _ _ _ D S H) as [[(-> & E & F)|(-> & E & F)]|(id & Hp & Hin)].
    - split; [intros a k; rewrite E; auto|]. split; [intros a k x Hx; rewrite E in Hx; auto|].
      split; [apply prunes_refl; auto|]. rewrite E. auto.
    - split; [intros a k; rewrite E; auto|]. split; [intros a k x Hx; rewrite E in Hx; auto|].
      split; [apply prunes_refl; auto|]. rewrite E, F. cbn. lia.
    - split; [eapply pruned_desc; eauto|]. split; [eapply pruned_sound; eauto|].
      split; [eapply pruned_prunes; eauto|]. destruct Hp as (_ & _ & ->).
      pose proof (without_length_in _ _ Hin). lia.
  Qed.

  Lemma update_finished_spec ss l sender recipient ss' l' :
    lib_desc l -> lib_sound ss l -> 0 <= max_finished C ->
    (forall a, Z.of_nat (length (lib_get l a KFinish)) <= max_finished C + 1) ->
    update_finished C ss l sender recipient = Ok (ss', l') ->
    lib_desc l' /\ lib_sound ss' l' /\ prunes ss l ss' l' /\
    (forall a, (a = sender \/ a = recipient \/ Z.of_nat (length (lib_get l a KFinish)) <= max_finished C) ->
       Z.of_nat (length (lib_get l' a KFinish)) <= max_finished C).
  Proof.
    intros D S Hm Hl H. unfold update_finished in H. apply rbind_ok in H as ([ss1 l1] & E & H).
    destruct (checked_pop_all _ _ _ _ _ D S Hm (Hl _) E) as (D1 & S1 & P1 & F1).
    pose proof P1 as (_ & _ & Len1 & _).
    destruct (checked_pop_all _ _ recipient _ _ D1 S1 Hm ltac:(pose proof (Hl recipient); pose proof (Len1 recipient KFinish); lia) H) as (D2 & S2 & P2 & F2).
    pose proof P2 as (_ & _ & Len2 & _).
    repeat (split; [eauto using prunes_trans|]).
    intros a [->|[->|Ha]]; [pose proof (Len2 sender KFinish); lia|auto|].
    pose proof (Len1 a KFinish); pose proof (Len2 a KFinish); lia.
  Qed.

  (** success of pruning *)
  Lemma checked_pop_ok ss l acct : lib_sound ss l -> exists r, checked_pop C ss l acct = Ok r.
  Proof.
    intros S. unfold checked_pop. destruct (_ <=? _); [eauto|]. destruct (last _) as [id|] eqn:E; [|eauto].
    destruct (S acct KFinish id) as (st & Hst & _); [apply last_Some_elem_of; auto|].
    rewrite Hst. cbn. eauto.
  Qed.
  Lemma update_finished_ok ss l sender recipient :
    lib_desc l -> lib_sound ss l -> exists r, update_finished C ss l sender recipient = Ok r.
  Proof.
    intros D S. unfold update_finished. destruct (checked_pop_ok ss l sender S) as [[ss1 l1] E]. rewrite E. cbn.
    apply checked_pop_ok. destruct (checked_pop_spec _ _ _ _ _ D S E) as [[(-> & E' & F)|(-> & E' & F)]|(id & Hp & Hin)].
    - intros a k x Hx. rewrite E' in Hx. auto.
    - intros a k x Hx. rewrite E' in Hx. auto.
    - eapply pruned_sound; eauto.
  Qed.

  (** pushing *)
  Lemma try_push_spec l acct id kind l' :
    lib_desc l -> try_push C l acct id kind = Ok l' ->
    lib_desc l' /\
    (forall a k x, x ∈ lib_get l' a k <-> x ∈ lib_get l a k \/ (a = acct /\ k = kind /\ x = id)) /\
    (forall a k, (length (lib_get l' a k) <= length (lib_get l a k) + (if bool_decide (a = acct /\ k = kind) then 1 else 0))%nat) /\
    (forall a k, (forall a k, Z.of_nat (length (lib_get l a k)) <= max_streams C) -> Z.of_nat (length (lib_get l' a k)) <= max_streams C).
  Proof.
    intros D H. unfold try_push in H. bstep H r' E. injection H as <-.
    assert (NoDup r' /\ (forall x, x ∈ r' <-> x ∈ lib_get l acct kind \/ x = id) /\
            (length r' <= length (lib_get l acct kind) + 1)%nat /\
            (Z.of_nat (length (lib_get l acct kind)) <= max_streams C -> Z.of_nat (length r') <= max_streams C)) as (N & El & Len & Mx).
    { case_bool_decide as Hin.
      - injection E as <-. repeat split; try tauto; try lia; [apply desc_nodup; auto|]. intros [?| ->]; auto.
      - destruct (_ <? _) eqn:EL; [|discriminate]. injection E as <-. repeat split.
        + apply NoDup_app. split; [apply desc_nodup; auto|]. split; [|apply NoDup_singleton].
          intros x Hx. rewrite elem_of_list_singleton. intros ->. auto.
        + rewrite elem_of_app, elem_of_list_singleton. auto.
        + rewrite elem_of_app, elem_of_list_singleton. auto.
        + rewrite app_length. cbn. lia.
        + intros _. rewrite app_length. cbn. lia. }
    clear E. split; [|split; [|split]].
    - intros a k. rewrite lib_get_ins. case_bool_decide; auto. apply sort_desc; auto.
    - intros a k x. rewrite lib_get_ins. case_bool_decide as E2.
      + destruct E2; subst. rewrite sort_elem, El. tauto.
      + split; [auto|]. intros [?|(-> & -> & ->)]; auto. tauto.
    - intros a k. rewrite lib_get_ins. case_bool_decide as E2; [|lia]. destruct E2; subst. rewrite sort_length. auto.
    - intros a k Hl. rewrite lib_get_ins. case_bool_decide as E2; [|auto]. rewrite sort_length. auto.
  Qed.
  Lemma try_push_ok l acct id kind :
    Z.of_nat (length (lib_get l acct kind)) < max_streams C -> exists l', try_push C l acct id kind = Ok l'.
  Proof.
    intros H. unfold try_push. case_bool_decide; cbn; [eauto|].
    destruct (_ <? _) eqn:E; cbn; [eauto|]. lia.
  Qed.
End proofs.
