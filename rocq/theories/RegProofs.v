(** * RegProofs: binary search, the registry's invariants. *)
From Verif Require Import Base Ledger AmmModel RegModel RegSpec.

Lemma asc_nth l i j : ascending l -> (i < j < length l)%nat -> nth i l 0 < nth j l 0.
Proof.
  intros A H. destruct (lookup_lt_is_Some_2 l i ltac:(lia)) as [x Hx]. destruct (lookup_lt_is_Some_2 l j ltac:(lia)) as [y Hy].
  rewrite (nth_lookup_Some _ _ _ _ Hx), (nth_lookup_Some _ _ _ _ Hy). apply (A i j); auto. lia.
Qed.

Lemma bsearch_aux_ok l x : ascending l -> forall fuel left right, (left <= right <= length l)%nat -> (right - left < fuel)%nat ->
  (forall i, (i < left)%nat -> nth i l 0 < x) -> (forall i, (right <= i < length l)%nat -> x < nth i l 0) ->
  match bsearch_aux fuel l x left right with
  | inl m => (m < length l)%nat /\ nth m l 0 = x
  | inr i => (i <= length l)%nat /\ (forall j, (j < i)%nat -> nth j l 0 < x) /\ (forall j, (i <= j < length l)%nat -> x < nth j l 0)
  end.
Proof.
  intros A. induction fuel as [|f IH]; intros left right B F Lo Hi; [lia|]. cbn [bsearch_aux].
  destruct (Nat.ltb left right) eqn:E.
  - apply Nat.ltb_lt in E. set (mid := (left + Nat.div (right - left) 2)%nat).
    assert (M : (left <= mid < right)%nat).
    { unfold mid. split; [lia|]. pose proof (Nat.div_lt (right - left) 2 ltac:(lia) ltac:(lia)). lia. }
    clearbody mid. cbv zeta.
    destruct (nth mid l 0 <? x) eqn:E1.
    + apply IH; try lia; auto. intros i Hi'. destruct (Nat.eq_dec i mid) as [->|]; [lia|].
      pose proof (asc_nth l i mid A ltac:(lia)). lia.
    + destruct (x <? nth mid l 0) eqn:E2.
      * apply IH; try lia; auto. intros i Hi'. destruct (Nat.eq_dec i mid) as [->|]; [lia|].
        pose proof (asc_nth l mid i A ltac:(lia)). lia.
      * split; lia.
  - apply Nat.ltb_ge in E. assert (left = right) by lia. subst. split; [lia|]. auto.
Qed.
Lemma bsearch_ok l x : ascending l ->
  match bsearch l x with
  | inl m => l !! m = Some x
  | inr i => (forall y, y ∈ take i l -> y < x) /\ (forall y, y ∈ drop i l -> x < y)
  end.
Proof.
  intros A. unfold bsearch. pose proof (bsearch_aux_ok l x A (S (length l)) 0 (length l) ltac:(lia) ltac:(lia) ltac:(intros; lia) ltac:(intros; lia)) as H.
  destruct (bsearch_aux _ _ _ _ _) as [m|i].
  - destruct H as [H1 H2]. destruct (lookup_lt_is_Some_2 l m H1) as [z Hz]. rewrite (nth_lookup_Some _ _ _ _ Hz) in H2. congruence.
  - destruct H as (H0 & H1 & H2). split.
    + intros y Hy. apply elem_of_list_lookup in Hy. destruct Hy as [j Hj]. apply lookup_take_Some in Hj. destruct Hj as [Hj Hlt].
      specialize (H1 j Hlt). rewrite (nth_lookup_Some _ _ _ _ Hj) in H1. exact H1.
    + intros y Hy. apply elem_of_list_lookup in Hy. destruct Hy as [j Hj]. rewrite lookup_drop in Hj.
      pose proof (lookup_lt_Some _ _ _ Hj). specialize (H2 (i + j)%nat ltac:(lia)). rewrite (nth_lookup_Some _ _ _ _ Hj) in H2. exact H2.
Qed.

Lemma asc_app l1 l2 : ascending l1 -> ascending l2 -> (forall x y, x ∈ l1 -> y ∈ l2 -> x < y) -> ascending (l1 ++ l2).
Proof.
  intros A1 A2 A i j x y Hij Hx Hy. apply lookup_app_Some in Hx, Hy.
  destruct Hx as [Hx|[Lx Hx]], Hy as [Hy|[Ly Hy]].
  - apply (A1 i j); auto.
  - apply A; eapply elem_of_list_lookup_2; eauto.
  - apply lookup_lt_Some in Hy. lia.
  - apply (A2 (i - length l1)%nat (j - length l1)%nat); auto. lia.
Qed.
Lemma asc_take i l : ascending l -> ascending (take i l).
Proof. intros A a b x y H Hx Hy. apply lookup_take_Some in Hx, Hy. destruct Hx, Hy. apply (A a b); auto. Qed.
Lemma asc_drop i l : ascending l -> ascending (drop i l).
Proof. intros A a b x y H Hx Hy. rewrite lookup_drop in Hx, Hy. apply (A (i + a)%nat (i + b)%nat); auto. lia. Qed.
Lemma asc_sing x : ascending [x].
Proof. intros i j a b H Hx Hy. destruct i; [|discriminate]. destruct j; [lia|discriminate]. Qed.
Lemma asc_take_drop l i j x y : ascending l -> (i <= j)%nat -> x ∈ take i l -> y ∈ drop j l -> x < y.
Proof.
  intros A L Hx Hy. apply elem_of_list_lookup in Hx, Hy. destruct Hx as [a Ha], Hy as [b Hb].
  apply lookup_take_Some in Ha. destruct Ha as [Ha La]. rewrite lookup_drop in Hb. apply (A a (j + b)%nat); auto. lia.
Qed.

Lemma add_supported_ok l x : ascending l -> ascending (add_supported l x) /\ forall y, y ∈ add_supported l x <-> y = x \/ y ∈ l.
Proof.
  intros A. unfold add_supported. pose proof (bsearch_ok l x A) as H. destruct (bsearch l x) as [m|i].
  - split; [exact A|]. intros y. split; [auto|]. intros [->|]; auto. eapply elem_of_list_lookup_2; eauto.
  - destruct H as [H1 H2]. unfold vec_insert. split.
    + apply asc_app; [apply asc_take; auto| |].
      * apply (asc_app [x] (drop i l)); [apply asc_sing|apply asc_drop; auto|]. intros a b Ha Hb. apply elem_of_list_singleton in Ha. subst. auto.
      * intros a b Ha Hb. apply elem_of_cons in Hb. destruct Hb as [->|Hb]; [auto|]. eapply asc_take_drop; eauto.
    + intros y. rewrite elem_of_app, elem_of_cons. rewrite <- (take_drop i l) at 3. rewrite elem_of_app. tauto.
Qed.
Lemma del_supported_ok l x : ascending l -> ascending (del_supported l x) /\ forall y, y ∈ del_supported l x <-> y <> x /\ y ∈ l.
Proof.
  intros A. unfold del_supported. pose proof (bsearch_ok l x A) as H. destruct (bsearch l x) as [m|i].
  - unfold vec_remove. split.
    + apply asc_app; [apply asc_take; auto|apply asc_drop; auto|]. intros a b Ha Hb. eapply (asc_take_drop l m (S m)); eauto.
    + intros y. assert (E : l = take m l ++ x :: drop (S m) l) by (symmetry; apply take_drop_middle; auto).
      assert (N1 : x ∉ take m l). { intros Hx. apply elem_of_list_lookup in Hx. destruct Hx as [j Hj]. apply lookup_take_Some in Hj. destruct Hj as [Hj Lj]. pose proof (A j m x x Lj Hj H). lia. }
      assert (N2 : x ∉ drop (S m) l). { intros Hx. apply elem_of_list_lookup in Hx. destruct Hx as [j Hj]. rewrite lookup_drop in Hj. pose proof (A m (S m + j)%nat x x ltac:(lia) H Hj). lia. }
      rewrite elem_of_app. rewrite E at 3. rewrite elem_of_app, elem_of_cons. split.
      * intros [Hy|Hy]; (split; [intros ->; auto|auto]).
      * tauto.
  - destruct H as [H1 H2]. split; [exact A|]. intros y. split; [|tauto]. intros Hy. split; auto. intros ->.
    rewrite <- (take_drop i l) in Hy. apply elem_of_app in Hy. destruct Hy as [Hy|Hy]; [apply H1 in Hy|apply H2 in Hy]; lia.
Qed.
Lemma bsearch_iff l x : ascending l -> (match bsearch l x with inl _ => true | inr _ => false end = true <-> x ∈ l).
Proof.
  intros A. pose proof (bsearch_ok l x A) as H. destruct (bsearch l x) as [m|i].
  - split; auto. intros _. eapply elem_of_list_lookup_2; eauto.
  - split; [discriminate|]. intros Hx. rewrite <- (take_drop i l) in Hx. apply elem_of_app in Hx. destruct H as [H1 H2].
    destruct Hx as [Hx|Hx]; [apply H1 in Hx|apply H2 in Hx]; lia.
Qed.

(** invariant: the list is ascending and lists exactly the types with units; every type points to an asset of that type *)
Definition reg_inv (s : reg) : Prop :=
  ascending (r_sup s) /\ (forall ty, ty ∈ r_sup s <-> is_Some (r_ups s !! ty)) /\
  (forall ty id, r_ty s !! ty = Some id -> r_id s !! id = Some ty).

Lemma reg_inv_step upd s op s' : reg_inv s -> reg_step upd s op = Ok s' -> reg_inv s'.
Proof.
  intros (A & B & D) H. destruct op as [o id ty|o ty u|o id ty|o ty|o id]; cbn in H.
  - unfold register_asset in H. bstep H x E. bstep H y E2. injection H as <-. split; [exact A|]. split; [exact B|]. cbn.
    destruct (r_id s !! id) eqn:Ei; [discriminate|].
    intros t i Ht. destruct (decide (t = ty)) as [->|N].
    + rewrite lookup_insert in Ht. injection Ht as <-. apply lookup_insert.
    + rewrite lookup_insert_ne in Ht by auto. apply D in Ht. rewrite lookup_insert_ne; [exact Ht|]. intros ->. congruence.
  - unfold update_units in H. bstep H x E. bstep H y E2. injection H as <-. destruct (add_supported_ok (r_sup s) ty A) as [A1 A2].
    split; [exact A1|]. split; [|exact D]. intros t. cbn. rewrite A2, B. destruct (decide (t = ty)) as [->|N].
    + rewrite lookup_insert. split; eauto.
    + rewrite lookup_insert_ne by auto. tauto.
  - unfold update_type in H. bstep H x E. bstep H prev E2.
    assert (D' : forall t i, delete prev (<[ty:=id]> (r_ty s)) !! t = Some i -> <[id:=ty]> (r_id s) !! i = Some t).
    { intros t i Ht. apply lookup_delete_Some in Ht. destruct Ht as [Np Ht]. destruct (decide (t = ty)) as [->|N].
      - rewrite lookup_insert in Ht. injection Ht as <-. apply lookup_insert.
      - rewrite lookup_insert_ne in Ht by auto. apply D in Ht. rewrite lookup_insert_ne; [exact Ht|]. intros ->. congruence. }
    destruct (r_ups s !! prev) as [u|] eqn:Eu; injection H as <-.
    + destruct (del_supported_ok (r_sup s) prev A) as [A1 A2]. destruct (add_supported_ok _ ty A1) as [A3 A4].
      split; [exact A3|]. split; [|exact D']. intros t. cbn. rewrite A4, A2, B. destruct (decide (t = ty)) as [->|N].
      * rewrite lookup_insert. split; eauto.
      * rewrite lookup_insert_ne by auto. destruct (decide (t = prev)) as [->|N2].
        -- rewrite lookup_delete. split; [tauto|]. intros [? ?]; discriminate.
        -- rewrite lookup_delete_ne by auto. tauto.
    + split; [exact A|]. split; [exact B|exact D'].
  - unfold remove_fee_asset in H. bstep H x E. injection H as <-. destruct (del_supported_ok (r_sup s) ty A) as [A1 A2].
    split; [exact A1|]. split; [|exact D]. intros t. cbn. rewrite A2, B. destruct (decide (t = ty)) as [->|N].
    + rewrite lookup_delete. split; [tauto|]. intros [? ?]; discriminate.
    + rewrite lookup_delete_ne by auto. tauto.
  - unfold deregister in H. bstep H x E. bstep H ty E2. injection H as <-. destruct (del_supported_ok (r_sup s) ty A) as [A1 A2].
    split; [exact A1|]. split; cbn.
    + intros t. rewrite A2, B. destruct (decide (t = ty)) as [->|N].
      * rewrite lookup_delete. split; [tauto|]. intros [? ?]; discriminate.
      * rewrite lookup_delete_ne by auto. tauto.
    + intros t i Ht. apply lookup_delete_Some in Ht. destruct Ht as [Np Ht]. apply D in Ht. rewrite lookup_delete_ne; [exact Ht|]. intros ->. congruence.
Qed.
Lemma reg_inv_reach upd s : reg_reachable upd s -> reg_inv s.
Proof.
  induction 1 as [|s op s' _ IH H]; [|eapply reg_inv_step; eauto].
  split; [intros i j x y _ Hx; discriminate Hx|]. split; [|intros; discriminate].
  intros t. split; [intros Ht; inversion Ht|]. intros [? H]. discriminate H.
Qed.

(** with fresh types only: the converse, and fee assets are registered *)
Definition reg_inv2 (s : reg) : Prop :=
  (forall id ty, r_id s !! id = Some ty -> r_ty s !! ty = Some id) /\ (forall ty, is_Some (r_ups s !! ty) -> is_Some (r_ty s !! ty)).
Lemma reg_inv2_step upd s op s' : reg_inv s -> reg_inv2 s -> fresh_type s op -> reg_step upd s op = Ok s' -> reg_inv2 s'.
Proof.
  intros (_ & _ & D) (A & B) F H. destruct op as [o id ty|o ty u|o id ty|o ty|o id]; cbn in H, F.
  - unfold register_asset in H. bstep H x E. bstep H y E2. injection H as <-. split; cbn.
    + intros i t Hi. destruct (decide (i = id)) as [->|N].
      * rewrite lookup_insert in Hi. injection Hi as <-. apply lookup_insert.
      * rewrite lookup_insert_ne in Hi by auto. apply A in Hi. rewrite lookup_insert_ne; [exact Hi|]. intros ->. congruence.
    + intros t Ht. destruct (decide (t = ty)) as [->|N]; [rewrite lookup_insert; eauto|rewrite lookup_insert_ne by auto; auto].
  - unfold update_units in H. bstep H x E. bstep H y E2. injection H as <-. split; cbn; [exact A|].
    intros t. destruct (decide (t = ty)) as [->|N].
    + intros _. destruct (r_ty s !! ty); [eauto|discriminate].
    + rewrite lookup_insert_ne by auto. auto.
  - unfold update_type in H. bstep H x E. bstep H prev E2. pose proof (A _ _ E2) as Ep.
    assert (Np : ty <> prev) by congruence.
    assert (A' : forall i t, <[id:=ty]> (r_id s) !! i = Some t -> delete prev (<[ty:=id]> (r_ty s)) !! t = Some i).
    { intros i t Hi. destruct (decide (i = id)) as [->|N].
      - rewrite lookup_insert in Hi. injection Hi as <-. rewrite lookup_delete_ne by auto. apply lookup_insert.
      - rewrite lookup_insert_ne in Hi by auto. apply A in Hi.
        assert (t <> prev) by congruence. rewrite lookup_delete_ne by auto. rewrite lookup_insert_ne; [exact Hi|]. intros ->. congruence. }
    assert (T : forall t, t <> prev -> is_Some (r_ty s !! t) -> is_Some (delete prev (<[ty:=id]> (r_ty s)) !! t)).
    { intros t N Ht. rewrite lookup_delete_ne by auto. destruct (decide (t = ty)) as [->|N2]; [rewrite lookup_insert; eauto|rewrite lookup_insert_ne by auto; auto]. }
    destruct (r_ups s !! prev) as [u|] eqn:Eu; injection H as <-; split; cbn; try exact A'.
    + intros t Ht. destruct (decide (t = ty)) as [->|N].
      * rewrite lookup_delete_ne by auto. rewrite lookup_insert. eauto.
      * rewrite lookup_insert_ne in Ht by auto. destruct (decide (t = prev)) as [->|N2]; [rewrite lookup_delete in Ht; destruct Ht; discriminate|].
        rewrite lookup_delete_ne in Ht by auto. auto.
    + intros t Ht. apply T; [|auto]. intros ->. rewrite Eu in Ht. destruct Ht; discriminate.
  - unfold remove_fee_asset in H. bstep H x E. injection H as <-. split; cbn; [exact A|]. intros t [u Hu]. apply lookup_delete_Some in Hu. destruct Hu. eauto.
  - unfold deregister in H. bstep H x E. bstep H ty E2. injection H as <-. split; cbn.
    + intros i t Hi. apply lookup_delete_Some in Hi. destruct Hi as [Ni Hi]. apply A in Hi. rewrite lookup_delete_ne; [exact Hi|]. intros <-.
      apply A in E2. congruence.
    + intros t [u Hu]. apply lookup_delete_Some in Hu. destruct Hu as [N Hu]. rewrite lookup_delete_ne by auto. eauto.
Qed.
Lemma reg_fresh_reach upd s : reg_reachable_fresh upd s -> reg_reachable upd s.
Proof. induction 1; econstructor; eauto. Qed.
Lemma reg_inv2_reach upd s : reg_reachable_fresh upd s -> reg_inv2 s.
Proof.
  induction 1 as [|s op s' R IH F H].
  - split; [intros; discriminate|]. intros t [? H]. discriminate H.
  - eapply reg_inv2_step; eauto. eapply reg_inv_reach, reg_fresh_reach; eauto.
Qed.
