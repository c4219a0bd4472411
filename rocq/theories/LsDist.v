(** * LsDist: the distribution strategies (pallets/liquid-staking/src/distribution.rs). *)
From Verif Require Import Base MapSum Ledger AmmModel LoansModel LoansSpec LsModel LsSpec LsProofs.
From Coq Require Import Sorting.Sorted.

Lemma zsum_perm l l' : l ≡ₚ l' -> zsum l = zsum l'.
Proof. induction 1; cbn; lia. Qed.
Lemma map_perm {A B} (f : A -> B) l l' : l ≡ₚ l' -> map f l ≡ₚ map f l'.
Proof. exact (fmap_Permutation f l l'). Qed.
Lemma zsum_app l l' : zsum (l ++ l') = zsum l + zsum l'.
Proof. induction l; cbn; lia. Qed.
Lemma ins_by_perm {A} le (x : A) l : ins_by le x l ≡ₚ x :: l.
Proof.
  induction l as [|y l IH]; cbn [ins_by]; [reflexivity|]. destruct (le x y); [reflexivity|]. rewrite IH. apply Permutation_swap.
Qed.
Lemma sort_by_perm {A} le (l : list A) : sort_by le l ≡ₚ l.
Proof. unfold sort_by. induction l as [|x l IH]; cbn [foldr]; [reflexivity|]. rewrite ins_by_perm, IH. reflexivity. Qed.
(** sorting by a key *)
Lemma ins_by_sorted {A} (k : A -> Z) x l : Sorted (fun a b => k a <= k b) l -> Sorted (fun a b => k a <= k b) (ins_by (fun a b => k a <=? k b) x l).
Proof.
  induction 1 as [|y l Hs IH Hh]; cbn [ins_by]; [repeat constructor|]. destruct (k x <=? k y) eqn:G.
  - constructor; [constructor; assumption|]. constructor. lia.
  - constructor; [exact IH|]. destruct l as [|z l]; cbn [ins_by] in *; [constructor; lia|]. destruct (k x <=? k z); constructor; [lia|]. inversion Hh; assumption.
Qed.
Lemma sort_by_sorted {A} (k : A -> Z) l : Sorted (fun a b => k a <= k b) (sort_by (fun a b => k a <=? k b) l).
Proof. unfold sort_by. induction l; cbn [foldr]; [constructor|]. apply ins_by_sorted. assumption. Qed.

Lemma share_le {A} (l : list A) x : 0 <= x -> 0 <= share l x /\ Z.of_nat (length l) * share l x <= x.
Proof.
  intros Hx. unfold share, checked_div. destruct (_ =? 0) eqn:G; cbn [default].
  - replace (Z.of_nat (length l)) with 0 by lia. lia.
  - assert (Hn : 0 < Z.of_nat (length l)) by lia. split; [apply Z.div_pos; lia|]. apply Z.mul_div_le; lia.
Qed.

(** ** Every strategy *)
(** the index list of the result is a sublist of the index list of the input *)
Definition idxs {A} (l : list (Z * A)) : list Z := map fst l.
Section each.
  Context (cap mnb : Z).
  Lemma avg_bond_spec l amt : 0 <= amt ->
    map fst (avg_bond l amt cap mnb) `sublist_of` map (fun e => e.1.1) l /\
    zsum (map snd (avg_bond l amt cap mnb)) <= Z.of_nat (length l) * amt /\
    forall i x, (i, x) ∈ avg_bond l amt cap mnb -> 0 < x /\ exists a t, (i, a, t) ∈ l /\ t + x <= cap /\ x <= amt.
  Proof.
    intros Ha. induction l as [|[[i a] t] l (IH1 & IH2 & IH3)]; cbn [avg_bond length map fst snd].
    { split; [constructor|]. split; [cbn; lia|]. intros ?? H. inversion H. }
    destruct (_ <? mnb).
    { split; [constructor; exact IH1|]. split; [lia|]. intros j x H. destruct (IH3 j x H) as (K & a' & t' & K2 & K3). split; [exact K|]. exists a', t'. split; [right; exact K2|exact K3]. }
    destruct (_ =? 0) eqn:G.
    { split; [constructor; exact IH1|]. split; [lia|]. intros j x H. destruct (IH3 j x H) as (K & a' & t' & K2 & K3). split; [exact K|]. exists a', t'. split; [right; exact K2|exact K3]. }
    cbn [map fst snd zsum]. unfold saturating_sub in *. split; [constructor; exact IH1|]. split; [lia|]. intros j x H. apply elem_of_cons in H as [H|H].
    - injection H as -> ->. split; [lia|]. exists a, t. split; [left|lia].
    - destruct (IH3 j x H) as (K & a' & t' & K2 & K3). split; [exact K|]. exists a', t'. split; [right; exact K2|exact K3].
  Qed.
  Lemma mm_bond_spec l rem : 0 <= rem ->
    map fst (mm_bond l rem cap mnb) `sublist_of` map (fun e => e.1.1) l /\
    zsum (map snd (mm_bond l rem cap mnb)) <= rem /\
    forall i x, (i, x) ∈ mm_bond l rem cap mnb -> 0 < x /\ exists a t, (i, a, t) ∈ l /\ t + x <= cap /\ mnb <= saturating_add x a.
  Proof.
    revert rem. induction l as [|[[i a] t] l IH]; intros rem Hr; cbn [mm_bond map fst snd].
    { split; [constructor|]. split; [cbn; lia|]. intros ?? H. inversion H. }
    destruct (rem =? 0).
    { split; [cbn; apply sublist_nil_l|]. split; [cbn; lia|]. intros ?? H. inversion H. }
    destruct (_ =? 0) eqn:G.
    { split; [cbn; apply sublist_nil_l|]. split; [cbn; lia|]. intros ?? H. inversion H. }
    destruct (_ <? mnb) eqn:G2.
    { destruct (IH rem Hr) as (IH1 & IH2 & IH3). split; [constructor; exact IH1|]. split; [lia|]. intros j x H. destruct (IH3 j x H) as (K & a' & t' & K2 & K3). split; [exact K|]. exists a', t'. split; [right; exact K2|exact K3]. }
    unfold saturating_sub in *. set (x := Z.min _ rem) in *. destruct (IH (Z.max 0 (rem - x)) ltac:(lia)) as (IH1 & IH2 & IH3).
    cbn [map fst snd zsum]. split; [constructor; exact IH1|]. split; [lia|]. intros j y H. apply elem_of_cons in H as [H|H].
    - injection H as -> ->. split; [lia|]. exists a, t. split; [left|lia].
    - destruct (IH3 j y H) as (K & a' & t' & K2 & K3). split; [exact K|]. exists a', t'. split; [right; exact K2|exact K3].
  Qed.
  Lemma avg_unbond_spec l amt : 0 <= amt ->
    map fst (avg_unbond l amt mnb) `sublist_of` map fst l /\
    zsum (map snd (avg_unbond l amt mnb)) <= Z.of_nat (length l) * amt /\
    forall i x, (i, x) ∈ avg_unbond l amt mnb -> 0 < x /\ exists b, (i, b) ∈ l /\ mnb <= saturating_sub b x.
  Proof.
    intros Ha. induction l as [|[i b] l (IH1 & IH2 & IH3)]; cbn [avg_unbond length map fst snd].
    { split; [constructor|]. split; [cbn; lia|]. intros ?? H. inversion H. }
    destruct (_ <? mnb) eqn:G0.
    { split; [constructor; exact IH1|]. split; [lia|]. intros j x H. destruct (IH3 j x H) as (K & a' & K2 & K3). split; [exact K|]. exists a'. split; [right; exact K2|exact K3]. }
    destruct (_ =? 0) eqn:G.
    { split; [constructor; exact IH1|]. split; [lia|]. intros j x H. destruct (IH3 j x H) as (K & a' & K2 & K3). split; [exact K|]. exists a'. split; [right; exact K2|exact K3]. }
    cbn [map fst snd zsum]. split; [constructor; exact IH1|]. split; [lia|]. intros j x H. apply elem_of_cons in H as [H|H].
    - injection H as -> ->. split; [lia|]. exists b. split; [left|lia].
    - destruct (IH3 j x H) as (K & a' & K2 & K3). split; [exact K|]. exists a'. split; [right; exact K2|exact K3].
  Qed.
  Lemma mm_unbond_spec l rem : 0 <= rem ->
    map fst (mm_unbond l rem mnb) `sublist_of` map fst l /\
    zsum (map snd (mm_unbond l rem mnb)) = Z.min rem (zsum (map (fun e => Z.max 0 (e.2 - mnb)) l)) /\
    forall i x, (i, x) ∈ mm_unbond l rem mnb -> 0 < x /\ exists b, (i, b) ∈ l /\ mnb <= b - x.
  Proof.
    revert rem. induction l as [|[i b] l IH]; intros rem Hr; cbn [mm_unbond map fst snd zsum].
    { split; [constructor|]. split; [cbn; lia|]. intros ?? H. inversion H. }
    assert (Hnn : 0 <= zsum (map (fun e : Z * Z => Z.max 0 (e.2 - mnb)) l)) by (clear; induction l; cbn; lia).
    destruct (rem =? 0) eqn:G0.
    { split; [cbn; apply sublist_nil_l|]. split; [cbn; lia|]. intros ?? H. inversion H. }
    unfold saturating_sub in *. destruct (Z.min rem _ =? 0) eqn:G.
    { destruct (IH rem Hr) as (IH1 & IH2 & IH3). split; [constructor; exact IH1|]. split; [lia|]. intros j x H. destruct (IH3 j x H) as (K & a' & K2 & K3). split; [exact K|]. exists a'. split; [right; exact K2|exact K3]. }
    set (x := Z.min rem _) in *. destruct (IH (Z.max 0 (rem - x)) ltac:(lia)) as (IH1 & IH2 & IH3).
    cbn [map fst snd zsum]. split; [constructor; exact IH1|]. split; [lia|]. intros j y H. apply elem_of_cons in H as [H|H].
    - injection H as -> ->. split; [lia|]. exists b. split; [left|lia].
    - destruct (IH3 j y H) as (K & a' & K2 & K3). split; [exact K|]. exists a'. split; [right; exact K2|exact K3].
  Qed.
  Lemma avg_rebond_spec l amt : 0 <= amt -> Forall (fun e => 0 <= e.2) l ->
    map fst (avg_rebond l amt) `sublist_of` map fst l /\
    zsum (map snd (avg_rebond l amt)) <= Z.of_nat (length l) * amt /\
    forall i x, (i, x) ∈ avg_rebond l amt -> 0 < x /\ exists b, (i, b) ∈ l /\ x <= b.
  Proof.
    revert amt. induction l as [|[i b] l IH]; intros amt Ha Hnn; cbn [avg_rebond length map fst snd].
    { split; [constructor|]. split; [cbn; lia|]. intros ?? H. inversion H. }
    apply Forall_cons in Hnn as [Hb Hnn]. cbn in Hb. destruct (IH (Z.min amt b) ltac:(lia) Hnn) as (IH1 & IH2 & IH3). destruct (_ =? 0) eqn:G.
    { split; [constructor; exact IH1|]. split; [nia|]. intros j x H. destruct (IH3 j x H) as (K & a' & K2 & K3). split; [exact K|]. exists a'. split; [right; exact K2|exact K3]. }
    cbn [map fst snd zsum]. split; [constructor; exact IH1|]. split; [nia|]. intros j x H. apply elem_of_cons in H as [H|H].
    - injection H as -> ->. split; [lia|]. exists b. split; [left|lia].
    - destruct (IH3 j x H) as (K & a' & K2 & K3). split; [exact K|]. exists a'. split; [right; exact K2|exact K3].
  Qed.
  Lemma mm_rebond_spec l rem : 0 <= rem -> Forall (fun e => 0 <= e.2) l ->
    map fst (mm_rebond l rem) `sublist_of` map fst l /\
    zsum (map snd (mm_rebond l rem)) = Z.min rem (zsum (map snd l)) /\
    forall i x, (i, x) ∈ mm_rebond l rem -> 0 < x /\ exists b, (i, b) ∈ l /\ x <= b.
  Proof.
    revert rem. induction l as [|[i b] l IH]; intros rem Hr Hnn; cbn [mm_rebond map fst snd zsum].
    { split; [constructor|]. split; [cbn; lia|]. intros ?? H. inversion H. }
    apply Forall_cons in Hnn as [Hb Hnn]. cbn in Hb.
    assert (Hs : 0 <= zsum (map snd l)) by (clear -Hnn; induction Hnn; cbn; lia).
    destruct (rem =? 0) eqn:G0.
    { split; [cbn; apply sublist_nil_l|]. split; [cbn; lia|]. intros ?? H. inversion H. }
    destruct (Z.min rem _ =? 0) eqn:G.
    { destruct (IH rem Hr Hnn) as (IH1 & IH2 & IH3). split; [constructor; exact IH1|]. split; [lia|]. intros j x H. destruct (IH3 j x H) as (K & a' & K2 & K3). split; [exact K|]. exists a'. split; [right; exact K2|exact K3]. }
    unfold saturating_sub in *. set (x := Z.min rem _) in *. destruct (IH (Z.max 0 (rem - x)) ltac:(lia) Hnn) as (IH1 & IH2 & IH3).
    cbn [map fst snd zsum]. split; [constructor; exact IH1|]. split; [lia|]. intros j y H. apply elem_of_cons in H as [H|H].
    - injection H as -> ->. split; [lia|]. exists b. split; [left|lia].
    - destruct (IH3 j y H) as (K & a' & K2 & K3). split; [exact K|]. exists a'. split; [right; exact K2|exact K3].
  Qed.
End each.

Lemma sublist_in (l l' : list Z) x : l `sublist_of` l' -> x ∈ l -> x ∈ l'.
Proof.
  induction 1 as [|y l l' H IH|y l l' H IH]; intros Hin; [exact Hin| |right; auto].
  apply elem_of_cons in Hin as [->|Hin]; [left|right; auto].
Qed.
Lemma sublist_nodup (l l' : list Z) : l `sublist_of` l' -> NoDup l' -> NoDup l.
Proof.
  induction 1 as [|x l l' H IH|x l l' H IH]; intros Hn; [constructor| |].
  - apply NoDup_cons in Hn as [Hx Hn]. apply NoDup_cons. split; [|auto]. intros Hin. apply Hx. eapply sublist_in; [exact H|exact Hin].
  - apply NoDup_cons in Hn as [_ Hn]. auto.
Qed.

Lemma bond_dist_ok st l input cap mnb : 0 <= input -> Forall (fun e => 0 <= e.1.2) l -> NoDup (map (fun e => e.1.1) l) ->
  let d := bond_dist st l input cap mnb in
  zsum (map snd d) <= input /\ NoDup (map fst d) /\
  forall i x, (i, x) ∈ d -> 0 < x /\ exists a t, (i, a, t) ∈ l /\ t + x <= cap /\ (st = MaxMin -> mnb <= a + x).
Proof.
  intros Hi Hnn Hn d. subst d. destruct st; cbn [bond_dist].
  - destruct (share_le l input Hi) as [S1 S2]. destruct (avg_bond_spec cap mnb l _ S1) as (K1 & K2 & K3).
    split; [lia|]. split; [eapply sublist_nodup; eassumption|]. intros i x H. destruct (K3 i x H) as (K & a & t & K4 & K5 & _). split; [exact K|]. exists a, t. split; [exact K4|]. split; [exact K5|discriminate].
  - set (le := fun a b : Z * Z * Z => _). pose proof (sort_by_perm le l) as HP. destruct (mm_bond_spec cap mnb (sort_by le l) input Hi) as (K1 & K2 & K3).
    split; [exact K2|]. split.
    + eapply sublist_nodup; [exact K1|]. rewrite (map_perm (fun e => e.1.1) _ _ HP). exact Hn.
    + intros i x H. destruct (K3 i x H) as (K & a & t & K4 & K5 & K6). split; [exact K|]. exists a, t. rewrite HP in K4. split; [exact K4|]. split; [exact K5|]. intros _. rewrite Forall_forall in Hnn. specialize (Hnn _ K4). cbn in Hnn. unfold saturating_add, sat128 in K6. lia.
Qed.
Lemma unbond_dist_ok st l input mnb : 0 <= input -> 0 < mnb -> NoDup (map fst l) ->
  let d := unbond_dist st l input mnb in
  zsum (map snd d) <= input /\ NoDup (map fst d) /\
  (st = MaxMin -> zsum (map snd d) = Z.min input (zsum (map (fun e => Z.max 0 (e.2 - mnb)) l))) /\
  forall i x, (i, x) ∈ d -> 0 < x /\ exists b, (i, b) ∈ l /\ mnb <= b - x.
Proof.
  intros Hi Hm Hn d. subst d. destruct st; cbn [unbond_dist].
  - destruct (share_le l input Hi) as [S1 S2]. destruct (avg_unbond_spec mnb l _ S1) as (K1 & K2 & K3).
    split; [lia|]. split; [eapply sublist_nodup; eassumption|]. split; [discriminate|]. intros i x H. destruct (K3 i x H) as (K & b & K4 & K5). split; [exact K|]. exists b. split; [exact K4|]. unfold saturating_sub in K5. lia.
  - set (le := fun a b : Z * Z => _). pose proof (sort_by_perm le l) as HP. destruct (mm_unbond_spec mnb (sort_by le l) input Hi) as (K1 & K2 & K3).
    rewrite (zsum_perm _ _ (map_perm (fun e => Z.max 0 (e.2 - mnb)) _ _ HP)) in K2. split; [rewrite K2; apply Z.le_min_l|]. split.
    + eapply sublist_nodup; [exact K1|]. rewrite (map_perm fst _ _ HP). exact Hn.
    + split; [intros _; exact K2|]. intros i x H. destruct (K3 i x H) as (K & b & K4 & K5). split; [exact K|]. exists b. rewrite HP in K4. split; [exact K4|exact K5].
Qed.
Lemma rebond_dist_ok st l input : 0 <= input -> Forall (fun e => 0 <= e.2) l -> NoDup (map fst l) ->
  let d := rebond_dist st l input in
  zsum (map snd d) <= input /\ NoDup (map fst d) /\
  (st = MaxMin -> zsum (map snd d) = Z.min input (zsum (map snd l))) /\
  forall i x, (i, x) ∈ d -> 0 < x /\ exists b, (i, b) ∈ l /\ x <= b.
Proof.
  intros Hi Hnn Hn d. subst d. destruct st; cbn [rebond_dist].
  - destruct (share_le l input Hi) as [S1 S2]. destruct (avg_rebond_spec l _ S1 Hnn) as (K1 & K2 & K3).
    split; [lia|]. split; [eapply sublist_nodup; eassumption|]. split; [discriminate|exact K3].
  - set (le := fun a b : Z * Z => _). pose proof (sort_by_perm le l) as HP. destruct (mm_rebond_spec (sort_by le l) input Hi) as (K1 & K2 & K3).
    { rewrite HP. exact Hnn. }
    rewrite (zsum_perm _ _ (map_perm snd _ _ HP)) in K2. split; [rewrite K2; apply Z.le_min_l|]. split.
    + eapply sublist_nodup; [exact K1|]. rewrite (map_perm fst _ _ HP). exact Hn.
    + split; [intros _; exact K2|]. intros i x H. destruct (K3 i x H) as (K & b & K4 & K5). split; [exact K|]. exists b. rewrite HP in K4. split; [exact K4|exact K5].
Qed.

(** MaxMin bonding fills the room exactly when nothing is unlocking and every account is already bonded *)
Lemma mm_bond_none cap l : Forall (fun e => cap <= e.2) l -> forall rem mnb, 0 <= rem -> mm_bond l rem cap mnb = [].
Proof.
  intros H rem mnb Hr. destruct H as [|[[i a] t] l Ht Hl]; cbn [mm_bond]; [reflexivity|]. cbn in Ht. destruct (rem =? 0); [reflexivity|].
  unfold saturating_sub. replace (Z.min _ rem) with 0 by lia. reflexivity.
Qed.
Lemma room_none cap l : Forall (fun e : Z * Z * Z => cap <= e.2) l -> zsum (map (fun e => Z.max 0 (cap - e.2)) l) = 0.
Proof. induction 1; cbn; [reflexivity|]. lia. Qed.
Lemma mm_bond_exact cap mnb l rem : 0 <= rem -> mnb <= U128MAX -> Sorted (fun a b : Z * Z * Z => a.1.2 <= b.1.2) l ->
  Forall (fun e => e.2 = e.1.2 /\ mnb <= e.1.2) l ->
  zsum (map snd (mm_bond l rem cap mnb)) = Z.min rem (zsum (map (fun e => Z.max 0 (cap - e.2)) l)).
Proof.
  intros Hr Hm Hs. apply Sorted_StronglySorted in Hs; [|intros x y z; lia]. revert rem Hr.
  induction Hs as [|[[i a] t] l Hs IH Hall]; intros rem Hr Hf; cbn [mm_bond map zsum]; [cbn; lia|].
  apply Forall_cons in Hf as [[Ht Hb] Hf]. cbn in Ht, Hb, Hall. cbn [fst snd].
  assert (Hnn : 0 <= zsum (map (fun e : Z * Z * Z => Z.max 0 (cap - e.2)) l)) by (clear; induction l; cbn; lia).
  destruct (rem =? 0) eqn:G0; [cbn; lia|]. unfold saturating_sub. destruct (Z.min _ rem =? 0) eqn:G.
  - rewrite room_none; [cbn; lia|]. apply List.Forall_forall. intros e He.
    rewrite List.Forall_forall in Hall, Hf. specialize (Hall e He). specialize (Hf e He). cbn in Hall. lia.
  - set (x := Z.min _ rem) in *. destruct (_ <? mnb) eqn:G2; [unfold saturating_add, sat128 in G2; lia|].
    cbn [map zsum snd]. rewrite IH by (assumption || lia). lia.
Qed.
Lemma maxmin_bond_exact cap mnb l input : 0 <= input -> mnb <= U128MAX -> Forall (fun e => e.2 = e.1.2 /\ mnb <= e.1.2) l ->
  zsum (map snd (bond_dist MaxMin l input cap mnb)) = Z.min input (zsum (map (fun e => Z.max 0 (cap - e.2)) l)).
Proof.
  intros Hi Hm Hf. cbn [bond_dist]. set (le := fun a b : Z * Z * Z => _). pose proof (sort_by_perm le l) as HP.
  rewrite mm_bond_exact; [|assumption|assumption|apply (sort_by_sorted (fun e : Z * Z * Z => e.1.2))|rewrite HP; exact Hf].
  f_equal. apply zsum_perm. exact (map_perm (fun e => Z.max 0 (cap - e.2)) _ _ HP).
Qed.
