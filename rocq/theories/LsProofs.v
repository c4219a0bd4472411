(** * LsProofs: matching pool, staking ledgers and distributions (pure functions). *)
From Verif Require Import Base MapSum Ledger AmmModel LoansModel LoansSpec LsModel LsSpec.

(** ** Matching pool *)
Lemma ra_free_ok r : ra_ok r -> ra_free r = Ok (ra_tot r - ra_res r).
Proof.
  intros (H1 & H2 & H3). unfold ra_free, checked_sub. destruct (chk _) eqn:E.
  - apply chk_some in E as [-> _]. reflexivity.
  - unfold chk, in_u128 in E. destruct (_ && _) eqn:G; [discriminate|]. lia.
Qed.
Lemma raw_sub_eq a b : 0 <= a - b <= U128MAX -> raw_sub a b = Ok (a - b).
Proof.
  intros H. unfold raw_sub, checked_sub, chk, in_u128. destruct (_ && _) eqn:G; [reflexivity|lia].
Qed.
Lemma checked_sub_eq a b : 0 <= a - b <= U128MAX -> checked_sub a b = Some (a - b).
Proof. intros H. unfold checked_sub, chk, in_u128. destruct (_ && _) eqn:G; [reflexivity|lia]. Qed.
Lemma checked_add_eq a b : 0 <= a + b <= U128MAX -> checked_add a b = Some (a + b).
Proof. intros H. unfold checked_add, chk, in_u128. destruct (_ && _) eqn:G; [reflexivity|lia]. Qed.
Lemma raw_add_eq a b : 0 <= a + b <= U128MAX -> raw_add a b = Ok (a + b).
Proof. intros H. unfold raw_add. rewrite checked_add_eq by lia. reflexivity. Qed.

Lemma matching_ok p unb : pool_ok p -> 0 <= unb ->
  exists b r u, matching p unb = Ok (b, r, u) /\ b + r - u = free_stake p - free_unstake p /\ 0 <= b /\ 0 <= r /\ 0 <= u /\
    (u = 0 \/ (b = 0 /\ r = 0)) /\ r <= unb /\ (r < unb -> b = 0) /\
    b + r <= free_stake p /\ u <= free_unstake p.
Proof.
  intros [Hs Hu] Hunb. unfold matching, free_stake, free_unstake. rewrite (ra_free_ok _ Hs), (ra_free_ok _ Hu).
  destruct Hs as (S1 & S2 & S3), Hu as (U1 & U2 & U3). cbn [rbind].
  set (fs := ra_tot (mp_s p) - ra_res (mp_s p)) in *. set (fu := ra_tot (mp_u p) - ra_res (mp_u p)) in *.
  destruct (fs <=? fu) eqn:G1.
  - rewrite raw_sub_eq by lia. cbn [rbind]. do 3 eexists. split; [reflexivity|]. lia.
  - rewrite raw_sub_eq by lia. cbn [rbind]. destruct (fs - fu <? unb) eqn:G2.
    + do 3 eexists. split; [reflexivity|]. lia.
    + rewrite raw_sub_eq by lia. cbn [rbind]. do 3 eexists. split; [reflexivity|]. lia.
Qed.

Lemma ra_add_ok r x r' : ra_add r x = Ok r' -> ra_tot r' = ra_tot r + x /\ ra_res r' = ra_res r /\ ra_tot r' <= U128MAX.
Proof. unfold ra_add. intros H. bstep H t Et. injection H as <-. cbn. lia. Qed.
Lemma ra_sub_ok r x r' : ra_sub r x = Ok r' -> ra_tot r' = ra_tot r - x /\ ra_res r' = ra_res r /\ x <= ra_tot r - ra_res r.
Proof.
  unfold ra_sub, ra_free. intros H. bstep H f Ef. destruct (f <? x) eqn:G; [discriminate|]. bstep H t Et. injection H as <-. cbn. lia.
Qed.
Lemma ra_lock_ok r x r' : ra_lock r x = Ok r' -> ra_tot r' = ra_tot r /\ ra_res r' = ra_res r + x /\ ra_res r' <= ra_tot r.
Proof. unfold ra_lock. intros H. bstep H y Ey. destruct (_ <? y) eqn:G; [discriminate|]. injection H as <-. cbn. lia. Qed.
Lemma ra_unlock_ok r x r' : ra_unlock r x = Ok r' -> ra_tot r' = ra_tot r /\ ra_res r' = ra_res r - x /\ 0 <= ra_res r'.
Proof. unfold ra_unlock. intros H. bstep H y Ey. injection H as <-. cbn. lia. Qed.
(** [clear] removes the same amount from both sides, only unreserved amounts *)
Lemma mp_clear_ok p p' : pool_ok p -> mp_clear p = Ok p' ->
  pool_ok p' /\ ra_res (mp_s p') = ra_res (mp_s p) /\ ra_res (mp_u p') = ra_res (mp_u p) /\
  exists x, 0 <= x /\ ra_tot (mp_s p') = ra_tot (mp_s p) - x /\ ra_tot (mp_u p') = ra_tot (mp_u p) - x /\
    (free_stake p = free_unstake p -> free_stake p' = 0 /\ free_unstake p' = 0) /\ (free_stake p <> free_unstake p -> x = 0).
Proof.
  intros [Hs Hu]. pose proof Hs as (S1 & S2 & S3). pose proof Hu as (U1 & U2 & U3).
  unfold mp_clear. rewrite (ra_free_ok _ Hs), (ra_free_ok _ Hu). cbn [rbind]. unfold free_stake, free_unstake.
  destruct (_ =? _) eqn:G; cbn [negb].
  - intros H. bstep H a Ea. bstep H b Eb. injection H as <-. unfold pool_ok, ra_ok. cbn. destruct Ea as [-> Ea], Eb as [-> Eb].
    do 3 (split; [lia|]). exists (ra_tot (mp_s p) - ra_res (mp_s p)). lia.
  - intros [= <-]. do 3 (split; [auto; split; assumption|]). exists 0. lia.
Qed.
Lemma consolidate_stake_ok p x p' : pool_ok p -> 0 <= x -> consolidate_stake p x = Ok p' ->
  pool_ok p' /\ ra_res (mp_s p') = ra_res (mp_s p) - x /\ ra_res (mp_u p') = ra_res (mp_u p) /\
  exists y, 0 <= y /\ ra_tot (mp_s p') = ra_tot (mp_s p) - x - y /\ ra_tot (mp_u p') = ra_tot (mp_u p) - y.
Proof.
  intros [Hs Hu] Hx. unfold consolidate_stake. intros H. bstep H r Er. apply ra_unlock_ok in Er as (R1 & R2 & R3).
  bstep H p1 E1. unfold sub_stake in E1. bstep E1 r1 Er1. injection E1 as <-. apply ra_sub_ok in Er1 as (Q1 & Q2 & Q3). cbn in *.
  apply mp_clear_ok in H.
  - destruct H as (K & K1 & K2 & y & K3 & K4 & K5 & _). cbn in *. split; [exact K|]. split; [lia|]. split; [lia|]. exists y. lia.
  - split; [|exact Hu]. unfold ra_ok in *. cbn. lia.
Qed.
Lemma consolidate_unstake_ok p x p' : pool_ok p -> 0 <= x -> consolidate_unstake p x = Ok p' ->
  pool_ok p' /\ ra_res (mp_u p') = ra_res (mp_u p) - x /\ ra_res (mp_s p') = ra_res (mp_s p) /\
  exists y, 0 <= y /\ ra_tot (mp_u p') = ra_tot (mp_u p) - x - y /\ ra_tot (mp_s p') = ra_tot (mp_s p) - y.
Proof.
  intros [Hs Hu] Hx. unfold consolidate_unstake. intros H. bstep H r Er. apply ra_unlock_ok in Er as (R1 & R2 & R3).
  bstep H p1 E1. unfold sub_unstake in E1. bstep E1 r1 Er1. injection E1 as <-. apply ra_sub_ok in Er1 as (Q1 & Q2 & Q3). cbn in *.
  apply mp_clear_ok in H.
  - destruct H as (K & K1 & K2 & y & K3 & K4 & K5 & _). cbn in *. split; [exact K|]. split; [lia|]. split; [lia|]. exists y. lia.
  - split; [exact Hs|]. unfold ra_ok in *. cbn. lia.
Qed.
(** consuming a reserved amount cannot fail *)
Lemma consolidate_stake_succeeds p x : pool_ok p -> 0 <= x <= ra_res (mp_s p) -> exists p', consolidate_stake p x = Ok p'.
Proof.
  intros [Hs Hu] Hx. pose proof Hs as (S1 & S2 & S3). pose proof Hu as (U1 & U2 & U3).
  unfold consolidate_stake, ra_unlock. rewrite checked_sub_eq by lia. cbn [rbind ok_or]. unfold sub_stake, ra_sub, ra_free. cbn [mp_s mp_u ra_tot ra_res].
  rewrite checked_sub_eq by lia. cbn [rbind ok_or]. destruct (_ <? _) eqn:G; [lia|]. rewrite checked_sub_eq by lia. cbn [rbind ok_or].
  unfold mp_clear, ra_free. cbn [mp_s mp_u ra_tot ra_res]. rewrite !checked_sub_eq by lia. cbn [rbind ok_or].
  destruct (_ =? _) eqn:G2; cbn [negb]; [|eauto]. rewrite !checked_sub_eq by lia. cbn. eauto.
Qed.
Lemma consolidate_unstake_succeeds p x : pool_ok p -> 0 <= x <= ra_res (mp_u p) -> exists p', consolidate_unstake p x = Ok p'.
Proof.
  intros [Hs Hu] Hx. pose proof Hs as (S1 & S2 & S3). pose proof Hu as (U1 & U2 & U3).
  unfold consolidate_unstake, ra_unlock. rewrite checked_sub_eq by lia. cbn [rbind ok_or]. unfold sub_unstake, ra_sub, ra_free. cbn [mp_s mp_u ra_tot ra_res].
  rewrite checked_sub_eq by lia. cbn [rbind ok_or]. destruct (_ <? _) eqn:G; [lia|]. rewrite checked_sub_eq by lia. cbn [rbind ok_or].
  unfold mp_clear, ra_free. cbn [mp_s mp_u ra_tot ra_res]. rewrite !checked_sub_eq by lia. cbn [rbind ok_or].
  destruct (_ =? _) eqn:G2; cbn [negb]; [|eauto]. rewrite !checked_sub_eq by lia. cbn. eauto.
Qed.

(** ** Chunk lists *)
Lemma chunk_sum_cons c l : chunk_sum (c :: l) = c_v c + chunk_sum l. Proof. reflexivity. Qed.
Lemma chunk_sum_app l1 l2 : chunk_sum (l1 ++ l2) = chunk_sum l1 + chunk_sum l2.
Proof. induction l1 as [|c l1 IH]; [reflexivity|]. cbn [app]. rewrite !chunk_sum_cons. lia. Qed.
Lemma chunk_sum_rev l : chunk_sum (rev l) = chunk_sum l.
Proof. induction l as [|c l IH]; [reflexivity|]. cbn [rev]. rewrite chunk_sum_app, !chunk_sum_cons. change (chunk_sum []) with 0. lia. Qed.
Notation nonneg := (Forall (fun c => 0 <= c_v c)).
Lemma chunk_sum_nonneg l : nonneg l -> 0 <= chunk_sum l.
Proof. induction 1; [reflexivity|]. rewrite chunk_sum_cons. lia. Qed.
Lemma nonneg_filter f l : nonneg l -> nonneg (List.filter f l).
Proof. induction 1; cbn; [constructor|]. destruct (f x); auto. Qed.
Lemma nonneg_rev l : nonneg l -> nonneg (rev l).
Proof. intros H. induction H; cbn; [constructor|]. apply Forall_app. split; [assumption|]. constructor; auto. Qed.
Lemma due_split era l : chunk_sum l = chunk_sum (due era l) + chunk_sum (not_due era l).
Proof.
  induction l as [|c l IH]; [reflexivity|]. unfold due, not_due in *. cbn [List.filter]. destruct (c_era c <=? era); cbn [negb]; rewrite !chunk_sum_cons; lia.
Qed.
Lemma filter_not_due era l : List.filter (fun c => era <? c_era c) l = not_due era l.
Proof.
  unfold not_due. induction l as [|c l IH]; [reflexivity|]. cbn. rewrite IH. destruct (era <? c_era c) eqn:G, (c_era c <=? era) eqn:G2; try reflexivity; lia.
Qed.
Lemma add_chunk_nonneg l v e : nonneg l -> 0 <= v -> nonneg (add_chunk l v e).
Proof.
  intros H Hv. induction H as [|c l Hc Hl IH]; cbn; [constructor; auto|]. destruct l as [|c' l'].
  - destruct (_ =? _); repeat constructor; auto; cbn; try lia. unfold saturating_add. apply sat128_range.
  - constructor; auto.
Qed.
Lemma add_chunk_sum l v e : nonneg l -> 0 <= v -> chunk_sum l + v <= U128MAX -> chunk_sum (add_chunk l v e) = chunk_sum l + v.
Proof.
  intros H Hv. induction H as [|c l Hc Hl IH]; intros HU; [cbn; lia|]. rewrite chunk_sum_cons in *. pose proof (chunk_sum_nonneg _ Hl). cbn [add_chunk]. destruct l as [|c' l'].
  - destruct (_ =? _); rewrite ?chunk_sum_cons; cbn in *; [|lia]. unfold saturating_add. rewrite sat128_id; cbn; lia.
  - rewrite chunk_sum_cons. specialize (IH ltac:(lia)). lia.
Qed.
Lemma add_chunk_sum_le l v e : nonneg l -> 0 <= v -> chunk_sum (add_chunk l v e) <= chunk_sum l + v.
Proof.
  intros H Hv. induction H as [|c l Hc Hl IH]; [cbn; lia|]. rewrite !chunk_sum_cons. cbn [add_chunk]. destruct l as [|c' l'].
  - destruct (_ =? _); rewrite ?chunk_sum_cons; cbn; [|lia]. unfold saturating_add, sat128. lia.
  - rewrite chunk_sum_cons. lia.
Qed.
Lemma add_chunk_in l v e c : c ∈ add_chunk l v e -> c ∈ l \/ c_era c = e.
Proof.
  revert c. induction l as [|c0 l IH]; intros c; cbn [add_chunk].
  - intros H. apply elem_of_list_singleton in H. subst. auto.
  - destruct l as [|c' l'].
    + destruct (c_era c0 =? e) eqn:G; intros H.
      * apply elem_of_list_singleton in H. subst. right. cbn. lia.
      * apply elem_of_cons in H as [->|H]; [left; left|]. apply elem_of_list_singleton in H. subst. auto.
    + intros H. apply elem_of_cons in H as [->|H]; [left; left|]. apply IH in H as [H|H]; [left; right; exact H|auto].
Qed.
Lemma cons_total_eq era l t : nonneg l -> chunk_sum (due era l) <= t -> cons_total era l t = t - chunk_sum (due era l).
Proof.
  intros H. revert t. induction H as [|c l Hc Hl IH]; intros t Ht; [cbn; lia|]. cbn [cons_total]. unfold due in *. cbn [List.filter] in *.
  pose proof (chunk_sum_nonneg _ (nonneg_filter (fun c => c_era c <=? era) _ Hl)).
  destruct (c_era c <=? era) eqn:G.
  - replace (era <? c_era c) with false by lia. rewrite chunk_sum_cons in *. unfold saturating_sub. rewrite IH by lia. lia.
  - replace (era <? c_era c) with true by lia. apply IH. exact Ht.
Qed.
Lemma due_le era l : nonneg l -> 0 <= chunk_sum (due era l) <= chunk_sum l.
Proof.
  intros H. pose proof (due_split era l). pose proof (chunk_sum_nonneg _ (nonneg_filter (fun c => c_era c <=? era) _ H)).
  pose proof (chunk_sum_nonneg _ (nonneg_filter (fun c => negb (c_era c <=? era)) _ H)). unfold due, not_due in *. lia.
Qed.

(** ** Staking ledgers *)
Lemma sl_new_ok v : is_u128 v -> sled_ok (sl_new v).
Proof. intros [H1 H2]. unfold sled_ok, sl_new; cbn. repeat split; try lia. constructor. Qed.
Lemma sl_bond_extra_ok l v l' : sled_ok l -> 0 <= v -> sl_bond_extra l v = Ok l' ->
  sled_ok l' /\ sl_active l' = sl_active l + v /\ sl_total l' = sl_total l + v /\ sl_unl l' = sl_unl l.
Proof.
  intros (H1 & H2 & H3 & H4) Hv H. unfold sl_bond_extra in H. bstep H t Et. bstep H a Ea. injection H as <-. unfold sled_ok; cbn [sl_total sl_active sl_unl fst snd].
  destruct Et as [-> Et], Ea as [-> Ea]. repeat split; try lia. exact H4.
Qed.
Lemma sl_unbond_ok l v e l' : sled_ok l -> 0 <= v -> sl_unbond l v e = Ok l' ->
  sled_ok l' /\ sl_active l' = sl_active l - v /\ sl_total l' = sl_total l /\ chunk_sum (sl_unl l') = chunk_sum (sl_unl l) + v.
Proof.
  intros (H1 & H2 & H3 & H4) Hv H. unfold sl_unbond in H. bstep H a Ea. injection H as <-. unfold sled_ok; cbn [sl_total sl_active sl_unl fst snd]. destruct Ea as [-> Ea].
  pose proof (chunk_sum_nonneg _ H4). rewrite add_chunk_sum by (assumption || lia). repeat split; try lia. apply add_chunk_nonneg; assumption.
Qed.
Lemma sl_consolidate_ok l e : sled_ok l ->
  sled_ok (sl_consolidate l e) /\ sl_active (sl_consolidate l e) = sl_active l /\ sl_unl (sl_consolidate l e) = not_due e (sl_unl l) /\
  sl_total (sl_consolidate l e) = sl_total l - chunk_sum (due e (sl_unl l)).
Proof.
  intros (H1 & H2 & H3 & H4). unfold sled_ok, sl_consolidate; cbn [sl_total sl_active sl_unl fst snd]. rewrite filter_not_due. pose proof (due_le e _ H4). pose proof (due_split e (sl_unl l)).
  rewrite cons_total_eq by (assumption || lia). repeat split; try lia. apply nonneg_filter. assumption.
Qed.
(** [rebond_rev]: takes chunks from the front of the reversed list; [taken] is what is rebonded *)
Lemma rebond_rev_ok rl value ub act rl' act' : nonneg rl -> 0 <= ub -> ub <= value ->
  rebond_rev rl value ub act = Ok (rl', act') ->
  nonneg rl' /\ act' = act + Z.min (value - ub) (chunk_sum rl) /\ chunk_sum rl' = chunk_sum rl - Z.min (value - ub) (chunk_sum rl) /\
  (exists k, (exists c, rl' = c :: drop (S k) rl /\ (exists c0, rl !! k = Some c0 /\ c_era c = c_era c0 /\ c_v c < c_v c0)) \/ rl' = drop k rl \/
     (exists c, rl' = c :: drop (S k) rl /\ rl !! k = Some c)).
Proof.
  intros H. revert ub act rl' act'. induction H as [|c rest Hc Hr IH]; intros ub act rl' act' Hub Hle; cbn [rebond_rev].
  { intros [= <- <-]. cbn. split; [constructor|]. split; [lia|]. split; [lia|]. exists 0%nat. right. left. reflexivity. }
  pose proof (chunk_sum_nonneg _ Hr) as Hsr. intros H. bstep H t Et. destruct Et as [-> Et]. rewrite chunk_sum_cons. destruct (_ <=? value) eqn:G.
  - bstep H a Ea. destruct Ea as [-> Ea]. destruct (value <=? _) eqn:G2.
    + injection H as <- <-. split; [assumption|]. split; [lia|]. split; [lia|]. exists 1%nat. right. left. reflexivity.
    + apply IH in H; [|lia|lia]. destruct H as (K1 & K2 & K3 & k & K4). split; [exact K1|]. split; [lia|]. split; [lia|].
      exists (S k). destruct K4 as [(c1 & -> & c0 & K5 & K6)|[->|(c1 & -> & K5)]].
      * left. exists c1. split; [reflexivity|]. exists c0. split; [exact K5|exact K6].
      * right. left. reflexivity.
      * right. right. exists c1. split; [reflexivity|exact K5].
  - bstep H d Ed. bstep H a Ea. bstep H v Ev. injection H as <- <-. destruct Ed as [-> Ed], Ea as [-> Ea], Ev as [-> Ev].
    split; [constructor; cbn; [lia|assumption]|]. split; [lia|]. rewrite chunk_sum_cons. cbn [c_v c_era]. split; [lia|]. exists 0%nat.
    destruct (decide (value - ub = 0)) as [Ez|Ez].
    + right. right. exists c. split; [|reflexivity]. cbn. f_equal. destruct c; cbn. f_equal. lia.
    + left. exists (mkChunk (c_v c - (value - ub)) (c_era c)). split; [reflexivity|]. exists c. cbn. split; [reflexivity|]. split; [reflexivity|]. lia.
Qed.
Lemma sl_rebond_ok l v l' : sled_ok l -> 0 <= v -> sl_rebond l v = Ok l' ->
  sled_ok l' /\ sl_total l' = sl_total l /\ sl_active l' = sl_active l + Z.min v (chunk_sum (sl_unl l)) /\
  chunk_sum (sl_unl l') = chunk_sum (sl_unl l) - Z.min v (chunk_sum (sl_unl l)).
Proof.
  intros (H1 & H2 & H3 & H4) Hv H. unfold sl_rebond in H. bstep H r Er. destruct r as [rl a]. injection H as <-.
  apply rebond_rev_ok in Er; [|apply nonneg_rev; assumption|lia|lia]. destruct Er as (K1 & K2 & K3 & _). rewrite Z.sub_0_r, chunk_sum_rev in *.
  unfold sled_ok; cbn [sl_total sl_active sl_unl fst snd]. rewrite chunk_sum_rev. pose proof (chunk_sum_nonneg _ H4). repeat split; try lia. apply nonneg_rev. assumption.
Qed.
