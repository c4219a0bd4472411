(** * RegProps: asset registry and currency adapter (C116-C119). *)
From Verif Require Import Base Ledger AmmModel AmmEx RegModel RegSpec RegProofs.

Definition zU (o : origin) : bool := match o with Root => true | _ => false end.
Definition z_run (l : list reg_op) : reg := fold_left (reg_exec zU) l reg0.
Fixpoint z_fresh (s : reg) (l : list reg_op) : bool :=
  match l with
  | [] => true
  | op :: r => match op with RRegister _ _ ty | RType _ _ ty => match r_ty s !! ty with None => true | _ => false end | _ => true end
               && z_fresh (reg_exec zU s op) r
  end.
Lemma z_reach l : reg_reachable zU (z_run l).
Proof.
  unfold z_run. assert (G : forall s, reg_reachable zU s -> reg_reachable zU (fold_left (reg_exec zU) l s)); [|apply G; constructor].
  induction l as [|op l IH]; intros s Hs; cbn; auto. apply IH. unfold reg_exec. destruct (reg_step zU s op) eqn:E; auto. econstructor; eauto.
Qed.
Lemma z_reach_fresh l : z_fresh reg0 l = true -> reg_reachable_fresh zU (z_run l).
Proof.
  unfold z_run. assert (G : forall s, reg_reachable_fresh zU s -> z_fresh s l = true -> reg_reachable_fresh zU (fold_left (reg_exec zU) l s)); [|apply G; constructor].
  induction l as [|op l IH]; intros s Hs Hf; cbn; auto. cbn in Hf. apply andb_prop in Hf. destruct Hf as [F1 F2]. apply IH; auto.
  unfold reg_exec. destruct (reg_step zU s op) eqn:E; auto. econstructor; [exact Hs| |exact E].
  destruct op; cbn in *; auto; destruct (r_ty s !! ty); auto; discriminate.
Qed.

(** ** C116.  In every state exactly the asset types with a price per second are accepted for fees. *)
Theorem C116_supported_iff_priced upd s ty :
  reg_reachable upd s -> (payment_is_supported s ty = true <-> is_Some (get_units s ty)).
Proof.
  intros H. apply reg_inv_reach in H. destruct H as (A & B & _). unfold payment_is_supported, get_units. rewrite bsearch_iff by exact A. apply B.
Qed.
(** The list has no duplicates and is in order. *)
Theorem C116_list_ascending upd s : reg_reachable upd s -> ascending (r_sup s).
Proof. intros H. apply reg_inv_reach in H. exact (proj1 H). Qed.
(** A price per second is set exactly, for one registered type; removing it removes just this type. *)
Theorem C116_units_exact upd s o ty u s' :
  update_units upd s o ty u = Ok s' ->
  upd o = true /\ is_Some (get_asset_id s ty) /\ (forall t, get_units s' t = if bool_decide (t = ty) then Some u else get_units s t) /\
  (forall t, get_asset_id s' t = get_asset_id s t) /\ (forall i, get_asset_type s' i = get_asset_type s i).
Proof.
  intros H. unfold update_units in H. bstep H x E. bstep H y E2. injection H as <-. split; [exact E|].
  split. { unfold get_asset_id. destruct (r_ty s !! ty); [eauto|discriminate]. }
  split; [|auto]. intros t. unfold get_units. cbn. case_bool_decide as Q; [subst; apply lookup_insert|apply lookup_insert_ne; auto].
Qed.
Theorem C116_remove_exact upd s o ty s' :
  remove_fee_asset upd s o ty = Ok s' ->
  upd o = true /\ (forall t, get_units s' t = if bool_decide (t = ty) then None else get_units s t) /\
  (forall t, get_asset_id s' t = get_asset_id s t) /\ (forall i, get_asset_type s' i = get_asset_type s i).
Proof.
  intros H. unfold remove_fee_asset in H. bstep H x E. injection H as <-. split; [exact E|]. split; [|auto].
  intros t. unfold get_units. cbn. case_bool_decide as Q; [subst; apply lookup_delete|apply lookup_delete_ne; auto].
Qed.

Definition z_ops : list reg_op := [RRegister Root 1 50; RRegister Root 2 40; RRegister Root 3 60; RUnits Root 50 7; RUnits Root 40 8; RUnits Root 60 9; RType Root 2 45; RRemoveFee Root 60].
Example C116_example : reg_reachable zU (z_run z_ops) /\ r_sup (z_run z_ops) = [45; 50] /\ get_units (z_run z_ops) 45 = Some 8 /\
  payment_is_supported (z_run z_ops) 45 = true /\ payment_is_supported (z_run z_ops) 40 = false.
Proof. split; [apply z_reach|]. repeat split; vm_compute; reflexivity. Qed.

(** ** C117.  A type is resolved only to an asset registered with that type, in every state; if governance never gives an asset a type
    that is already taken, also every registered asset's type resolves to it, so ids and types correspond one to one,
    and only registered types are accepted for fees. *)
Theorem C117_resolution_sound upd s ty id : reg_reachable upd s -> get_asset_id s ty = Some id -> get_asset_type s id = Some ty.
Proof. intros H. apply reg_inv_reach in H. destruct H as (_ & _ & D). apply D. Qed.
Theorem C117_one_to_one_partial upd s :
  reg_reachable_fresh upd s ->
  (forall id ty, get_asset_type s id = Some ty <-> get_asset_id s ty = Some id) /\ (forall ty, payment_is_supported s ty = true -> is_Some (get_asset_id s ty)).
Proof.
  intros H. pose proof (reg_inv2_reach _ _ H) as [A B]. apply reg_fresh_reach in H. split.
  - intros id ty. split; [apply A|]. intros K. exact (C117_resolution_sound upd s ty id H K).
  - intros ty K. apply (C116_supported_iff_priced _ _ _ H) in K. exact (B ty K).
Qed.
(** What each call does to the registry. *)
Theorem C117_register_exact upd s o id ty s' :
  register_asset upd s o id ty = Ok s' <->
  (upd o = true /\ get_asset_type s id = None /\ s' = mkReg (<[id := ty]> (r_id s)) (<[ty := id]> (r_ty s)) (r_ups s) (r_sup s)).
Proof.
  unfold register_asset, get_asset_type. split.
  - intros H. bstep H x E. bstep H y E2. injection H as <-. split; auto. split; auto. destruct (r_id s !! id); [discriminate|auto].
  - intros (U & N & ->). rewrite U, N. reflexivity.
Qed.
Theorem C117_update_exact upd s o id ty s' :
  reg_reachable_fresh upd s -> get_asset_id s ty = None -> update_type upd s o id ty = Ok s' ->
  exists prev, upd o = true /\ get_asset_type s id = Some prev /\
    (forall i, get_asset_type s' i = if bool_decide (i = id) then Some ty else get_asset_type s i) /\
    (forall t, get_asset_id s' t = if bool_decide (t = ty) then Some id else if bool_decide (t = prev) then None else get_asset_id s t) /\
    (forall t, get_units s' t = if bool_decide (t = ty) then get_units s prev else if bool_decide (t = prev) then None else get_units s t).
Proof.
  intros HR HN H. pose proof (reg_inv2_reach _ _ HR) as [A B]. unfold update_type in H. bstep H x E. bstep H prev E2. exists prev.
  split; [exact E|]. split; [exact E2|]. pose proof (A _ _ E2) as Ep. unfold get_asset_id in HN. assert (Np : ty <> prev) by congruence.
  unfold get_asset_type, get_asset_id, get_units.
  assert (G1 : forall i, <[id:=ty]> (r_id s) !! i = if bool_decide (i = id) then Some ty else r_id s !! i).
  { intros i. case_bool_decide; [subst; apply lookup_insert|apply lookup_insert_ne; auto]. }
  assert (G2 : forall t, delete prev (<[ty:=id]> (r_ty s)) !! t = if bool_decide (t = ty) then Some id else if bool_decide (t = prev) then None else r_ty s !! t).
  { intros t. case_bool_decide as Q; [subst; rewrite lookup_delete_ne by auto; apply lookup_insert|].
    case_bool_decide as Q2; [subst; apply lookup_delete|]. rewrite lookup_delete_ne, lookup_insert_ne by auto. reflexivity. }
  destruct (r_ups s !! prev) as [u|] eqn:Eu; injection H as <-; cbn; (split; [exact G1|]); (split; [exact G2|]); intros t.
  - case_bool_decide as Q; [subst; apply lookup_insert|]. rewrite lookup_insert_ne by auto.
    case_bool_decide as Q2; [subst; apply lookup_delete|apply lookup_delete_ne; auto].
  - case_bool_decide as Q.
    + subst. destruct (r_ups s !! ty) eqn:Et; auto. assert (K : is_Some (r_ty s !! ty)) by (apply B; rewrite Et; eauto). rewrite HN in K. destruct K; discriminate.
    + case_bool_decide as Q2; [subst; exact Eu|reflexivity].
Qed.
Theorem C117_deregister_exact upd s o id s' :
  deregister upd s o id = Ok s' ->
  exists ty, upd o = true /\ get_asset_type s id = Some ty /\
    (forall i, get_asset_type s' i = if bool_decide (i = id) then None else get_asset_type s i) /\
    (forall t, get_asset_id s' t = if bool_decide (t = ty) then None else get_asset_id s t) /\
    (forall t, get_units s' t = if bool_decide (t = ty) then None else get_units s t).
Proof.
  intros H. unfold deregister in H. bstep H x E. bstep H ty E2. injection H as <-. exists ty. split; [exact E|]. split; [exact E2|].
  unfold get_asset_type, get_asset_id, get_units. cbn.
  split; [|split]; intros k; (case_bool_decide; [subst; apply lookup_delete|apply lookup_delete_ne; auto]).
Qed.
(** In general they do not correspond: a type can be registered for two assets, and "updating" an asset to the type it has makes its
    type unknown. *)
Theorem C117_one_to_one_refuted : ~ (forall upd s id ty, reg_reachable upd s -> get_asset_type s id = Some ty -> get_asset_id s ty = Some id).
Proof. intros H. specialize (H zU (z_run [RRegister Root 1 50; RRegister Root 2 50]) 1 50 (z_reach _) ltac:(vm_compute; reflexivity)). vm_compute in H. discriminate H. Qed.
Theorem C117_update_to_same_refuted :
  ~ (forall upd s o id ty s', reg_reachable upd s -> get_asset_type s id = Some ty -> get_asset_id s ty = Some id -> update_type upd s o id ty = Ok s' -> get_asset_id s' ty = Some id).
Proof.
  intros H. pose (s := z_run [RRegister Root 1 50]). specialize (H zU s Root 1 50).
  destruct (update_type zU s Root 1 50) as [s'| |] eqn:E; [|vm_compute in E; discriminate E..].
  specialize (H s' (z_reach _) ltac:(vm_compute; reflexivity) ltac:(vm_compute; reflexivity) eq_refl).
  assert (K : okb (update_type zU s Root 1 50) (fun s' => match get_asset_id s' 50 with None => true | _ => false end) = true) by (vm_compute; reflexivity).
  rewrite E in K. cbn [okb] in K. rewrite H in K. discriminate K.
Qed.
(** Deregistering an asset can take the type, and the fee price, from another asset. *)
Theorem C117_deregister_touches_one_refuted :
  ~ (forall upd s o id s' id' ty, reg_reachable upd s -> deregister upd s o id = Ok s' -> id' <> id -> get_asset_id s ty = Some id' -> get_asset_id s' ty = Some id').
Proof.
  intros H. pose (s := z_run [RRegister Root 1 50; RRegister Root 2 50]). specialize (H zU s Root 1).
  destruct (deregister zU s Root 1) as [s'| |] eqn:E; [|vm_compute in E; discriminate E..].
  specialize (H s' 2 50 (z_reach _) eq_refl ltac:(lia) ltac:(vm_compute; reflexivity)).
  assert (K : okb (deregister zU s Root 1) (fun s' => match get_asset_id s' 50 with None => true | _ => false end) = true) by (vm_compute; reflexivity).
  rewrite E in K. cbn [okb] in K. rewrite H in K. discriminate K.
Qed.
Example C117_example : reg_reachable_fresh zU (z_run z_ops) /\ get_asset_id (z_run z_ops) 45 = Some 2 /\ get_asset_type (z_run z_ops) 2 = Some 45 /\ get_asset_id (z_run z_ops) 40 = None.
Proof. split; [apply z_reach_fresh; vm_compute; reflexivity|]. repeat split; vm_compute; reflexivity. Qed.

(** ** C118.  The adapter is one ledger for all assets: each operation changes exactly the named balances and issuance of the named asset, native
    or not, and no other asset anywhere. *)
Theorem C118_transfer_exact n PN PO s a f t m ka s' :
  ad_transfer n PN PO s a f t m ka = Ok s' ->
  (forall b w, ad_balance n s' b w = ad_balance n s b w - at_ a f b w m + at_ a t b w m) /\ (forall b, ad_issuance n s' b = ad_issuance n s b) /\
  (0 < m -> f <> t -> m <= ad_balance n s a f).
Proof.
  intros H. unfold ad_transfer, ad_balance, ad_issuance in *. destruct (a =? n) eqn:E.
  - bstep H x E1. bstep H L EL. injection H as <-. cbn. destruct (transfer_spec _ _ _ _ _ _ _ _ EL) as (TB & TI & TO). assert (a = n) by lia. subst.
    split; [|split; [|auto]].
    + intros b w. destruct (b =? n) eqn:Eb; [assert (b = n) by lia; subst; apply TB|]. unfold at_. rewrite !bool_decide_false by (intros [? ?]; lia). lia.
    + intros b. destruct (b =? n); [apply TI|reflexivity].
  - bstep H L EL. injection H as <-. cbn. destruct (transfer_spec _ _ _ _ _ _ _ _ EL) as (TB & TI & TO). split; [|split; [|auto]].
    + intros b w. destruct (b =? n) eqn:Eb; [|apply TB]. unfold at_. rewrite !bool_decide_false by (intros [? ?]; lia). lia.
    + intros b. destruct (b =? n); [reflexivity|apply TI].
Qed.
Theorem C118_mint_exact n PN PO s a x m s' :
  ad_mint n PN PO s a x m = Ok s' ->
  (forall b w, ad_balance n s' b w = ad_balance n s b w + at_ a x b w m) /\ (forall b, ad_issuance n s' b = ad_issuance n s b + (if bool_decide (b = a) then m else 0)).
Proof.
  intros H. unfold ad_mint, ad_balance, ad_issuance in *. destruct (a =? n) eqn:E.
  - bstep H L EL. injection H as <-. cbn. destruct (mint_spec _ _ _ _ _ _ EL) as (_ & TB & TI). assert (a = n) by lia. subst. split.
    + intros b w. destruct (b =? n) eqn:Eb; [assert (b = n) by lia; subst; apply TB|]. unfold at_. rewrite !bool_decide_false by (intros [? ?]; lia). lia.
    + intros b. destruct (b =? n) eqn:Eb; [assert (b = n) by lia; subst; apply TI|]. rewrite bool_decide_false by lia. lia.
  - bstep H L EL. injection H as <-. cbn. destruct (mint_spec _ _ _ _ _ _ EL) as (_ & TB & TI). split.
    + intros b w. destruct (b =? n) eqn:Eb; [|apply TB]. unfold at_. rewrite !bool_decide_false by (intros [? ?]; lia). lia.
    + intros b. destruct (b =? n) eqn:Eb; [rewrite bool_decide_false by lia; lia|apply TI].
Qed.
Theorem C118_burn_exact n PN PO s a x m s' :
  ad_burn n PN PO s a x m = Ok s' ->
  (0 < m -> m <= ad_balance n s a x) /\
  (forall b w, ad_balance n s' b w = ad_balance n s b w - at_ a x b w m) /\ (forall b, ad_issuance n s' b = ad_issuance n s b - (if bool_decide (b = a) then m else 0)).
Proof.
  intros H. unfold ad_burn, ad_balance, ad_issuance in *. destruct (a =? n) eqn:E.
  - bstep H y E1. bstep H L EL. injection H as <-. cbn. destruct (burn_spec _ _ _ _ _ _ EL) as (_ & TO & TB & TI). assert (a = n) by lia. subst. split; [exact TO|]. split.
    + intros b w. destruct (b =? n) eqn:Eb; [assert (b = n) by lia; subst; apply TB|]. unfold at_. rewrite !bool_decide_false by (intros [? ?]; lia). lia.
    + intros b. destruct (b =? n) eqn:Eb; [assert (b = n) by lia; subst; apply TI|]. rewrite bool_decide_false by lia. lia.
  - bstep H L EL. injection H as <-. cbn. destruct (burn_spec _ _ _ _ _ _ EL) as (_ & TO & TB & TI). split; [exact TO|]. split.
    + intros b w. destruct (b =? n) eqn:Eb; [|apply TB]. unfold at_. rewrite !bool_decide_false by (intros [? ?]; lia). lia.
    + intros b. destruct (b =? n) eqn:Eb; [rewrite bool_decide_false by lia; lia|apply TI].
Qed.

(** ** C119.  Locks: only the lock origin sets or removes them, only on the native token; no transfer or burn takes native tokens below the
    owner's lock, and a lock never hinders any other asset. *)
Theorem C119_lock_exact n PN PO LO s op s' :
  ad_step n PN PO LO s op = Ok s' ->
  match op with
  | ASetLock o a w m => LO o = true /\ a = n /\ (forall x, lock_of s' x = if bool_decide (x = w) then m else lock_of s x) /\
      (forall b x, ad_balance n s' b x = ad_balance n s b x)
  | ARemoveLock o a w => LO o = true /\ a = n /\ (forall x, lock_of s' x = if bool_decide (x = w) then 0 else lock_of s x) /\
      (forall b x, ad_balance n s' b x = ad_balance n s b x)
  | _ => forall x, lock_of s' x = lock_of s x
  end.
Proof.
  intros H. destruct op as [a f t m ka|a w m|a w m|o a w m|o a w]; cbn in H.
  - unfold ad_transfer in H. destruct (a =? n); [bstep H y E1|]; bstep H L EL; injection H as <-; reflexivity.
  - unfold ad_mint in H. destruct (a =? n); bstep H L EL; injection H as <-; reflexivity.
  - unfold ad_burn in H. destruct (a =? n); [bstep H y E1|]; bstep H L EL; injection H as <-; reflexivity.
  - unfold force_set_lock in H. bstep H y E1. bstep H y2 E2. injection H as <-. split; [exact E1|]. split; [lia|]. split; [|reflexivity].
    intros x. unfold lock_of. cbn. destruct (m =? 0) eqn:Em; case_bool_decide as Q; subst.
    + rewrite lookup_delete. cbn. lia.
    + rewrite lookup_delete_ne by auto. reflexivity.
    + rewrite lookup_insert. reflexivity.
    + rewrite lookup_insert_ne by auto. reflexivity.
  - unfold force_remove_lock in H. bstep H y E1. bstep H y2 E2. injection H as <-. split; [exact E1|]. split; [lia|]. split; [|reflexivity].
    intros x. unfold lock_of. cbn. case_bool_decide as Q; subst; [rewrite lookup_delete; reflexivity|rewrite lookup_delete_ne by auto; reflexivity].
Qed.
Theorem C119_lock_respected n PN PO LO s op s' w :
  ad_step n PN PO LO s op = Ok s' -> ad_balance n s' n w < ad_balance n s n w -> lock_of s w <= ad_balance n s' n w.
Proof.
  intros H D. destruct op as [a f t m ka|a x m|a x m|o a x m|o a x]; cbn in H.
  - pose proof (C118_transfer_exact _ _ _ _ _ _ _ _ _ _ H) as (TB & _). specialize (TB n w). unfold at_ in TB.
    unfold ad_transfer in H. destruct (a =? n) eqn:E.
    + assert (a = n) by lia; subst. bstep H y E1. bstep H L EL. unfold unlocked in E1. clear H.
      unfold transfer in EL. destruct (m =? 0) eqn:Em; cbn in EL.
      { repeat case_bool_decide; lia. }
      destruct (negb _) in EL; [discriminate|]. destruct (f =? t) eqn:Eft.
      { assert (f = t) by lia. subst. repeat case_bool_decide; lia. }
      destruct ((0 <? m) && (m <=? bal (ad_nat s) n f)) eqn:Eb; [|discriminate]. clear EL. cbn in E1.
      assert (w = f). { destruct (decide (w = f)); auto. rewrite (bool_decide_false (n = n /\ w = f)) in TB by tauto. case_bool_decide; lia. }
      subst. rewrite (bool_decide_true (n = n /\ f = f)) in TB by auto. rewrite bool_decide_false in TB by (intros [? ?]; lia).
      rewrite TB. unfold ad_balance. rewrite Z.eqb_refl. lia.
    + rewrite !bool_decide_false in TB by (intros [? ?]; lia). lia.
  - pose proof (C118_mint_exact _ _ _ _ _ _ _ _ H) as (TB & _). specialize (TB n w). unfold at_ in TB.
    case_bool_decide as Q; [|lia]. unfold ad_mint in H. destruct Q as [-> ->]. rewrite Z.eqb_refl in H. bstep H L EL. apply mint_spec in EL. lia.
  - pose proof (C118_burn_exact _ _ _ _ _ _ _ _ H) as (_ & TB & _). specialize (TB n w). unfold at_ in TB.
    case_bool_decide as Q; [|lia]. destruct Q as [-> ->]. unfold ad_burn in H. rewrite Z.eqb_refl in H. bstep H y E1. unfold unlocked in E1.
    rewrite TB. unfold ad_balance. rewrite Z.eqb_refl. lia.
  - unfold force_set_lock in H. bstep H y E1. bstep H y2 E2. injection H as <-. unfold ad_balance in D. cbn in D. lia.
  - unfold force_remove_lock in H. bstep H y E1. bstep H y2 E2. injection H as <-. unfold ad_balance in D. cbn in D. lia.
Qed.
(** Other assets: an operation succeeds with any locks if it does with none. *)
Theorem C119_other_assets_unlocked n PN PO LO s op lk :
  match op with ATransfer a _ _ _ _ | ABurn a _ _ | AMint a _ _ => a <> n | _ => False end ->
  is_ok (ad_step n PN PO LO (mkAdapter (ad_nat s) (ad_oth s) lk) op) = is_ok (ad_step n PN PO LO s op).
Proof.
  destruct op as [a f t m ka|a x m|a x m|o a x m|o a x]; try tauto; intros N; cbn; unfold ad_transfer, ad_mint, ad_burn;
    replace (a =? n) with false by lia; cbn; [destruct (transfer _ _ _ _ _ _ _)|destruct (mint_into _ _ _ _ _)|destruct (burn_from _ _ _ _ _)]; reflexivity.
Qed.
(** A native transfer that leaves the lock is possible. *)
Theorem C119_unlocked_transfer n PN PO s f t m ka :
  0 <= m <= ad_balance n s n f - lock_of s f -> 0 <= lock_of s f -> allow_transfer PN ka (ad_nat s) n f t m = true -> exists s', ad_transfer n PN PO s n f t m ka = Ok s'.
Proof.
  intros B Lk A. unfold ad_balance in B. unfold ad_transfer. rewrite Z.eqb_refl in *. unfold unlocked.
  replace ((m =? 0) || (lock_of s f <=? bal (ad_nat s) n f - m)) with true by lia. cbn. unfold transfer. destruct (m =? 0) eqn:V; cbn; [eauto|]. rewrite A. cbn.
  destruct (f =? t); cbn; [eauto|]. replace ((0 <? m) && (m <=? bal (ad_nat s) n f)) with true by lia. cbn. eauto.
Qed.
Definition z_ad : adapter := mkAdapter (mk_ledger [(0, 5, 100)]) (mk_ledger [(3, 5, 70)]) ∅.
Example C119_example :
  okb (force_set_lock 0 zU z_ad Root 0 5 60) (fun s =>
    is_ok (ad_transfer 0 allow_all allow_all s 0 5 6 40 false) && negb (is_ok (ad_transfer 0 allow_all allow_all s 0 5 6 41 false)) &&
    is_ok (ad_transfer 0 allow_all allow_all s 3 5 6 70 false) && negb (is_ok (force_set_lock 0 zU s (Signed 5) 0 6 1)) && negb (is_ok (force_set_lock 0 zU s Root 3 6 1))) = true.
Proof. vm_compute. reflexivity. Qed.

Print Assumptions C116_supported_iff_priced.  Print Assumptions C116_list_ascending.  Print Assumptions C116_units_exact.  Print Assumptions C116_remove_exact.
Print Assumptions C117_resolution_sound.  Print Assumptions C117_one_to_one_partial.  Print Assumptions C117_register_exact.  Print Assumptions C117_update_exact.
Print Assumptions C117_deregister_exact.  Print Assumptions C117_one_to_one_refuted.  Print Assumptions C117_update_to_same_refuted.  Print Assumptions C117_deregister_touches_one_refuted.
Print Assumptions C118_transfer_exact.  Print Assumptions C118_mint_exact.  Print Assumptions C118_burn_exact.
Print Assumptions C119_lock_exact.  Print Assumptions C119_lock_respected.  Print Assumptions C119_other_assets_unlocked.  Print Assumptions C119_unlocked_transfer.
