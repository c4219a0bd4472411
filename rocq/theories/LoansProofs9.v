(** * LoansProofs9: the pallet's account values are the ones of the specification. *)
From Verif Require Import Base MapSum Ledger AmmModel LoansModel LoansSpec LoansProofs LoansProofs2 LoansProofs3 LoansProofs4 LoansProofs5 LoansProofs6 LoansProofs8.

Lemma msum_list {V} (f : Z -> V -> Z) (m : gmap Z V) : msum f m = foldr (fun kv t => f kv.1 kv.2 + t) 0 (map_to_list m).
Proof. unfold msum, map_fold. cbn. generalize (map_to_list m). intros l. induction l as [|[k v] l IH]; cbn; auto. rewrite IH. reflexivity. Qed.
Lemma msum_update {K} `{Countable K} {V} (f g : K -> V -> Z) (m : gmap K V) a : (forall k v, m !! k = Some v -> k <> a -> g k v = f k v) ->
  msum g m = msum f m + match m !! a with Some v => g a v - f a v | None => 0 end.
Proof.
  intros Hfg. destruct (m !! a) as [v|] eqn:E.
  - rewrite (msum_delete f m a v E), (msum_delete g m a v E).
    rewrite (msum_ext g f (delete a m)); [lia|]. intros k v' Hk. apply lookup_delete_Some in Hk as [H1 H2]. apply Hfg; auto.
  - rewrite (msum_ext g f m); [lia|]. intros k v Hk. apply Hfg; auto. congruence.
Qed.
Lemma sum_values_msum (f : Z -> res Z) (p : Z * market -> bool) (g : Z -> market -> Z) (m : gmap Z market) t :
  (forall a mk v, m !! a = Some mk -> p (a, mk) = true -> f a = Ok v -> v = g a mk) ->
  sum_values f (map fst (List.filter p (map_to_list m))) 0 = Ok t ->
  t = msum (fun a mk => if p (a, mk) then g a mk else 0) m.
Proof.
  intros Hf H. rewrite msum_list. apply sum_values_ok in H as [-> K]. rewrite Z.add_0_l.
  assert (Hm : forall a mk, (a, mk) ∈ map_to_list m -> m !! a = Some mk) by (intros a mk; apply elem_of_map_to_list).
  revert Hm K. generalize (map_to_list m). intros l. induction l as [|[a mk] l IH]; cbn; intros Hm K; auto.
  destruct (p (a, mk)) eqn:E; cbn in *.
  - rewrite IH; [|intros b mk' Hb; apply Hm; right; auto|intros b Hb; apply K; right; auto].
    specialize (K a ltac:(left)). specialize (Hf a mk _ (Hm a mk ltac:(left)) E K). lia.
  - rewrite IH; auto. intros b mk' Hb. apply Hm. right. auto.
Qed.

Section worth.
  Context (C : loans_cfg).

  Lemma debt_now_eq s w a b : borrow_balance s w a = Ok b -> b = debt_now s a w.
  Proof.
    unfold borrow_balance, debt_now. destruct (b_p (debt_of s a w) =? 0) eqn:E1; cbn.
    - intros [= <-]. replace (b_p (debt_of s a w)) with 0 by lia. rewrite Z.mul_0_r, Z.div_0_l by (pose proof FDIV_pos; lia). destruct (b_i (debt_of s a w) =? 0); reflexivity.
    - destruct (b_i (debt_of s a w) =? 0) eqn:E2; [intros [= <-]; reflexivity|]. intros H. apply ok_or_ok in H.
      apply obind_some in H as (r & H1 & H2). ok_arith H1. ok_arith H2. destruct H1 as (_ & -> & _), H2 as [-> _]. reflexivity.
  Qed.
  Lemma asset_value_of s a x v : asset_value s a x = Ok v -> v = value_of s a x.
  Proof.
    intros H. apply asset_value_ok in H as (p & Hp & -> & _). unfold get_price in Hp. bstep Hp q E. bstep Hp u E2. injection Hp as <-.
    unfold value_of, price_of. rewrite E. reflexivity.
  Qed.
  Lemma get_price_of s a p : get_price s a = Ok p -> p = price_of s a.
  Proof. intros Hp. unfold get_price in Hp. bstep Hp q E. bstep Hp u E2. injection Hp as <-. unfold price_of. rewrite E. reflexivity. Qed.
  Lemma exrate_now s a r : exrate C s a = Ok r -> r = rate_now C s a.
  Proof.
    unfold exrate, rate_now. intros H. apply calc_exrate_ok in H. fold (supply_of s a) in H. destruct (supply_of s a =? 0) eqn:E.
    - destruct H as [[_ H]|[H _]]; [exact H|lia].
    - destruct H as [[H _]|(_ & -> & _)]; [lia|]. reflexivity.
  Qed.
  Lemma value_0 s a : value_of s a 0 = 0.
  Proof. unfold value_of. rewrite Z.mul_0_r. apply Z.div_0_l. pose proof FDIV_pos; lia. Qed.
  Lemma debt_value_of s w a v : debt_value s w a = Ok v -> v = value_of s a (debt_now s a w).
  Proof.
    unfold debt_value. intros H. bstep H b E. apply debt_now_eq in E. subst b. destruct (_ =? 0) eqn:E.
    - injection H as <-. replace (debt_now s a w) with 0 by lia. rewrite value_0. reflexivity.
    - apply asset_value_of in H. exact H.
  Qed.
  Lemma collateral_amount_of f s w a mk x : ln_mkts s !! a = Some mk -> collateral_amount C f s w a = Ok x ->
    x = if is_collateral s a w then p_mul_ceil (f mk) (rate_now C s a * vouchers s a w / FDIV) else 0.
  Proof.
    intros Hm. unfold collateral_amount, is_collateral, vouchers, dep_of. destruct (ln_deps s !! (a, w)) as [d|]; cbn; [|intros [= <-]; reflexivity].
    destruct (d_col d); cbn; [|intros [= <-]; reflexivity]. destruct (d_v d =? 0) eqn:E.
    - intros [= <-]. replace (d_v d) with 0 by lia. rewrite Z.mul_0_r. rewrite Z.div_0_l by (pose proof FDIV_pos; lia). rewrite p_mul_ceil_0. reflexivity.
    - intros H. bstep H r Er. bstep H u Eu. unfold to_underlying in Eu. apply ok_or_ok, f_checked_mul_int_some in Eu as [-> _].
      unfold get_market in H. rewrite Hm in H. cbn in H. injection H as <-. apply exrate_now in Er. subst r. reflexivity.
  Qed.
  Lemma collateral_value_of s w a mk v : ln_mkts s !! a = Some mk -> collateral_value C s w a = Ok v -> v = counts_for C mk_cf s w a mk.
  Proof.
    intros Hm H. unfold collateral_value in H. bstep H x E. apply (collateral_amount_of _ _ _ _ _ _ Hm) in E. apply asset_value_of in H.
    unfold counts_for. subst v x. destruct (is_collateral s a w); [reflexivity|apply value_0].
  Qed.
  Lemma threshold_value_of s w a mk v : ln_mkts s !! a = Some mk -> threshold_value C s w a = Ok v -> v = counts_for C mk_lt s w a mk.
  Proof.
    intros Hm H. unfold threshold_value in H. unfold counts_for. destruct (ln_deps s !! (a, w)) as [d|] eqn:E.
    - destruct (d_col d) eqn:E1; cbn in H.
      + destruct (d_v d =? 0) eqn:E2.
        * injection H as <-. unfold is_collateral, vouchers, dep_of. rewrite E; cbn. rewrite E1. replace (d_v d) with 0 by lia.
          rewrite Z.mul_0_r. rewrite Z.div_0_l by (pose proof FDIV_pos; lia). rewrite p_mul_ceil_0. symmetry. apply value_0.
        * bstep H x Ex. apply (collateral_amount_of _ _ _ _ _ _ Hm) in Ex. apply asset_value_of in H. subst v x.
          destruct (is_collateral s a w); [reflexivity|apply value_0].
      + injection H as <-. unfold is_collateral, dep_of. rewrite E; cbn. rewrite E1. reflexivity.
    - injection H as <-. unfold is_collateral, dep_of. rewrite E. reflexivity.
  Qed.

  Lemma total_borrowed_of s w B : total_borrowed s w = Ok B -> B = borrow_worth s w.
  Proof.
    intros H. unfold total_borrowed, actives, active_list in H.
    apply (sum_values_msum _ _ (fun a _ => value_of s a (debt_now s a w))) in H; [exact H|]. intros a mk v _ _ E. apply debt_value_of in E. exact E.
  Qed.
  Lemma total_collateral_of s w B : total_collateral C s w = Ok B -> B = collateral_worth C s w.
  Proof.
    intros H. unfold total_collateral, actives, active_list in H.
    apply (sum_values_msum _ _ (counts_for C mk_cf s w)) in H; [exact H|]. intros a mk v Hm _ E. apply (collateral_value_of _ _ _ mk) in E; auto.
  Qed.
  Lemma total_threshold_of s w B : total_threshold C s w = Ok B -> B = threshold_worth C s w.
  Proof.
    intros H. unfold total_threshold, actives, active_list in H.
    apply (sum_values_msum _ _ (counts_for C mk_lt s w)) in H; [exact H|]. intros a mk v Hm _ E. apply (threshold_value_of _ _ _ mk) in E; auto.
  Qed.
  Lemma filter_fst_comm {A} (q : Z -> bool) (l : list (Z * A)) : List.filter q (map fst l) = map fst (List.filter (fun x => q x.1) l).
  Proof. induction l as [|x l IH]; cbn; auto. destruct (q x.1); cbn; rewrite IH; reflexivity. Qed.
  Lemma filter_filter {A} (q p : A -> bool) (l : list A) : List.filter q (List.filter p l) = List.filter (fun x => p x && q x) l.
  Proof. induction l as [|x l IH]; cbn; auto. destruct (p x); cbn; rewrite IH; reflexivity. Qed.
  Lemma lf_sum_of s f (g : asset -> market -> Z) t :
    (forall a mk v, ln_mkts s !! a = Some mk -> f a = Ok v -> v = g a mk) ->
    sum_values f (lf_actives s) 0 = Ok t -> t = over_active s (lf_only s g).
  Proof.
    intros Hf H. unfold lf_actives, actives, active_list in H. rewrite filter_fst_comm, filter_filter in H.
    apply (sum_values_msum _ _ g) in H; [|intros a mk v Hm _ E; eapply Hf; eauto].
    rewrite H. unfold over_active. apply msum_ext. intros a mk _. cbn. unfold is_active, lf_only, is_lf.
    destruct (bool_decide (mk_state mk = Active)); cbn; reflexivity.
  Qed.
  Lemma lf_base_of s w B : lf_base C s w = Ok B -> B = lf_collateral_worth C s w.
  Proof. apply (lf_sum_of s). intros a mk v Hm E. apply (collateral_value_of _ _ _ mk) in E; auto. Qed.
  Lemma lf_threshold_of s w B : lf_threshold C s w = Ok B -> B = lf_threshold_worth C s w.
  Proof. apply (lf_sum_of s). intros a mk v Hm E. apply (threshold_value_of _ _ _ mk) in E; auto. Qed.
  Lemma lf_borrowed_of s w B : lf_borrowed C s w = Ok B -> B = lf_debt_worth C s w.
  Proof. unfold lf_borrowed. intros H. bstep H b E. apply debt_now_eq in E. subst b. apply asset_value_of in H. exact H. Qed.

  (** the liquidity check, in the words of the specification *)
  Lemma ensure_liquidity_worth s w x lf : ensure_liquidity C s w x lf = Ok tt ->
    (lf = false -> Z.max 0 (lf_collateral_worth C s w - lf_debt_worth C s w) + x <= Z.max 0 (collateral_worth C s w - borrow_worth s w)) /\
    (lf = true -> x <= Z.max 0 (collateral_worth C s w - borrow_worth s w) \/ x <= Z.max 0 (lf_collateral_worth C s w - lf_debt_worth C s w)).
  Proof.
    intros H. apply ensure_liquidity_ok in H as (B & Co & lB & lC & E1 & E2 & E3 & E4 & H).
    apply total_borrowed_of in E1. apply total_collateral_of in E2. apply lf_borrowed_of in E3. apply lf_base_of in E4. subst. exact H.
  Qed.

  (** totals of a state whose markets are the same *)
  Lemma over_active_ext s s' g g' : ln_mkts s' = ln_mkts s -> (forall a mk, ln_mkts s !! a = Some mk -> g' a mk = g a mk) ->
    over_active s' g' = over_active s g.
  Proof. intros Hm Hg. unfold over_active. rewrite Hm. apply msum_ext. intros a mk E. rewrite (Hg a mk E). reflexivity. Qed.
  Lemma over_active_update s s' g g' a : ln_mkts s' = ln_mkts s -> (forall c mk, ln_mkts s !! c = Some mk -> c <> a -> g' c mk = g c mk) ->
    over_active s' g' = over_active s g + match ln_mkts s !! a with Some mk => if bool_decide (mk_state mk = Active) then g' a mk - g a mk else 0 | None => 0 end.
  Proof.
    intros Hm Hg. unfold over_active. rewrite Hm.
    rewrite (msum_update (fun a mk => if bool_decide (mk_state mk = Active) then g a mk else 0) _ _ a).
    - destruct (ln_mkts s !! a) as [mk|]; auto. destruct (bool_decide _); lia.
    - intros c mk E Hne. rewrite (Hg c mk E Hne). reflexivity.
  Qed.
  Lemma counts_for_eq f s s' w a mk : dep_of s' a w = dep_of s a w -> supply_of s' a = supply_of s a -> backing C s' a = backing C s a ->
    ln_price s' = ln_price s -> counts_for C f s' w a mk = counts_for C f s w a mk.
  Proof. unfold counts_for, is_collateral, vouchers, rate_now, rate_of, value_of, price_of. intros -> -> -> ->. reflexivity. Qed.
  Lemma value_of_eq s s' a x : ln_price s' = ln_price s -> value_of s' a x = value_of s a x.
  Proof. unfold value_of, price_of. intros ->. reflexivity. Qed.
  Lemma debt_now_frame s s' a w : debt_of s' a w = debt_of s a w -> index_of s' a = index_of s a -> debt_now s' a w = debt_now s a w.
  Proof. unfold debt_now. intros -> ->. reflexivity. Qed.
  Lemma borrow_worth_eq s s' w : ln_mkts s' = ln_mkts s -> ln_price s' = ln_price s -> (forall c, index_of s' c = index_of s c) ->
    (forall c, debt_of s' c w = debt_of s c w) -> borrow_worth s' w = borrow_worth s w.
  Proof.
    intros Hm Hp Hx Hd. apply over_active_ext; auto. intros a mk _. rewrite (value_of_eq _ _ _ _ Hp). rewrite (debt_now_frame s s'); auto.
  Qed.
  Lemma lf_debt_worth_eq s s' w : ln_price s' = ln_price s -> (forall c, index_of s' c = index_of s c) ->
    (forall c, debt_of s' c w = debt_of s c w) -> lf_debt_worth C s' w = lf_debt_worth C s w.
  Proof. intros Hp Hx Hd. unfold lf_debt_worth. rewrite (value_of_eq _ _ _ _ Hp). rewrite (debt_now_frame s s'); auto. Qed.
  Lemma lf_only_frame s s' g a mk : ln_free s' = ln_free s -> lf_only s' g a mk = lf_only s g a mk.
  Proof. unfold lf_only. intros ->. reflexivity. Qed.
End worth.
