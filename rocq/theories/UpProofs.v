(** * UpProofs: lemmas for the upgrades of lending and registry. *)
From Verif Require Import Base MapSum Ledger AmmModel LoansModel LoansSpec LoansProofs6 RegModel RegSpec UpModel UpSpec.
From Verif Require Import LoansProofs LoansProofs9 RegProofs.

Lemma up_lt m : 0 <= o_cf m <= PMILL -> o_cf m <= mk_lt (up_market m) <= PMILL.
Proof. intros H. cbn. pose proof PMILL_val. assert (0 <= o_cf m * DEFAULT_OFFSET / PMILL) by (apply Z.div_pos; unfold DEFAULT_OFFSET; lia). lia. Qed.
Lemma up_lt_low m : o_cf m * 11 < PMILL * 10 -> 0 <= o_cf m -> mk_lt (up_market m) < PMILL.
Proof.
  intros H H0. cbn. pose proof PMILL_val as HP. change (10 ^ 6) with 1000000 in HP. apply Z.min_lt_iff. right.
  pose proof (Z.mul_div_le (o_cf m * DEFAULT_OFFSET) PMILL ltac:(lia)) as Q. unfold DEFAULT_OFFSET in *. set (x := o_cf m * 100000 / PMILL) in *. clearbody x. lia.
Qed.

Lemma counts_mono C s w a f g mk : sound_books C s -> 0 <= f mk <= g mk -> 0 <= counts_for C f s w a mk <= counts_for C g s w a mk.
Proof.
  intros H Hf. destruct (H a w) as (H1 & H2 & H3 & H4). unfold counts_for. destruct (is_collateral s a w); [|lia].
  assert (Hr : 0 <= rate_now C s a).
  { unfold rate_now. destruct (supply_of s a =? 0) eqn:E; [rewrite MIN_EXRATE_val; apply Z.leb_le; reflexivity|]. unfold rate_of. pose proof FDIV_pos. apply Z.div_pos; [apply Z.mul_nonneg_nonneg; lia|lia]. }
  assert (Hu : 0 <= rate_now C s a * vouchers s a w / FDIV) by (pose proof FDIV_pos; apply Z.div_pos; [apply Z.mul_nonneg_nonneg; lia|lia]).
  set (u := rate_now C s a * vouchers s a w / FDIV) in *. clearbody u. unfold value_of, p_mul_ceil.
  pose proof FDIV_pos. pose proof PMILL_val.
  assert (P1 : 0 <= cdiv (f mk * u) PMILL) by (pose proof (cdiv_ge (f mk * u) PMILL ltac:(lia)); nia).
  assert (P2 : cdiv (f mk * u) PMILL <= cdiv (g mk * u) PMILL).
  { pose proof (cdiv_ge (g mk * u) PMILL ltac:(lia)) as Q1. pose proof (cdiv_lt (f mk * u) PMILL ltac:(lia)) as Q2. assert (f mk * u <= g mk * u) by nia. nia. }
  split; [apply Z.div_pos; [nia|lia]|]. apply Z.div_le_mono; [lia|nia].
Qed.

Lemma over_active_mono s g h : (forall a mk, ln_mkts s !! a = Some mk -> g a mk <= h a mk) -> over_active s g <= over_active s h.
Proof. intros H. unfold over_active. apply msum_le. intros a mk Hm. case_bool_decide; [apply H; auto|lia]. Qed.
Lemma over_active_diff s g h : over_active s (fun a mk => g a mk - h a mk) = over_active s g - over_active s h.
Proof.
  enough (over_active s (fun a mk => g a mk - h a mk) + over_active s h = over_active s g) by lia. unfold over_active. rewrite <- msum_add. apply msum_ext. intros a mk _. case_bool_decide; lia.
Qed.
Lemma threshold_dominates C s w : sound_books C s -> (forall a mk, ln_mkts s !! a = Some mk -> 0 <= mk_cf mk <= mk_lt mk) ->
  collateral_worth C s w <= threshold_worth C s w /\ collateral_worth C s w - lf_collateral_worth C s w <= threshold_worth C s w - lf_threshold_worth C s w.
Proof.
  intros HS HM. unfold collateral_worth, threshold_worth, lf_collateral_worth, lf_threshold_worth. rewrite <- !over_active_diff. split; apply over_active_mono; intros a mk Hm;
    destruct (counts_mono C s w a mk_cf mk_lt mk HS (HM a mk Hm)) as [Q1 Q2]; [lia|]. unfold lf_only. case_bool_decide; lia.
Qed.
Lemma not_liquidatable C s w a amt mk : collateral_worth C s w <= threshold_worth C s w ->
  collateral_worth C s w - lf_collateral_worth C s w <= threshold_worth C s w - lf_threshold_worth C s w ->
  borrow_worth s w <= collateral_worth C s w -> lf_collateral_worth C s w - lf_debt_worth C s w <= collateral_worth C s w - borrow_worth s w ->
  liquidate_allowed C s w a amt mk <> Ok tt.
Proof.
  intros H1 H2 H3 H4 H. apply liquidate_allowed_ok in H as (B & T & lB & lT & b & bv & rv & eff & E1 & E2 & E3 & E4 & HC & _).
  apply total_borrowed_of in E1. apply total_threshold_of in E2. apply lf_borrowed_of in E3. apply lf_threshold_of in E4. subst. lia.
Qed.

(** speeds *)
Lemma put_speeds l : forall r a, NoDup (map fst l) ->
  default mrew0 (fold_left (fun r av => put_speed r av.1 av.2) l r !! a) =
  match list_to_map (M := gmap Z Z) l !! a with
  | Some v => let x := default mrew0 (r !! a) in mkMrew v v (r_si x) (r_sb x) (r_bi x) (r_bb x)
  | None => default mrew0 (r !! a)
  end.
Proof.
  induction l as [|[k v] l IH]; intros r a HN; [cbn; rewrite lookup_empty; reflexivity|]. cbn [fold_left map fst list_to_map foldr snd] in *. apply NoDup_cons in HN as [HN1 HN2].
  rewrite IH by exact HN2. cbn [fst snd]. unfold uncurry. cbn [curry]. destruct (decide (a = k)) as [->|Hk].
  - rewrite (not_elem_of_list_to_map_1 l k) by exact HN1. rewrite lookup_insert. unfold put_speed. rewrite lookup_insert. reflexivity.
  - rewrite lookup_insert_ne by auto. unfold put_speed. cbn zeta. rewrite lookup_insert_ne by auto. reflexivity.
Qed.
Lemma up_speed o a : rew_of (up_books o) a =
  match ob_speed o !! a with
  | Some v => let x := rew_of (ob_rest o) a in mkMrew v v (r_si x) (r_sb x) (r_bi x) (r_bb x)
  | None => rew_of (ob_rest o) a
  end.
Proof.
  unfold rew_of at 1. unfold up_books. change (ln_rew (st_rew ?x ?y)) with y. rewrite put_speeds by apply NoDup_fst_map_to_list. rewrite list_to_map_to_list. reflexivity.
Qed.

(** registry *)
Section conv.
  Context (conv : Z -> option Z) (inj : forall x y z, conv x = Some z -> conv y = Some z -> x = y).
  Lemma rekey_spec l : forall acc m, NoDup (map fst l) -> (forall k, k ∈ map fst l -> forall k', conv k = Some k' -> acc !! k' = None) -> rekey conv l acc = Some m ->
    (forall k v, (k, v) ∈ l -> exists k', conv k = Some k' /\ m !! k' = Some v) /\
    (forall k' v, m !! k' = Some v -> acc !! k' = Some v \/ exists k, (k, v) ∈ l /\ conv k = Some k') /\
    (forall k' v, acc !! k' = Some v -> m !! k' = Some v).
  Proof.
    induction l as [|[k v] l IH]; intros acc m HN HA H; cbn in H.
    - injection H as <-. split; [intros k v Hk; apply elem_of_nil in Hk; tauto|]. split; auto.
    - destruct (conv k) as [k'|] eqn:Ek; cbn in H; [|discriminate H]. cbn in HN. apply NoDup_cons in HN as [HN1 HN2]. destruct (IH (<[k' := v]> acc) m HN2) as (I1 & I2 & I3).
      { intros q Hq q' Hc. rewrite lookup_insert_ne; [apply (HA q); [cbn; right; exact Hq|exact Hc]|]. intros ->. apply HN1. rewrite (inj k q q' Ek Hc). exact Hq. }
      { exact H. }
      split; [|split].
      + intros q x Hq. apply elem_of_cons in Hq as [Hq|Hq]; [|apply I1; exact Hq]. injection Hq as -> ->. exists k'. split; [exact Ek|]. apply I3. apply lookup_insert.
      + intros q' x Hx. destruct (I2 q' x Hx) as [Hi|(q & Hq & Hc)]; [|right; exists q; split; [right; exact Hq|exact Hc]].
        destruct (decide (k' = q')) as [<-|Hne]; [|rewrite lookup_insert_ne in Hi by auto; left; exact Hi]. rewrite lookup_insert in Hi. injection Hi as <-. right. exists k. split; [left|exact Ek].
      + intros q' x Hx. apply I3. destruct (decide (k' = q')) as [<-|Hne]; [|rewrite lookup_insert_ne by auto; exact Hx].
        rewrite (HA k (ltac:(cbn; left)) k' Ek) in Hx. discriminate Hx.
  Qed.
  Lemma rekey_map m m' : rekey conv (map_to_list m) ∅ = Some m' ->
    (forall k v, m !! k = Some v -> exists k', conv k = Some k' /\ m' !! k' = Some v) /\ (forall k' v, m' !! k' = Some v -> exists k, m !! k = Some v /\ conv k = Some k').
  Proof.
    intros H. apply rekey_spec in H as (I1 & I2 & _).
    - split; [intros k v Hk; apply I1, elem_of_map_to_list, Hk|]. intros k' v Hv. destruct (I2 k' v Hv) as [Hi|(k & Hk & Hc)]; [rewrite lookup_empty in Hi; discriminate Hi|]. exists k. split; [apply elem_of_map_to_list, Hk|exact Hc].
    - apply NoDup_fst_map_to_list.
    - intros. apply lookup_empty.
  Qed.
  Lemma rekey_lookup m m' k k' : rekey conv (map_to_list m) ∅ = Some m' -> conv k = Some k' -> m' !! k' = m !! k.
  Proof.
    intros H Hk. destruct (rekey_map m m' H) as [I1 I2]. destruct (m !! k) as [v|] eqn:E.
    - destruct (I1 k v E) as (q & Hq & Hv). rewrite Hk in Hq. injection Hq as <-. exact Hv.
    - destruct (m' !! k') as [v|] eqn:E'; [|reflexivity]. destruct (I2 k' v E') as (q & Hq & Hc). rewrite (inj k q k' Hk Hc) in E. congruence.
  Qed.
  Lemma revalue_lookup m m' k : revalue conv m = Some m' -> m' !! k = obind (m !! k) conv.
  Proof.
    unfold revalue. destruct (forallb _ _) eqn:E; [|discriminate]. intros [= <-]. rewrite lookup_omap. destruct (m !! k); reflexivity.
  Qed.
  Lemma revalue_total m m' k v : revalue conv m = Some m' -> m !! k = Some v -> exists v', conv v = Some v'.
  Proof.
    unfold revalue. destruct (forallb _ _) eqn:E; [|discriminate]. intros _ Hk. rewrite forallb_forall in E. specialize (E (k, v)). rewrite <- elem_of_list_In, elem_of_map_to_list in E. specialize (E Hk). cbn in E.
    destruct (conv v) as [v'|]; [eauto|discriminate E].
  Qed.
  Lemma conv_list_lookup l : forall l', conv_list conv l = Some l' -> length l' = length l /\ forall i x, l !! i = Some x -> exists y, conv x = Some y /\ l' !! i = Some y.
  Proof.
    induction l as [|x l IH]; intros l' H; cbn in H; [injection H as <-; split; [reflexivity|intros i x Hx; rewrite lookup_nil in Hx; discriminate Hx]|].
    destruct (conv x) as [y|] eqn:Ex; cbn in H; [|discriminate H]. destruct (conv_list conv l) as [r|] eqn:Er; cbn in H; [|discriminate H]. injection H as <-.
    destruct (IH r eq_refl) as [I1 I2]. split; [cbn; lia|]. intros [|i] z Hz; cbn in *; [injection Hz as <-; eauto|apply I2; exact Hz].
  Qed.
  (** the converted list is searched like the old one if the conversion keeps the order *)
  Context (mono : forall x y x' y', conv x = Some x' -> conv y = Some y' -> x < y -> x' < y').
  Lemma conv_ascending l l' : conv_list conv l = Some l' -> ascending l -> ascending l'.
  Proof.
    intros H HA. destruct (conv_list_lookup l l' H) as [Hl HI]. intros i j x' y' Hij Hx Hy.
    destruct (l !! i) as [x|] eqn:E1; [|apply lookup_ge_None in E1; apply lookup_lt_Some in Hx; lia]. destruct (l !! j) as [y|] eqn:E2; [|apply lookup_ge_None in E2; apply lookup_lt_Some in Hy; lia].
    destruct (HI _ _ E1) as (q & Hq & Hq'), (HI _ _ E2) as (r & Hr & Hr'). rewrite Hx in Hq'. rewrite Hy in Hr'. injection Hq' as <-. injection Hr' as <-. eapply mono; eauto.
  Qed.
  Lemma conv_elem l l' x x' : conv_list conv l = Some l' -> conv x = Some x' -> (x' ∈ l' <-> x ∈ l).
  Proof.
    intros H Hx. destruct (conv_list_lookup l l' H) as [Hl HI]. split; intros Hin; apply elem_of_list_lookup in Hin as [i Hi].
    - destruct (l !! i) as [y|] eqn:E; [|apply lookup_ge_None in E; apply lookup_lt_Some in Hi; lia]. destruct (HI _ _ E) as (q & Hq & Hq'). rewrite Hi in Hq'. injection Hq' as <-.
      rewrite (inj x y x' Hx Hq). apply elem_of_list_lookup. eauto.
    - destruct (HI _ _ Hi) as (q & Hq & Hq'). rewrite Hx in Hq. injection Hq as <-. apply elem_of_list_lookup. eauto.
  Qed.
End conv.
