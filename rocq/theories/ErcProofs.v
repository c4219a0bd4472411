(** * ErcProofs: ABI encoding and decoding. *)
From Verif Require Import Base MapSum Ledger ErcModel ErcSpec.

Lemma be_snoc l b : be (l ++ [b]) = be l * 256 + b.
Proof. unfold be. rewrite fold_left_app. reflexivity. Qed.
Lemma to_be_length n v : length (to_be n v) = n.
Proof. revert v. induction n; intros; cbn; [auto|]. rewrite app_length, IHn. cbn. lia. Qed.
Lemma to_be_bytes n v : bytes_ok (to_be n v).
Proof.
  unfold bytes_ok. revert v. induction n; intros; cbn; [constructor|]. apply Forall_app_2; [auto|].
  constructor; [|constructor]. apply Z.mod_pos_bound. lia.
Qed.
Lemma be_to_be n v : be (to_be n v) = v mod 256 ^ Z.of_nat n.
Proof.
  revert v. induction n; intros v.
  - cbn. symmetry. apply Z.mod_1_r.
  - cbn [to_be]. rewrite be_snoc, IHn, Nat2Z.inj_succ, Z.pow_succ_r by lia.
    rewrite (Z.rem_mul_r v 256 (256 ^ Z.of_nat n)) by lia. lia.
Qed.
Lemma be_range l : bytes_ok l -> 0 <= be l < 256 ^ Z.of_nat (length l).
Proof.
  induction l as [|b l IH] using rev_ind; intros H.
  - cbn. lia.
  - apply Forall_app in H as [H1 H2]. inversion H2; subst. rewrite be_snoc, app_length. cbn [length].
    rewrite Nat2Z.inj_add, Z.pow_add_r by lia. change (256 ^ Z.of_nat 1) with 256. specialize (IH H1). lia.
Qed.
Lemma to_be_be l : bytes_ok l -> to_be (length l) (be l) = l.
Proof.
  induction l as [|b l IH] using rev_ind; intros H; [reflexivity|].
  apply Forall_app in H as [H1 H2]. inversion H2; subst. rewrite be_snoc, app_length, Nat.add_comm. cbn [length plus to_be].
  rewrite Z.div_add_l by lia. rewrite (Z.div_small b) by lia. rewrite Z.add_0_r, IH by auto.
  replace ((be l * 256 + b) mod 256) with b; [reflexivity|]. rewrite Z.add_comm, Z.mod_add by lia. symmetry. apply Z.mod_small. lia.
Qed.
Lemma pow256_32 : 256 ^ Z.of_nat 32 = 2 ^ 256.
Proof. reflexivity. Qed.
Lemma pow256_4 : 256 ^ Z.of_nat 4 = 2 ^ 32.
Proof. reflexivity. Qed.

Lemma drop_words args rest i : (i <= length args)%nat ->
  drop (32 * i) (concat (map (to_be 32) args) ++ rest) = concat (map (to_be 32) (drop i args)) ++ rest.
Proof.
  revert i. induction args as [|w args IH]; intros [|i] H; cbn [length] in H; try lia; [reflexivity|reflexivity|].
  cbn [map concat drop]. rewrite <- app_assoc.
  replace (32 * S i)%nat with (length (to_be 32 w) + 32 * i)%nat by (rewrite to_be_length; lia).
  rewrite <- drop_drop, drop_app. apply IH. lia.
Qed.
Lemma word_calldata sel args rest i w : args !! i = Some w -> u256_ok w -> word (calldata sel args ++ rest) i = Some w.
Proof.
  intros Hi Hw. unfold word, calldata. rewrite <- app_assoc.
  rewrite <- drop_drop. rewrite (drop_app_alt (to_be 4 sel)) by (symmetry; apply to_be_length).
  pose proof (lookup_lt_Some _ _ _ Hi). rewrite drop_words by lia. rewrite (drop_S args w i Hi). cbn [map concat].
  rewrite <- app_assoc. rewrite (take_app_alt (to_be 32 w)) by (symmetry; apply to_be_length).
  rewrite to_be_length, bool_decide_true by reflexivity. rewrite be_to_be, pow256_32, Z.mod_small by apply Hw. reflexivity.
Qed.
Lemma calldata_length sel args : length (calldata sel args) = (4 + 32 * length args)%nat.
Proof.
  unfold calldata. rewrite app_length, to_be_length. f_equal.
  induction args; cbn [map concat length]; [auto|]. rewrite app_length, to_be_length, IHargs. lia.
Qed.
Lemma selector_calldata sel args rest : 0 <= sel < 2 ^ 32 -> be (take 4 (calldata sel args ++ rest)) = sel.
Proof.
  intros H. unfold calldata. rewrite <- app_assoc. rewrite (take_app_alt (to_be 4 sel)) by (symmetry; apply to_be_length).
  rewrite be_to_be, pow256_4. apply Z.mod_small. auto.
Qed.
Lemma expect_calldata sel args rest n : (n <= length args)%nat -> expect (calldata sel args ++ rest) n = Ok tt.
Proof.
  intros H. unfold expect. rewrite bool_decide_true; [reflexivity|]. rewrite app_length, calldata_length. lia.
Qed.
Lemma read_selector_calldata f sel args rest : 0 <= sel < 2 ^ 32 -> read_selector f (calldata sel args ++ rest) = ok_or (f sel) "unknown selector".
Proof.
  intros H. unfold read_selector. rewrite bool_decide_true by (rewrite app_length, calldata_length; lia). cbn [ensure rbind].
  rewrite selector_calldata by auto. reflexivity.
Qed.

Lemma bytes_take n l : bytes_ok l -> bytes_ok (take n l).
Proof. apply Forall_take. Qed.
Lemma bytes_drop n l : bytes_ok l -> bytes_ok (drop n l).
Proof. apply Forall_drop. Qed.
Lemma word_range bs i w : bytes_ok bs -> word bs i = Some w -> u256_ok w.
Proof.
  unfold word. intros B H. case_bool_decide as L; [|discriminate]. injection H as <-. unfold u256_ok.
  pose proof (be_range _ (bytes_take 32 _ (bytes_drop (4 + 32 * i) _ B))) as T. rewrite L, pow256_32 in T. exact T.
Qed.
Lemma word_split bs i w : bytes_ok bs -> word bs i = Some w -> drop (4 + 32 * i) bs = to_be 32 w ++ drop (4 + 32 * S i) bs.
Proof.
  unfold word. intros B H. case_bool_decide as L; [|discriminate]. injection H as <-.
  rewrite <- (take_drop 32 (drop (4 + 32 * i) bs)) at 1. f_equal.
  - pose proof (to_be_be _ (bytes_take 32 _ (bytes_drop (4 + 32 * i) _ B))) as T. rewrite L in T. symmetry. exact T.
  - rewrite drop_drop. f_equal. lia.
Qed.
Lemma words_invokes bs sel args : bytes_ok bs -> (4 <= length bs)%nat -> be (take 4 bs) = sel ->
  (forall i w, args !! i = Some w -> word bs i = Some w) -> invokes bs sel args.
Proof.
  intros B Lb Hs Hw. exists (drop (4 + 32 * length args) bs). unfold calldata. rewrite <- app_assoc.
  rewrite <- (take_drop 4 bs) at 1. f_equal.
  - pose proof (to_be_be _ (bytes_take 4 _ B)) as T. rewrite take_length, Nat.min_l, Hs in T by lia. symmetry. exact T.
  - assert (G : forall k, (k <= length args)%nat -> drop 4 bs = concat (map (to_be 32) (take k args)) ++ drop (4 + 32 * k) bs).
    { induction k as [|k IH]; intros Hk; [reflexivity|]. destruct (lookup_lt_is_Some_2 args k ltac:(lia)) as [w Ew].
      rewrite (take_S_r _ _ _ Ew), map_app, concat_app, <- app_assoc. cbn [map concat]. rewrite app_nil_r.
      rewrite <- (word_split bs k w B (Hw _ _ Ew)). apply IH. lia. }
    rewrite (G (length args)) by lia. rewrite firstn_all. reflexivity.
Qed.
Lemma invokes_words bs sel args : invokes bs sel args -> 0 <= sel < 2 ^ 32 -> Forall u256_ok args ->
  (4 <= length bs)%nat /\ be (take 4 bs) = sel /\ forall i w, args !! i = Some w -> word bs i = Some w.
Proof.
  intros (rest & ->) Hs Ha. split; [rewrite app_length, calldata_length; lia|]. split; [apply selector_calldata; auto|].
  intros i w Hi. apply word_calldata; auto. eapply Forall_lookup_1 in Ha; eauto.
Qed.
Lemma decode_iff sel n bs args : bytes_ok bs -> 0 <= sel < 2 ^ 32 ->
  decode sel n bs = Some args <-> length args = n /\ Forall u256_ok args /\ invokes bs sel args.
Proof.
  intros B Hs. unfold decode, words. split.
  - destruct (_ && _) eqn:E; [|discriminate]. intros H. apply andb_prop in E as [E1 E2]. apply bool_decide_eq_true in E1.
    apply mapM_Some in H. pose proof (Forall2_length _ _ _ H) as LL. rewrite map_length, seq_length in LL.
    assert (W : forall i w, args !! i = Some w -> word bs i = Some w).
    { intros i w Hi. pose proof (lookup_lt_Some _ _ _ Hi). eapply Forall2_lookup_r in H; [|exact Hi]. destruct H as (x & Hx & Hy).
      unfold id in Hy. rewrite list_lookup_fmap in Hx. rewrite lookup_seq_lt in Hx by lia. cbn in Hx. injection Hx as <-. exact Hy. }
    split; [auto|]. split; [apply Forall_lookup_2; intros i x Hx; eapply word_range; eauto|].
    apply words_invokes; auto. lia.
  - intros (L & F & I). destruct (invokes_words _ _ _ I Hs F) as (A1 & A2 & A3).
    rewrite bool_decide_true by lia. rewrite (proj2 (Z.eqb_eq _ _) A2). cbn [andb].
    apply mapM_Some. apply Forall2_same_length_lookup_2; [rewrite map_length, seq_length; lia|].
    intros i x y Hx Hy. rewrite list_lookup_fmap in Hx. pose proof (lookup_lt_Some _ _ _ Hy).
    rewrite lookup_seq_lt in Hx by lia. cbn in Hx. injection Hx as <-. unfold id. apply A3. auto.
Qed.
