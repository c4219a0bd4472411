(** * ErcProofs2: the effect of every call of a token precompile. *)
From Verif Require Import Base MapSum Ledger ErcModel ErcSpec ErcProofs.

Definition has_sel (bs : list Z) (sel : Z) : Prop := (4 <= length bs)%nat /\ be (take 4 bs) = sel.
Definition set_allow (C : erc_cfg) (s s' : erc) (a : asset) (o p : account) (v : Z) : Prop :=
  forall a' o' p', allowance C s' a' o' p' = if bool_decide (a' = a /\ o' = o /\ p' = p) then v else allowance C s a' o' p'.
Definition set_nonce (s s' : erc) (t o v : Z) : Prop :=
  forall t' o', nonce s' t' o' = if bool_decide (t' = t /\ o' = o) then v else nonce s t' o'.

Section eff.
  Context (C : erc_cfg) (P : policy) (HC : erc_cfg_ok C).
  Notation N := (ec_native C).
  Notation mp := (ec_map C).

  Lemma token_iff addr a : addr_ok addr -> token C addr a <-> (addr = 2050 /\ a = N) \/ (addr <> 2050 /\ asset_at C addr = Some a).
  Proof.
    intros Ha. unfold token, asset_at, address_to_asset_id, native_erc20. split.
    - intros [[-> ->]|(mid & -> & Hm & Hr & E)]; [auto|]. right. split; [lia|].
      replace ((0xffffffff * 2 ^ 128 + mid * 2 ^ 32 + a) / 2 ^ 128) with (2 ^ 32 - 1).
      2:{ apply (Z.div_unique_pos _ _ _ (mid * 2 ^ 32 + a)); lia. }
      rewrite Z.eqb_refl.
      replace ((0xffffffff * 2 ^ 128 + mid * 2 ^ 32 + a) mod 2 ^ 32) with a.
      2:{ apply (Z.mod_unique_pos _ _ (0xffffffff * 2 ^ 96 + mid)); lia. }
      rewrite E. reflexivity.
    - intros [[-> ->]|[Hne H]]; [auto|]. right. destruct (_ =? _) eqn:E; [|discriminate]. destruct (ec_exists C _) eqn:X; [|discriminate].
      injection H as <-. exists ((addr mod 2 ^ 128) / 2 ^ 32).
      pose proof (Z.div_mod addr (2 ^ 128) ltac:(lia)). pose proof (Z.mod_pos_bound addr (2 ^ 128) ltac:(lia)).
      assert (M : addr mod 2 ^ 32 = (addr mod 2 ^ 128) mod 2 ^ 32).
      { symmetry. change (2 ^ 128) with (2 ^ 32 * 2 ^ 96). rewrite Z.rem_mul_r by lia.
        rewrite (Z.mul_comm (2 ^ 32)), Z.mod_add by lia. apply Z.mod_mod. lia. }
      pose proof (Z.div_mod (addr mod 2 ^ 128) (2 ^ 32) ltac:(lia)). pose proof (Z.mod_pos_bound (addr mod 2 ^ 128) (2 ^ 32) ltac:(lia)).
      rewrite M at 1. split; [|split; [|split; [lia|exact X]]].
      + assert (addr / 2 ^ 128 = 2 ^ 32 - 1) by lia. lia.
      + split; [apply Z.div_pos; lia|]. apply Z.div_lt_upper_bound; lia.
  Qed.
  Lemma asset_at_exists addr a : asset_at C addr = Some a -> ec_exists C a = true /\ a <> N /\ address_to_asset_id addr = Some a.
  Proof.
    unfold asset_at. destruct (address_to_asset_id addr) as [x|] eqn:E; [|discriminate]. destruct (ec_exists C x) eqn:X; [|discriminate].
    intros [= ->]. split; [auto|]. split; [|auto]. intros ->. destruct HC. congruence.
  Qed.

  Lemma allow_nat_ins s o p v : set_allow C s (set_e_nappr s (<[(o, p) := v]> (e_nappr s))) N o p v.
  Proof.
    intros a' o' p'. unfold allowance. cbn. destruct (a' =? N) eqn:E.
    - assert (a' = N) as -> by lia. case_bool_decide as D.
      + destruct D as (_ & -> & ->). rewrite lookup_insert. reflexivity.
      + rewrite lookup_insert_ne; [reflexivity|]. intros [= -> ->]; tauto.
    - rewrite bool_decide_false; [reflexivity|]. intros (-> & _). lia.
  Qed.
  Lemma allow_ast_ins s a o p v : a <> N -> set_allow C s (set_e_aappr s (<[(a, o, p) := v]> (e_aappr s))) a o p v.
  Proof.
    intros Hn a' o' p'. unfold allowance. cbn. destruct (a' =? N) eqn:E.
    - rewrite bool_decide_false; [reflexivity|]. intros (-> & _). lia.
    - case_bool_decide as D.
      + destruct D as (-> & -> & ->). rewrite lookup_insert. reflexivity.
      + rewrite lookup_insert_ne; [reflexivity|]. intros [= -> -> ->]; tauto.
  Qed.
  Lemma allow_ast_del s a o p : a <> N -> set_allow C s (set_e_aappr s (delete (a, o, p) (e_aappr s))) a o p 0.
  Proof.
    intros Hn a' o' p'. unfold allowance. cbn. destruct (a' =? N) eqn:E.
    - rewrite bool_decide_false; [reflexivity|]. intros (-> & _). lia.
    - case_bool_decide as D.
      + destruct D as (-> & -> & ->). rewrite lookup_delete. reflexivity.
      + rewrite lookup_delete_ne; [reflexivity|]. intros [= -> -> ->]; tauto.
  Qed.
  Lemma set_allow_ext s s1 s' a o p v :
    e_nappr s1 = e_nappr s -> e_aappr s1 = e_aappr s -> set_allow C s1 s' a o p v -> set_allow C s s' a o p v.
  Proof. intros E1 E2 H a' o' p'. rewrite H. unfold allowance. rewrite E1, E2. reflexivity. Qed.
  Lemma set_allow_trans s s1 s' a o p u v : set_allow C s s1 a o p u -> set_allow C s1 s' a o p v -> set_allow C s s' a o p v.
  Proof. intros H1 H2 a' o' p'. rewrite H2, H1. case_bool_decide; auto. Qed.
  Lemma same_allow_refl s s' : e_nappr s' = e_nappr s -> e_aappr s' = e_aappr s -> same_allowances C s s'.
  Proof. intros E1 E2 a o p. unfold allowance. rewrite E1, E2. reflexivity. Qed.
  Lemma same_nonce_refl s s' : e_nnonce s' = e_nnonce s -> e_anonce s' = e_anonce s -> same_nonces s s'.
  Proof. intros E1 E2 t o. unfold nonce. rewrite E1, E2. reflexivity. Qed.

  (** the effect of a call of the token [a], after the attached value has moved *)
  Inductive eff (now : Z) (cx : ectx) (bs : list Z) (a : asset) (s s' : erc) (out : list Z) (logs : list elog) : Prop :=
  | EffView sel : s' = s -> logs = [] -> has_sel bs sel ->
      sel ∉ [sel_transfer; sel_transferFrom; sel_approve; sel_permit; sel_deposit; sel_withdraw; sel_mint; sel_burn] ->
      (a <> N -> cx_value cx <= 0) -> (a = N -> native_selector sel <> None) -> eff now cx bs a s s' out logs
  | EffTransfer wt v : has_sel bs sel_transfer -> word bs 0 = Some wt -> word bs 1 = Some v -> 0 <= v <= U128MAX ->
      transfer P (e_led s) a (mp (cx_caller cx)) (mp (wt mod 2 ^ 160)) v false = Ok (e_led s') ->
      same_allowances C s s' -> same_nonces s s' -> out = [1] ->
      logs = [LTransfer (cx_addr cx) (cx_caller cx) (wt mod 2 ^ 160) v] ->
      (a <> N -> cx_value cx <= 0 /\ cx_static cx = false) -> eff now cx bs a s s' out logs
  | EffFrom wf wt v : has_sel bs sel_transferFrom -> word bs 0 = Some wf -> word bs 1 = Some wt -> word bs 2 = Some v -> 0 <= v <= U128MAX ->
      transfer P (e_led s) a (mp (wf mod 2 ^ 160)) (mp (wt mod 2 ^ 160)) v false = Ok (e_led s') ->
      (if mp (cx_caller cx) =? mp (wf mod 2 ^ 160) then same_allowances C s s'
       else v <= allowance C s a (mp (wf mod 2 ^ 160)) (mp (cx_caller cx)) /\
            set_allow C s s' a (mp (wf mod 2 ^ 160)) (mp (cx_caller cx)) (allowance C s a (mp (wf mod 2 ^ 160)) (mp (cx_caller cx)) - v)) ->
      same_nonces s s' -> out = [1] -> logs = [LTransfer (cx_addr cx) (wf mod 2 ^ 160) (wt mod 2 ^ 160) v] ->
      (a <> N -> cx_value cx <= 0 /\ cx_static cx = false) -> eff now cx bs a s s' out logs
  | EffApprove wp v : has_sel bs sel_approve -> word bs 0 = Some wp -> word bs 1 = Some v ->
      e_led s' = e_led s -> set_allow C s s' a (mp (cx_caller cx)) (mp (wp mod 2 ^ 160)) (sat128 v) -> same_nonces s s' ->
      out = [1] -> logs = [LApproval (cx_addr cx) (cx_caller cx) (wp mod 2 ^ 160) v] ->
      (a <> N -> cx_value cx <= 0 /\ cx_static cx = false) -> eff now cx bs a s s' out logs
  | EffPermit wo wp v dl wv r sg : has_sel bs sel_permit -> word bs 0 = Some wo -> word bs 1 = Some wp -> word bs 2 = Some v ->
      word bs 3 = Some dl -> word bs 4 = Some wv -> word bs 5 = Some r -> word bs 6 = Some sg ->
      now / 1000 <= dl ->
      ec_recover C (r, sg, wv mod 256)
        (mkPermit (ec_chain C) (cx_code cx) (ec_name C a) (wo mod 2 ^ 160) (wp mod 2 ^ 160) v (nonce s (cx_code cx) (wo mod 2 ^ 160)) dl)
        = Some (wo mod 2 ^ 160) -> wo mod 2 ^ 160 <> 0 ->
      e_led s' = e_led s -> set_allow C s s' a (mp (wo mod 2 ^ 160)) (mp (wp mod 2 ^ 160)) (sat128 v) ->
      set_nonce s s' (cx_code cx) (wo mod 2 ^ 160) (nonce s (cx_code cx) (wo mod 2 ^ 160) + 1) ->
      out = [] -> logs = [LApproval (cx_addr cx) (wo mod 2 ^ 160) (wp mod 2 ^ 160) v] ->
      (a <> N -> cx_value cx <= 0) -> eff now cx bs a s s' out logs
  | EffMint wt v : a <> N -> has_sel bs sel_mint -> word bs 0 = Some wt -> word bs 1 = Some v -> 0 <= v <= U128MAX ->
      mint_into P (e_led s) a (mp (wt mod 2 ^ 160)) v = Ok (e_led s') -> (v = 0 \/ mp (cx_caller cx) = ec_issuer C a) ->
      same_allowances C s s' -> same_nonces s s' -> out = [1] -> logs = [] -> cx_value cx <= 0 /\ cx_static cx = false -> eff now cx bs a s s' out logs
  | EffBurn wf v : a <> N -> has_sel bs sel_burn -> word bs 0 = Some wf -> word bs 1 = Some v -> 0 <= v <= U128MAX ->
      burn_from P (e_led s) a (mp (wf mod 2 ^ 160)) (Z.min v (bal (e_led s) a (mp (wf mod 2 ^ 160)))) = Ok (e_led s') ->
      (v = 0 \/ mp (cx_caller cx) = ec_admin C a) ->
      same_allowances C s s' -> same_nonces s s' -> out = [1] -> logs = [] -> cx_value cx <= 0 /\ cx_static cx = false -> eff now cx bs a s s' out logs
  | EffDeposit : a = N -> ec_is_native C = true -> (has_sel bs sel_deposit \/ forall sel, has_sel bs sel -> native_selector sel = None) ->
      0 < cx_value cx <= U128MAX ->
      transfer P (e_led s) N (mp (cx_addr cx)) (mp (cx_caller cx)) (cx_value cx) false = Ok (e_led s') ->
      same_allowances C s s' -> same_nonces s s' -> out = [] -> logs = [LDeposit (cx_addr cx) (cx_caller cx) (cx_value cx)] ->
      eff now cx bs a s s' out logs
  | EffWithdraw v : a = N -> ec_is_native C = true -> has_sel bs sel_withdraw -> word bs 0 = Some v ->
      v <= Z.max 0 (bal (e_led s) N (mp (cx_caller cx)) - ec_locked C (mp (cx_caller cx))) ->
      s' = s -> out = [] -> logs = [LWithdrawal (cx_addr cx) (cx_caller cx) v] -> eff now cx bs a s s' out logs.

  Lemma arg_some bs i w : arg bs i = Ok w -> word bs i = Some w.
  Proof. apply ok_or_ok. Qed.
  Lemma addr_some bs i x : addr_arg bs i = Ok x -> exists w, word bs i = Some w /\ x = w mod 2 ^ 160.
  Proof. unfold addr_arg. intros H. bstep H w E. injection H as <-. apply arg_some in E. eauto. Qed.
  Lemma to_amount_ok v r : to_amount v = Ok r -> r = v /\ 0 <= v <= U128MAX.
  Proof. unfold to_amount. intros H. apply ok_or_ok in H. apply chk_some in H as [-> H]. auto. Qed.
  Lemma ret_inv s out logs s' out' logs' : ret s out logs = Ok (s', out', logs') -> s' = s /\ out' = out /\ logs' = logs.
  Proof. unfold ret. intros [= <- <- <-]. auto. Qed.
  Lemma sel_native bs a : read_selector native_selector bs = Ok a -> exists z, has_sel bs z /\ native_selector z = Some a.
  Proof. unfold read_selector. intros H. bstep H u E. apply ok_or_ok in H. apply bool_decide_eq_true in E. exists (be (take 4 bs)). split; [split; auto|auto]. Qed.
  Lemma sel_asset bs a : read_selector asset_selector bs = Ok a -> exists z, has_sel bs z /\ asset_selector z = Some a.
  Proof. unfold read_selector. intros H. bstep H u E. apply ok_or_ok in H. apply bool_decide_eq_true in E. exists (be (take 4 bs)). split; [split; auto|auto]. Qed.
  Lemma check_inv cx m : check_modifier cx m = Ok tt ->
    (m <> View -> cx_static cx = false) /\ (m <> Payable -> cx_value cx <= 0).
  Proof.
    unfold check_modifier. intros H. bstep H u E. ok_simpl H. split; intros Hm.
    - destruct (cx_static cx), m; try reflexivity; try discriminate E; congruence.
    - destruct m; try congruence; destruct (0 <? cx_value cx) eqn:V; try discriminate H; lia.
  Qed.

  Lemma native_sel_inv z a : native_selector z = Some a -> match a with
    | TotalSupply => z = sel_totalSupply | BalanceOf => z = sel_balanceOf | Allowance => z = sel_allowance
    | Transfer => z = sel_transfer | Approve => z = sel_approve | TransferFrom => z = sel_transferFrom
    | Name => z = 0x06fdde03 | Symbol => z = 0x95d89b41 | Decimals => z = 0x313ce567
    | Deposit => z = sel_deposit | Withdraw => z = sel_withdraw | Permit => z = sel_permit | Nonces => z = sel_nonces
    | DomainSeparator => z = 0x3644e515 | MinimumBalance | Mint | Burn => False end.
  Proof.
    unfold native_selector. intros H.
    repeat (destruct (z =? _) eqn:?E in H; [injection H as <-; apply Z.eqb_eq; exact E|clear E]). discriminate H.
  Qed.
  Lemma asset_sel_inv z a : asset_selector z = Some a -> match a with
    | TotalSupply => z = sel_totalSupply | BalanceOf => z = sel_balanceOf | Allowance => z = sel_allowance
    | Transfer => z = sel_transfer | Approve => z = sel_approve | TransferFrom => z = sel_transferFrom
    | Name => z = 0x06fdde03 | Symbol => z = 0x95d89b41 | Decimals => z = 0x313ce567
    | MinimumBalance => z = 0xb9d1d49b | Mint => z = sel_mint | Burn => z = sel_burn
    | Permit => z = sel_permit | Nonces => z = sel_nonces
    | DomainSeparator => z = 0x3644e515 | Deposit | Withdraw => False end.
  Proof.
    unfold asset_selector. intros H.
    repeat (destruct (z =? _) eqn:?E in H; [injection H as <-; apply Z.eqb_eq; exact E|clear E]). discriminate H.
  Qed.

  Lemma disp_nt s o to v s' : dispatch C P s o (NTransfer to v) = Ok s' ->
    transfer P (e_led s) N o to v false = Ok (e_led s') /\ s' = set_e_led s (e_led s').
  Proof. unfold dispatch. intros H. bstep H u E. bstep H L EL. injection H as <-. auto. Qed.
  Lemma disp_at s o a to v s' : dispatch C P s o (ATransfer a to v) = Ok s' ->
    transfer P (e_led s) a o to v false = Ok (e_led s') /\ s' = set_e_led s (e_led s').
  Proof. unfold dispatch. intros H. bstep H u E. bstep H L EL. injection H as <-. auto. Qed.
  Lemma disp_ata s o a ow to v s' : dispatch C P s o (ATransferApproved a ow to v) = Ok s' ->
    a <> N /\ transfer P (e_led s) a ow to v false = Ok (e_led s') /\ v <= allowance C s a ow o /\
    set_allow C s s' a ow o (allowance C s a ow o - v) /\ same_nonces s s'.
  Proof.
    unfold dispatch. intros H. bstep H u E. destruct HC as (H1 & H2 & _). pose proof (fun q => H2 _ _ _ a q E) as H3; specialize (H3 eq_refl).
    assert (a <> N) by congruence. bstep H w Ew. bstep H r Er. destruct Er as [-> Er]. bstep H L EL. injection H as <-. cbn.
    assert (A : allowance C s a ow o = w) by (unfold allowance; rewrite Ew; destruct (a =? N) eqn:X; [lia|reflexivity]).
    rewrite A. split; [auto|]. split; [auto|]. split; [lia|]. split; [|apply same_nonce_refl; reflexivity].
    destruct (w - v =? 0) eqn:Z0.
    - replace (w - v) with 0 by lia. apply (allow_ast_del (set_e_led s L) a ow o); auto.
    - apply (allow_ast_ins (set_e_led s L) a ow o (w - v)); auto.
  Qed.
  Lemma disp_appr s o a p v s' : dispatch C P s o (AApprove a p v) = Ok s' ->
    a <> N /\ e_led s' = e_led s /\ set_allow C s s' a o p (sat128 (allowance C s a o p + v)) /\ same_nonces s s'.
  Proof.
    unfold dispatch. intros H. bstep H u E. destruct HC as (H1 & H2 & _). pose proof (fun q => H2 _ _ _ a q E) as H3; specialize (H3 eq_refl).
    assert (a <> N) by congruence. injection H as <-. split; [auto|]. split; [reflexivity|]. split; [|apply same_nonce_refl; reflexivity].
    replace (allowance C s a o p) with (default 0 (e_aappr s !! (a, o, p))) by (unfold allowance; destruct (a =? N) eqn:X; [lia|reflexivity]).
    apply allow_ast_ins; auto.
  Qed.
  Lemma disp_cancel s o a p s' : dispatch C P s o (ACancel a p) = Ok s' ->
    a <> N /\ e_led s' = e_led s /\ set_allow C s s' a o p 0 /\ same_nonces s s'.
  Proof.
    unfold dispatch. intros H. bstep H u E. destruct HC as (H1 & H2 & _). pose proof (fun q => H2 _ _ _ a q E) as H3; specialize (H3 eq_refl).
    assert (a <> N) by congruence. bstep H w Ew. injection H as <-. split; [auto|]. split; [reflexivity|].
    split; [apply allow_ast_del; auto|apply same_nonce_refl; reflexivity].
  Qed.
  Lemma sat128_idem v : sat128 (0 + sat128 v) = sat128 v.
  Proof. rewrite Z.add_0_l. unfold sat128. pose proof U128MAX_pos. lia. Qed.
  Lemma approve_inner_eff s a ow sp v s' : approve_inner C P s a ow sp v = Ok s' ->
    e_led s' = e_led s /\ set_allow C s s' a (mp ow) (mp sp) (sat128 v) /\ same_nonces s s'.
  Proof.
    unfold approve_inner. intros H. bstep H s1 E1. apply disp_appr in H as (Hn & L2 & A2 & N2).
    replace (default 0 (e_aappr s !! (a, mp ow, mp sp))) with (allowance C s a (mp ow) (mp sp)) in E1
      by (unfold allowance; destruct (a =? N) eqn:X; [lia|reflexivity]).
    destruct (allowance C s a (mp ow) (mp sp) =? 0) eqn:Z0.
    - injection E1 as <-. rewrite (proj1 (Z.eqb_eq _ _) Z0), sat128_idem in A2. auto.
    - apply disp_cancel in E1 as (_ & L1 & A1 & N1). split; [congruence|]. split; [|intros t o; rewrite N2; apply N1].
      eapply set_allow_trans; [exact A1|].
      replace (allowance C s1 a (mp ow) (mp sp)) with 0 in A2; [rewrite sat128_idem in A2; exact A2|].
      rewrite A1, bool_decide_true by auto. reflexivity.
  Qed.

  Lemma same_led s L : same_allowances C s (set_e_led s L).
  Proof. apply same_allow_refl; reflexivity. Qed.
  Lemma same_led_n s L : same_nonces s (set_e_led s L).
  Proof. apply same_nonce_refl; reflexivity. Qed.

  Lemma n_execute_eff now s cx bs s' out logs : cx_code cx = 2050 -> cx_addr cx = 2050 ->
    n_execute C P now s cx bs = Ok (s', out, logs) -> eff now cx bs N s s' out logs.
  Proof.
    intros Hc Hcx. unfold n_execute.
    assert (DEP : (has_sel bs sel_deposit \/ forall sel, has_sel bs sel -> native_selector sel = None) ->
      n_deposit C P s cx = Ok (s', out, logs) -> eff now cx bs N s s' out logs).
    { intros Hs H. unfold n_deposit in H. bstep H u1 E1. bstep H amt E2. apply to_amount_ok in E2 as [-> E2]. bstep H u3 E3.
      bstep H s1 E4. apply ret_inv in H as (-> & -> & ->). apply disp_nt in E4 as [E4 Es]. apply EffDeposit; auto; [lia| |].
      - rewrite Es. apply same_led.
      - rewrite Es. apply same_led_n. }
    destruct (read_selector native_selector bs) as [sel| |] eqn:ES.
    2:{ intros H. apply DEP; [|exact H]. right. intros sel [S1 S2]. unfold read_selector in ES. rewrite bool_decide_true in ES by auto.
        cbn [ensure rbind] in ES. rewrite S2 in ES. destruct (native_selector sel); [discriminate ES|reflexivity]. }
    2:{ intros H. apply DEP; [|exact H]. right. intros sel [S1 S2]. unfold read_selector in ES. rewrite bool_decide_true in ES by auto.
        cbn [ensure rbind] in ES. rewrite S2 in ES. destruct (native_selector sel); discriminate ES. }
    apply sel_native in ES as (z & HS & Ez). pose proof Ez as Ez0. apply native_sel_inv in Ez.
    assert (VW : s' = s -> logs = [] -> z ∉ [sel_transfer; sel_transferFrom; sel_approve; sel_permit; sel_deposit; sel_withdraw; sel_mint; sel_burn] ->
      eff now cx bs N s s' out logs) by (intros; eapply EffView; eauto; [tauto|congruence]).
    intros H. cbv zeta in H. destruct sel; cbv beta iota in Ez; try contradiction Ez; subst z.
    - bstep H u1 E1. apply ret_inv in H as (-> & -> & ->). apply VW; auto. apply (bool_decide_unpack _); vm_compute; exact I.
    - bstep H u1 E1. bstep H u2 E2. apply ret_inv in H as (-> & -> & ->). apply VW; auto. apply (bool_decide_unpack _); vm_compute; exact I.
    - bstep H u1 E1. bstep H u2 E2. bstep H u3 E3. apply ret_inv in H as (-> & -> & ->). apply VW; auto. apply (bool_decide_unpack _); vm_compute; exact I.
    - unfold n_transfer in H. bstep H u1 E1. bstep H to E2. apply addr_some in E2 as (wt & E2 & ->). bstep H v E3. apply arg_some in E3.
      bstep H amt E4. apply to_amount_ok in E4 as [-> E4]. bstep H s1 E5. apply ret_inv in H as (-> & -> & ->). apply disp_nt in E5 as [E5 Es].
      eapply EffTransfer; eauto; [rewrite Es; apply same_led|rewrite Es; apply same_led_n|tauto].
    - unfold n_approve in H. bstep H u1 E1. bstep H to E2. apply addr_some in E2 as (wt & E2 & ->). bstep H v E3. apply arg_some in E3.
      apply ret_inv in H as (-> & -> & ->). eapply EffApprove; eauto; [apply allow_nat_ins|apply same_nonce_refl; reflexivity|tauto].
    - unfold n_transfer_from in H. bstep H u1 E1. bstep H from E2. apply addr_some in E2 as (wf & E2 & ->).
      bstep H to E2'. apply addr_some in E2' as (wt & E2' & ->). bstep H v E3. apply arg_some in E3. cbv zeta in H.
      bstep H amt E4. apply to_amount_ok in E4 as [-> E4]. bstep H s1 E5. bstep H s2 E6. apply ret_inv in H as (-> & -> & ->).
      apply disp_nt in E6 as [E6 Es].
      destruct (mp (cx_caller cx) =? mp (wf mod 2 ^ 160)) eqn:EC.
      + injection E5 as <-. eapply (EffFrom _ _ _ _ _ _ _ _ wf wt v); eauto.
        * rewrite EC, Es. apply same_led.
        * rewrite Es. apply same_led_n.
        * tauto.
      + bstep E5 w E7. bstep E5 nv E8. destruct E8 as [-> E8]. injection E5 as <-.
        assert (A : allowance C s N (mp (wf mod 2 ^ 160)) (mp (cx_caller cx)) = w) by (unfold allowance; rewrite E7, Z.eqb_refl; reflexivity).
        eapply (EffFrom _ _ _ _ _ _ _ _ wf wt v); eauto.
        * rewrite EC, A. split; [lia|]. rewrite Es. intros a' o' p'.
          rewrite <- (allow_nat_ins s (mp (wf mod 2 ^ 160)) (mp (cx_caller cx)) (w - v) a' o' p'). reflexivity.
        * rewrite Es. intros t o. reflexivity.
        * tauto.
    - apply ret_inv in H as (-> & -> & ->). apply VW; auto. apply (bool_decide_unpack _); vm_compute; exact I.
    - apply ret_inv in H as (-> & -> & ->). apply VW; auto. apply (bool_decide_unpack _); vm_compute; exact I.
    - apply ret_inv in H as (-> & -> & ->). apply VW; auto. apply (bool_decide_unpack _); vm_compute; exact I.
    - apply DEP; auto.
    - unfold n_withdraw in H. bstep H u1 E1. bstep H v E2. apply arg_some in E2. bstep H u3 E3.
      apply ret_inv in H as (-> & -> & ->). unfold usable in E3. eapply EffWithdraw; eauto. lia.
    - unfold n_permit in H. bstep H ow E1. apply addr_some in E1 as (wo & E1 & ->). bstep H sp E2. apply addr_some in E2 as (wp & E2 & ->).
      bstep H v E3. apply arg_some in E3. bstep H dl E4. apply arg_some in E4. bstep H wv E5. apply arg_some in E5.
      bstep H r E6. apply arg_some in E6. bstep H sg E7. apply arg_some in E7. bstep H u8 E8. cbv zeta in H.
      bstep H signer E9. bstep H u10 E10. apply ret_inv in H as (-> & -> & ->). apply andb_prop in E10 as [E10 E11].
      assert (signer = wo mod 2 ^ 160) as -> by lia.
      assert (NN : nonce s 2050 (wo mod 2 ^ 160) = default 0 (e_nnonce s !! (wo mod 2 ^ 160))) by reflexivity.
      eapply (EffPermit _ _ _ _ _ _ _ _ wo wp v dl wv r sg); eauto.
      + lia.
      + rewrite Hc, NN. rewrite Hcx in E9. exact E9.
      + destruct (wo mod 2 ^ 160 =? 0) eqn:X; [discriminate E10|lia].
      + intros a' o' p'. rewrite <- (allow_nat_ins s (mp (wo mod 2 ^ 160)) (mp (wp mod 2 ^ 160)) (sat128 v) a' o' p'). reflexivity.
      + intros t' o'. rewrite Hc, NN. unfold nonce, native_erc20. cbn. destruct (t' =? 2050) eqn:T.
        * assert (t' = 2050) as -> by lia. case_bool_decide as D.
          { destruct D as [_ ->]. rewrite lookup_insert. reflexivity. }
          rewrite lookup_insert_ne; [reflexivity|]. intros <-. tauto.
        * rewrite bool_decide_false; [reflexivity|]. intros [-> _]. lia.
      + tauto.
    - bstep H u1 E1. apply ret_inv in H as (-> & -> & ->). apply VW; auto. apply (bool_decide_unpack _); vm_compute; exact I.
    - apply ret_inv in H as (-> & -> & ->). apply VW; auto. apply (bool_decide_unpack _); vm_compute; exact I.
  Qed.

  Lemma a_execute_eff now s cx bs a r s' out logs : asset_at C (cx_code cx) = Some a -> cx_code cx <> 2050 ->
    a_execute C P now s cx bs = Some r -> r = Ok (s', out, logs) -> eff now cx bs a s s' out logs.
  Proof.
    intros Ha Hc. unfold a_execute. rewrite Ha. destruct (asset_at_exists _ _ Ha) as (_ & Hn & _). intros [= <-] H.
    bstep H sel ES. bstep H uc EC. destruct uc. apply check_inv in EC as [C1 C2].
    apply sel_asset in ES as (z & HS & Ez). apply asset_sel_inv in Ez.
    assert (VW : s' = s -> logs = [] -> z ∉ [sel_transfer; sel_transferFrom; sel_approve; sel_permit; sel_deposit; sel_withdraw; sel_mint; sel_burn] ->
      cx_value cx <= 0 -> eff now cx bs a s s' out logs) by (intros; eapply EffView; eauto; congruence).
    destruct sel; cbv beta iota in Ez; try contradiction Ez; subst z; cbv beta iota in C1, C2;
      pose proof (C2 ltac:(discriminate)) as C2'; clear C2; rename C2' into C2.
    - apply ret_inv in H as (-> & -> & ->). apply VW; auto. apply (bool_decide_unpack _); vm_compute; exact I.
    - bstep H u1 E1. bstep H u2 E2. apply ret_inv in H as (-> & -> & ->). apply VW; auto. apply (bool_decide_unpack _); vm_compute; exact I.
    - bstep H u1 E1. bstep H u2 E2. bstep H u3 E3. apply ret_inv in H as (-> & -> & ->). apply VW; auto. apply (bool_decide_unpack _); vm_compute; exact I.
    - specialize (C1 ltac:(discriminate)).
      unfold a_transfer in H. bstep H u1 E1. bstep H to E2. apply addr_some in E2 as (wt & E2 & ->). bstep H v E3. apply arg_some in E3.
      bstep H amt E4. apply to_amount_ok in E4 as [-> E4]. bstep H s1 E5. apply ret_inv in H as (-> & -> & ->). apply disp_at in E5 as [E5 Es].
      eapply EffTransfer; eauto; [rewrite Es; apply same_led|rewrite Es; apply same_led_n].
    - specialize (C1 ltac:(discriminate)).
      unfold a_approve in H. bstep H u1 E1. bstep H to E2. apply addr_some in E2 as (wt & E2 & ->). bstep H v E3. apply arg_some in E3.
      bstep H s1 E4. apply approve_inner_eff in E4 as (L1 & A1 & N1). apply ret_inv in H as (-> & -> & ->). eapply EffApprove; eauto.
    - specialize (C1 ltac:(discriminate)).
      unfold a_transfer_from in H. bstep H u1 E1. bstep H from E2. apply addr_some in E2 as (wf & E2 & ->).
      bstep H to E2'. apply addr_some in E2' as (wt & E2' & ->). bstep H v E3. apply arg_some in E3. cbv zeta in H.
      bstep H amt E4. apply to_amount_ok in E4 as [-> E4]. bstep H s1 E5. apply ret_inv in H as (-> & -> & ->).
      destruct (mp (cx_caller cx) =? mp (wf mod 2 ^ 160)) eqn:EC; cbn [negb] in E5.
      + apply disp_at in E5 as [E5 Es]. eapply (EffFrom _ _ _ _ _ _ _ _ wf wt v); eauto.
        * rewrite EC, Es. apply same_led.
        * rewrite Es. apply same_led_n.
      + apply disp_ata in E5 as (_ & E5 & A1 & A2 & N1). eapply (EffFrom _ _ _ _ _ _ _ _ wf wt v); eauto. rewrite EC. auto.
    - apply ret_inv in H as (-> & -> & ->). apply VW; auto. apply (bool_decide_unpack _); vm_compute; exact I.
    - apply ret_inv in H as (-> & -> & ->). apply VW; auto. apply (bool_decide_unpack _); vm_compute; exact I.
    - apply ret_inv in H as (-> & -> & ->). apply VW; auto. apply (bool_decide_unpack _); vm_compute; exact I.
    - apply ret_inv in H as (-> & -> & ->). apply VW; auto. apply (bool_decide_unpack _); vm_compute; exact I.
    - specialize (C1 ltac:(discriminate)).
      unfold a_mint in H. bstep H u1 E1. bstep H to E2. apply addr_some in E2 as (wt & E2 & ->). bstep H v E3. apply arg_some in E3.
      bstep H amt E4. apply to_amount_ok in E4 as [-> E4]. bstep H s1 E5. apply ret_inv in H as (-> & -> & ->).
      unfold dispatch in E5. bstep E5 u6 E6. bstep E5 u7 E7. bstep E5 L E8. injection E5 as <-.
      eapply EffMint; eauto; [|apply same_led|apply same_led_n].
      apply orb_prop in E7 as [?|?]; [left|right]; lia.
    - specialize (C1 ltac:(discriminate)).
      unfold a_burn in H. bstep H u1 E1. bstep H to E2. apply addr_some in E2 as (wt & E2 & ->). bstep H v E3. apply arg_some in E3.
      bstep H amt E4. apply to_amount_ok in E4 as [-> E4]. bstep H s1 E5. apply ret_inv in H as (-> & -> & ->).
      unfold dispatch in E5. bstep E5 u6 E6. bstep E5 u7 E7. bstep E5 L E8. injection E5 as <-.
      eapply EffBurn; eauto; [|apply same_led|apply same_led_n].
      apply orb_prop in E7 as [?|?]; [left|right]; lia.
    - unfold a_permit in H. bstep H ow E1. apply addr_some in E1 as (wo & E1 & ->). bstep H sp E2. apply addr_some in E2 as (wp & E2 & ->).
      bstep H v E3. apply arg_some in E3. bstep H dl E4. apply arg_some in E4. bstep H wv E5. apply arg_some in E5.
      bstep H r E6. apply arg_some in E6. bstep H sg E7. apply arg_some in E7. bstep H u8 E8. cbv zeta in H.
      bstep H signer E9. bstep H u10 E10. bstep H s2 E12. apply ret_inv in H as (-> & -> & ->). apply andb_prop in E10 as [E10 E11].
      assert (signer = wo mod 2 ^ 160) as -> by lia.
      assert (NN : nonce s (cx_code cx) (wo mod 2 ^ 160) = default 0 (e_anonce s !! (cx_code cx, wo mod 2 ^ 160))).
      { unfold nonce, native_erc20. destruct (cx_code cx =? 2050) eqn:X; [lia|reflexivity]. }
      apply approve_inner_eff in E12 as (L1 & A1 & N1).
      eapply (EffPermit _ _ _ _ _ _ _ _ wo wp v dl wv r sg); eauto.
      + lia.
      + rewrite NN. exact E9.
      + destruct (wo mod 2 ^ 160 =? 0) eqn:X; [discriminate E10|lia].
      + intros t' o'. rewrite N1, NN. unfold nonce, native_erc20. cbn. destruct (t' =? 2050) eqn:T.
        * rewrite bool_decide_false; [reflexivity|]. intros [-> _]. lia.
        * case_bool_decide as D.
          { destruct D as [-> ->]. rewrite lookup_insert. reflexivity. }
          rewrite lookup_insert_ne; [reflexivity|]. intros [= <- <-]. tauto.
    - bstep H u1 E1. apply ret_inv in H as (-> & -> & ->). apply VW; auto. apply (bool_decide_unpack _); vm_compute; exact I.
    - apply ret_inv in H as (-> & -> & ->). apply VW; auto. apply (bool_decide_unpack _); vm_compute; exact I.
  Qed.

  (** the attached value moves first *)
  Definition valued (cx : ectx) (s s1 : erc) : Prop :=
    0 <= cx_value cx <= U128MAX /\
    transfer P (e_led s) N (mp (cx_caller cx)) (mp (cx_code cx)) (cx_value cx) false = Ok (e_led s1) /\
    s1 = set_e_led s (e_led s1).

  Lemma token_not_used addr a : addr_ok addr -> asset_at C addr = Some a -> bool_decide (addr ∈ used_addresses) = false /\ 9 < addr /\ addr <> 2050.
  Proof.
    intros Ha H. destruct (asset_at_exists _ _ H) as (_ & _ & X). unfold address_to_asset_id in X.
    destruct (addr / 2 ^ 128 =? 2 ^ 32 - 1) eqn:E; [|discriminate X].
    assert (2050 < addr). { pose proof (Z.mul_div_le addr (2 ^ 128) ltac:(lia)). lia. }
    split; [|lia]. apply bool_decide_eq_false_2. unfold used_addresses. intros I. repeat (apply elem_of_cons in I as [I|I]; [lia|]). inversion I.
  Qed.

  Lemma call_eff now s cx bs s' out logs a : ctx_ok cx -> token C (cx_code cx) a -> ercs C P s cx now bs s' out logs ->
    cx_addr cx = cx_code cx /\ exists s1, valued cx s s1 /\ eff now cx bs a s1 s' out logs.
  Proof.
    intros (Hco & Had & Hca & Hv) Ht H. apply token_iff in Ht; [|auto]. unfold ercs, evm_call in H.
    assert (IP : is_precompile C (cx_code cx) = true /\ 9 < cx_code cx).
    { unfold is_precompile. destruct Ht as [[-> ->]|[_ Ht]]; [split; [reflexivity|lia]|].
      destruct (token_not_used _ _ Hco Ht) as (_ & ? & _). rewrite Ht. rewrite orb_true_iff. split; [right; apply bool_decide_eq_true_2; eauto|auto]. }
    destruct IP as [IP I9].
    destruct (cx_addr cx =? cx_code cx) eqn:EA.
    - destruct (rbind _ _) as [s1| |] eqn:V; try discriminate H. bstep V amt V1. apply to_amount_ok in V1 as [-> V1]. bstep V L V2. injection V as <-.
      assert (EA' : cx_addr cx = cx_code cx) by lia. split; [auto|]. exists (set_e_led s L). split; [split; [auto|split; [rewrite <- EA'; exact V2|reflexivity]]|].
      unfold execute in H. cbv zeta in H. rewrite IP in H. replace (9 <? cx_code cx) with true in H by lia. rewrite EA in H. cbn [andb negb] in H.
      destruct Ht as [[E2 ->]|[E2 Ht]].
      + rewrite E2, Z.eqb_refl in H. injection H as H. apply n_execute_eff; auto; lia.
      + replace (cx_code cx =? 2050) with false in H by lia. destruct (token_not_used _ _ Hco Ht) as (U & _). rewrite U in H.
        destruct (_ =? _) eqn:ER in H; [|discriminate H]. eapply a_execute_eff; eauto.
    - unfold execute in H. cbv zeta in H. rewrite IP in H. replace (9 <? cx_code cx) with true in H by lia. rewrite EA in H. cbn [andb negb] in H. discriminate H.
  Qed.
  Lemma call_pure now s cx bs s' out logs : ctx_ok cx -> (forall a, ~ token C (cx_code cx) a) -> ercs C P s cx now bs s' out logs ->
    logs = [] /\ (s' = s \/ valued cx s s').
  Proof.
    intros (Hco & Had & Hca & Hv) Ht H. unfold ercs, evm_call in H.
    assert (N2 : cx_code cx <> 2050). { intros E. apply (Ht N). left. auto. }
    assert (NA : asset_at C (cx_code cx) = None).
    { destruct (asset_at C (cx_code cx)) as [a|] eqn:E; [|auto]. exfalso. apply (Ht a). apply token_iff; auto. }
    assert (X : forall s1, execute C P now s1 cx bs = Some (Ok (s', out, logs)) -> s' = s1 /\ logs = []).
    { intros s1 X. unfold execute in X. cbv zeta in X. destruct (_ && _) in X; [discriminate X|].
      replace (cx_code cx =? 2050) with false in X by lia. destruct (bool_decide _) in X.
      - injection X as X. bstep X o E. apply ret_inv in X as (-> & _ & ->). auto.
      - destruct (_ =? _) in X; [|discriminate X]. unfold a_execute in X. rewrite NA in X. discriminate X. }
    destruct (cx_addr cx =? cx_code cx) eqn:EA.
    - destruct (rbind _ _) as [s1| |] eqn:V; try discriminate H. bstep V amt V1. apply to_amount_ok in V1 as [-> V1]. bstep V L V2. injection V as <-.
      destruct (X _ H) as [-> ->]. split; [auto|]. right. split; [auto|]. assert (EA' : cx_addr cx = cx_code cx) by lia. rewrite <- EA'. auto.
    - destruct (X _ H) as [-> ->]. auto.
  Qed.
End eff.
