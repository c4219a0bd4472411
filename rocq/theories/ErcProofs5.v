(** * ErcProofs5: views and progress of the ERC20 precompiles. *)
From Verif Require Import Base MapSum Ledger AmmModel AmmSpec AmmProofs AmmInv AmmProofs5 ErcModel ErcSpec ErcProofs ErcProofs2 ErcProofs3.

Section live.
  Context (C : erc_cfg) (P : policy) (HC : erc_cfg_ok C).
  Notation N := (ec_native C).
  Notation mp := (ec_map C).

  Lemma set_led_id s : set_e_led s (e_led s) = s.
  Proof. destruct s; reflexivity. Qed.
  Lemma call_native now s cx bs : cx_code cx = 2050 -> cx_addr cx = 2050 -> cx_value cx = 0 ->
    evm_call C P now s cx bs = Some (n_execute C P now s cx bs).
  Proof.
    intros E1 E2 E3. unfold evm_call. rewrite E1, E2, E3. cbn [Z.eqb Pos.eqb]. unfold to_amount.
    replace (chk 0) with (Some 0) by (symmetry; apply chk_some; pose proof U128MAX_pos; lia). cbn [ok_or rbind transfer].
    unfold transfer. cbn [Z.eqb rbind]. rewrite set_led_id. unfold execute. rewrite E1, E2. reflexivity.
  Qed.
  Lemma call_asset now s cx bs a : addr_ok (cx_code cx) -> asset_at C (cx_code cx) = Some a -> cx_addr cx = cx_code cx -> cx_value cx = 0 ->
    evm_call C P now s cx bs = a_execute C P now s cx bs.
  Proof.
    intros Ho Ha E2 E3. unfold evm_call. rewrite E2, E3, Z.eqb_refl. unfold to_amount.
    replace (chk 0) with (Some 0) by (symmetry; apply chk_some; pose proof U128MAX_pos; lia). cbn [ok_or rbind].
    unfold transfer. cbn [Z.eqb rbind]. rewrite set_led_id. unfold execute. cbv zeta. rewrite E2, Z.eqb_refl. rewrite andb_false_r.
    destruct (token_not_used _ HC _ _ Ho Ha) as (U & _ & N2). rewrite U. replace (cx_code cx =? 2050) with false by lia.
    destruct (_ =? _) eqn:E; [reflexivity|]. exfalso. destruct (asset_at_exists _ HC _ _ Ha) as (_ & _ & X). unfold address_to_asset_id in X. rewrite E in X. discriminate X.
  Qed.
  Lemma token_cases cx a : ctx_ok cx -> token C (cx_code cx) a ->
    (cx_code cx = 2050 /\ a = N) \/ (asset_at C (cx_code cx) = Some a /\ a <> N /\ cx_code cx <> 2050 /\ ec_exists C a = true).
  Proof.
    intros [Hx _] Ht. apply token_iff in Ht; [|auto]. destruct Ht as [?|[? ?]]; [auto|]. right. destruct (asset_at_exists _ HC _ _ H0) as (? & ? & _). auto.
  Qed.
  Lemma arg_cd sel args rest i w : args !! i = Some w -> u256_ok w -> arg (calldata sel args ++ rest) i = Ok w.
  Proof. intros H1 H2. unfold arg. rewrite (word_calldata _ _ _ _ _ H1 H2). reflexivity. Qed.
  Lemma addr_cd sel args rest i w : args !! i = Some w -> u256_ok w -> addr_arg (calldata sel args ++ rest) i = Ok (w mod 2 ^ 160).
  Proof. intros H1 H2. unfold addr_arg. rewrite (arg_cd _ _ _ _ _ H1 H2). reflexivity. Qed.
  Lemma addr_cd' sel args rest i w x : args !! i = Some w -> is_addr w x -> addr_arg (calldata sel args ++ rest) i = Ok x.
  Proof. intros H1 [H2 ->]. apply addr_cd; auto. Qed.
  Lemma check_plain cx m : cx_value cx = 0 -> (m = View \/ cx_static cx = false) -> check_modifier cx m = Ok tt.
  Proof.
    intros E [->|E2]; unfold check_modifier; rewrite E; [rewrite andb_false_r|rewrite E2]; cbn; [reflexivity|]. destruct m; reflexivity.
  Qed.

  Ltac selok := vm_compute; split; [discriminate|reflexivity].
  Ltac expd := rewrite expect_calldata by (cbn; lia); cbn [rbind].
  Ltac gaddr := match goal with |- context [addr_arg (calldata ?x ?l ++ ?r) ?i] =>
    let o := eval cbn in (l !! i) in match o with Some ?w => rewrite (addr_cd x l r i w eq_refl) by assumption; cbn [rbind] end end.
  Ltac garg := match goal with |- context [arg (calldata ?x ?l ++ ?r) ?i] =>
    let o := eval cbn in (l !! i) in match o with Some ?w => rewrite (arg_cd x l r i w eq_refl) by assumption; cbn [rbind] end end.
  Ltac nat_sel := unfold n_execute; rewrite read_selector_calldata by selok; cbn [ok_or];
    match goal with |- context [native_selector ?z] => let o := eval vm_compute in (native_selector z) in change (native_selector z) with o end; cbn [ok_or]; cbv zeta beta iota.
  Ltac ast_sel Ha := unfold a_execute; rewrite Ha; rewrite read_selector_calldata by selok;
    match goal with |- context [asset_selector ?z] => let o := eval vm_compute in (asset_selector z) in change (asset_selector z) with o end; cbn [ok_or rbind];
    rewrite check_plain by auto; cbn [rbind].

  Lemma view_supply now s cx a rest : ctx_ok cx -> cx_addr cx = cx_code cx -> cx_value cx = 0 -> token C (cx_code cx) a ->
    evm_call C P now s cx (calldata sel_totalSupply [] ++ rest) = Some (Ok (s, [iss (e_led s) a], [])).
  Proof.
    intros Hx E1 E2 Ht. destruct (token_cases _ _ Hx Ht) as [[Ec ->]|(Ha & Hn & Hc & _)].
    - rewrite call_native by congruence. nat_sel. expd. reflexivity.
    - rewrite (call_asset _ _ _ _ a) by (auto; apply Hx). ast_sel Ha. reflexivity.
  Qed.
  Lemma view_balance now s cx a w x rest : ctx_ok cx -> cx_addr cx = cx_code cx -> cx_value cx = 0 -> token C (cx_code cx) a -> is_addr w x ->
    evm_call C P now s cx (calldata sel_balanceOf [w] ++ rest) =
      Some (Ok (s, [if a =? N then Z.max 0 (bal (e_led s) a (mp x) - ec_locked C (mp x)) else bal (e_led s) a (mp x)], [])).
  Proof.
    intros Hx E1 E2 Ht [Hw ->]. destruct (token_cases _ _ Hx Ht) as [[Ec ->]|(Ha & Hn & Hc & _)].
    - rewrite call_native by congruence. rewrite Z.eqb_refl. nat_sel. expd. gaddr. reflexivity.
    - rewrite (call_asset _ _ _ _ a) by (auto; apply Hx). replace (a =? N) with false by lia. ast_sel Ha. expd. gaddr. reflexivity.
  Qed.
  Lemma view_allowance now s cx a wo o wp p rest : ctx_ok cx -> cx_addr cx = cx_code cx -> cx_value cx = 0 -> token C (cx_code cx) a ->
    is_addr wo o -> is_addr wp p ->
    evm_call C P now s cx (calldata sel_allowance [wo; wp] ++ rest) = Some (Ok (s, [allowance C s a (mp o) (mp p)], [])).
  Proof.
    intros Hx E1 E2 Ht [Hw ->] [Hw' ->]. unfold allowance. destruct (token_cases _ _ Hx Ht) as [[Ec ->]|(Ha & Hn & Hc & _)].
    - rewrite call_native by congruence. rewrite Z.eqb_refl. nat_sel. expd. gaddr. gaddr. reflexivity.
    - rewrite (call_asset _ _ _ _ a) by (auto; apply Hx). replace (a =? N) with false by lia. ast_sel Ha. expd. gaddr. gaddr. reflexivity.
  Qed.
  Lemma view_nonces now s cx a w x rest : ctx_ok cx -> cx_addr cx = cx_code cx -> cx_value cx = 0 -> token C (cx_code cx) a -> is_addr w x ->
    evm_call C P now s cx (calldata sel_nonces [w] ++ rest) = Some (Ok (s, [nonce s (cx_code cx) x], [])).
  Proof.
    intros Hx E1 E2 Ht [Hw ->]. unfold nonce, native_erc20. destruct (token_cases _ _ Hx Ht) as [[Ec ->]|(Ha & Hn & Hc & _)].
    - rewrite call_native by congruence. rewrite Ec, Z.eqb_refl. nat_sel. gaddr. reflexivity.
    - rewrite (call_asset _ _ _ _ a) by (auto; apply Hx). replace (cx_code cx =? 2050) with false by lia. ast_sel Ha. gaddr. reflexivity.
  Qed.

  Lemma amount_ok v : 0 <= v <= U128MAX -> to_amount v = Ok v.
  Proof. intros H. unfold to_amount. rewrite (proj2 (chk_some v v)); auto. Qed.

  Lemma transfer_live now s cx a wt to v rest : lenient P -> plain cx -> token C (cx_code cx) a -> ready C (mp (cx_caller cx)) ->
    is_addr wt to -> u256_ok v -> v <= U128MAX -> v <= bal (e_led s) a (mp (cx_caller cx)) ->
    exists s' out logs, ercs C P s cx now (calldata sel_transfer [wt; v] ++ rest) s' out logs.
  Proof.
    intros LP (Hx & E1 & E2 & E3) Ht Hr [Hw ->] Hv Hm Hb.
    destruct (transfer_prog P (e_led s) a (mp (cx_caller cx)) (mp (wt mod 2 ^ 160)) v false LP (proj1 Hv) Hb) as [L TL].
    exists (set_e_led s L), [1], [LTransfer (cx_addr cx) (cx_caller cx) (wt mod 2 ^ 160) v]. unfold ercs.
    destruct (token_cases _ _ Hx Ht) as [[Ec ->]|(Ha & Hn & Hc & Hex)].
    - rewrite call_native by congruence. nat_sel. unfold n_transfer. expd. gaddr. garg. rewrite amount_ok by (destruct Hv; auto). cbn [rbind].
      unfold dispatch. rewrite Hr by (cbn; discriminate). cbn [ensure rbind]. rewrite TL. reflexivity.
    - rewrite (call_asset _ _ _ _ a) by (auto; apply Hx). ast_sel Ha. unfold a_transfer. expd. gaddr. garg. rewrite amount_ok by (destruct Hv; auto). cbn [rbind].
      unfold dispatch. rewrite Hr by (cbn; intros ? [= <-]; auto). cbn [ensure rbind]. rewrite TL. reflexivity.
  Qed.
  Lemma transfer_from_live now s cx a wf from wt to v rest : lenient P -> plain cx -> token C (cx_code cx) a ->
    ready C (mp (cx_caller cx)) -> ready C (mp from) -> is_addr wf from ->
    is_addr wt to -> u256_ok v -> v <= U128MAX -> v <= bal (e_led s) a (mp from) ->
    0 < v -> v <= allowance C s a (mp from) (mp (cx_caller cx)) ->
    (forall a o p, 0 <= allowance C s a o p <= U128MAX) ->
    exists s' out logs, ercs C P s cx now (calldata sel_transferFrom [wf; wt; v] ++ rest) s' out logs.
  Proof.
    intros LP (Hx & E1 & E2 & E3) Ht Hr Hr2 Hwf Hw Hv Hm Hb Hpos Hal WA.
    destruct (transfer_prog P (e_led s) a (mp (from)) (mp (to)) v false LP (proj1 Hv) Hb) as [L TL].
    unfold ercs. pose proof (WA a (mp (from)) (mp (cx_caller cx))) as W1. unfold allowance in Hal, W1.
    destruct (token_cases _ _ Hx Ht) as [[Ec ->]|(Ha & Hn & Hc & Hex)].
    - rewrite call_native by congruence. rewrite Z.eqb_refl in Hal, W1. nat_sel. unfold n_transfer_from. expd. rewrite (addr_cd' sel_transferFrom [wf; wt; v] rest 0 wf from eq_refl Hwf), (addr_cd' sel_transferFrom [wf; wt; v] rest 1 wt to eq_refl Hw). cbn [rbind]. garg. cbv zeta. rewrite amount_ok by (destruct Hv; auto). cbn [rbind].
      destruct (mp (cx_caller cx) =? mp (from)) eqn:EC.
      + cbn [rbind]. unfold dispatch. rewrite Hr2 by (cbn; discriminate). cbn [ensure rbind]. rewrite TL. cbn [rbind]. unfold ret. eauto.
      + destruct (e_nappr s !! (mp (from), mp (cx_caller cx))) as [x|] eqn:EX; cbn [from_option ok_or rbind] in Hal, W1 |- *; unfold id in Hal, W1; [|lia].
        unfold checked_sub. rewrite (proj2 (chk_some (x - v) (x - v))) by (split; [auto|lia]). cbn [ok_or rbind].
        unfold dispatch. rewrite Hr2 by (cbn; discriminate). cbn [ensure rbind set_e_nappr e_led]. rewrite TL. cbn [rbind]. unfold ret. eauto.
    - rewrite (call_asset _ _ _ _ a) by (auto; apply Hx). replace (a =? N) with false in Hal, W1 by lia. ast_sel Ha. unfold a_transfer_from. expd. rewrite (addr_cd' sel_transferFrom [wf; wt; v] rest 0 wf from eq_refl Hwf), (addr_cd' sel_transferFrom [wf; wt; v] rest 1 wt to eq_refl Hw). cbn [rbind]. garg. cbv zeta. rewrite amount_ok by (destruct Hv; auto). cbn [rbind].
      destruct (mp (cx_caller cx) =? mp (from)) eqn:EC; cbn [negb].
      + unfold dispatch. rewrite Hr2 by (cbn; intros ? [= <-]; auto). cbn [ensure rbind]. rewrite TL. cbn [rbind]. unfold ret. eauto.
      + unfold dispatch. rewrite Hr by (cbn; intros ? [= <-]; auto). cbn [ensure rbind].
        destruct (e_aappr s !! (a, mp (from), mp (cx_caller cx))) as [x|] eqn:EX; cbn [from_option ok_or rbind] in Hal, W1 |- *; unfold id in Hal, W1; [|lia].
        unfold checked_sub. rewrite (proj2 (chk_some (x - v) (x - v))) by (split; [auto|lia]). cbn [ok_or rbind].
        rewrite TL. cbn [rbind]. unfold ret. eauto.
  Qed.
  Lemma approve_inner_live s a ow sp v : ec_exists C a = true -> ready C (mp ow) -> exists s', approve_inner C P s a ow sp v = Ok s'.
  Proof.
    intros Hex Hr. unfold approve_inner. destruct (_ =? 0) eqn:E0.
    - cbn [rbind]. unfold dispatch. rewrite Hr by (cbn; intros ? [= <-]; auto). cbn. eauto.
    - unfold dispatch. rewrite !Hr by (cbn; intros ? [= <-]; auto). cbn [ensure rbind].
      destruct (e_aappr s !! _) as [x|] eqn:EX; [|cbn in E0; discriminate E0]. cbn [ok_or rbind]. rewrite Hr by (cbn; intros ? [= <-]; auto). cbn. eauto.
  Qed.
  Lemma approve_live now s cx a wp sp v rest : plain cx -> token C (cx_code cx) a -> ready C (mp (cx_caller cx)) ->
    is_addr wp sp -> u256_ok v -> exists s' out logs, ercs C P s cx now (calldata sel_approve [wp; v] ++ rest) s' out logs.
  Proof.
    intros (Hx & E1 & E2 & E3) Ht Hr [Hw ->] Hv. unfold ercs.
    destruct (token_cases _ _ Hx Ht) as [[Ec ->]|(Ha & Hn & Hc & Hex)].
    - rewrite call_native by congruence. nat_sel. unfold n_approve. expd. gaddr. garg. unfold ret. eauto.
    - rewrite (call_asset _ _ _ _ a) by (auto; apply Hx). ast_sel Ha. unfold a_approve. expd. gaddr. garg.
      destruct (approve_inner_live s a (cx_caller cx) (wp mod 2 ^ 160) v Hex Hr) as [s' ->]. cbn [rbind]. unfold ret. eauto.
  Qed.
  Lemma permit_live now s cx a wo ow wp sp v dl wv r sg rest : plain cx -> token C (cx_code cx) a -> ready C (mp ow) ->
    is_addr wo ow -> is_addr wp sp -> Forall u256_ok [v; dl; wv; r; sg] -> now / 1000 <= dl -> ow <> 0 ->
    ec_recover C (r, sg, wv mod 256) (mkPermit (ec_chain C) (cx_code cx) (ec_name C a) ow sp v (nonce s (cx_code cx) ow) dl) = Some ow ->
    exists s' out logs, ercs C P s cx now (calldata sel_permit [wo; wp; v; dl; wv; r; sg] ++ rest) s' out logs.
  Proof.
    intros (Hx & E1 & E2 & E3) Ht Hr Hwo Hw Hu Hd Hz HR. unfold ercs.
    repeat match goal with X : Forall _ (_ :: _) |- _ => apply Forall_cons in X as [? X] end.
    assert (G : negb (ow =? 0) && (ow =? ow) = true).
    { rewrite Z.eqb_refl. replace (ow =? 0) with false by lia. reflexivity. }
    destruct (token_cases _ _ Hx Ht) as [[Ec ->]|(Ha & Hn & Hc & Hex)].
    - rewrite call_native by congruence. nat_sel. unfold n_permit. rewrite (addr_cd' sel_permit [wo; wp; v; dl; wv; r; sg] rest 0 wo ow eq_refl Hwo), (addr_cd' sel_permit [wo; wp; v; dl; wv; r; sg] rest 1 wp sp eq_refl Hw). cbn [rbind]. do 5 garg. replace (now / 1000 <=? dl) with true by lia. cbn [ensure rbind]. cbv zeta.
      rewrite E1, Ec in *. unfold nonce, native_erc20 in HR. rewrite Z.eqb_refl in HR. rewrite HR. cbn [ok_or rbind]. rewrite G. cbn [ensure rbind]. unfold ret. eauto.
    - rewrite (call_asset _ _ _ _ a) by (auto; apply Hx). ast_sel Ha. unfold a_permit. rewrite (addr_cd' sel_permit [wo; wp; v; dl; wv; r; sg] rest 0 wo ow eq_refl Hwo), (addr_cd' sel_permit [wo; wp; v; dl; wv; r; sg] rest 1 wp sp eq_refl Hw). cbn [rbind]. do 5 garg. replace (now / 1000 <=? dl) with true by lia. cbn [ensure rbind]. cbv zeta.
      unfold nonce, native_erc20 in HR. replace (cx_code cx =? 2050) with false in HR by lia. rewrite HR. cbn [ok_or rbind]. rewrite G. cbn [ensure rbind].
      match goal with |- context [approve_inner C P ?x a ?y ?z ?w] => destruct (approve_inner_live x a y z w Hex Hr) as [s' ->] end. cbn [rbind]. unfold ret. eauto.
  Qed.

  (** the native token takes value with any call: it stays with the contract *)
  Lemma withdraw_exact now s cx w rest s' out logs : ctx_ok cx -> cx_code cx = native_erc20 -> u256_ok w ->
    ercs C P s cx now (calldata sel_withdraw [w] ++ rest) s' out logs ->
    no_funds C cx s s' /\ same_allowances C s s' /\ same_nonces s s' /\ logs = [LWithdrawal (cx_code cx) (cx_caller cx) w].
  Proof.
    intros Hx Hc Hw H. assert (Ht : token C (cx_code cx) N) by (left; auto).
    destruct (call_eff C P HC _ _ _ _ _ _ _ _ Hx Ht H) as (EA & s1 & V & E). destruct (valued_same _ _ _ _ _ V) as [VA VN].
    assert (SW : has_sel (calldata sel_withdraw [w] ++ rest) sel_withdraw).
    { split; [rewrite app_length, calldata_length; lia|apply selector_calldata; selok]. }
    destruct E as [sel ? ? HS' NI ? NK | wt v HS' W0 W1 R TR ? ? ? ? X| wf wt v HS' W0 W1 W2 R TR SA ? ? ? X| wp v HS' W0 W1 EL ? ? ? ? X|
        wo wp v dl wv r sg HS' W0 W1 W2 W3 W4 W5 W6 T RC NZ EL
        | wt v ? HS' W0 W1 R TR PERM SA SN O LG X | wf v ? HS' W0 W1 R TR PERM SA SN O LG X | Ha Hnat HS' Hval TR SA SN O LG | v Ha ? HS' W0 Hle -> ? LG ];
      try (exfalso; pose proof (has_sel_inj _ _ _ SW HS') as X'; discriminate X').
    - exfalso. apply NI. rewrite <- (has_sel_inj _ _ _ SW HS'). apply (bool_decide_unpack _); vm_compute; exact I.
    - exfalso. destruct HS' as [HS'|HS']; [pose proof (has_sel_inj _ _ _ SW HS') as X'; discriminate X'|]. specialize (HS' _ SW). discriminate HS'.
    - rewrite (word_calldata sel_withdraw [w] rest 0 w eq_refl Hw) in W0. injection W0 as <-.
      split; [eapply valued_no_funds; eauto|]. split; [auto|]. split; [auto|]. congruence.
  Qed.
End live.
