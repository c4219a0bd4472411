(** * ErcProofs3: ERC20 properties of single calls. *)
From Verif Require Import Base MapSum Ledger AmmModel AmmSpec AmmProofs AmmInv AmmProofs5 ErcModel ErcSpec ErcProofs ErcProofs2.

Section one.
  Context (C : erc_cfg) (P : policy) (HC : erc_cfg_ok C).
  Notation N := (ec_native C).
  Notation mp := (ec_map C).

  Lemma token_of_iff addr a : addr_ok addr -> token_of C addr = Some a <-> token C addr a.
  Proof.
    intros Ha. rewrite (token_iff C addr a Ha). unfold token_of, native_erc20. destruct (addr =? 2050) eqn:E.
    - split; [intros [= <-]; left; split; [lia|auto]|]. intros [[_ ->]|[? _]]; [auto|lia].
    - split; [intros H; right; split; [lia|auto]|]. intros [[? _]|[_ ?]]; [lia|auto].
  Qed.

  Lemma has_sel_calldata sel args rest z : 0 <= sel < 2 ^ 32 -> has_sel (calldata sel args ++ rest) z -> z = sel.
  Proof. intros H [_ E]. rewrite selector_calldata in E; auto. Qed.
  Lemma has_sel_inj bs x y : has_sel bs x -> has_sel bs y -> x = y.
  Proof. intros [_ <-] [_ <-]. reflexivity. Qed.

  Lemma valued_funds cx s s1 s' a f t v : valued C P cx s s1 ->
    (forall b w, bal (e_led s') b w = bal (e_led s1) b w - at_ a f b w v + at_ a t b w v) -> (forall b, iss (e_led s') b = iss (e_led s1) b) ->
    funds C cx s s' a f t v.
  Proof.
    intros (_ & V & _) H1 H2. destruct (transfer_spec _ _ _ _ _ _ _ _ V) as (B & I & _). split.
    - intros b w. rewrite H1, B. lia.
    - intros b. rewrite H2. apply I.
  Qed.
  Lemma valued_same cx s s1 : valued C P cx s s1 -> same_allowances C s s1 /\ same_nonces s s1.
  Proof. intros (_ & _ & ->). split; [apply same_led|apply same_led_n]. Qed.
  Lemma at_zero a f b w : at_ a f b w 0 = 0.
  Proof. unfold at_. case_bool_decide; reflexivity. Qed.
  Lemma valued_no_funds cx s s1 s' : valued C P cx s s1 -> e_led s' = e_led s1 -> no_funds C cx s s'.
  Proof. intros V E a w. apply (valued_funds cx s s1 s'); auto; intros; rewrite E; rewrite ?at_zero; lia. Qed.

  Ltac uncall H Ht := destruct (call_eff C P HC _ _ _ _ _ _ _ _ ltac:(eassumption) Ht H) as (EA & s1 & V & E).
  Ltac selok := vm_compute; split; [discriminate|reflexivity].
  Ltac badsel := match goal with
    | HS : has_sel (calldata ?x _ ++ _) ?y |- _ => apply has_sel_calldata in HS; [|selok]; discriminate HS
    | HS : has_sel (calldata ?x ?l ++ ?r) ?y \/ _ |- _ =>
        destruct HS as [HS|HS]; [apply has_sel_calldata in HS; [|selok]; discriminate HS|];
        let X := fresh in assert (X : has_sel (calldata x l ++ r) x) by (split; [rewrite app_length, calldata_length; lia|apply selector_calldata; selok]);
        specialize (HS x X); vm_compute in HS; discriminate HS end.
  Ltac getword H := match type of H with word (calldata ?x ?l ++ ?r) ?i = Some _ =>
    let o := eval cbn in (l !! i) in match o with Some ?w => rewrite (word_calldata x l r i w eq_refl) in H; [injection H as <-|assumption] end end.
  Ltac noview := match goal with HS : has_sel (calldata ?x _ ++ _) ?y, NI : ?y ∉ _ |- _ =>
    apply has_sel_calldata in HS; [|selok]; subst y; exfalso; apply NI; apply (bool_decide_unpack _); vm_compute; exact I end.

  Lemma transfer_exact now s cx wt to v rest s' out logs a :
    ctx_ok cx -> token C (cx_code cx) a -> is_addr wt to -> u256_ok v ->
    ercs C P s cx now (calldata sel_transfer [wt; v] ++ rest) s' out logs ->
    v <= U128MAX /\ out = [1] /\ logs = [LTransfer (cx_code cx) (cx_caller cx) to v] /\
    funds C cx s s' a (mp (cx_caller cx)) (mp to) v /\ same_allowances C s s' /\ same_nonces s s' /\
    (cx_value cx = 0 -> 0 < v -> mp (cx_caller cx) <> mp to -> v <= bal (e_led s) a (mp (cx_caller cx))).
  Proof.
    intros Hx Ht [Hw ->] Hv H. uncall H Ht. destruct (valued_same _ _ _ V) as [VA VN].
    destruct E as [sel ? ? HS NI ? ?|wt' v' HS W0 W1 R TR SA SN O LG ?| | | | | | |]; [noview| |badsel..].
    getword W0. getword W1. destruct (transfer_spec _ _ _ _ _ _ _ _ TR) as (B & I & G).
    split; [lia|]. split; [auto|]. split; [congruence|]. split; [eapply valued_funds; eauto|].
    split; [intros a' o' p'; rewrite SA; apply VA|]. split; [intros t o; rewrite SN; apply VN|].
    intros Z0 Hp Hne. specialize (G Hp Hne). destruct V as (VR & VT & _). rewrite Z0 in VT. cbn in VT. injection VT as VT. rewrite VT. exact G.
  Qed.
  Lemma transfer_from_exact now s cx wf from wt to v rest s' out logs a :
    ctx_ok cx -> token C (cx_code cx) a -> is_addr wf from -> is_addr wt to -> u256_ok v ->
    ercs C P s cx now (calldata sel_transferFrom [wf; wt; v] ++ rest) s' out logs ->
    v <= U128MAX /\ out = [1] /\ logs = [LTransfer (cx_code cx) from to v] /\
    funds C cx s s' a (mp from) (mp to) v /\ same_nonces s s' /\
    (mp from = mp (cx_caller cx) -> same_allowances C s s') /\
    (mp from <> mp (cx_caller cx) ->
       v <= allowance C s a (mp from) (mp (cx_caller cx)) /\
       forall b o p, allowance C s' b o p =
         allowance C s b o p - (if bool_decide (b = a /\ o = mp from /\ p = mp (cx_caller cx)) then v else 0)).
  Proof.
    intros Hx Ht [Hwf ->] [Hwt ->] Hv H. uncall H Ht. destruct (valued_same _ _ _ V) as [VA VN].
    destruct E as [sel ? ? HS NI ? ?| |wf' wt' v' HS W0 W1 W2 R TR SA SN O LG ?| | | | | |]; [noview|badsel| |badsel..].
    getword W0. getword W1. getword W2. destruct (transfer_spec _ _ _ _ _ _ _ _ TR) as (B & I & G).
    split; [lia|]. split; [auto|]. split; [congruence|]. split; [eapply valued_funds; eauto|].
    split; [intros t o; rewrite SN; apply VN|]. destruct (mp (cx_caller cx) =? mp (wf mod 2 ^ 160)) eqn:EC.
    - split; [|lia]. intros _ b o p. rewrite SA. apply VA.
    - split; [lia|]. intros _. rewrite VA in SA. destruct SA as [S1 S2]. split; [auto|]. intros b o p. rewrite S2, VA.
      case_bool_decide as D; [destruct D as (-> & -> & ->)|]; lia.
  Qed.
  Lemma approve_exact now s cx wp sp v rest s' out logs a :
    ctx_ok cx -> token C (cx_code cx) a -> is_addr wp sp -> u256_ok v ->
    ercs C P s cx now (calldata sel_approve [wp; v] ++ rest) s' out logs ->
    out = [1] /\ logs = [LApproval (cx_code cx) (cx_caller cx) sp v] /\ no_funds C cx s s' /\ same_nonces s s' /\
    forall b o p, allowance C s' b o p =
      if bool_decide (b = a /\ o = mp (cx_caller cx) /\ p = mp sp) then Z.min v U128MAX else allowance C s b o p.
  Proof.
    intros Hx Ht [Hw ->] Hv H. uncall H Ht. destruct (valued_same _ _ _ V) as [VA VN].
    destruct E as [sel ? ? HS NI ? ?| | |wp' v' HS W0 W1 EL SA SN O LG ?| | | | |]; [noview|badsel|badsel| |badsel..].
    getword W0. getword W1. split; [auto|]. split; [congruence|]. split; [eapply valued_no_funds; eauto|].
    split; [intros t o; rewrite SN; apply VN|]. intros b o p. rewrite SA. rewrite VA. unfold sat128. pose proof U128MAX_pos. destruct Hv.
    replace (Z.max 0 (Z.min v U128MAX)) with (Z.min v U128MAX) by lia. reflexivity.
  Qed.
  Lemma permit_exact now s cx wo ow wp sp v dl wv r sg rest s' out logs a :
    ctx_ok cx -> token C (cx_code cx) a -> is_addr wo ow -> is_addr wp sp -> u256_ok v -> u256_ok dl -> u256_ok wv -> u256_ok r -> u256_ok sg ->
    ercs C P s cx now (calldata sel_permit [wo; wp; v; dl; wv; r; sg] ++ rest) s' out logs ->
    now / 1000 <= dl /\ ow <> 0 /\
    ec_recover C (r, sg, wv mod 256) (mkPermit (ec_chain C) (cx_code cx) (ec_name C a) ow sp v (nonce s (cx_code cx) ow) dl) = Some ow /\
    out = [] /\ logs = [LApproval (cx_code cx) ow sp v] /\ no_funds C cx s s' /\
    (forall t o, nonce s' t o = nonce s t o + if bool_decide (t = cx_code cx /\ o = ow) then 1 else 0) /\
    (forall b o p, allowance C s' b o p = if bool_decide (b = a /\ o = mp ow /\ p = mp sp) then Z.min v U128MAX else allowance C s b o p).
  Proof.
    intros Hx Ht [Hwo ->] [Hwp ->] Hv Hdl Hwv Hr Hsg H. uncall H Ht. destruct (valued_same _ _ _ V) as [VA VN].
    destruct E as [sel ? ? HS NI ? ?| | | |wo' wp' v' dl' wv' r' sg' HS W0 W1 W2 W3 W4 W5 W6 T RC NZ EL SA SN O LG ?| | | |]; [noview|badsel|badsel|badsel| |badsel..].
    getword W0. getword W1. getword W2. getword W3. getword W4. getword W5. getword W6. rewrite VN in RC.
    split; [auto|]. split; [auto|]. split; [auto|]. split; [auto|]. split; [congruence|]. split; [eapply valued_no_funds; eauto|].
    split.
    - intros t o. rewrite SN, !VN. case_bool_decide as D; [destruct D as (-> & ->)|]; lia.
    - intros b o p. rewrite SA, VA. unfold sat128. pose proof U128MAX_pos. destruct Hv.
      replace (Z.max 0 (Z.min v U128MAX)) with (Z.min v U128MAX) by lia. reflexivity.
  Qed.

  (** who can make a balance fall *)
  Lemma balance_falls now s cx bs s' out logs b w :
    ctx_ok cx -> bytes_ok bs -> ercs C P s cx now bs s' out logs -> bal (e_led s') b w < bal (e_led s) b w ->
    w = mp (cx_caller cx) \/
    (exists wf from wt v, invokes bs sel_transferFrom [wf; wt; v] /\ is_addr wf from /\ w = mp from /\ token C (cx_code cx) b /\
       v <= allowance C s b w (mp (cx_caller cx)) /\ bal (e_led s) b w - v <= bal (e_led s') b w /\
       allowance C s' b w (mp (cx_caller cx)) = allowance C s b w (mp (cx_caller cx)) - v) \/
    (exists wf from v, invokes bs sel_burn [wf; v] /\ is_addr wf from /\ w = mp from /\ token C (cx_code cx) b /\
       b <> N /\ mp (cx_caller cx) = ec_admin C b).
  Proof.
    intros Hx Hb H Hlt. destruct (Z.eq_dec w (mp (cx_caller cx))) as [|Hw]; [auto|right].
    assert (VB : forall s1, valued C P cx s s1 -> bal (e_led s) b w <= bal (e_led s1) b w).
    { intros s1 (V0 & V & _). destruct (transfer_spec _ _ _ _ _ _ _ _ V) as (B & _ & _). rewrite B. unfold at_. repeat case_bool_decide; destruct_and?; try congruence; lia. }
    destruct (token_of C (cx_code cx)) as [a|] eqn:ET.
    - assert (Ht : token C (cx_code cx) a) by (apply token_of_iff; [apply Hx|auto]). uncall H Ht. specialize (VB _ V).
      destruct (valued_same _ _ _ V) as [VA VN].
      destruct E as [sel -> | wt v HS W0 W1 R TR | wf wt v HS W0 W1 W2 R TR SA | wp v HS W0 W1 EL | wo wp v dl wv r sg HS W0 W1 W2 W3 W4 W5 W6 T RC NZ EL
        | wt v Hn HS W0 W1 R TR | wf v Hn HS W0 W1 R TR PERM | Ha Hnat HS Hval TR | v Ha ? HS W0 Hle -> ]; try (rewrite EL in Hlt; lia).
      + lia.
      + destruct (transfer_spec _ _ _ _ _ _ _ _ TR) as (B & _ & _). rewrite B in Hlt. exfalso. revert Hlt.
        unfold at_. repeat case_bool_decide; destruct_and?; try congruence; lia.
      + left. destruct (transfer_spec _ _ _ _ _ _ _ _ TR) as (B & _ & _). pose proof (B b w) as Bw. unfold at_ in Bw.
        destruct (decide (b = a /\ w = mp (wf mod 2 ^ 160))) as [D1|D1]; [|exfalso; rewrite (bool_decide_false _ D1) in Bw; revert Bw; case_bool_decide; lia].
        rewrite (bool_decide_true _ D1) in Bw. destruct D1 as [-> ->].
        replace (mp (cx_caller cx) =? mp (wf mod 2 ^ 160)) with false in SA by lia. rewrite VA in SA. destruct SA as [S1 S2].
        exists wf, (wf mod 2 ^ 160), wt, v. split; [|split; [|split; [|split; [|split; [|split]]]]]; auto.
        * destruct HS as [L1 L2]. apply words_invokes; auto. intros [|[|[|i]]] x Hi; cbn in Hi; try (injection Hi as <-); auto. discriminate Hi.
        * split; [eapply word_range; eauto|reflexivity].
        * revert Bw; case_bool_decide; lia.
        * rewrite S2. rewrite bool_decide_true by auto. reflexivity.
      + exfalso. destruct (mint_spec _ _ _ _ _ _ TR) as (_ & B & _). rewrite B in Hlt. revert Hlt. unfold at_. case_bool_decide; lia.
      + right. destruct (burn_spec _ _ _ _ _ _ TR) as (_ & _ & B & _). pose proof (B b w) as Bw. unfold at_ in Bw.
        destruct (decide (b = a /\ w = mp (wf mod 2 ^ 160))) as [D1|D1]; [|exfalso; rewrite (bool_decide_false _ D1) in Bw; lia].
        rewrite (bool_decide_true _ D1) in Bw. destruct D1 as [-> ->].
        exists wf, (wf mod 2 ^ 160), v. split; [|split; [|split; [|split; [|split]]]]; auto.
        * destruct HS as [L1 L2]. apply words_invokes; auto. intros [|[|i]] x Hi; cbn in Hi; try (injection Hi as <-); auto. discriminate Hi.
        * split; [eapply word_range; eauto|reflexivity].
        * destruct PERM as [->|]; [|auto]. exfalso. lia.
      + exfalso. destruct V as (_ & V & _). destruct (transfer_spec _ _ _ _ _ _ _ _ V) as (B1 & _ & _). destruct (transfer_spec _ _ _ _ _ _ _ _ TR) as (B2 & _ & _).
        rewrite B2, B1, EA in Hlt. lia.
      + lia.
    - exfalso. assert (Hn : forall a, ~ token C (cx_code cx) a). { intros a Ht. apply token_of_iff in Ht; [congruence|apply Hx]. }
      destruct (call_pure C P _ _ _ _ _ _ _ Hx Hn H) as (_ & [->|V]); [lia|]. specialize (VB _ V). lia.
  Qed.

  (** the supply changes only through mint by the issuer and burn by the admin *)
  Lemma supply_changes now s cx bs s' out logs b :
    ctx_ok cx -> bytes_ok bs -> ercs C P s cx now bs s' out logs -> iss (e_led s') b <> iss (e_led s) b ->
    token C (cx_code cx) b /\ b <> N /\
    ((exists w x v, invokes bs sel_mint [w; v] /\ is_addr w x /\ mp (cx_caller cx) = ec_issuer C b /\
        iss (e_led s') b = iss (e_led s) b + v /\ bal (e_led s') b (mp x) = bal (e_led s) b (mp x) + v) \/
     (exists w x v, invokes bs sel_burn [w; v] /\ is_addr w x /\ mp (cx_caller cx) = ec_admin C b /\
        iss (e_led s') b = iss (e_led s) b - Z.min v (bal (e_led s) b (mp x)) /\
        bal (e_led s') b (mp x) = bal (e_led s) b (mp x) - Z.min v (bal (e_led s) b (mp x)))).
  Proof.
    intros Hx Hb H Hlt.
    assert (VB : forall s1, valued C P cx s s1 -> iss (e_led s) b = iss (e_led s1) b).
    { intros s1 (V0 & V & _). destruct (transfer_spec _ _ _ _ _ _ _ _ V) as (_ & I & _). auto. }
    destruct (token_of C (cx_code cx)) as [a|] eqn:ET.
    - assert (Ht : token C (cx_code cx) a) by (apply token_of_iff; [apply Hx|auto]). uncall H Ht. specialize (VB _ V).
      destruct E as [sel -> | wt v HS W0 W1 R TR | wf wt v HS W0 W1 W2 R TR SA | wp v HS W0 W1 EL | wo wp v dl wv r sg HS W0 W1 W2 W3 W4 W5 W6 T RC NZ EL
        | wt v Hn HS W0 W1 R TR PERM SA SN O LG CV | wf v Hn HS W0 W1 R TR PERM SA SN O LG CV | Ha Hnat HS Hval TR | v Ha ? HS W0 Hle -> ];
        try (rewrite EL in Hlt; lia); try (exfalso; destruct (transfer_spec _ _ _ _ _ _ _ _ TR) as (_ & I & _); rewrite I in Hlt; lia); try lia.
      + destruct (mint_spec _ _ _ _ _ _ TR) as (_ & B & I). rewrite I in Hlt. case_bool_decide as D; [subst b|lia].
        split; [auto|]. split; [auto|]. left. exists wt, (wt mod 2 ^ 160), v.
        destruct V as (_ & V & _). destruct (transfer_spec _ _ _ _ _ _ _ _ V) as (B1 & _ & _).
        split; [|split; [|split; [|split]]]; auto.
        * destruct HS as [L1 L2]. apply words_invokes; auto. intros [|[|i]] x Hi; cbn in Hi; try (injection Hi as <-); auto. discriminate Hi.
        * split; [eapply word_range; eauto|reflexivity].
        * destruct PERM as [->|]; [lia|auto].
        * rewrite I, bool_decide_true by auto. lia.
        * rewrite B, B1. unfold at_. rewrite (bool_decide_true (a = a /\ _)) by auto. rewrite !bool_decide_false by (intros [? _]; congruence). lia.
      + destruct (burn_spec _ _ _ _ _ _ TR) as (_ & _ & B & I). rewrite I in Hlt. case_bool_decide as D; [subst b|lia].
        split; [auto|]. split; [auto|]. right. exists wf, (wf mod 2 ^ 160), v.
        destruct V as (_ & V & _). destruct (transfer_spec _ _ _ _ _ _ _ _ V) as (B1 & _ & _).
        assert (EB : bal (e_led s1) a (mp (wf mod 2 ^ 160)) = bal (e_led s) a (mp (wf mod 2 ^ 160))).
        { rewrite B1. unfold at_. rewrite !bool_decide_false by (intros [? _]; congruence). lia. }
        rewrite EB in *. split; [|split; [|split; [|split]]]; auto.
        * destruct HS as [L1 L2]. apply words_invokes; auto. intros [|[|i]] x Hi; cbn in Hi; try (injection Hi as <-); auto. discriminate Hi.
        * split; [eapply word_range; eauto|reflexivity].
        * destruct PERM as [->|]; [|auto].
          exfalso. destruct (burn_spec _ _ _ _ _ _ TR) as (X & _). lia.
        * rewrite I, bool_decide_true by auto. lia.
        * rewrite B. unfold at_. rewrite (bool_decide_true (a = a /\ _)) by auto. lia.
    - exfalso. assert (Hn : forall a, ~ token C (cx_code cx) a). { intros a Ht. apply token_of_iff in Ht; [congruence|apply Hx]. }
      destruct (call_pure C P _ _ _ _ _ _ _ Hx Hn H) as (_ & [->|V]); [lia|]. specialize (VB _ V). lia.
  Qed.

  (** DELEGATECALL and CALLCODE *)
  Lemma no_delegate now s cx bs : addr_ok (cx_code cx) -> cx_addr cx <> cx_code cx ->
    (exists a, token C (cx_code cx) a) \/ cx_code cx ∈ [1024; 1025; 1026; 1027] ->
    evm_call C P now s cx bs = Some (Err "cannot be called with DELEGATECALL or CALLCODE").
  Proof.
    intros Hco Hne Ht. unfold evm_call. replace (cx_addr cx =? cx_code cx) with false by lia. unfold execute. cbv zeta.
    assert (IP : is_precompile C (cx_code cx) = true /\ 9 < cx_code cx).
    { unfold is_precompile. destruct Ht as [[a Ht]|Ht].
      - apply (token_iff C) in Ht; [|auto]. destruct Ht as [[-> ->]|[_ Ht]]; [split; [reflexivity|lia]|].
        destruct (token_not_used _ HC _ _ Hco Ht) as (_ & ? & _). rewrite Ht. rewrite orb_true_iff. split; [right; apply bool_decide_eq_true_2; eauto|auto].
      - repeat (apply elem_of_cons in Ht as [->|Ht]; [split; [reflexivity|lia]|]). inversion Ht. }
    destruct IP as [-> I9]. replace (9 <? cx_code cx) with true by lia. replace (cx_addr cx =? cx_code cx) with false by lia. reflexivity.
  Qed.

  (** assets are neither payable nor writable from a static context, except for permit *)
  Lemma asset_not_payable now s cx bs s' out logs a :
    ctx_ok cx -> token C (cx_code cx) a -> a <> N -> ercs C P s cx now bs s' out logs -> cx_value cx = 0.
  Proof.
    intros Hx Ht Hn H. uncall H Ht. destruct V as ((V0 & _) & _).
    destruct E; try (match goal with X : a <> N -> _ |- _ => specialize (X Hn); lia end); try lia; congruence.
  Qed.
  Lemma asset_static now s cx bs s' out logs a :
    ctx_ok cx -> bytes_ok bs -> token C (cx_code cx) a -> a <> N -> cx_static cx = true -> ercs C P s cx now bs s' out logs ->
    s' = s \/ exists args, length args = 7%nat /\ invokes bs sel_permit args.
  Proof.
    intros Hx Hb Ht Hn Hst H. pose proof (asset_not_payable _ _ _ _ _ _ _ _ Hx Ht Hn H) as V0. uncall H Ht.
    assert (s1 = s) as ->. { destruct V as (_ & V & ->). rewrite V0 in V. cbn in V. injection V as V. rewrite <- V. destruct s; reflexivity. }
    destruct E as [sel -> | wt v HS W0 W1 R TR ? ? ? ? X| wf wt v HS W0 W1 W2 R TR SA ? ? ? X| wp v HS W0 W1 EL ? ? ? ? X|
        wo wp v dl wv r sg HS W0 W1 W2 W3 W4 W5 W6 T RC NZ EL
        | wt v ? HS W0 W1 R TR PERM SA SN O LG X | wf v ? HS W0 W1 R TR PERM SA SN O LG X | Ha Hnat HS Hval TR | v Ha ? HS W0 Hle -> ];
      try (specialize (X Hn); destruct X; congruence); try (destruct X; congruence); auto; try congruence.
    right. exists [wo; wp; v; dl; wv; r; sg]. split; [reflexivity|]. destruct HS as [L1 L2]. apply words_invokes; auto.
    intros [|[|[|[|[|[|[|i]]]]]]] x Hi; cbn in Hi; try (injection Hi as <-); auto. discriminate Hi.
  Qed.

  (** deposit and withdraw *)
  Lemma deposit_exact now s cx bs s' out logs :
    ctx_ok cx -> cx_code cx = native_erc20 -> (has_sel bs sel_deposit \/ forall sel, has_sel bs sel -> native_selector sel = None) ->
    ercs C P s cx now bs s' out logs ->
    0 < cx_value cx /\ ec_is_native C = true /\ logs = [LDeposit (cx_code cx) (cx_caller cx) (cx_value cx)] /\
    (forall b w, bal (e_led s') b w = bal (e_led s) b w) /\ (forall b, iss (e_led s') b = iss (e_led s) b) /\
    same_allowances C s s' /\ same_nonces s s'.
  Proof.
    intros Hx Hc HS H. assert (Ht : token C (cx_code cx) N) by (left; auto). uncall H Ht. destruct (valued_same _ _ _ V) as [VA VN].
    assert (K : forall sel x, has_sel bs sel -> native_selector sel = Some x -> sel = sel_deposit).
    { intros sel x S1 S2. destruct HS as [HS|HS]; [eapply has_sel_inj; eauto|]. rewrite (HS _ S1) in S2. discriminate S2. }
    destruct E as [sel ? ? HS' NI ? NK | wt v HS' W0 W1 R TR ? ? ? ? X| wf wt v HS' W0 W1 W2 R TR SA ? ? ? X| wp v HS' W0 W1 EL ? ? ? ? X|
        wo wp v dl wv r sg HS' W0 W1 W2 W3 W4 W5 W6 T RC NZ EL
        | wt v ? HS' W0 W1 R TR PERM SA SN O LG X | wf v ? HS' W0 W1 R TR PERM SA SN O LG X | Ha Hnat HS' Hval TR SA SN O LG | v Ha ? HS' W0 Hle -> ];
      try (exfalso; pose proof (K _ _ HS' eq_refl) as KK; discriminate KK); try congruence.
    2:{ destruct V as (VR & V & _). destruct (transfer_spec _ _ _ _ _ _ _ _ V) as (B1 & I1 & _). destruct (transfer_spec _ _ _ _ _ _ _ _ TR) as (B2 & I2 & _).
        split; [lia|]. split; [auto|]. split; [congruence|]. split; [intros b w; rewrite B2, B1, EA; lia|]. split; [intros b; rewrite I2; apply I1|].
        split; [intros b o p; rewrite SA; apply VA|intros t o; rewrite SN; apply VN]. }
    exfalso. specialize (NK eq_refl). destruct (native_selector sel) as [x|] eqn:EX; [|congruence].
    rewrite (K _ _ HS' EX) in NI. apply NI. apply (bool_decide_unpack _); vm_compute; exact I.
  Qed.
End one.
