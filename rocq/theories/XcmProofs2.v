(** * XcmProofs2: exact effects of charging and crediting; concrete cases. *)
From Verif Require Import Base MapSum Ledger AmmModel AmmSpec AmmProofs AmmInv AmmEx AmmProofs5 RegModel RegSpec RegProofs XcmModel XcmSpec XcmProofs.
From Verif Require RegProps.

Section xcm.
  Context (C : xcm_cfg) (P : policy) (r : reg).

  Lemma reanchor_cases self l : reanchor self l = l \/ l_par l = 0 /\ (length (l_int l) < 8)%nat /\ reanchor self l = mkLoc 1 (JPara self :: l_int l).
  Proof.
    unfold reanchor. destruct (l_par l =? 0) eqn:E; cbn [negb]; [|auto]. apply Z.eqb_eq in E. case_bool_decide; auto.
  Qed.

  Lemma buy_exact t w l v rest un :
    0 < v ->
    (exists t', buy_weight C r t w ((XC l, v) :: rest) = Ok (t', un)) <->
    (x_supported C r l = true /\ exists u, x_units C r l = Some u /\
      let a := sat128 (u * w.1) / REF in
      a <= v /\ un = if a =? v then rest else (XC l, v - a) :: rest).
  Proof.
    intros Hv. cbn [buy_weight]. destruct (x_supported C r l); cbn [ensure rbind]; [|split; [intros [? [=]]|intros [[=] _]]].
    destruct (x_units C r l) as [u|] eqn:Eu; cbn [ok_or rbind]; [|split; [intros [? [=]]|intros (_ & ? & [=] & _)]].
    cbn zeta. remember (sat128 (u * w.1) / REF) as a eqn:Qa.
    split.
    - intros [t' H]. split; [reflexivity|]. exists u. split; [reflexivity|]. rewrite <- Qa. clear Qa.
      destruct (a =? 0) eqn:E0.
      { injection H as <- <-. apply Z.eqb_eq in E0. subst a. split; [clear - Hv; lia|]. replace (0 =? v) with false by lia. rewrite Z.sub_0_r. reflexivity. }
      bstep H un' E1. cbn [assets_sub] in E1. rewrite bool_decide_true in E1 by reflexivity. destruct (a <=? v) eqn:E2; [|discriminate].
      split; [lia|]. injection E1 as <-. assert (Q : (v - a =? 0) = (a =? v)) by (destruct (a =? v) eqn:?; lia).
      rewrite Q in H. destruct (t_rev t) as [[[pid pa] pu]|]; [destruct (bool_decide (pid = l))|]; injection H as <- <-; reflexivity.
    - intros (_ & u' & [= <-] & H1 & ->). rewrite <- Qa in *. clear Qa. destruct (a =? 0) eqn:E0.
      { apply Z.eqb_eq in E0. rewrite E0. replace (0 =? v) with false by lia. rewrite Z.sub_0_r. eauto. }
      cbn [assets_sub]. rewrite bool_decide_true by reflexivity. replace (a <=? v) with true by lia. cbn [ok_or rbind].
      assert (Q : (v - a =? 0) = (a =? v)) by (destruct (a =? v) eqn:?; lia). rewrite Q.
      destruct (t_rev t) as [[[pid pa] pu]|]; [destruct (bool_decide (pid = l))|]; eauto.
  Qed.
  Lemma buy_errors t w pay : match buy_weight C r t w pay with Ok _ => True | Err e => e = "TooExpensive"%string | Panic => False end.
  Proof.
    destruct pay as [|[[l|z] v] rest]; cbn [buy_weight]; auto.
    destruct (x_supported C r l); cbn [ensure rbind]; auto. destruct (x_units C r l); cbn [ok_or rbind]; auto.
    destruct (_ =? 0); auto. destruct (assets_sub _ _ _); cbn [ok_or rbind]; auto. destruct (t_rev t) as [[[pid pa] pu]|]; [destruct (bool_decide (pid = l))|]; auto.
  Qed.

  (** the gift *)
  Lemma gift_eff L i amt a who : exists g,
    0 <= g /\
    (forall b x, bal (gift C P L i amt a who) b x = bal L b x - at_ (xc_native C) (xc_gift C) b x g + at_ (xc_native C) who b x g) /\
    (0 < g -> i = XC relay_loc /\ xc_conv C amt a = Some (reducible P true L (xc_native C) who + g)).
  Proof.
    unfold gift. assert (Z0 : exists g, 0 <= g /\ (forall b x, bal L b x = bal L b x - at_ (xc_native C) (xc_gift C) b x g + at_ (xc_native C) who b x g) /\
      (0 < g -> i = XC relay_loc /\ xc_conv C amt a = Some (reducible P true L (xc_native C) who + g))).
    { exists 0. split; [lia|]. split; [|lia]. intros. unfold at_. repeat case_bool_decide; lia. }
    destruct (decide (i = XC relay_loc)) as [->|N]; [|rewrite bool_decide_false by exact N; exact Z0].
    rewrite bool_decide_true by reflexivity.
    destruct (xc_conv C amt a) as [G|] eqn:EG; cbn [from_option]; unfold id.
    2:{ exact Z0. }
    destruct (negb (G =? 0) && _ && _) eqn:E; [|exact Z0]. destruct (transfer _ _ _ _ _ _ _) eqn:T; [|exact Z0|exact Z0].
    apply andb_prop in E as [E E3]. apply andb_prop in E as [E1 E2].
    apply transfer_spec in T as (T & _). exists (G - reducible P true L (xc_native C) who). split; [lia|]. split; [exact T|].
    intros _. split; [reflexivity|]. f_equal. lia.
  Qed.
  (** when it is given *)
  Lemma gift_given L amt a who G L1 :
    xc_conv C amt a = Some G -> G <> 0 -> G <= reducible P false L (xc_native C) (xc_gift C) -> reducible P true L (xc_native C) who < G ->
    transfer P L (xc_native C) (xc_gift C) who (G - reducible P true L (xc_native C) who) false = Ok L1 ->
    gift C P L (XC relay_loc) amt a who = L1.
  Proof.
    intros E1 E2 E3 E4 E5. unfold gift. rewrite bool_decide_true by reflexivity. rewrite E1. cbn [from_option]. unfold id.
    replace (negb (G =? 0) && _ && _) with true by lia. rewrite E5. reflexivity.
  Qed.

  (** ** The usual transfer: receive, pay for the weight, deposit what is left *)
  Lemma usual L l amt w to L' :
    vm_message C P r L [VReceive l amt; VBuy w l amt; VDeposit l (amt - sat128 (default 0 (x_units C r l) * w.1) / REF) to] = Ok L' ->
    l <> relay_loc ->
    exists who a u f,
      xc_acct C to = Some who /\ x_asset_id C r l = Some a /\ x_units C r l = Some u /\ f = sat128 (u * w.1) / REF /\ 0 <= f <= amt /\
      exists f', (f' = f \/ f' = 0) /\ (lenient P -> 0 <= iss L a -> iss L a + amt <= U128MAX -> f' = f) /\
      (forall b x, bal L' b x = bal L b x + at_ a who b x (amt - f) + at_ a (xc_treasury C) b x f') /\
      (forall b, iss L' b = iss L b + (if bool_decide (b = a) then amt - f + f' else 0)).
  Proof.
    unfold vm_message. intros H N. apply rbind_ok in H. destruct H as (s & H & HL). injection HL as <-.
    cbn [vm_run vm_step] in H. bstep H s1 E1. bstep E1 x E1'. injection E1 as <-.
    bstep H s2 E2. bstep E2 x2 E2'. apply rbind_ok in E2. destruct E2 as ((t' & un) & EB & E2). injection E2 as <-.
    cbn [v_tr vm0 v_led v_hold] in *. pose proof EB as EB0. apply buy_inv in EB. destruct EB as (u & S1 & S2 & S3 & S4). cbn zeta in S3, S4.
    rewrite S2 in H |- *. cbn [from_option] in H |- *. unfold id in *.
    pose proof (sat_div_nonneg (u * w.1)) as A0. remember (sat128 (u * w.1) / REF) as f eqn:Qf.
    bstep H s3 E3. bstep E3 x3 E3'. bstep E3 LD ED. injection E3 as <-. injection H as <-. cbn [v_led v_tr] in *.
    apply deposit_eff in ED. destruct ED as (who & a & D1 & D2 & D3). change (x_asset_id C r l = Some a) in D2.
    assert (G : gift C P L (XC l) (amt - f) a who = L) by (unfold gift; rewrite bool_decide_false by congruence; reflexivity).
    rewrite G in D3. apply mint_spec in D3 as (M0 & M1 & M2).
    exists who, a, u, f. split; [exact D1|]. split; [exact D2|]. split; [reflexivity|]. split; [exact Qf|]. clear Qf. split; [lia|].
    assert (T : t_rev t' = None /\ f = 0 \/ f <> 0 /\ t_rev t' = Some (l, f, u)).
    { destruct S4 as [[Z0 ->]|(Z0 & _ & ET)]; [left; split; [reflexivity|exact Z0]|right]. split; [exact Z0|]. rewrite ET. reflexivity. }
    unfold take_revenue. destruct T as [[-> ->]|[F0 ->]].
    - exists 0. split; [auto|]. split; [auto|]. split; intros; [rewrite M1|rewrite M2]; unfold at_; repeat case_bool_decide; lia.
    - rewrite D2. replace (f =? 0) with false by lia. destruct (mint_into P LD a (xc_treasury C) f) as [L2| |] eqn:EM.
      + exists f. split; [auto|]. split; [auto|]. apply mint_spec in EM as (_ & N1 & N2).
        split; intros; [rewrite N1, M1; lia|rewrite N2, M2; case_bool_decide; lia].
      + exists 0. split; [auto|]. split.
        { intros LP I0 I1. exfalso. destruct (mint_prog P LD a (xc_treasury C) f LP) as [L3 E]; try lia; rewrite ?M2, ?bool_decide_true by reflexivity; try lia. congruence. }
        split; intros; [rewrite M1|rewrite M2]; unfold at_; repeat case_bool_decide; lia.
      + exists 0. split; [auto|]. split.
        { intros LP I0 I1. exfalso. destruct (mint_prog P LD a (xc_treasury C) f LP) as [L3 E]; try lia; rewrite ?M2, ?bool_decide_true by reflexivity; try lia. congruence. }
        split; intros; [rewrite M1|rewrite M2]; unfold at_; repeat case_bool_decide; lia.
  Qed.
End xcm.

(** ** A concrete chain: parachain 2012, native asset 1, treasury 90, gift account 91, account conversion by parents/first junction *)
Definition xmC : xcm_cfg :=
  mkXcmCfg 2012 1 90 91 (rt_gift (fun a => if a =? 101 then 10 else 6) 101 103 104)
    (fun l => match l_int l with [JOther z] => Some z | _ => None end).
Definition dotL : loc := relay_loc.
Definition usdtL : loc := mkLoc 1 [JPara 1000; JOther 1984].
Definition ownL : loc := mkLoc 1 [JPara 2012; JOther 5].
Definition badL : loc := mkLoc 0 [JOther 6].
Definition xm_ops : list reg_op :=
  [RRegister Root 101 (loc_key dotL); RRegister Root 102 (loc_key usdtL); RRegister Root 1 (loc_key ownL); RRegister Root 7 (loc_key badL);
   RUnits Root (loc_key dotL) (5 * 10 ^ 10); RUnits Root (loc_key usdtL) 2000000; RUnits Root (loc_key ownL) 0].
Definition xmR : reg := RegProps.z_run xm_ops.
Definition xmL : ledger := mk_ledger [(1, 91, 10 ^ 15); (102, 50, 777)].
