(** * XcmProps: assets arriving from other chains - how they are named, charged for and credited (C139-C144). *)
From Verif Require Import Base MapSum Ledger AmmModel AmmSpec AmmProofs AmmInv AmmEx AmmProofs5 RegModel RegSpec RegProofs XcmModel XcmSpec XcmProofs XcmProofs2.
From Verif Require RegProps.

Lemma xm_reach : reg_reachable RegProps.zU xmR.
Proof. apply RegProps.z_reach. Qed.

(** ** C139: names *)
(** Our own tokens may be named from inside ((0, X)) or from the relay chain ((1, Parachain(self)/X)): both mean the same. *)
Theorem C139_two_names_one_asset C r X :
  (length X < 8)%nat ->
  let inside := mkLoc 0 X in let outside := mkLoc 1 (JPara (xc_self C) :: X) in
  x_asset_id C r inside = x_asset_id C r outside /\
  x_supported C r inside = x_supported C r outside /\ x_units C r inside = x_units C r outside.
Proof.
  intros H. cbn zeta. unfold x_asset_id, x_supported, x_units.
  assert (E : reanchor (xc_self C) (mkLoc 0 X) = reanchor (xc_self C) (mkLoc 1 (JPara (xc_self C) :: X))).
  { unfold reanchor. cbn. rewrite bool_decide_true by exact H. reflexivity. }
  rewrite E. auto.
Qed.
Print Assumptions C139_two_names_one_asset.
(** An asset that arrives under a name leaves under that name (seen from the relay chain if it was an inside name). *)
Theorem C139_leaves_under_its_name C upd r l a :
  reg_reachable upd r -> x_asset_id C r l = Some a ->
  exists l', x_location r a = Some l' /\ (l' = l \/ l_par l = 0 /\ l' = mkLoc 1 (JPara (xc_self C) :: l_int l)).
Proof.
  intros H E. exists (reanchor (xc_self C) l). split.
  - unfold x_location. rewrite (RegProps.C117_resolution_sound upd r _ a H E). apply key_loc_key.
  - destruct (reanchor_cases (xc_self C) l) as [E1|(E1 & _ & E2)]; auto.
Qed.
Print Assumptions C139_leaves_under_its_name.
(** Different outside names never denote the same asset. *)
Theorem C139_no_confusion C upd r l1 l2 a :
  reg_reachable upd r -> l_par l1 <> 0 -> l_par l2 <> 0 -> x_asset_id C r l1 = Some a -> x_asset_id C r l2 = Some a -> l1 = l2.
Proof.
  intros H N1 N2 E1 E2. pose proof (RegProps.C117_resolution_sound upd r _ a H E1) as K1. pose proof (RegProps.C117_resolution_sound upd r _ a H E2) as K2.
  rewrite K1 in K2. assert (K3 : loc_key (reanchor (xc_self C) l1) = loc_key (reanchor (xc_self C) l2)) by congruence. apply loc_key_inj in K3.
  destruct (reanchor_cases (xc_self C) l1) as [F1|(F1 & _)]; [|contradiction]. destruct (reanchor_cases (xc_self C) l2) as [F2|(F2 & _)]; [|contradiction]. congruence.
Qed.
Print Assumptions C139_no_confusion.
(** What leaves can come back, if it was registered under an outside name that no other asset has. *)
Theorem C139_round_trip_partial C upd r l a :
  reg_reachable_fresh upd r -> get_asset_type r a = Some (loc_key l) -> l_par l <> 0 ->
  x_location r a = Some l /\ x_asset_id C r l = Some a.
Proof.
  intros H E N. split.
  - unfold x_location. rewrite E. apply key_loc_key.
  - unfold x_asset_id. destruct (reanchor_cases (xc_self C) l) as [->|(F & _)]; [|contradiction].
    apply (RegProps.C117_one_to_one_partial upd r H). exact E.
Qed.
Print Assumptions C139_round_trip_partial.
(** The full property - the name an asset leaves under always resolves to it - is false: an asset registered under an inside name
    leaves under it, but no message can name it. *)
Theorem C139_round_trip_refuted :
  ~ (forall C upd r l a, reg_reachable_fresh upd r -> x_location r a = Some l -> x_asset_id C r l = Some a).
Proof.
  intros H. specialize (H xmC RegProps.zU xmR badL 7). 
  assert (A : x_asset_id xmC xmR badL = Some 7).
  { apply H; [apply RegProps.z_reach_fresh; vm_compute; reflexivity|vm_compute; reflexivity]. }
  vm_compute in A. discriminate A.
Qed.
Print Assumptions C139_round_trip_refuted.
Example C139_example :
  reg_reachable_fresh RegProps.zU xmR /\ x_asset_id xmC xmR (mkLoc 0 [JOther 5]) = Some 1 /\ x_asset_id xmC xmR ownL = Some 1 /\
  x_location xmR 1 = Some ownL /\ x_asset_id xmC xmR usdtL = Some 102 /\ x_location xmR 102 = Some usdtL /\ x_asset_id xmC xmR (mkLoc 2 []) = None.
Proof. split; [apply RegProps.z_reach_fresh; vm_compute; reflexivity|]. vm_compute. auto 10. Qed.

(** ** C140: the price of executing a message *)
(** Paying for weight [w] with assets of which the first is [v] of [l] succeeds exactly if [l] has a price and [v] covers
    floor(price * ref_time / 10^12); exactly that is kept and everything else handed back. *)
Theorem C140_charge_exact C upd r t w l v rest unused :
  reg_reachable upd r -> 0 < v -> (forall u, x_units C r l = Some u -> 0 <= u * w.1 <= U128MAX) ->
  ((exists t', buy_weight C r t w ((XC l, v) :: rest) = Ok (t', unused)) <->
   exists u, x_units C r l = Some u /\ charge u w.1 <= v /\
     unused = if charge u w.1 =? v then rest else (XC l, v - charge u w.1) :: rest).
Proof.
  intros HR Hv HU. rewrite (buy_exact C r t w l v rest unused Hv). split.
  - intros (_ & u & E1 & E2). exists u. split; [exact E1|]. cbn zeta in E2. rewrite sat128_id in E2 by (apply HU; exact E1). exact E2.
  - intros (u & E1 & E2). split.
    + apply (RegProps.C116_supported_iff_priced upd r _ HR). exists u. exact E1.
    + exists u. split; [exact E1|]. cbn zeta. rewrite sat128_id by (apply HU; exact E1). exact E2.
Qed.
Print Assumptions C140_charge_exact.
(** Nothing else can happen: it never panics, and the only error is TooExpensive; abstract assets and empty payments are refused. *)
Theorem C140_only_too_expensive C r t w pay :
  match buy_weight C r t w pay with Ok _ => True | Err e => e = "TooExpensive"%string | Panic => False end.
Proof. apply buy_errors. Qed.
Print Assumptions C140_only_too_expensive.
Theorem C140_needs_concrete_asset C r t w pay :
  (match pay with [] | (XA _, _) :: _ => True | _ => False end) -> buy_weight C r t w pay = Err "TooExpensive".
Proof. destruct pay as [|[[l|z] v] rest]; cbn; auto; contradiction. Qed.
Print Assumptions C140_needs_concrete_asset.
Example C140_example :
  buy_weight xmC xmR tr_new (10 ^ 11, 0) [(XC usdtL, 300000); (XC dotL, 5)] =
    Ok (mkTr (2 * 10 ^ 11, 0) (Some (usdtL, 200000, 2000000)), [(XC usdtL, 100000); (XC dotL, 5)]) /\
  buy_weight xmC xmR tr_new (10 ^ 11, 0) [(XC usdtL, 199999)] = Err "TooExpensive" /\
  buy_weight xmC xmR tr_new (10 ^ 11, 0) [(XC badL, 10 ^ 20)] = Err "TooExpensive".
Proof. vm_compute. auto. Qed.

(** ** C141: a message never creates more than it brought in *)
(** For every sequence of operations an executor may perform: if the first purchase of weight covers the message (no more weight is
    refunded than was bought then) and was not free, the total issuance of a currency grows by at most what was received of it. *)
Theorem C141_no_creation_partial C P r L ops L' c :
  vm_message C P r L ops = Ok L' -> prepaid ops -> priced C r ops -> iss L' c <= iss L c + received C r c ops.
Proof. apply message_conserve. Qed.
Print Assumptions C141_no_creation_partial.
(** Without the second condition it is false: a first purchase that costs nothing is not recorded, and every later purchase is
    counted twice. *)
Theorem C141_no_creation_refuted :
  ~ (forall C P r L ops L' c, vm_message C P r L ops = Ok L' -> prepaid ops -> iss L' c <= iss L c + received C r c ops).
Proof.
  intros H.
  set (ops := [VReceive ownL 10; VReceive usdtL 1000; VBuy (10 ^ 12, 0) ownL 10; VBuy (10 ^ 6, 0) usdtL 2; VRefund (2 * 10 ^ 6, 0);
               VDeposit usdtL 1002 (mkLoc 0 [JOther 50])]).
  assert (A : okb (vm_message xmC allow_all xmR xmL ops) (fun L' => iss L' 102 =? iss xmL 102 + 1002) = true) by (vm_compute; reflexivity).
  destruct (vm_message xmC allow_all xmR xmL ops) as [L'| |] eqn:E; try discriminate A. cbn [okb] in A. apply Z.eqb_eq in A.
  specialize (H xmC allow_all xmR xmL ops L' 102 E). assert (K : received xmC xmR 102 ops = 1000) by (vm_compute; reflexivity).
  assert (prepaid ops). { split; [repeat constructor; cbn; lia|]. unfold ops. vm_compute. discriminate. }
  specialize (H H0). lia.
Qed.
Print Assumptions C141_no_creation_refuted.
(** The usual transfer - receive, pay for the weight, deposit the rest - of an asset other than the relay token: the beneficiary gets
    the amount less the charge, the treasury gets the charge (nothing if the ledger refuses it), nobody else is touched. *)
Theorem C141_transfer_exact C P r L l amt w to rest L' :
  vm_message C P r L [VReceive l amt; VBuy w l amt; VDeposit l rest to] = Ok L' ->
  l <> relay_loc -> (forall u, x_units C r l = Some u -> 0 <= u * w.1 <= U128MAX /\ rest = amt - charge u w.1) ->
  exists who a u fee,
    xc_acct C to = Some who /\ x_asset_id C r l = Some a /\ x_units C r l = Some u /\ charge u w.1 <= amt /\
    (fee = charge u w.1 \/ fee = 0) /\ (lenient P -> 0 <= iss L a -> iss L a + amt <= U128MAX -> fee = charge u w.1) /\
    (forall b x, bal L' b x = bal L b x + at_ a who b x (amt - charge u w.1) + at_ a (xc_treasury C) b x fee) /\
    (forall b, iss L' b = iss L b + (if bool_decide (b = a) then amt - charge u w.1 + fee else 0)).
Proof.
  intros H N HU. assert (Q : exists u, x_units C r l = Some u).
  { unfold vm_message in H. bstep H s H1. cbn [vm_run vm_step] in H1. bstep H1 s1 E1. bstep H1 s2 E2. bstep E2 x E. apply rbind_ok in E2.
    destruct E2 as ((t' & un) & EB & _). apply buy_inv in EB. destruct EB as (u & _ & ? & _). eauto. }
  destruct Q as [u Q]. destruct (HU u Q) as [U ->]. 
  assert (Qc : charge u w.1 = sat128 (default 0 (x_units C r l) * w.1) / REF).
  { rewrite Q. cbn [from_option]. unfold id. rewrite sat128_id by exact U. reflexivity. }
  rewrite Qc in H. apply usual in H; [|exact N]. destruct H as (who & a & u' & f & H1 & H2 & H3 & H4 & H5 & f' & H6 & H7 & H8 & H9).
  rewrite Q in H3. injection H3 as <-. rewrite sat128_id in H4 by exact U. change (f = charge u w.1) in H4. subst f.
  exists who, a, u, f'. repeat split; auto. lia.
Qed.
Print Assumptions C141_transfer_exact.
Example C141_example :
  let ops := [VReceive usdtL 1000000; VBuy (10 ^ 11, 0) usdtL 1000000; VDeposit usdtL 800000 (mkLoc 0 [JOther 60])] in
  prepaid ops /\ priced xmC xmR ops /\
  okb (vm_message xmC allow_all xmR xmL ops) (fun L' => (bal L' 102 60 =? 800000) && (bal L' 102 90 =? 200000) && (iss L' 102 =? 1000777)) = true.
Proof.
  cbn zeta. split; [split; [repeat constructor; cbn; lia|vm_compute; discriminate]|]. split; [|vm_compute; reflexivity].
  exists 2000000. split; [vm_compute; reflexivity|]. split; [vm_compute; discriminate|]. apply Z.leb_le. vm_compute. reflexivity.
Qed.

(** ** C142: refunds of unused weight *)
(** Weight bought once and partly not used: what comes back is the price of the unused part, never more than was paid. *)
Theorem C142_refund_exact_partial C r w l v unused t w' u :
  buy_weight C r tr_new w ((XC l, v) :: []) = Ok (t, unused) -> x_units C r l = Some u ->
  0 <= u -> 0 <= w'.1 <= w.1 -> w.1 <= U64MAX -> u * w.1 <= U128MAX -> 1 <= charge u w.1 ->
  exists t', refund_weight t w' = Ok (t', Some (l, charge u w'.1)) /\ charge u w'.1 <= charge u w.1 /\
    t_rev t' = Some (l, charge u w.1 - charge u w'.1, u).
Proof.
  intros H Q U0 W1 W2 W3 W4. cbn [buy_weight] in H. bstep H x E. rewrite Q in H. cbn [ok_or rbind] in H.
  assert (Hm : 0 <= u * w.1) by (apply Z.mul_nonneg_nonneg; lia).
  rewrite (sat128_id (u * w.1)) in H by lia. change (u * w.1 / REF) with (charge u w.1) in H. replace (charge u w.1 =? 0) with false in H by lia.
  bstep H un E1. cbn [t_rev tr_new] in H. injection H as <- <-. unfold refund_weight. cbn [t_rev t_wt].
  assert (Hw : forall q, q = w_add (w_add (t_wt tr_new) w) w -> (w_min w' q).1 = w'.1).
  { intros q ->. unfold w_min, w_add, sat64, tr_new. cbn [t_wt fst snd]. clear - W1 W2. lia. }
  match goal with |- context [w_min w' ?q] => rewrite (Hw q) by reflexivity end.
  assert (Hmu : u * w'.1 <= u * w.1) by (apply Z.mul_le_mono_nonneg_l; lia). assert (0 <= u * w'.1) by (apply Z.mul_nonneg_nonneg; lia).
  unfold raw_mul, checked_mul. rewrite (chk_ok (u * w'.1)) by lia. cbn [unwrap rbind].
  assert (L : charge u w'.1 <= charge u w.1) by (apply Z.div_le_mono; lia).
  eexists. split; [reflexivity|]. split; [exact L|]. cbn [t_rev]. f_equal. f_equal. f_equal. unfold saturating_sub. change (u * w'.1 / REF) with (charge u w'.1). lia.
Qed.
Print Assumptions C142_refund_exact_partial.
Example C142_example :
  okb (buy_weight xmC xmR tr_new (10 ^ 11, 0) [(XC usdtL, 300000)]) (fun p =>
    okb (refund_weight p.1 (4 * 10 ^ 10, 0)) (fun q => match q.2 with Some (l, v) => bool_decide (l = usdtL) && (v =? 80000) | None => false end)) = true.
Proof. vm_compute. reflexivity. Qed.
(** Each purchase counts its weight twice: a refund of twice the weight bought pays out twice what was paid. *)
Theorem C142_refund_bounded_refuted :
  ~ (forall C r w l v unused t w' t' l' back u, buy_weight C r tr_new w ((XC l, v) :: []) = Ok (t, unused) ->
       x_units C r l = Some u -> 1 <= charge u w.1 ->
       refund_weight t w' = Ok (t', Some (l', back)) -> back <= charge u w.1).
Proof.
  intros H. specialize (H xmC xmR (10 ^ 11, 0) usdtL 200000 [] (mkTr (2 * 10 ^ 11, 0) (Some (usdtL, 200000, 2000000))) (2 * 10 ^ 11, 0)
    (mkTr (0, 0) (Some (usdtL, 0, 2000000))) usdtL 400000 2000000).
  assert (A : 400000 <= charge 2000000 (10 ^ 11)) by (apply H; [vm_compute; reflexivity|vm_compute; reflexivity|vm_compute; discriminate|vm_compute; reflexivity]).
  vm_compute in A. congruence.
Qed.
Print Assumptions C142_refund_bounded_refuted.
(** What is paid in a second asset goes neither to the treasury nor back to the payer. *)
Theorem C142_second_asset_accounted_refuted :
  ~ (forall C P r L l1 l2 v1 v2 w1 w2 L' c, lenient P ->
       vm_message C P r L [VReceive l1 v1; VReceive l2 v2; VBuy w1 l1 v1; VBuy w2 l2 v2] = Ok L' ->
       x_asset_id C r l2 = Some c -> 0 < bal L' c (xc_treasury C) - bal L c (xc_treasury C) \/ forall u, x_units C r l2 = Some u -> charge u w2.1 = 0).
Proof.
  intros H. set (ops := [VReceive dotL (10 ^ 10); VReceive usdtL 1000000; VBuy (10 ^ 11, 0) dotL (10 ^ 10); VBuy (10 ^ 11, 0) usdtL 1000000]).
  assert (A : okb (vm_message xmC allow_all xmR xmL ops) (fun L' => (bal L' 102 90 =? bal xmL 102 90) && (bal L' 101 90 =? 5000000000)) = true) by (vm_compute; reflexivity).
  destruct (vm_message xmC allow_all xmR xmL ops) as [L'| |] eqn:E; try discriminate A. cbn [okb] in A. apply andb_prop in A as [A _]. apply Z.eqb_eq in A.
  destruct (H xmC allow_all xmR xmL dotL usdtL (10 ^ 10) 1000000 (10 ^ 11, 0) (10 ^ 11, 0) L' 102) as [K|K].
  - repeat split.
  - exact E.
  - vm_compute. reflexivity.
  - change (xc_treasury xmC) with 90 in K. lia.
  - assert (Q : x_units xmC xmR usdtL = Some 2000000) by (vm_compute; reflexivity). specialize (K _ Q). vm_compute in K. discriminate K.
Qed.
Print Assumptions C142_second_asset_accounted_refuted.
(** A purchase at a huge price succeeds (the product saturates), but refunding it overflows. *)
Theorem C142_refund_never_panics_refuted :
  ~ (forall C r w l v unused t w', buy_weight C r tr_new w ((XC l, v) :: []) = Ok (t, unused) -> 0 <= w'.1 <= w.1 -> refund_weight t w' <> Panic).
Proof.
  intros H. set (R := RegProps.z_run [RRegister Root 102 (loc_key usdtL); RUnits Root (loc_key usdtL) (2 ^ 127)]).
  assert (A : okb (buy_weight xmC R tr_new (10, 0) [(XC usdtL, 2 ^ 120)]) (fun p => match refund_weight p.1 (10, 0) with Panic => true | _ => false end) = true)
    by (vm_compute; reflexivity).
  destruct (buy_weight xmC R tr_new (10, 0) [(XC usdtL, 2 ^ 120)]) as [[t un]| |] eqn:E; try discriminate A. cbn [okb fst] in A.
  specialize (H xmC R (10, 0) usdtL (2 ^ 120) un t (10, 0) E). destruct (refund_weight t (10, 0)); try discriminate A. apply H; [cbn; lia|reflexivity].
Qed.
Print Assumptions C142_refund_never_panics_refuted.

(** ** C143: crediting *)
(** A deposit mints exactly the amount for the beneficiary; besides it may move native tokens from the gift account to the beneficiary,
    only for the relay token, and only what he lacks to the gift. *)
Theorem C143_deposit_exact C P r L i amt to L' :
  deposit_asset C P r L i amt to = Ok L' ->
  exists who a g, xc_acct C to = Some who /\ x_currency C r i = Some a /\ 0 <= g /\
    (forall b x, bal L' b x = bal L b x + at_ a who b x amt - at_ (xc_native C) (xc_gift C) b x g + at_ (xc_native C) who b x g) /\
    (forall b, iss L' b = iss L b + (if bool_decide (b = a) then amt else 0)) /\
    (0 < g -> i = XC relay_loc /\ xc_conv C amt a = Some (reducible P true L (xc_native C) who + g)).
Proof.
  intros H. apply deposit_eff in H. destruct H as (who & a & H1 & H2 & H3). apply mint_spec in H3 as (_ & M1 & M2).
  destruct (gift_eff C P L i amt a who) as (g & G0 & G1 & G2). exists who, a, g. repeat split; auto; try apply G2; auto.
  - intros b x. rewrite M1, G1. lia.
  - intros b. rewrite M2, gift_iss. reflexivity.
Qed.
Print Assumptions C143_deposit_exact.
(** The gift is made whenever the beneficiary has less than it and the gift account can afford it. *)
Theorem C143_gift_made C P r L amt to who a G L' :
  deposit_asset C P r L (XC relay_loc) amt to = Ok L' -> lenient P ->
  xc_acct C to = Some who -> x_asset_id C r relay_loc = Some a -> a <> xc_native C -> who <> xc_gift C ->
  xc_conv C amt a = Some G -> G <> 0 ->
  0 <= reducible P true L (xc_native C) who < G -> G <= reducible P false L (xc_native C) (xc_gift C) <= bal L (xc_native C) (xc_gift C) ->
  bal L' (xc_native C) who = bal L (xc_native C) who + (G - reducible P true L (xc_native C) who) /\ bal L' a who = bal L a who + amt.
Proof.
  intros H LP H1 H2 NA NW HG G0 HR HB. apply deposit_eff in H. destruct H as (who' & a' & K1 & K2 & K3).
  change (x_asset_id C r relay_loc = Some a') in K2. rewrite H1 in K1. injection K1 as <-. rewrite H2 in K2. injection K2 as <-.
  destruct (transfer_prog P L (xc_native C) (xc_gift C) who (G - reducible P true L (xc_native C) who) false LP ltac:(lia) ltac:(lia)) as [L1 T].
  rewrite (gift_given C P L amt a who G L1 HG G0 (proj1 HB) (proj2 HR) T) in K3.
  apply mint_spec in K3 as (_ & M1 & _). apply transfer_spec in T as (T & _).
  rewrite !M1, !T. unfold at_. split.
  - rewrite (bool_decide_false (xc_native C = a /\ _)), (bool_decide_false (xc_native C = xc_native C /\ who = xc_gift C)), bool_decide_true by tauto || (intros [? ?]; congruence). lia.
  - rewrite (bool_decide_true (a = a /\ _)), !bool_decide_false by tauto || (intros [? ?]; congruence). lia.
Qed.
Print Assumptions C143_gift_made.
(** The runtime's gift: 0.65 native tokens or nothing. *)
Theorem C143_gift_amount dec dot eusdt eusdc amt a :
  rt_gift dec dot eusdt eusdc amt a = Some 0 \/
  rt_gift dec dot eusdt eusdc amt a = Some 650000000000 /\ (a = dot /\ 5 * (10 ^ dec a - 96000000) <= amt \/ (a = eusdt \/ a = eusdc) /\ 300 * 10 ^ dec a <= amt).
Proof.
  unfold rt_gift. destruct (dec a =? 0); auto. destruct ((a =? dot) && _) eqn:E1.
  - right. apply andb_prop in E1 as [E1 E2]. split; [reflexivity|]. left. lia.
  - destruct (((a =? eusdt) || (a =? eusdc)) && _) eqn:E2; auto. right. apply andb_prop in E2 as [E2 E3]. split; [reflexivity|]. right. lia.
Qed.
Print Assumptions C143_gift_amount.
(** The gift is not once per account: who empties his account in between receives it again. *)
Theorem C143_gift_once_refuted :
  ~ (forall C P r L amt to who L1 L2 L3 a x, who <> xc_gift C -> xc_acct C to = Some who ->
       deposit_asset C P r L (XC relay_loc) amt to = Ok L1 -> bal L (xc_native C) who < bal L1 (xc_native C) who ->
       transfer P L1 (xc_native C) who x a false = Ok L2 ->
       deposit_asset C P r L2 (XC relay_loc) amt to = Ok L3 -> bal L3 (xc_native C) who <= bal L2 (xc_native C) who).
Proof.
  intros H. set (to := mkLoc 0 [JOther 60]).
  assert (A : okb (deposit_asset xmC allow_all xmR xmL (XC relay_loc) (10 ^ 12) to) (fun L1 =>
    (bal xmL 1 60 <? bal L1 1 60) && okb (transfer allow_all L1 1 60 61 (65 * 10 ^ 10) false) (fun L2 =>
    okb (deposit_asset xmC allow_all xmR L2 (XC relay_loc) (10 ^ 12) to) (fun L3 => bal L2 1 60 <? bal L3 1 60))) = true) by (vm_compute; reflexivity).
  destruct (deposit_asset xmC allow_all xmR xmL _ _ _) as [L1| |] eqn:E1; try discriminate A. cbn [okb] in A. apply andb_prop in A as [A0 A].
  destruct (transfer allow_all L1 1 60 61 _ _) as [L2| |] eqn:E2; try discriminate A. cbn [okb] in A.
  destruct (deposit_asset xmC allow_all xmR L2 _ _ _) as [L3| |] eqn:E3; try discriminate A. cbn [okb] in A.
  specialize (H xmC allow_all xmR xmL (10 ^ 12) to 60 L1 L2 L3 (65 * 10 ^ 10) 61 ltac:(discriminate) eq_refl E1). change (xc_native xmC) with 1 in H.
  apply Z.ltb_lt in A0, A. specialize (H A0 E2 E3). lia.
Qed.
Print Assumptions C143_gift_once_refuted.
Example C143_example :
  okb (deposit_asset xmC allow_all xmR xmL (XC relay_loc) (10 ^ 12) (mkLoc 0 [JOther 60]))
      (fun L => (bal L 101 60 =? 10 ^ 12) && (bal L 1 60 =? 65 * 10 ^ 10) && (bal L 1 91 =? 10 ^ 15 - 65 * 10 ^ 10)) = true.
Proof. vm_compute. reflexivity. Qed.

(** ** C144: debiting, moving, and the second transactor *)
Theorem C144_withdraw_exact C P r L i amt from L' :
  withdraw_asset C P r L i amt from = Ok L' ->
  exists who a, xc_acct C from = Some who /\ x_currency C r i = Some a /\ 0 <= amt /\ (0 < amt -> amt <= bal L a who) /\
    (forall b x, bal L' b x = bal L b x - at_ a who b x amt) /\ (forall b, iss L' b = iss L b - (if bool_decide (b = a) then amt else 0)).
Proof.
  intros H. apply withdraw_eff in H. destruct H as (who & a & H1 & H2 & H3). apply burn_spec in H3 as (B0 & B1 & B2 & B3). exists who, a. auto 10.
Qed.
Print Assumptions C144_withdraw_exact.
Theorem C144_transfer_exact C P r L i amt from to L' :
  internal_transfer C P r L i amt from to = Ok L' ->
  exists f t a, xc_acct C from = Some f /\ xc_acct C to = Some t /\ x_currency C r i = Some a /\ (0 < amt -> f <> t -> amt <= bal L a f) /\
    (forall b x, bal L' b x = bal L b x - at_ a f b x amt + at_ a t b x amt) /\ (forall b, iss L' b = iss L b).
Proof.
  unfold internal_transfer. intros H. bstep H f E1. bstep H t E2. bstep H a E3. destruct (transfer _ _ _ _ _ _ _) eqn:T; try discriminate.
  injection H as <-. apply transfer_spec in T as (T1 & T2 & T3). exists f, t, a. auto 10.
Qed.
Print Assumptions C144_transfer_exact.
(** The fallback on pallet-assets never credits anything: a deposit that succeeds went through the first transactor. *)
Theorem C144_fallback_never_credits C P r L raw i amt to L' raw' :
  deposit_any C P r L raw i amt to = Ok (L', raw') -> raw' = raw /\ deposit_asset C P r L i amt to = Ok L'.
Proof.
  unfold deposit_any, raw_deposit. destruct (deposit_asset C P r L i amt to) as [L1|e|] eqn:E; try discriminate; [intros [= -> ->]; auto|].
  destruct (String.eqb e "AssetNotFound") eqn:Q; [|discriminate]. apply String.eqb_eq in Q. subst e.
  unfold deposit_asset in E. destruct (xc_acct C to) as [who|]; [destruct (x_currency C r i) as [a|]|]; cbn [ok_or rbind].
  - destruct (mint_into _ _ _ _ _); discriminate E.
  - discriminate.
  - destruct (x_currency C r i); cbn [ok_or rbind]; discriminate.
Qed.
Print Assumptions C144_fallback_never_credits.
(** An unknown asset or beneficiary: nothing is credited. *)
Theorem C144_unknown_rejected C P r L raw i amt to :
  (xc_acct C to = None \/ x_currency C r i = None) -> is_ok (deposit_any C P r L raw i amt to) = false.
Proof.
  intros H. destruct (deposit_any C P r L raw i amt to) as [[L' raw']| |] eqn:E; auto. apply C144_fallback_never_credits in E as [_ E].
  apply deposit_eff in E. destruct E as (who & a & E1 & E2 & _). destruct H; congruence.
Qed.
Print Assumptions C144_unknown_rejected.
Example C144_example :
  okb (withdraw_asset xmC allow_all xmR xmL (XC usdtL) 700 (mkLoc 0 [JOther 50])) (fun L => (bal L 102 50 =? 77) && (iss L 102 =? 77)) = true /\
  okb (internal_transfer xmC allow_all xmR xmL (XC usdtL) 700 (mkLoc 0 [JOther 50]) (mkLoc 0 [JOther 51])) (fun L => (bal L 102 50 =? 77) && (bal L 102 51 =? 700)) = true /\
  is_ok (deposit_any xmC allow_all xmR xmL xmL (XC (mkLoc 2 [])) 5 (mkLoc 0 [JOther 50])) = false.
Proof. vm_compute. auto. Qed.
