(** * LsProps4: property theorem C103 (liquid staking: administrative setters). *)
From Verif Require Import Base MapSum Ledger AmmModel AmmEx LoansModel LoansSpec LoansProofs3 LoansProofs4 LoansProofs5 LoansEx
  LsModel LsSpec LsProofs LsDist LsProofs2 LsProofs3 LsProofs4 LsProofs5 LsProofs6 LsProofs7 LsProofs8 LsProofs9 LsProofs10 LsEx.

(** All fields but the administrative parameters. *)
Definition ls_rest (s : lst) := (ls_ln s, ls_rate s, ls_res s, ls_ures s, ls_pool s, ls_reqs s, ls_fast s, ls_unl s, ls_leds s, ls_upd s, ls_vd s, ls_qid s, ls_rblock s).
Definition set_out (s : lst) (comm rf urf cap : Z) (fees : gmap Z Z) (s' : lst) : Prop :=
  ls_comm s' = comm /\ ls_rf s' = rf /\ ls_urf s' = urf /\ ls_cap s' = cap /\ ls_xfee s' = fees /\
  ls_rest s' = ls_rest s /\ ls_era s' = ls_era s /\ ls_start s' = ls_start s /\ ls_matched s' = ls_matched s.

(** ** C103.  The setters of liquid staking accept exactly the values in range, from the update origin, and set just that value. *)
Theorem C103_reserve_factor C E s o x : (exists s', ls_exec C E s (KReserveFactor o x) = Ok s') <-> lc_update_org C o = true /\ 0 < x < 10 ^ 6.
Proof.
  change (10 ^ 6) with PMILL. cbn [ls_exec]. unfold update_reserve_factor. split.
  - intros [s' H]. bstep H u Eu. bstep H u2 Ev. split; [auto|]. lia.
  - intros [-> H]. replace ((0 <? x) && (x <? PMILL)) with true by lia. cbn. eauto.
Qed.
Print Assumptions C103_reserve_factor.
Theorem C103_unstake_reserve_factor C E s o x : 0 <= x -> (exists s', ls_exec C E s (KUnstakeReserveFactor o x) = Ok s') <-> lc_update_org C o = true /\ x < 10 ^ 6.
Proof.
  change (10 ^ 6) with PMILL. cbn [ls_exec]. unfold update_unstake_reserve_factor. intros Hx. split.
  - intros [s' H]. bstep H u Eu. bstep H u2 Ev. split; [auto|]. lia.
  - intros [-> H]. replace ((0 <=? x) && (x <? PMILL)) with true by lia. cbn. eauto.
Qed.
Print Assumptions C103_unstake_reserve_factor.
Theorem C103_commission C E s o x : (exists s', ls_exec C E s (KCommission o x) = Ok s') <-> lc_update_org C o = true /\ 0 < x < 10 ^ 18.
Proof.
  change (10 ^ 18) with FDIV. cbn [ls_exec]. unfold update_commission. split.
  - intros [s' H]. bstep H u Eu. bstep H u2 Ev. split; [auto|]. lia.
  - intros [-> H]. replace ((0 <? x) && (x <? FDIV)) with true by lia. cbn. eauto.
Qed.
Print Assumptions C103_commission.
Theorem C103_cap C E s o x : (exists s', ls_exec C E s (KCap o x) = Ok s') <-> lc_update_org C o = true /\ x <> 0.
Proof.
  cbn [ls_exec]. unfold update_cap. split.
  - intros [s' H]. bstep H u Eu. bstep H u2 Ev. split; [auto|]. lia.
  - intros [-> H]. replace (negb (x =? 0)) with true by lia. cbn. eauto.
Qed.
Print Assumptions C103_cap.
Theorem C103_setters_exact C E s o x s' :
  (ls_exec C E s (KReserveFactor o x) = Ok s' -> set_out s (ls_comm s) x (ls_urf s) (ls_cap s) (ls_xfee s) s') /\
  (ls_exec C E s (KUnstakeReserveFactor o x) = Ok s' -> set_out s (ls_comm s) (ls_rf s) x (ls_cap s) (ls_xfee s) s') /\
  (ls_exec C E s (KCommission o x) = Ok s' -> set_out s x (ls_rf s) (ls_urf s) (ls_cap s) (ls_xfee s) s') /\
  (ls_exec C E s (KCap o x) = Ok s' -> set_out s (ls_comm s) (ls_rf s) (ls_urf s) x (ls_xfee s) s') /\
  (forall k w, ls_exec C E s (KXcmFee o k x w) = Ok s' -> set_out s (ls_comm s) (ls_rf s) (ls_urf s) (ls_cap s) (<[k := x]> (ls_xfee s)) s' /\ x <> 0 /\ w <> 0).
Proof.
  cbn [ls_exec]. unfold update_reserve_factor, update_unstake_reserve_factor, update_commission, update_cap, update_xcm_fee.
  split; [|split; [|split; [|split]]].
  1-4: intros H; bstep H u Eu; bstep H u2 Ev; injection H as <-; unfold set_out; cbn; auto 12.
  intros k w H; bstep H u Eu; bstep H u2 Ev; bstep H u3 Ew; injection H as <-; unfold set_out; cbn. split; [auto 12|lia].
Qed.
Print Assumptions C103_setters_exact.
(** [reduce_reserves] and [reduce_unstake_reserves] pay exactly the amount out of the accounted reserves, never more than those. *)
Theorem C103_reduce_exact C E s o rcv x s' :
  (ls_exec C E s (KReduceReserves o rcv x) = Ok s' ->
     lc_update_org C o = true /\ x <= ls_res s /\ ls_res s' = ls_res s - x /\ ls_ures s' = ls_ures s /\ ls_params s' = ls_params s /\
     (forall a w, bal (ls_led s') a w = bal (ls_led s) a w - at_ (lc_stk C) (lc_acct C) a w x + at_ (lc_stk C) rcv a w x)) /\
  (ls_exec C E s (KReduceUnstakeReserves o rcv x) = Ok s' ->
     lc_update_org C o = true /\ x <= ls_ures s /\ ls_ures s' = ls_ures s - x /\ ls_res s' = ls_res s /\ ls_params s' = ls_params s /\
     (forall a w, bal (ls_led s') a w = bal (ls_led s) a w - at_ (lc_liq C) (lc_acct C) a w x + at_ (lc_liq C) rcv a w x)).
Proof.
  cbn [ls_exec]. unfold ls_reduce_reserves, reduce_unstake_reserves. split; intros H.
  - bstep H u Eu. bstep H r Er. destruct Er as [-> Er]. bstep H a Ea. apply stk_ok in Ea as ->. bstep H L T. injection H as <-.
    apply transfer_spec in T as (T1 & _). split; [auto|]. split; [lia|]. split; [reflexivity|]. split; [reflexivity|]. split; [reflexivity|]. exact T1.
  - bstep H u Eu. bstep H r Er. destruct Er as [-> Er]. bstep H a Ea. unfold liq in Ea. destruct (lc_liq_known C); [|discriminate Ea]. injection Ea as <-. bstep H L T. injection H as <-.
    apply transfer_spec in T as (T1 & _). split; [auto|]. split; [lia|]. split; [reflexivity|]. split; [reflexivity|]. split; [reflexivity|]. exact T1.
Qed.
Print Assumptions C103_reduce_exact.
Example C103_example : lc_update_org (sxC MaxMin) Root = true /\ 0 < 5000 < 10 ^ 6 /\
  okb (ls_exec (sxC MaxMin) sxE (sxrun MaxMin hx1) (KReserveFactor Root 5000)) (fun s' => ls_rf s' =? 5000) = true /\
  is_ok (ls_exec (sxC MaxMin) sxE (sxrun MaxMin hx1) (KReserveFactor Root (10 ^ 6))) = false.
Proof. vm_compute. repeat split. Qed.
