(** * RouterProofs4: progress of routed trades. *)
From Verif Require Import Base MapSum Ledger AmmModel AmmSpec AmmProofs AmmInv AmmProofs2 AmmProofs3 AmmProofs4 AmmProofs5 RouterModel RouterSpec RouterProofs RouterProofs2.
From Verif Require Import AmmProps2.

(** a hop of [y] fits the pool: at least one fee unit, no overflow of the reserve or the price accumulators *)
Definition hop_fits (C : amm_cfg) (now : Z) (p : pool) (a b y : Z) : Prop :=
  let k := pair_key a b in
  PMILL <= lp_fee C * y /\ reserve k p a + y <= U128MAX /\
  forall out, 0 <= out < reserve k p b -> out * (reserve k p a + y) <= y * reserve k p b ->
    if a <? b then oracle_room now p (reserve k p b - out) (reserve k p a + y) else oracle_room now p (reserve k p a + y) (reserve k p b - out).
Definition route_fits (C : amm_cfg) (now : Z) (ps : gmap (Z * Z) pool) (r amts : list Z) : Prop :=
  forall i a b p y, r !! i = Some a -> r !! S i = Some b -> ps !! pair_key a b = Some p -> amts !! i = Some y -> hop_fits C now p a b y.

Section prog.
  Context (R : router_cfg) (P : policy).
  Let C := r_amm R.

  Lemma route_prog now ps who r : cfg_ok C -> lenient P -> user C who -> 0 <= now -> 0 < lp_fee C -> forall s x amts,
    amm_reachable C P s -> NoDup r -> u128_ok x ->
    (forall i a b, r !! i = Some a -> r !! S i = Some b -> pools s !! pair_key a b = ps !! pair_key a b) ->
    get_amounts_out C ps x r = Ok amts -> (forall a, head r = Some a -> x <= bal (led s) a who) -> route_fits C now ps r amts ->
    exists s', swap_route R P now s who r amts = Ok s'.
  Proof.
    intros HC LP HU Hn HF. induction r as [|a r IH]; intros s x amts HR Hnd Hx Hag HA HB HO; [discriminate HA|].
    destruct r as [|b r]; [cbn; eauto|]. cbn [get_amounts_out] in HA. bstep HA q Eq. destruct q as [ri ro]. bstep HA o Eo. bstep HA outs Eos. injection HA as <-.
    apply get_reserves_spec in Eq as (p & Hp & Hne & -> & ->).
    destruct (HO 0%nat a b p x eq_refl eq_refl Hp eq_refl) as (F1 & F2 & F3).
    destruct (C80_swap_succeeds_partial C P now s who a b x p HC HR LP HU Hne) as (o' & s1 & E); auto.
    { rewrite (Hag 0%nat a b eq_refl eq_refl). exact Hp. }
    { split; [apply Hx|]. apply HB. reflexivity. }
    assert (HR1 : amm_reachable C P s1).
    { replace s1 with (amm_exec C P s (OSwap now who (a, b) x)); [apply amm_reach_step; [exact HR|cbn; auto]|]. unfold amm_exec, amm_step. rewrite E. reflexivity. }
    cbn [swap_route]. fold C. rewrite E. cbn [rbind].
    apply do_swap_spec in E as (p' & p1 & p2 & L1 & L2 & E). cbv zeta in E. destruct E as (_ & Hp' & Hs1 & _ & Ho & _ & _ & _ & T1 & T2 & _).
    assert (p' = p) as -> by (rewrite (Hag 0%nat a b eq_refl eq_refl) in Hp'; congruence). rewrite Eo in Ho. injection Ho as <-.
    apply NoDup_cons in Hnd as [Hna Hnd].
    assert (Hsep : forall i c d, (b :: r) !! i = Some c -> (b :: r) !! S i = Some d -> pair_key a b <> pair_key c d).
    { intros i c d Hc Hd Ek. unfold pair_key in Ek. injection Ek as E1 E2. apply elem_of_list_lookup_2 in Hc, Hd. assert (a = c \/ a = d) as [->| ->] by lia; auto. }
    eapply IH; [exact HR1|exact Hnd|exact (get_amount_out_u128 R _ _ _ _ Eo)| |exact Eos| |].
    - intros i c d Hc Hd. rewrite Hs1. cbn. rewrite lookup_insert_ne by eauto. apply (Hag (S i)); auto.
    - intros c [= <-]. rewrite Hs1. cbn [led set_pool]. apply transfer_spec in T1 as (T1 & _), T2 as (T2 & _). rewrite T2, T1.
      pose proof (inv_wf C s (reachable_inv C P s HC HR)) as W. pose proof (proj1 W b who) as Hb.
      destruct HU as [HU _]. unfold at_. repeat case_bool_decide; destruct_and?; try congruence; try tauto; try lia.
    - intros i c d q y Hc Hd Hq Hy. apply (HO (S i) c d q y); auto.
  Qed.
End prog.
