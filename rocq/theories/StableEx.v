(** * StableEx: a concrete configuration and histories for the StableSwap theorems. *)
From Verif Require Import Base MapSum Ledger AmmModel AmmSpec AmmProofs AmmEx StableModel StableSpec.

(** vanilla: LpFee 0.25%, ProtocolFee 0.05%, MinimumLiquidity 1000, A = 85 (runtime/vanilla/src/lib.rs:1386-1407, 1804-1807) *)
Definition stC : ss_cfg :=
  mkSsCfg 1 2 3 2500 500 1000 85 (fun o => match o with Root => true | _ => false end).
Definition stL : ledger :=
  mk_ledger [(100, 10, 10^21); (200, 10, 10^21); (100, 11, 10^21); (200, 11, 10^21)].
Definition st0 : ss := ss_init stL.
Definition strun (s : ss) (os : list ss_op) : ss := fold_left (ss_exec stC allow_all) os s.

Lemma stC_ok : ss_cfg_ok stC.
Proof. unfold ss_cfg_ok; cbn. repeat split; try discriminate; vm_compute; congruence. Qed.

Definition st_user_b (w : Z) : bool := negb (w =? 1) && negb (w =? 2).
Definition st_op_b (o : ss_op) : bool :=
  match o with
  | SAdd who _ d m => st_user_b who && z_bounds_b d.1 && z_bounds_b d.2
  | SRemove who _ l => st_user_b who && z_bounds_b l
  | SCreate _ _ amts r _ => st_user_b r && z_bounds_b amts.1 && z_bounds_b amts.2
  | SSwap now who _ amt => st_user_b who && z_bounds_b amt && (0 <=? now)
  | STransfer _ from _ amt => st_user_b from && z_bounds_b amt
  | _ => false
  end.
Lemma st_op_b_ok s o : st_op_b o = true -> ss_op_ok stC s o.
Proof.
  destruct o; cbn; unfold ss_user, u128_ok, z_bounds_b, st_user_b; cbn;
    intros H; repeat (apply andb_prop in H; destruct H as [H ?]); repeat (apply andb_prop in H; destruct H as [H ?]);
    repeat match goal with H : _ && _ = true |- _ => apply andb_prop in H; destruct H end; try discriminate; repeat split; lia.
Qed.
Lemma strun_reach os s :
  ss_reachable stC allow_all s -> forallb st_op_b os = true -> ss_reachable stC allow_all (strun s os).
Proof.
  revert s. induction os as [|o os IH]; intros s R H; [exact R|]. cbn [forallb] in H. apply andb_prop in H. destruct H as [H1 H2].
  cbn [strun fold_left]. apply IH; auto. apply ss_reach_step; auto. apply st_op_b_ok; auto.
Qed.
Lemma st0_reach : ss_reachable stC allow_all st0.
Proof. apply ss_reach_init, mk_ledger_wf. Qed.

(** a small balanced pool with trades and deposits *)
Definition sh1 : list ss_op :=
  [SCreate Root (100, 200) (1000000, 1000000) 10 900;
   SSwap 5 11 (100, 200) 10000;
   SAdd 11 (200, 100) (500000, 500000) (1, 1);
   SRemove 10 (100, 200) 100000].
Definition st1 : ss := strun st0 sh1.
(** two trades of asset 200 against asset 100 leave the pool holding mostly asset 200 *)
Definition sh2 : list ss_op :=
  [SCreate Root (100, 200) (1000000, 1000000) 10 900; SSwap 5 11 (200, 100) 500000; SSwap 6 11 (200, 100) 251707].
Definition st2 : ss := strun st0 sh2.
(** one more trade and D can no longer be computed *)
Definition st3 : ss := strun st2 [SSwap 7 11 (200, 100) 246206].
(** a balanced pool of ten tokens with twelve decimals each *)
Definition st4 : ss := strun st0 [SCreate Root (100, 200) (10^13, 10^13) 10 900].
(** a pool of a million tokens with twelve decimals each *)
Definition st5 : ss := strun st0 [SCreate Root (100, 200) (10^18, 10^18 + 10) 10 900].
(** the first depositor's pool doubled by a second depositor *)
Definition st6 : ss := strun st0 [SCreate Root (100, 200) (1000000, 1000000) 10 900].
Definition st7 : ss := strun st6 [SAdd 11 (100, 200) (1000000, 1000000) (1000000, 1000000)].
Definition st8 : ss := strun st7 [SRemove 11 (100, 200) (bal (ss_led st7) 900 11)].
Lemma st1_reach : ss_reachable stC allow_all st1.
Proof. apply strun_reach; [apply st0_reach|vm_compute; reflexivity]. Qed.
Lemma st2_reach : ss_reachable stC allow_all st2.
Proof. apply strun_reach; [apply st0_reach|vm_compute; reflexivity]. Qed.
Lemma st3_reach : ss_reachable stC allow_all st3.
Proof. apply strun_reach; [apply st2_reach|vm_compute; reflexivity]. Qed.
Lemma st4_reach : ss_reachable stC allow_all st4.
Proof. apply strun_reach; [apply st0_reach|vm_compute; reflexivity]. Qed.
Lemma st5_reach : ss_reachable stC allow_all st5.
Proof. apply strun_reach; [apply st0_reach|vm_compute; reflexivity]. Qed.
Lemma st6_reach : ss_reachable stC allow_all st6.
Proof. apply strun_reach; [apply st0_reach|vm_compute; reflexivity]. Qed.
Lemma st7_reach : ss_reachable stC allow_all st7.
Proof. apply strun_reach; [apply st6_reach|vm_compute; reflexivity]. Qed.
