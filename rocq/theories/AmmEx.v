(** * AmmEx: concrete configurations, histories and witnesses for the AMM theorems. *)
From Verif Require Import Base MapSum Ledger AmmModel AmmSpec AmmProofs AmmInv.

(** a ledger built by minting *)
Definition mk_ledger (l : list (Z * Z * Z)) : ledger :=
  foldr (fun x L => match mint_into allow_all L x.1.1 x.1.2 x.2 with Ok L' => L' | _ => L end) empty_ledger l.
Lemma mk_ledger_wf l : ledger_wf (mk_ledger l).
Proof.
  induction l as [|[[a w] v] l IH]; [apply empty_ledger_wf|].
  cbn [mk_ledger foldr]. fold (mk_ledger l). cbn [fst snd].
  destruct (mint_into allow_all (mk_ledger l) a w v) eqn:E; auto. eapply mint_wf; eauto.
Qed.

(** accounts 1 (pallet), 2 (lock), fee 0.3%, MinimumLiquidity 1000: runtime/heiko/src/lib.rs:1776-1791 *)
Definition exC : amm_cfg :=
  mkAmmCfg 1 2 3000 1000 0 (fun o => match o with Root => true | _ => false end)
           (fun o => match o with Root => true | _ => false end).
Definition exL : ledger :=
  mk_ledger [(100, 10, 10^15); (200, 10, 10^15); (100, 11, 10^15); (200, 11, 10^15); (300, 10, 10^15); (300, 11, 10^15)].
Definition exrun (s : amm) (os : list amm_op) : amm := fold_left (amm_exec exC allow_all) os s.
Definition ex0 : amm := amm_init exL.
(** create pool (200,100), swap, add and remove liquidity *)
Definition ex_ops1 : list amm_op :=
  [OCreate Root (100, 200) (2000000, 4000000) 10 900;
   OSwap 5 11 (100, 200) 10000;
   OAdd 11 (200, 100) (500000, 500000) (1, 1);
   ORemove 10 (100, 200) 100000].
Definition ex1 : amm := exrun ex0 ex_ops1.

Definition z_bounds_b (x : Z) : bool := (0 <=? x) && (x <=? U128MAX).
Definition user_b (C : amm_cfg) (w : Z) : bool := negb (w =? amm_acct C) && negb (w =? lock_acct C).

Lemma exC_ok : cfg_ok exC.
Proof. unfold cfg_ok; cbn. repeat split; try discriminate; vm_compute; congruence. Qed.

Lemma user_ex w : user_b exC w = true -> user exC w.
Proof. unfold user_b, user. cbn. intros H. apply andb_prop in H. split; lia. Qed.

Lemma u128_b x : z_bounds_b x = true -> u128_ok x.
Proof. unfold z_bounds_b, u128_ok. intros H. apply andb_prop in H. lia. Qed.

Ltac ex_user := first [apply user_ex; vm_compute; reflexivity | apply u128_b; vm_compute; reflexivity].

Lemma ex1_reachable : amm_reachable exC allow_all ex1.
Proof.
  unfold ex1, exrun, ex_ops1. cbn [fold_left].
  repeat (apply amm_reach_step; [|cbn; repeat split; try ex_user; try lia]).
  apply amm_reach_init, mk_ledger_wf.
Qed.

(** evaluation helper: [m] succeeds with a value satisfying the test [f] *)
Definition okb {A} (m : res A) (f : A -> bool) : bool := match m with Ok x => f x | _ => false end.
Lemma okb_spec {A} (m : res A) (f : A -> bool) : okb m f = true -> exists x, m = Ok x /\ f x = true.
Proof. destruct m; cbn; intros; try discriminate. eauto. Qed.
Definition someb {A} (m : option A) (f : A -> bool) : bool := match m with Some x => f x | _ => false end.
Lemma someb_spec {A} (m : option A) (f : A -> bool) : someb m f = true -> exists x, m = Some x /\ f x = true.
Proof. destruct m; cbn; intros; try discriminate. eauto. Qed.
