(** * RouterProps: property theorems C12-C14 (router). *)
From Verif Require Import Base MapSum Ledger AmmModel AmmSpec AmmProofs AmmInv AmmEx
  RouterModel RouterSpec RouterProofs RouterProofs2 RouterProofs3.
From Coq Require Import Sorting.Sorted.

(** runtime constant MaxLengthRoute = 10 (runtime/heiko/src/lib.rs:1903) *)
Definition exR : router_cfg := mkRouterCfg exC 10.
Definition ex_r : amm := exrun ex0
  [OCreate Root (100, 200) (1000000, 1000000000) 10 900; OCreate Root (200, 300) (1000000000, 1000000000) 10 901].
Lemma ex_r_reachable : amm_reachable exC allow_all ex_r.
Proof.
  unfold ex_r, exrun. cbn [fold_left].
  repeat (apply amm_reach_step; [|cbn; repeat split; try ex_user; try lia]).
  apply amm_reach_init, mk_ledger_wf.
Qed.

(** C12.  Exact-input trade: the trader pays exactly [ain] of the first token and receives exactly the quoted
    output, at least [minout], of the last; no other token and no third party is affected; pools off the route
    are untouched. *)
Theorem C12_exact_input_honours_minimum_and_quote R P now s who r ain minout s' a0 out :
  who <> amm_acct (r_amm R) ->
  swap_exact_tokens_for_tokens R P now s who r ain minout = Ok (s', a0, out) ->
  r <> [] /\ Z.of_nat (length r) <= max_len R /\ NoDup r /\ 0 < ain /\ a0 = ain /\ minout <= out /\
  (exists amounts, get_amounts_out (r_amm R) (pools s) ain r = Ok amounts /\ last amounts = Some out) /\
  (forall a, bal (led s') a who = bal (led s) a who + route_delta r ain out a) /\
  (forall a, bal (led s') a (amm_acct (r_amm R)) = bal (led s) a (amm_acct (r_amm R)) - route_delta r ain out a) /\
  (forall a w, w <> who -> w <> amm_acct (r_amm R) -> bal (led s') a w = bal (led s) a w) /\
  (forall a, iss (led s') a = iss (led s) a) /\
  (forall k, (forall i a b, r !! i = Some a -> r !! S i = Some b -> k <> pair_key a b) ->
     pools s' !! k = pools s !! k).
Proof. exact (exact_in_full R P now s who r ain minout s' a0 out). Qed.
Print Assumptions C12_exact_input_honours_minimum_and_quote.

(** routed trades keep the AMM in a reachable state (so every AMM theorem applies) and no pool product decreases *)
Theorem C12_routed_trades_preserve_pools R P now s who r ain minout s' a0 out :
  cfg_ok (r_amm R) -> amm_reachable (r_amm R) P s -> user (r_amm R) who -> 0 <= now -> u128_ok ain ->
  swap_exact_tokens_for_tokens R P now s who r ain minout = Ok (s', a0, out) ->
  amm_reachable (r_amm R) P s' /\
  forall k p, pools s !! k = Some p -> exists p', pools s' !! k = Some p' /\ kprod p <= kprod p' /\ p_lp p' = p_lp p.
Proof. exact (exact_in_reachable R P now s who r ain minout s' a0 out). Qed.
Print Assumptions C12_routed_trades_preserve_pools.

Theorem C12_exact_output_trades_preserve_pools R P now s who r aout maxin s' a0 out :
  cfg_ok (r_amm R) -> amm_reachable (r_amm R) P s -> user (r_amm R) who -> 0 <= now -> u128_ok aout ->
  swap_tokens_for_exact_tokens R P now s who r aout maxin = Ok (s', a0, out) ->
  amm_reachable (r_amm R) P s' /\
  forall k p, pools s !! k = Some p -> exists p', pools s' !! k = Some p' /\ kprod p <= kprod p' /\ p_lp p' = p_lp p.
Proof. exact (exact_out_reachable R P now s who r aout maxin s' a0 out). Qed.
Print Assumptions C12_exact_output_trades_preserve_pools.

Example C12_example :
  okb (swap_exact_tokens_for_tokens exR allow_all 5 ex_r 11 [100; 200; 300] 5000 4000000)
    (fun r => (r.2 =? 4921055) && (bal (led r.1.1) 300 11 - bal (led ex_r) 300 11 =? 4921055)) = true.
Proof. vm_compute. reflexivity. Qed.

(** C13.  What holds of the exact-output trade: the debit of the first token is the reported [a0 <= maxin]; every
    other token of the route (in particular the last) falls short of the requested amount by at most
    reserve_out/reserve_in + 1 units of the hop that produces it; nobody else is affected. *)
Theorem C13_exact_output_partial R P now s who r aout maxin s' a0 out :
  cfg_ok (r_amm R) -> amm_reachable (r_amm R) P s -> user (r_amm R) who -> 0 <= now -> u128_ok aout ->
  swap_tokens_for_exact_tokens R P now s who r aout maxin = Ok (s', a0, out) ->
  r <> [] /\ Z.of_nat (length r) <= max_len R /\ NoDup r /\ 0 < aout /\ out = aout /\ a0 <= maxin /\
  (forall a, (2 <= length r)%nat -> head r = Some a -> bal (led s') a who = bal (led s) a who - a0) /\
  (forall a, length r = 1%nat -> bal (led s') a who = bal (led s) a who) /\
  (forall a, a ∉ r -> bal (led s') a who = bal (led s) a who) /\
  (forall a w, w <> who -> w <> amm_acct (r_amm R) -> bal (led s') a w = bal (led s) a w) /\
  (forall i a b, r !! i = Some a -> r !! S i = Some b ->
     exists ri ro, get_reserves (pools s) a b = Ok (ri, ro) /\
       (S (S i) = length r -> bal (led s) b who + aout - (ro / ri + 1) <= bal (led s') b who) /\
       (S (S i) <> length r -> bal (led s) b who - (ro / ri + 1) <= bal (led s') b who)).
Proof. exact (exact_out_full R P now s who r aout maxin s' a0 out). Qed.
Print Assumptions C13_exact_output_partial.

(** the full property "credits at least [aout]" is false of the code (and the event reports [aout]) *)
Theorem C13_exact_output_delivers_refuted :
  exists R P now s who r aout maxin s' a0,
    cfg_ok (r_amm R) /\ amm_reachable (r_amm R) P s /\ user (r_amm R) who /\
    swap_tokens_for_exact_tokens R P now s who r aout maxin = Ok (s', a0, aout) /\
    r = [100; 200] /\ aout = 996905 /\ bal (led s') 200 who = bal (led s) 200 who + 996006.
Proof.
  exists exR, allow_all, 5, ex_r, 11, [100; 200], 996905, 1000000.
  assert (E : okb (swap_tokens_for_exact_tokens exR allow_all 5 ex_r 11 [100; 200] 996905 1000000)
    (fun r => (r.2 =? 996905) && (bal (led r.1.1) 200 11 =? bal (led ex_r) 200 11 + 996006)) = true) by (vm_compute; reflexivity).
  apply okb_spec in E as ([[s' a0] o] & E & Et). cbn [fst snd] in Et. apply andb_prop in Et as [E1 E2].
  apply Z.eqb_eq in E1, E2. subst o. exists s', a0. split; [exact exC_ok|]. split; [exact ex_r_reachable|].
  split; [ex_user|]. auto.
Qed.
Print Assumptions C13_exact_output_delivers_refuted.

(** an exact-output trade can silently spend the trader's own balance of an intermediate token *)
Theorem C13_only_first_token_debited_refuted :
  exists R P now s who r aout maxin s' a0,
    cfg_ok (r_amm R) /\ amm_reachable (r_amm R) P s /\ user (r_amm R) who /\
    swap_tokens_for_exact_tokens R P now s who r aout maxin = Ok (s', a0, aout) /\
    r = [100; 200; 300] /\ bal (led s') 200 who = bal (led s) 200 who - 883.
Proof.
  exists exR, allow_all, 5, ex_r, 11, [100; 200; 300], 992911, 1000000.
  assert (E : okb (swap_tokens_for_exact_tokens exR allow_all 5 ex_r 11 [100; 200; 300] 992911 1000000)
    (fun r => (r.2 =? 992911) && (bal (led r.1.1) 200 11 =? bal (led ex_r) 200 11 - 883)) = true) by (vm_compute; reflexivity).
  apply okb_spec in E as ([[s' a0] o] & E & Et). cbn [fst snd] in Et. apply andb_prop in Et as [E1 E2].
  apply Z.eqb_eq in E1, E2. subst o. exists s', a0. split; [exact exC_ok|]. split; [exact ex_r_reachable|].
  split; [ex_user|]. auto.
Qed.
Print Assumptions C13_only_first_token_debited_refuted.

(** C14.  [ks] is the pool listing in any storage order. *)
Theorem C14_all_routes_are_exactly_the_simple_routes R P s ks amount tin tout rev rs :
  cfg_ok (r_amm R) -> amm_reachable (r_amm R) P s -> pool_listing (pools s) ks ->
  get_all_routes R ks (pools s) amount tin tout rev = Ok rs ->
  (forall r q, (r, q) ∈ rs <-> simple_route (pools s) tin tout r /\ route_quote R (pools s) rev amount r = Ok q) /\
  NoDup (map fst rs) /\ StronglySorted (fun x y => y.2 <= x.2) rs.
Proof.
  exact (fun HC HR => all_routes_spec R ks (pools s) amount tin tout rev rs
    (inv_key _ _ (reachable_inv (r_amm R) P s HC HR))).
Qed.
Print Assumptions C14_all_routes_are_exactly_the_simple_routes.

Theorem C14_best_route_optimal R P s ks amount tin tout rev r q :
  cfg_ok (r_amm R) -> amm_reachable (r_amm R) P s -> pool_listing (pools s) ks ->
  get_best_route R ks (pools s) amount tin tout rev = Ok (r, q) ->
  simple_route (pools s) tin tout r /\ route_quote R (pools s) rev amount r = Ok q /\
  (forall r' q', simple_route (pools s) tin tout r' -> route_quote R (pools s) rev amount r' = Ok q' ->
     if rev then q <= q' else q' <= q).
Proof.
  exact (fun HC HR => best_route_spec R ks (pools s) amount tin tout rev r q
    (inv_key _ _ (reachable_inv (r_amm R) P s HC HR))).
Qed.
Print Assumptions C14_best_route_optimal.

Theorem C14_best_route_found R P s ks amount tin tout rev r q :
  cfg_ok (r_amm R) -> amm_reachable (r_amm R) P s -> pool_listing (pools s) ks ->
  (forall r', simple_route (pools s) tin tout r' -> route_quote R (pools s) rev amount r' <> Panic) ->
  tin <> tout -> simple_route (pools s) tin tout r -> route_quote R (pools s) rev amount r = Ok q ->
  exists r' q', get_best_route R ks (pools s) amount tin tout rev = Ok (r', q').
Proof.
  exact (fun HC HR => best_route_exists R ks (pools s) amount tin tout rev r q
    (inv_key _ _ (reachable_inv (r_amm R) P s HC HR))).
Qed.
Print Assumptions C14_best_route_found.

(** the best route may exceed MaxLengthRoute, in which case the router itself refuses to execute it *)
Definition chain_s : amm :=
  exrun (amm_init (mk_ledger (map (fun i => (Z.of_nat i, 10, 10 ^ 12)) (seq 1 11))))
    (map (fun i => OCreate Root (Z.of_nat i, Z.of_nat (S i)) (10 ^ 8, 10 ^ 8) 10 (900 + Z.of_nat i)) (seq 1 10)).
Lemma chain_s_reachable : amm_reachable exC allow_all chain_s.
Proof.
  unfold chain_s, exrun. cbn [fold_left map seq].
  repeat (apply amm_reach_step; [|cbn; repeat split; try ex_user; try lia]).
  apply amm_reach_init, mk_ledger_wf.
Qed.
Lemma map_listing (ps : gmap (Z * Z) pool) : pool_listing ps (map_to_list ps).*1.
Proof.
  split; [apply NoDup_fst_map_to_list|]. intros k. rewrite elem_of_list_fmap. split.
  - intros ([k' p] & -> & H). apply elem_of_map_to_list in H. cbn. eauto.
  - intros [p H]. exists (k, p). split; auto. apply elem_of_map_to_list. auto.
Qed.
Theorem C14_best_route_executable_refuted :
  exists R P s ks r q,
    cfg_ok (r_amm R) /\ amm_reachable (r_amm R) P s /\ pool_listing (pools s) ks /\ max_len R = 10 /\
    get_best_route R ks (pools s) 1000000 1 11 false = Ok (r, q) /\
    forall now who, swap_exact_tokens_for_tokens R P now s who r 1000000 0 = Err "ExceedMaxLengthRoute".
Proof.
  exists exR, allow_all, chain_s, (map_to_list (pools chain_s)).*1, [1; 2; 3; 4; 5; 6; 7; 8; 9; 10; 11], 883489.
  split; [exact exC_ok|]. split; [exact chain_s_reachable|]. split; [apply map_listing|]. split; [reflexivity|].
  split; [vm_compute; reflexivity|]. intros now who. reflexivity.
Qed.
Print Assumptions C14_best_route_executable_refuted.

Example C14_example :
  get_best_route exR (map_to_list (pools ex_r)).*1 (pools ex_r) 5000 100 300 false = Ok ([100; 200; 300], 4921055) /\
  pool_listing (pools ex_r) (map_to_list (pools ex_r)).*1.
Proof. split; [vm_compute; reflexivity | apply map_listing]. Qed.
