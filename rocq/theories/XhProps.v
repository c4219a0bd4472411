(** * XhProps: messages to the relay chain (C145-C150). *)
From Verif Require Import Base MapSum Ledger AmmModel AmmEx AmmProofs5 XcmModel XhModel XhSpec XhProofs XhProofs2.

(** a concrete chain: helper account 70, refunds to 71, relay token 101, parachain 2012 on Polkadot *)
Definition xhC : xh_cfg := mkXhCfg 70 71 101 Polkadot 2012 (fun o => match o with Root => true | _ => false end) (fun _ => true).
Definition xhS0 : xh := xh0 (mk_ledger [(101, 70, 10 ^ 12); (101, 80, 10 ^ 12)]).
Definition xh_hist : list xh_op :=
  [HUpdate Root KBond (5, 6) 1000; HRequest (QBond 500 PStaked 33 2) 1; HAddFees 80 777; HRequest (QUnbond 40 2) 2;
   HUpdate (Signed 4) KBond (1, 1) 1; HRequest (QNominate [8; 9] 2) 3; HMint 101 70 5].
Definition xhS : xh := fold_left (xh_exec xhC allow_all) xh_hist xhS0.
Lemma xh_reach_run C P l : forall s, xh_reachable C P s -> xh_reachable C P (fold_left (xh_exec C P) l s).
Proof.
  induction l as [|o l IH]; intros s H; cbn; auto. apply IH. unfold xh_exec. destruct (xh_step C P s o) eqn:E; auto. econstructor; eauto.
Qed.

(** ** C145: the message sent *)
(** A request that succeeds burns exactly the configured fee of this kind of request from the helper account, sends exactly one
    message - withdraw the fee, pay with it, do the wanted calls in order, report to the returned query, refund - and registers the
    call to be notified; nothing else changes. *)
Theorem C145_request_exact C P s q n s' id :
  request C P s q n = Ok (s', id) ->
  let f := fee_of s (fee_kind q) in
  hc_net C <> OtherNet /\ id = h_qid s /\ h_sent s' = h_sent s ++ [message C f.1 f.2 (wanted q) id] /\
  (forall b x, bal (h_led s') b x = bal (h_led s) b x - at_ (hc_relay C) (hc_acct C) b x f.2) /\
  (forall b, iss (h_led s') b = iss (h_led s) b - (if bool_decide (b = hc_relay C) then f.2 else 0)) /\
  h_fee s' = h_fee s /\ h_qid s' = h_qid s + 1 /\ h_q s' = <[id := n]> (h_q s).
Proof.
  cbn zeta. intros H. apply request_inv in H. cbn zeta in H. destruct H as (-> & N & L & B & _ & ->). apply burn_spec in B as (_ & _ & B1 & B2).
  repeat split; auto.
Qed.
Print Assumptions C145_request_exact.
(** It succeeds whenever the helper account can pay and the message can be sent. *)
Theorem C145_request_succeeds C P s q n :
  lenient P -> hc_net C <> OtherNet -> (forall m, hc_send C m = true) ->
  0 <= (fee_of s (fee_kind q)).2 <= bal (h_led s) (hc_relay C) (hc_acct C) ->
  exists s', request C P s q n = Ok (s', h_qid s).
Proof.
  intros LP N S F. destruct (burn_prog P (h_led s) (hc_relay C) (hc_acct C) (fee_of s (fee_kind q)).2 LP ltac:(lia) ltac:(lia)) as [L E].
  eapply request_prog; eauto.
Qed.
Print Assumptions C145_request_succeeds.
(** Without the fee in the helper account nothing is sent. *)
Theorem C145_no_fee_no_message C P s q n :
  bal (h_led s) (hc_relay C) (hc_acct C) < (fee_of s (fee_kind q)).2 -> 0 < (fee_of s (fee_kind q)).2 ->
  is_ok (request C P s q n) = false.
Proof.
  intros H H0. destruct (request C P s q n) as [[s' id]| |] eqn:E; auto. apply request_inv in E. cbn zeta in E. destruct E as (_ & _ & L & B & _).
  apply burn_spec in B as (_ & B & _). specialize (B H0). lia.
Qed.
Print Assumptions C145_no_fee_no_message.
Example C145_example :
  okb (request xhC allow_all (xh_exec xhC allow_all xhS0 (HUpdate Root KBond (5, 6) 1000)) (QBond 500 PStaked 33 2) 9) (fun p =>
    bool_decide (p.2 = 0) && (bal (h_led p.1) 101 70 =? 10 ^ 12 - 1000) && match h_sent p.1 with [[IWithdraw 1000; IBuy 1000; ITransact (5, 6) (5 :: 3 :: _); ITransact (5, 6) (26 :: 1 :: 2 :: 0 :: 7 :: 0 :: _); IReport _ 0; IRefund; IDeposit 1000 71]] => true | _ => false end) = true.
Proof. vm_compute. reflexivity. Qed.

(** ** C146: queries and fees over histories *)
(** No two messages ever sent report to the same query, every query that was ever given out is known, and stays what it was. *)
Theorem C146_queries_unique C P s :
  xh_reachable C P s -> NoDup (flat_map queries (h_sent s)) /\ forall id, id ∈ flat_map queries (h_sent s) <-> is_Some (h_q s !! id).
Proof.
  intros H. apply h_inv_reach in H. destruct H as (_ & H1 & H2 & H3). split; [exact H1|]. intros id. rewrite H3. apply H2.
Qed.
Print Assumptions C146_queries_unique.
Theorem C146_query_fixed C P s o s' id n :
  xh_reachable C P s -> xh_step C P s o = Ok s' -> h_q s !! id = Some n -> h_q s' !! id = Some n.
Proof.
  intros R H E. apply h_inv_reach in R. destruct R as (_ & _ & _ & R). apply step_ids in H. destruct H as [(_ & -> & _)|(m & k & _ & -> & _)]; [exact E|].
  rewrite lookup_insert_ne; [exact E|]. intros <-. assert (K : is_Some (h_q s !! h_qid s)) by eauto. apply R in K. lia.
Qed.
Print Assumptions C146_query_fixed.
Theorem C146_query_new C P s q n s' id :
  xh_reachable C P s -> request C P s q n = Ok (s', id) -> h_q s !! id = None /\ h_q s' !! id = Some n.
Proof.
  intros R H. apply h_inv_reach in R. destruct R as (_ & _ & _ & R). apply request_inv in H. cbn zeta in H. destruct H as (-> & _ & L & _ & _ & ->).
  split; [|cbn; apply lookup_insert]. destruct (h_q s !! h_qid s) eqn:E; auto. assert (is_Some (h_q s !! h_qid s)) by eauto. apply R in H. lia.
Qed.
Print Assumptions C146_query_new.
(** The relay tokens that exist here plus those withdrawn from the sovereign account by the messages stay constant, unless others mint or
    burn them: every fee the messages spend over there was burnt here. *)
Theorem C146_fees_backed C P l s :
  Forall (fun o => match o with HMint a _ _ | HBurn a _ _ => a <> hc_relay C | _ => True end) l ->
  let s' := fold_left (xh_exec C P) l s in
  iss (h_led s') (hc_relay C) + total (h_sent s') = iss (h_led s) (hc_relay C) + total (h_sent s).
Proof.
  intros F. cbn zeta. revert s. induction F as [|o l Ho _ IH]; intros s; cbn [fold_left]; [lia|]. rewrite IH. clear IH.
  unfold xh_exec. destruct (xh_step C P s o) as [s'| |] eqn:E; try lia.
  destruct o as [q n|o k w f|p a|a w v|a w v|a f t v]; cbn [xh_step] in E.
  - apply rbind_ok in E. destruct E as ((s1 & id) & H & H1). injection H1 as <-. apply C145_request_exact in H. cbn zeta in H.
    destruct H as (_ & _ & H1 & _ & H2 & _). rewrite H1, H2, bool_decide_true by reflexivity. rewrite total_app. rewrite total_one, takes_message. lia.
  - unfold update_fee in E. bstep E x1 E1. bstep E x2 E2. bstep E x3 E3. injection E as <-. reflexivity.
  - unfold add_fees in E. bstep E L E1. injection E as <-. apply transfer_spec in E1 as (_ & E1 & _). cbn [set_h_led h_led h_sent]. rewrite E1. reflexivity.
  - bstep E L E1. injection E as <-. apply mint_spec in E1 as (_ & _ & E1). cbn [set_h_led h_led h_sent]. rewrite E1, bool_decide_false by congruence. lia.
  - bstep E L E1. injection E as <-. apply burn_spec in E1 as (_ & _ & _ & E1). cbn [set_h_led h_led h_sent]. rewrite E1, bool_decide_false by congruence. lia.
  - bstep E L E1. injection E as <-. apply transfer_spec in E1 as (_ & E1 & _). cbn [set_h_led h_led h_sent]. rewrite E1. reflexivity.
Qed.
Print Assumptions C146_fees_backed.
Example C146_example :
  xh_reachable xhC allow_all xhS /\ flat_map queries (h_sent xhS) = [0; 1; 2] /\ total (h_sent xhS) = 30000001000 /\
  (h_q xhS !! 0, h_q xhS !! 1, h_q xhS !! 2, h_q xhS !! 3) = (Some 1, Some 2, Some 3, None) /\ iss (h_led xhS) 101 = 2 * 10 ^ 12 + 5 - 30000001000.
Proof. split; [apply xh_reach_run; constructor|]. vm_compute. auto. Qed.

(** ** C147, C148: what the answer of the relay chain means *)
Section relay.
  Context {R : Type} (G : relay_cfg R).
  Lemma resp_none m l : forall s, (forall x, x ∈ r_resp s -> x.2 = None) -> forall x, x ∈ r_resp (relay_run G m s l) -> x.2 = None.
  Proof.
    induction l as [|i l IH]; intros s H x; cbn [relay_run]; [apply H|].
    destruct (relay_instr G m s i) as [s1|] eqn:E; [|apply H]. apply IH. clear IH x. destruct i; cbn [relay_instr] in E.
    - destruct (rc_take G (r_st s) amt); [|discriminate]. injection E as <-. exact H.
    - destruct (_ && _); [|discriminate]. injection E as <-. exact H.
    - destruct (rc_dispatch G (r_st s) w call) as [[? ?]|]; [|discriminate]. injection E as <-. exact H.
    - injection E as <-. cbn. intros x. rewrite elem_of_app, elem_of_list_singleton. intros [K| ->]; [auto|reflexivity].
    - injection E as <-. exact H.
    - destruct (rc_put G (r_st s) to _); [|discriminate]. injection E as <-. exact H.
  Qed.
  (** running the transacts *)
  Lemma transacts m w net calls : forall s tail,
    let s' := relay_run G m s (map (fun c => ITransact w (enc net c)) calls ++ tail) in
    (exists s1, map fst (r_calls s1) = map fst (r_calls s) ++ map (enc net) calls /\ r_resp s1 = r_resp s /\ r_hold s1 = r_hold s /\ r_paid s1 = r_paid s /\ s' = relay_run G m s1 tail) \/
    (r_resp s' = r_resp s /\ r_hold s' = r_hold s /\ r_paid s' = r_paid s /\ exists k, map fst (r_calls s') = map fst (r_calls s) ++ take k (map (enc net) calls)).
  Proof.
    cbn zeta. induction calls as [|c calls IH]; intros s tail; cbn [map app relay_run].
    - left. exists s. rewrite app_nil_r. auto.
    - cbn [relay_instr]. destruct (rc_dispatch G (r_st s) w (enc net c)) as [[st ok]|].
      + destruct (IH (mkRvm st (r_hold s) (r_paid s) (r_calls s ++ [(enc net c, ok)]) (r_resp s)) tail) as [(s1 & K1 & K2 & K3 & K4 & K5)|(K2 & K3 & K4 & k & K1)]; cbn in *.
        * left. exists s1. rewrite K1, map_app, <- app_assoc. auto.
        * right. split; [exact K2|]. split; [exact K3|]. split; [exact K4|]. exists (S k). rewrite K1, map_app, <- app_assoc. reflexivity.
      + right. split; [reflexivity|]. split; [reflexivity|]. split; [reflexivity|]. exists 0%nat. rewrite take_0, app_nil_r. reflexivity.
  Qed.
End relay.

(** Whatever the relay chain is: a message of this pallet is answered at most once, to the right query, and only after every wanted
    call was dispatched, in order. *)
Theorem C148_answer_after_all_calls {R} (G : relay_cfg R) C st w f calls id :
  let s := relay_exec G st (message C w f calls id) in
  r_resp s = [] \/ (exists e, r_resp s = [(mkLoc 0 [JPara (hc_self C)], id, e)]) /\ map fst (r_calls s) = map (enc (hc_net C)) calls.
Proof.
  cbn zeta. unfold relay_exec.
  enough (Gen : forall m, let s := relay_run G m (mkRvm st 0 0 [] []) (message C w f calls id) in
    r_resp s = [] \/ (exists e, r_resp s = [(mkLoc 0 [JPara (hc_self C)], id, e)]) /\ map fst (r_calls s) = map (enc (hc_net C)) calls) by apply Gen.
  intros m. cbn zeta. unfold message. cbn [app relay_run relay_instr r_st].
  destruct (rc_take G st f) as [st1|]; [|auto]. cbn [r_st r_hold r_paid r_calls r_resp relay_run relay_instr]. destruct (_ && _); [|auto].
  match goal with |- context [relay_run G m ?s0 (map _ calls ++ ?t)] => destruct (transacts G m w (hc_net C) calls s0 t) as [(s1 & K1 & K2 & K3 & K4 & K5)|(K2 & _)] end.
  2:{ left. rewrite K2. reflexivity. }
  right. rewrite K5. cbn [relay_run relay_instr]. cbn in K1, K2.
  destruct (rc_put G _ _ _) as [st2|]; cbn; rewrite K1, K2; (split; [eexists; reflexivity|reflexivity]).
Qed.
Print Assumptions C148_answer_after_all_calls.
(** In any case the calls dispatched are the first ones of those wanted, in order. *)
Theorem C148_calls_in_order {R} (G : relay_cfg R) C st w f calls id :
  exists k, map fst (r_calls (relay_exec G st (message C w f calls id))) = take k (map (enc (hc_net C)) calls).
Proof.
  unfold relay_exec.
  enough (Gen : forall m, exists k, map fst (r_calls (relay_run G m (mkRvm st 0 0 [] []) (message C w f calls id))) = take k (map (enc (hc_net C)) calls)) by apply Gen.
  intros m. unfold message. cbn [app relay_run relay_instr r_st].
  destruct (rc_take G st f) as [st1|]; [|exists 0%nat; reflexivity]. cbn [r_st r_hold r_paid r_calls r_resp relay_run relay_instr]. destruct (_ && _); [|exists 0%nat; reflexivity].
  match goal with |- context [relay_run G m ?s0 (map _ calls ++ ?t)] => destruct (transacts G m w (hc_net C) calls s0 t) as [(s1 & K1 & K2 & K3 & K4 & K5)|(_ & _ & _ & k & K1)] end.
  - exists (length (map (enc (hc_net C)) calls)). rewrite K5. cbn [relay_run relay_instr]. cbn in K1. rewrite firstn_all.
    destruct (rc_put G _ _ _) as [st2|]; cbn; exact K1.
  - exists k. exact K1.
Qed.
Print Assumptions C148_calls_in_order.
(** If the fee does not cover the price of the message, nothing is dispatched and nothing answered. *)
Theorem C148_fee_too_low {R} (G : relay_cfg R) C st w f calls id :
  (forall st', f < rc_price G st' (message C w f calls id)) ->
  let s := relay_exec G st (message C w f calls id) in r_calls s = [] /\ r_resp s = [].
Proof.
  cbn zeta. unfold relay_exec.
  enough (Gen : forall m, (forall st', f < rc_price G st' m) -> let s := relay_run G m (mkRvm st 0 0 [] []) (message C w f calls id) in r_calls s = [] /\ r_resp s = []) by apply Gen.
  intros m H. cbn zeta. unfold message. cbn [app relay_run relay_instr r_st].
  destruct (rc_take G st f) as [st1|]; [|auto]. cbn [r_st r_hold r_paid r_calls r_resp relay_run relay_instr]. specialize (H st1).
  destruct (rc_price G st1 m <=? f) eqn:E; [lia|]. auto.
Qed.
Print Assumptions C148_fee_too_low.
(** The fee is not lost: for every quantity [B] of the relay state that withdrawing lowers, depositing raises and calls preserve, what
    disappears from it is what is held or was paid for execution, and together at most the fee. *)
Theorem C148_fee_conserved {R} (G : relay_cfg R) (B : R -> Z) C st w f calls id :
  (forall s a s', rc_take G s a = Some s' -> B s' = B s - a) -> (forall s x a s', rc_put G s x a = Some s' -> B s' = B s + a) ->
  (forall s v c s' ok, rc_dispatch G s v c = Some (s', ok) -> B s' = B s) -> 0 <= f -> (forall s m, 0 <= rc_price G s m) ->
  let s := relay_exec G st (message C w f calls id) in
  B (r_st s) + r_hold s + r_paid s = B st /\ 0 <= r_hold s /\ 0 <= r_paid s <= f.
Proof.
  intros HT HP HD F PR. cbn zeta. unfold relay_exec.
  enough (Goal0 : forall m, let s := relay_run G m (mkRvm st 0 0 [] []) (message C w f calls id) in B (r_st s) + r_hold s + r_paid s = B st /\ 0 <= r_hold s /\ 0 <= r_paid s <= f) by apply Goal0.
  intros m. cbn zeta.
  assert (Gen : forall l s, Forall (fun i => match i with IWithdraw _ => False | IBuy _ => False | IDeposit a _ => 0 <= a | _ => True end) l ->
            B (r_st s) + r_hold s + r_paid s = B st -> 0 <= r_hold s -> 0 <= r_paid s <= f ->
            let s' := relay_run G m s l in B (r_st s') + r_hold s' + r_paid s' = B st /\ 0 <= r_hold s' /\ 0 <= r_paid s' <= f).
  { cbn zeta. induction l as [|i l IH]; intros s K E0 E1 E2; cbn [relay_run]; [auto|]. inversion K as [|? ? Ki Kl]; subst.
    destruct (relay_instr G m s i) as [s1|] eqn:E; [|auto]. destruct i; cbn [relay_instr] in E; try contradiction.
    - destruct (rc_dispatch G (r_st s) w0 call) as [[s2 ok]|] eqn:D; [|discriminate]. injection E as <-. apply HD in D. apply IH; cbn; auto. lia.
    - injection E as <-. apply IH; cbn; auto.
    - injection E as <-. set (b := Z.max 0 (Z.min (r_paid s) (rc_back G (r_st s) m (r_paid s)))). assert (0 <= b <= r_paid s) by (unfold b; lia). clearbody b. apply IH; cbn; auto; lia.
    - destruct (rc_put G (r_st s) to (Z.min amt (r_hold s))) as [s2|] eqn:D; [|discriminate]. injection E as <-. apply HP in D. apply IH; cbn; auto; lia. }
  unfold message. cbn [app relay_run relay_instr r_st]. destruct (rc_take G st f) as [st1|] eqn:T; [|cbn; lia]. apply HT in T.
  cbn [r_st r_hold r_paid r_calls r_resp relay_run relay_instr]. specialize (PR st1 m). destruct ((rc_price G st1 m <=? f) && (f <=? 0 + f)) eqn:E; [|cbn; lia].
  apply andb_prop in E as [E1 E2]. apply Gen; cbn; try lia. apply Forall_app. split; [apply Forall_map; apply Forall_true; intros; exact I|]. repeat constructor; exact F.
Qed.
Print Assumptions C148_fee_conserved.

(** The answer is always "no error" ... *)
Theorem C147_answer_is_always_success {R} (G : relay_cfg R) st m d q e : (d, q, e) ∈ r_resp (relay_exec G st m) -> e = None.
Proof. intros H. apply (resp_none G m m (mkRvm st 0 0 [] []) ltac:(intros x K; inversion K) (d, q, e) H). Qed.
Print Assumptions C147_answer_is_always_success.
(** ... so it does not tell whether the calls had any effect: the property one would want is false. *)
Definition failing_relay : relay_cfg Z :=
  mkRelay (fun s a => if a <=? s then Some (s - a) else None) (fun s _ a => Some (s + a)) (fun s _ _ => Some (s, false)) (fun _ _ => 10) (fun _ _ _ => 4).
Theorem C147_success_means_done_refuted :
  ~ (forall R (G : relay_cfg R) C st w f calls id d q,
       (d, q, None) ∈ r_resp (relay_exec G st (message C w f calls id)) -> forall c ok, (c, ok) ∈ r_calls (relay_exec G st (message C w f calls id)) -> ok = true).
Proof.
  intros H. specialize (H Z failing_relay xhC 1000 (5, 6) 100 [RUnbond 3] 0 (mkLoc 0 [JPara 2012]) 0).
  assert (A : forall c ok, (c, ok) ∈ [([7; 2; 12], false)] -> ok = true).
  { change [([7; 2; 12], false)] with (r_calls (relay_exec failing_relay 1000 (message xhC (5, 6) 100 [RUnbond 3] 0))). apply H.
    change (r_resp (relay_exec failing_relay 1000 (message xhC (5, 6) 100 [RUnbond 3] 0))) with [(mkLoc 0 [JPara 2012], 0, @None string)]. apply elem_of_list_here. }
  specialize (A [7; 2; 12] false (elem_of_list_here _ _)). discriminate A.
Qed.
Print Assumptions C147_success_means_done_refuted.
Example C148_example :
  let s := relay_exec failing_relay 1000 (message xhC (5, 6) 100 [RTransferKeepAlive 3 4; RUnbond 3] 7) in
  (r_st s, r_hold s, r_paid s, r_resp s, map snd (r_calls s)) = (994, 0, 6, [(mkLoc 0 [JPara 2012], 7, None)], [false; false]).
Proof. vm_compute. reflexivity. Qed.

(** ** C149: the encoded calls are unambiguous *)
(** Two calls with values in range have the same encoding only if they are equal; moreover no encoding is the beginning of another. *)
Theorem C149_encoding_injective net c c' : net <> OtherNet -> call_ok c -> call_ok c' -> enc net c = enc net c' -> c = c'.
Proof. intros N K K' H. apply (enc_inj net N c c' [] []); auto. rewrite H. reflexivity. Qed.
Print Assumptions C149_encoding_injective.
Theorem C149_encoding_prefix_free net c c' rest rest' :
  net <> OtherNet -> call_ok c -> call_ok c' -> enc net c ++ rest = enc net c' ++ rest' -> c = c' /\ rest = rest'.
Proof. intros N K K'. apply enc_inj; auto. Qed.
Print Assumptions C149_encoding_prefix_free.
(** The two relay chains never mistake each other's staking, balance and utility calls: the first byte differs. *)
Theorem C149_networks_differ c c' : (match c with RContribute _ _ | RWithdraw _ _ => False | _ => True end) -> enc Polkadot c <> enc Kusama c'.
Proof. destruct c, c'; cbn; intros H E; try contradiction; try discriminate E. Qed.
Print Assumptions C149_networks_differ.
Example C149_example :
  enc Kusama (RAsDerivative 258 (RBondExtra 1000000)) = [24; 1; 2; 1; 6; 1; 2; 9; 61; 0] /\ call_ok (RAsDerivative 258 (RBondExtra 1000000)) /\
  enc Polkadot (RContribute 2012 (10 ^ 12)) = [73; 1; 113; 31; 7; 0; 16; 165; 212; 232; 0].
Proof. split; [vm_compute; reflexivity|]. split; [repeat split; vm_compute; congruence|vm_compute; reflexivity]. Qed.

(** ** C150: configuration of fees *)
Theorem C150_update_exact C s o k w fee s' :
  update_fee C s o k w fee = Ok s' <->
  hc_update C o = true /\ fee <> 0 /\ w <> (0, 0) /\ s' = mkXh (h_led s) (<[k := (w, fee)]> (h_fee s)) (h_qid s) (h_q s) (h_sent s).
Proof.
  unfold update_fee. destruct w as [w1 w2]. cbn [fst snd]. split.
  - intros H. bstep H x1 E1. bstep H x2 E2. bstep H x3 E3. injection H as <-. split; [exact E1|]. split; [lia|]. split; [|reflexivity].
    intros [= -> ->]. discriminate E3.
  - intros (-> & H1 & H2 & ->). cbn [ensure rbind]. replace (fee =? 0) with false by lia. cbn [negb ensure rbind].
    destruct ((w1 =? 0) && (w2 =? 0)) eqn:E; [|reflexivity]. exfalso. apply H2. f_equal; lia.
Qed.
Print Assumptions C150_update_exact.
(** After it, requests of this kind - and only of this kind - use the new fee and weight. *)
Theorem C150_update_effect C s o k w fee s' k' :
  update_fee C s o k w fee = Ok s' -> fee_of s' k' = if bool_decide (k' = k) then (w, fee) else fee_of s k'.
Proof.
  intros H. apply C150_update_exact in H. destruct H as (_ & _ & _ & ->). unfold fee_of. cbn [h_fee].
  destruct (decide (k' = k)) as [->|N]; [rewrite lookup_insert, bool_decide_true by reflexivity; reflexivity|].
  rewrite lookup_insert_ne, bool_decide_false by auto. reflexivity.
Qed.
Print Assumptions C150_update_effect.
(** No configured fee is ever zero. *)
Theorem C150_fee_never_zero C P s k : xh_reachable C P s -> (fee_of s k).2 <> 0.
Proof.
  assert (G : xh_reachable C P s -> forall x, h_fee s !! k = Some x -> x.2 <> 0).
  { induction 1 as [L|s o s' _ IH H]; intros x; [cbn; rewrite lookup_empty; discriminate|].
    destruct o as [q n|o k0 w f|p a|a w v|a w v|a f t v]; cbn [xh_step] in H.
    - apply rbind_ok in H. destruct H as ((s1 & id) & H & H1). injection H1 as <-. apply C145_request_exact in H. cbn zeta in H.
      destruct H as (_ & _ & _ & _ & _ & -> & _). apply IH.
    - apply C150_update_exact in H. destruct H as (_ & H & _ & ->). cbn [h_fee]. destruct (decide (k = k0)) as [->|N]; [rewrite lookup_insert; intros [= <-]; exact H|].
      rewrite lookup_insert_ne by auto. apply IH.
    - unfold add_fees in H. bstep H L E. injection H as <-. apply IH.
    - bstep H L E. injection H as <-. apply IH.
    - bstep H L E. injection H as <-. apply IH.
    - bstep H L E. injection H as <-. apply IH. }
  intros R. unfold fee_of. destruct (h_fee s !! k) eqn:E; cbn; [apply (G R _ eq_refl)|discriminate].
Qed.
Print Assumptions C150_fee_never_zero.
(** Paying in fees moves relay tokens from the payer to the helper account. *)
Theorem C150_add_fees_exact C P s payer amt s' :
  add_fees C P s payer amt = Ok s' ->
  (forall b x, bal (h_led s') b x = bal (h_led s) b x - at_ (hc_relay C) payer b x amt + at_ (hc_relay C) (hc_acct C) b x amt) /\
  (0 < amt -> payer <> hc_acct C -> amt <= bal (h_led s) (hc_relay C) payer) /\
  h_fee s' = h_fee s /\ h_qid s' = h_qid s /\ h_q s' = h_q s /\ h_sent s' = h_sent s.
Proof.
  unfold add_fees. intros H. bstep H L E. injection H as <-. apply transfer_spec in E as (E1 & _ & E2). auto 10.
Qed.
Print Assumptions C150_add_fees_exact.
Example C150_example :
  fee_of xhS KBond = ((5, 6), 1000) /\ fee_of xhS KUnbond = def_fee /\ bal (h_led xhS) 101 70 = 10 ^ 12 + 777 + 5 - 30000001000.
Proof. vm_compute. auto. Qed.
