(** * ErcProps: C129-C138, the ERC20 precompiles. *)
From Verif Require Import Base MapSum Ledger AmmModel AmmSpec AmmProofs AmmInv AmmEx AmmProofs5 ErcModel ErcSpec ErcProofs ErcProofs2 ErcProofs3 ErcProofs4 ErcProofs5 ErcEx.

(** ** C129: transfer moves exactly the amount, of the right token, from the caller *)
Theorem C129_transfer_exact C P now s cx wt to v rest s' out logs a :
  erc_cfg_ok C -> ctx_ok cx -> token C (cx_code cx) a -> is_addr wt to -> u256_ok v ->
  ercs C P s cx now (calldata sel_transfer [wt; v] ++ rest) s' out logs ->
  v <= U128MAX /\ out = [1] /\ logs = [LTransfer (cx_code cx) (cx_caller cx) to v] /\
  funds C cx s s' a (ec_map C (cx_caller cx)) (ec_map C to) v /\ same_allowances C s s' /\ same_nonces s s' /\
  (cx_value cx = 0 -> 0 < v -> ec_map C (cx_caller cx) <> ec_map C to -> v <= bal (e_led s) a (ec_map C (cx_caller cx))).
Proof. intros HC. exact (transfer_exact C P HC now s cx wt to v rest s' out logs a). Qed.
Theorem C129_transfer_live C P now s cx a wt to v rest :
  erc_cfg_ok C -> lenient P -> plain cx -> token C (cx_code cx) a -> ready C (ec_map C (cx_caller cx)) ->
  is_addr wt to -> u256_ok v -> v <= U128MAX -> v <= bal (e_led s) a (ec_map C (cx_caller cx)) ->
  exists s' out logs, ercs C P s cx now (calldata sel_transfer [wt; v] ++ rest) s' out logs.
Proof. intros HC. exact (transfer_live C P HC now s cx a wt to v rest). Qed.
Example C129_example : exists s' out logs, erc_cfg_ok erC /\ plain (cxa 7 0 false) /\ ctx_ok (cxa 7 0 false) /\ token erC addr100 100 /\ is_addr 9 9 /\ u256_ok 120 /\
  ready erC 7 /\ ercs erC allow_all er0 (cxa 7 0 false) 0 (calldata sel_transfer [9; 120] ++ []) s' out logs /\
  (bal (e_led s') 100 7 =? 380) && (bal (e_led s') 100 9 =? 120) = true.
Proof.
  destruct (runb_ex erC allow_all er0 (cxa 7 0 false) 0 (calldata sel_transfer [9; 120] ++ []) (fun s' _ => (bal (e_led s') 100 7 =? 380) && (bal (e_led s') 100 9 =? 120))) as (s' & out & logs & H & G);
    [vm_compute; reflexivity|].
  assert (X : ctx_ok (cxa 7 0 false)) by (apply cxa_ok; [apply small_addr; reflexivity|apply small_u256; reflexivity]).
  exists s', out, logs. split; [apply erC_ok|]. split; [split; [exact X|split; [reflexivity|split; reflexivity]]|]. split; [exact X|]. split; [apply token_100|].
  split; [apply small_is_addr; reflexivity|]. split; [apply small_u256; reflexivity|]. split; [apply er_ready|]. split; [exact H|exact G].
Qed.
Example C129_native_example : exists s' out logs, ctx_ok (cxn 7 0 false) /\ token erC native_erc20 1 /\
  ercs erC allow_all er0 (cxn 7 0 false) 0 (calldata sel_transfer [9; 120] ++ []) s' out logs /\ (bal (e_led s') 1 7 =? 880) && (bal (e_led s') 1 9 =? 120) = true.
Proof.
  destruct (runb_ex erC allow_all er0 (cxn 7 0 false) 0 (calldata sel_transfer [9; 120] ++ []) (fun s' _ => (bal (e_led s') 1 7 =? 880) && (bal (e_led s') 1 9 =? 120))) as (s' & out & logs & H & G);
    [vm_compute; reflexivity|].
  exists s', out, logs. split; [apply cxn_ok; [apply small_addr; reflexivity|apply small_u256; reflexivity]|]. split; [apply token_native|]. split; [exact H|exact G].
Qed.
Print Assumptions C129_transfer_exact.
Print Assumptions C129_transfer_live.

(** ** C130: transferFrom needs an allowance and consumes it; nobody else can take funds *)
Theorem C130_transfer_from_exact C P now s cx wf from wt to v rest s' out logs a :
  erc_cfg_ok C -> ctx_ok cx -> token C (cx_code cx) a -> is_addr wf from -> is_addr wt to -> u256_ok v ->
  ercs C P s cx now (calldata sel_transferFrom [wf; wt; v] ++ rest) s' out logs ->
  v <= U128MAX /\ out = [1] /\ logs = [LTransfer (cx_code cx) from to v] /\
  funds C cx s s' a (ec_map C from) (ec_map C to) v /\ same_nonces s s' /\
  (ec_map C from = ec_map C (cx_caller cx) -> same_allowances C s s') /\
  (ec_map C from <> ec_map C (cx_caller cx) ->
     v <= allowance C s a (ec_map C from) (ec_map C (cx_caller cx)) /\
     forall b o p, allowance C s' b o p =
       allowance C s b o p - (if bool_decide (b = a /\ o = ec_map C from /\ p = ec_map C (cx_caller cx)) then v else 0)).
Proof. intros HC. exact (transfer_from_exact C P HC now s cx wf from wt to v rest s' out logs a). Qed.
Theorem C130_transfer_from_live C P now s cx a wf from wt to v rest :
  erc_cfg_ok C -> lenient P -> plain cx -> token C (cx_code cx) a -> ready C (ec_map C (cx_caller cx)) -> ready C (ec_map C from) ->
  is_addr wf from -> is_addr wt to -> u256_ok v -> v <= U128MAX -> v <= bal (e_led s) a (ec_map C from) ->
  0 < v -> v <= allowance C s a (ec_map C from) (ec_map C (cx_caller cx)) -> (forall a o p, 0 <= allowance C s a o p <= U128MAX) ->
  exists s' out logs, ercs C P s cx now (calldata sel_transferFrom [wf; wt; v] ++ rest) s' out logs.
Proof. intros HC. exact (transfer_from_live C P HC now s cx a wf from wt to v rest). Qed.
(** whatever the calldata, a balance falls only by the caller's own doing, within an allowance, or by the asset's admin *)
Theorem C130_authority C P now s cx bs s' out logs b w :
  erc_cfg_ok C -> ctx_ok cx -> bytes_ok bs -> ercs C P s cx now bs s' out logs -> bal (e_led s') b w < bal (e_led s) b w ->
  w = ec_map C (cx_caller cx) \/
  (exists wf from wt v, invokes bs sel_transferFrom [wf; wt; v] /\ is_addr wf from /\ w = ec_map C from /\ token C (cx_code cx) b /\
     v <= allowance C s b w (ec_map C (cx_caller cx)) /\ bal (e_led s) b w - v <= bal (e_led s') b w /\
     allowance C s' b w (ec_map C (cx_caller cx)) = allowance C s b w (ec_map C (cx_caller cx)) - v) \/
  (exists wf from v, invokes bs sel_burn [wf; v] /\ is_addr wf from /\ w = ec_map C from /\ token C (cx_code cx) b /\
     b <> ec_native C /\ ec_map C (cx_caller cx) = ec_admin C b).
Proof. intros HC. exact (balance_falls C P HC now s cx bs s' out logs b w). Qed.
(** over any history, what a spender takes and may still take is within what was granted *)
Theorem C130_allowance_history C P a ow sp h s :
  erc_cfg_ok C -> erc_wf C s -> Forall (erc_op_ok C) h -> ow <> sp ->
  over C P (pulled C P a ow sp) s h + allowance C (erc_run C P s h) a ow sp
    <= allowance C s a ow sp + over C P (granted C P a ow sp) s h.
Proof. intros HC W F Hne. exact (allow_conserved C P HC a ow sp h Hne s W F). Qed.
Definition erh : list erc_op :=
  [ECall 0 (cxa 8 0 false) (calldata sel_transferFrom [7; 9; 50]);
   ECall 0 (cxa 7 0 false) (calldata sel_approve [8; 200]);
   ECall 0 (cxa 8 0 false) (calldata sel_transferFrom [7; 9; 150]);
   ECall 0 (cxa 8 0 false) (calldata sel_permit [7; 8; 1000; 50; 27; 77; 5]);
   EDispatch 8 (ATransferApproved 100 7 9 100)].
Lemma calldata_bytes sel args : bytes_ok (calldata sel args).
Proof. unfold calldata. apply Forall_app_2; [apply to_be_bytes|]. induction args as [|x l IH]; cbn [map concat]; [apply Forall_nil_2|apply Forall_app_2; [apply to_be_bytes|exact IH]]. Qed.
Lemma erh_ok : Forall (erc_op_ok erC) erh.
Proof.
  assert (B : forall c bs, addr_ok c -> bytes_ok bs -> erc_op_ok erC (ECall 0 (cxa c 0 false) bs)).
  { intros c bs Hc Hb. split; [lia|]. split; [apply cxa_ok; [auto|apply small_u256; reflexivity]|auto]. }
  repeat (apply Forall_cons_2; [first [apply B; [apply small_addr; reflexivity|apply calldata_bytes]|cbn; split; [lia|apply Z.leb_le; vm_compute; reflexivity]]|]). apply Forall_nil_2.
Qed.
Example C130_example : erc_cfg_ok erC /\ erc_wf erC er0 /\ Forall (erc_op_ok erC) erh /\
  over erC allow_all (pulled erC allow_all 100 7 8) er0 erh = 300 /\ over erC allow_all (granted erC allow_all 100 7 8) er0 erh = 1200 /\
  allowance erC (erc_run erC allow_all er0 erh) 100 7 8 = 900 /\ bal (e_led (erc_run erC allow_all er0 erh)) 100 9 = 300.
Proof.
  split; [apply erC_ok|]. split; [apply er0_wf|]. split; [apply erh_ok|].
  split; [apply Z.eqb_eq; vm_compute; reflexivity|]. split; [apply Z.eqb_eq; vm_compute; reflexivity|].
  split; apply Z.eqb_eq; vm_compute; reflexivity.
Qed.
Print Assumptions C130_transfer_from_exact.
Print Assumptions C130_transfer_from_live.
Print Assumptions C130_authority.
Print Assumptions C130_allowance_history.

(** ** C131: approve sets the allowance *)
Theorem C131_approve_exact C P now s cx wp sp v rest s' out logs a :
  erc_cfg_ok C -> ctx_ok cx -> token C (cx_code cx) a -> is_addr wp sp -> u256_ok v ->
  ercs C P s cx now (calldata sel_approve [wp; v] ++ rest) s' out logs ->
  out = [1] /\ logs = [LApproval (cx_code cx) (cx_caller cx) sp v] /\ no_funds C cx s s' /\ same_nonces s s' /\
  forall b o p, allowance C s' b o p =
    if bool_decide (b = a /\ o = ec_map C (cx_caller cx) /\ p = ec_map C sp) then Z.min v U128MAX else allowance C s b o p.
Proof. intros HC. exact (approve_exact C P HC now s cx wp sp v rest s' out logs a). Qed.
Theorem C131_approve_live C P now s cx a wp sp v rest :
  erc_cfg_ok C -> plain cx -> token C (cx_code cx) a -> ready C (ec_map C (cx_caller cx)) -> is_addr wp sp -> u256_ok v ->
  exists s' out logs, ercs C P s cx now (calldata sel_approve [wp; v] ++ rest) s' out logs.
Proof. intros HC. exact (approve_live C P HC now s cx a wp sp v rest). Qed.
Example C131_example : exists s' out logs, ctx_ok (cxa 7 0 false) /\ is_addr 8 8 /\ u256_ok (2 ^ 256 - 1) /\
  ercs erC allow_all er0 (cxa 7 0 false) 0 (calldata sel_approve [8; 2 ^ 256 - 1] ++ []) s' out logs /\ (allowance erC s' 100 7 8 =? U128MAX) = true.
Proof.
  destruct (runb_ex erC allow_all er0 (cxa 7 0 false) 0 (calldata sel_approve [8; 2 ^ 256 - 1] ++ []) (fun s' _ => allowance erC s' 100 7 8 =? U128MAX)) as (s' & out & logs & H & G);
    [vm_compute; reflexivity|].
  exists s', out, logs. split; [apply cxa_ok; [apply small_addr; reflexivity|apply small_u256; reflexivity]|].
  split; [apply small_is_addr; reflexivity|]. split; [split; [apply Z.leb_le|apply Z.ltb_lt]; vm_compute; reflexivity|]. split; [exact H|exact G].
Qed.
Print Assumptions C131_approve_exact.
Print Assumptions C131_approve_live.

(** ** C132: permit needs the owner's signature and works once *)
Theorem C132_permit_exact C P now s cx wo ow wp sp v dl wv r sg rest s' out logs a :
  erc_cfg_ok C -> ctx_ok cx -> token C (cx_code cx) a -> is_addr wo ow -> is_addr wp sp ->
  u256_ok v -> u256_ok dl -> u256_ok wv -> u256_ok r -> u256_ok sg ->
  ercs C P s cx now (calldata sel_permit [wo; wp; v; dl; wv; r; sg] ++ rest) s' out logs ->
  now / 1000 <= dl /\ ow <> 0 /\
  ec_recover C (r, sg, wv mod 256) (mkPermit (ec_chain C) (cx_code cx) (ec_name C a) ow sp v (nonce s (cx_code cx) ow) dl) = Some ow /\
  out = [] /\ logs = [LApproval (cx_code cx) ow sp v] /\ no_funds C cx s s' /\
  (forall t o, nonce s' t o = nonce s t o + if bool_decide (t = cx_code cx /\ o = ow) then 1 else 0) /\
  (forall b o p, allowance C s' b o p = if bool_decide (b = a /\ o = ec_map C ow /\ p = ec_map C sp) then Z.min v U128MAX else allowance C s b o p).
Proof. intros HC. exact (permit_exact C P HC now s cx wo ow wp sp v dl wv r sg rest s' out logs a). Qed.
Theorem C132_permit_live C P now s cx a wo ow wp sp v dl wv r sg rest :
  erc_cfg_ok C -> plain cx -> token C (cx_code cx) a -> ready C (ec_map C ow) ->
  is_addr wo ow -> is_addr wp sp -> Forall u256_ok [v; dl; wv; r; sg] -> now / 1000 <= dl -> ow <> 0 ->
  ec_recover C (r, sg, wv mod 256) (mkPermit (ec_chain C) (cx_code cx) (ec_name C a) ow sp v (nonce s (cx_code cx) ow) dl) = Some ow ->
  exists s' out logs, ercs C P s cx now (calldata sel_permit [wo; wp; v; dl; wv; r; sg] ++ rest) s' out logs.
Proof. intros HC. exact (permit_live C P HC now s cx a wo ow wp sp v dl wv r sg rest). Qed.
Theorem C132_nonces_never_fall C P s h t o :
  erc_cfg_ok C -> Forall (erc_op_ok C) h -> nonce s t o <= nonce (erc_run C P s h) t o.
Proof. intros HC F. exact (run_nonce C P HC h t o s F). Qed.
Theorem C132_permit_once C P s cx now wo wp v dl wv r sg rest s' out logs a h cx2 now2 s2 out2 logs2 a2 rest2 :
  erc_cfg_ok C -> one_message C -> ctx_ok cx -> token C (cx_code cx) a -> Forall u256_ok [wo; wp; v; dl; wv; r; sg] ->
  ercs C P s cx now (calldata sel_permit [wo; wp; v; dl; wv; r; sg] ++ rest) s' out logs ->
  Forall (erc_op_ok C) h -> ctx_ok cx2 -> token C (cx_code cx2) a2 ->
  ~ ercs C P (erc_run C P s' h) cx2 now2 (calldata sel_permit [wo; wp; v; dl; wv; r; sg] ++ rest2) s2 out2 logs2.
Proof. intros HC. exact (permit_once C P HC s cx now wo wp v dl wv r sg rest s' out logs a h cx2 now2 s2 out2 logs2 a2 rest2). Qed.
Example C132_example : exists s' out logs, one_message erC /\ ctx_ok (cxa 9 0 false) /\ Forall u256_ok [7; 8; 1000; 50; 27; 77; 5] /\
  ercs erC allow_all er0 (cxa 9 0 false) 20000 (calldata sel_permit [7; 8; 1000; 50; 27; 77; 5] ++ []) s' out logs /\
  (allowance erC s' 100 7 8 =? 1000) && (nonce s' addr100 7 =? 1) = true.
Proof.
  destruct (runb_ex erC allow_all er0 (cxa 9 0 false) 20000 (calldata sel_permit [7; 8; 1000; 50; 27; 77; 5] ++ []) (fun s' _ => (allowance erC s' 100 7 8 =? 1000) && (nonce s' addr100 7 =? 1))) as (s' & out & logs & H & G);
    [vm_compute; reflexivity|].
  exists s', out, logs. split; [apply erC_one|]. split; [apply cxa_ok; [apply small_addr; reflexivity|apply small_u256; reflexivity]|].
  split; [repeat (apply Forall_cons_2; [apply small_u256; reflexivity|]); apply Forall_nil_2|]. split; [exact H|exact G].
Qed.
Print Assumptions C132_permit_exact.
Print Assumptions C132_permit_live.
Print Assumptions C132_nonces_never_fall.
Print Assumptions C132_permit_once.

(** ** C133: a contract cannot borrow its caller's identity by DELEGATECALL *)
Theorem C133_no_delegatecall C P now s cx bs :
  erc_cfg_ok C -> addr_ok (cx_code cx) -> cx_addr cx <> cx_code cx ->
  (exists a, token C (cx_code cx) a) \/ cx_code cx ∈ [1024; 1025; 1026; 1027] ->
  evm_call C P now s cx bs = Some (Err "cannot be called with DELEGATECALL or CALLCODE").
Proof. intros HC. exact (no_delegate C P HC now s cx bs). Qed.
Example C133_example : let cx := mkCx addr100 6666 7 0 false in addr_ok (cx_code cx) /\ cx_addr cx <> cx_code cx /\ (exists a, token erC (cx_code cx) a).
Proof. split; [apply addr100_ok|]. split; [vm_compute; discriminate|]. exists 100. apply token_100. Qed.
Print Assumptions C133_no_delegatecall.

(** ** C134: value and static calls *)
Theorem C134_assets_not_payable C P now s cx bs s' out logs a :
  erc_cfg_ok C -> ctx_ok cx -> token C (cx_code cx) a -> a <> ec_native C -> ercs C P s cx now bs s' out logs -> cx_value cx = 0.
Proof. intros HC. exact (asset_not_payable C P HC now s cx bs s' out logs a). Qed.
Theorem C134_assets_static_partial C P now s cx bs s' out logs a :
  erc_cfg_ok C -> ctx_ok cx -> bytes_ok bs -> token C (cx_code cx) a -> a <> ec_native C -> cx_static cx = true ->
  ercs C P s cx now bs s' out logs -> s' = s \/ exists args, length args = 7%nat /\ invokes bs sel_permit args.
Proof. intros HC. exact (asset_static C P HC now s cx bs s' out logs a). Qed.
(** the native token takes value with any call, and what it takes never leaves it *)
Theorem C134_native_value_stuck C P h s :
  erc_cfg_ok C -> erc_wf C s -> Forall (erc_op_ok C) h -> Forall (not_by_contract C) h ->
  (forall sg m, ec_recover C sg m <> Some native_erc20) -> (forall p, allowance C s (ec_native C) (ec_map C native_erc20) p = 0) ->
  bal (e_led s) (ec_native C) (ec_map C native_erc20) <= bal (e_led (erc_run C P s h)) (ec_native C) (ec_map C native_erc20).
Proof. intros HC W F G R A. exact (stuck_run C P HC h R s W F G A). Qed.
(** false: a non-payable function of the native token rejects attached value *)
Theorem C134_native_payable_refuted : ~ (forall C P now s cx v rest s' out logs, erc_cfg_ok C -> erc_wf C s -> ctx_ok cx -> cx_code cx = native_erc20 ->
  ercs C P s cx now (calldata sel_transfer [9; v] ++ rest) s' out logs -> cx_value cx = 0).
Proof.
  intros H.
  destruct (runb_ex erC allow_all er0 (cxn 7 300 false) 0 (calldata sel_transfer [9; 120] ++ []) (fun s' _ => (bal (e_led s') 1 2050 =? 300) && (bal (e_led s') 1 7 =? 580))) as (s' & out & logs & E & G);
    [vm_compute; reflexivity|].
  assert (X : ctx_ok (cxn 7 300 false)) by (apply cxn_ok; [apply small_addr; reflexivity|apply small_u256; reflexivity]).
  pose proof (H _ _ _ _ _ _ _ _ _ _ erC_ok er0_wf X eq_refl E) as Z0. discriminate Z0.
Qed.
(** false: a static call of the native token changes nothing *)
Theorem C134_native_static_refuted : ~ (forall C P now s cx bs s' out logs a w, erc_cfg_ok C -> erc_wf C s -> ctx_ok cx -> cx_code cx = native_erc20 ->
  cx_static cx = true -> ercs C P s cx now bs s' out logs -> bal (e_led s') a w = bal (e_led s) a w).
Proof.
  intros H.
  destruct (runb_ex erC allow_all er0 (cxn 7 0 true) 0 (calldata sel_transfer [9; 120] ++ []) (fun s' _ => (bal (e_led s') 1 7 =? 880))) as (s' & out & logs & E & G);
    [vm_compute; reflexivity|].
  assert (X : ctx_ok (cxn 7 0 true)) by (apply cxn_ok; [apply small_addr; reflexivity|apply small_u256; reflexivity]).
  pose proof (H _ _ _ _ _ _ _ _ _ 1 7 erC_ok er0_wf X eq_refl eq_refl E) as Z0. cbv beta in G. apply Z.eqb_eq in G. rewrite G in Z0.
  revert Z0. apply Z.eqb_neq. vm_compute. reflexivity.
Qed.
(** false: a static call of an asset grants no allowance ([permit] counts as a view) *)
Theorem C134_permit_static_refuted : ~ (forall C P now s cx bs s' out logs a, erc_cfg_ok C -> erc_wf C s -> ctx_ok cx -> token C (cx_code cx) a -> a <> ec_native C ->
  cx_static cx = true -> ercs C P s cx now bs s' out logs -> same_allowances C s s').
Proof.
  intros H.
  destruct (runb_ex erC allow_all er0 (cxa 9 0 true) 20000 (calldata sel_permit [7; 8; 1000; 50; 27; 77; 5] ++ []) (fun s' _ => (allowance erC s' 100 7 8 =? 1000))) as (s' & out & logs & E & G);
    [vm_compute; reflexivity|].
  assert (X : ctx_ok (cxa 9 0 true)) by (apply cxa_ok; [apply small_addr; reflexivity|apply small_u256; reflexivity]).
  pose proof (H _ _ _ _ _ _ _ _ _ 100 erC_ok er0_wf X token_100 ltac:(cbn; lia) eq_refl E 100 7 8) as Z0. cbv beta in G. apply Z.eqb_eq in G. rewrite G in Z0.
  revert Z0. apply Z.eqb_neq. vm_compute. reflexivity.
Qed.
Example C134_example : let h := [ECall 0 (cxn 7 300 false) (calldata sel_transfer [9; 120])] in
  Forall (erc_op_ok erC) h /\ Forall (not_by_contract erC) h /\ (forall p, allowance erC er0 1 2050 p = 0) /\
  bal (e_led (erc_run erC allow_all er0 h)) 1 2050 = 300 /\ bal (e_led er0) 1 2050 = 0 /\
  exists s' out logs, ercs erC allow_all er0 (cxa 7 0 true) 0 (calldata sel_balanceOf [7]) s' out logs.
Proof.
  split; [apply Forall_cons_2; [|apply Forall_nil_2]; split; [lia|split; [apply cxn_ok; [apply small_addr; reflexivity|apply small_u256; reflexivity]|apply calldata_bytes]]|].
  split; [apply Forall_cons_2; [cbn; vm_compute; discriminate|apply Forall_nil_2]|].
  split. { intros p. unfold allowance, er0. cbn [e_nappr]. cbn [ec_native erC Z.eqb Pos.eqb]. rewrite lookup_insert_ne by (intros [= ?]; lia). rewrite lookup_empty. reflexivity. }
  split; [apply Z.eqb_eq; vm_compute; reflexivity|]. split; [apply Z.eqb_eq; vm_compute; reflexivity|].
  destruct (runb_ex erC allow_all er0 (cxa 7 0 true) 0 (calldata sel_balanceOf [7]) (fun _ _ => true)) as (s' & out & logs & E & _); [vm_compute; reflexivity|]. eauto.
Qed.
Print Assumptions C134_assets_not_payable.
Print Assumptions C134_assets_static_partial.
Print Assumptions C134_native_value_stuck.
Print Assumptions C134_native_payable_refuted.
Print Assumptions C134_native_static_refuted.
Print Assumptions C134_permit_static_refuted.

(** ** C135: addresses and assets *)
Theorem C135_asset_address C a :
  erc_cfg_ok C -> 0 <= a < 2 ^ 32 -> ec_exists C a = true ->
  token C (asset_id_to_address a) a /\ addr_ok (asset_id_to_address a) /\ is_precompile C (asset_id_to_address a) = true /\
  address_to_asset_id (asset_id_to_address a) = Some a.
Proof.
  intros HC Ha He. assert (T : token C (asset_id_to_address a) a) by (right; exists 0; unfold asset_id_to_address; split; [lia|split; [lia|auto]]).
  assert (A : addr_ok (asset_id_to_address a)) by (unfold addr_ok, asset_id_to_address; lia).
  split; [exact T|]. split; [exact A|]. apply token_iff in T; [|exact A]. destruct T as [[E _]|[_ T]]; [unfold asset_id_to_address in E; lia|].
  split; [unfold is_precompile; rewrite T, orb_true_iff; right; apply bool_decide_eq_true_2; eauto|]. destruct (asset_at_exists _ HC _ _ T) as (_ & _ & X). exact X.
Qed.
(** one address, one token *)
Theorem C135_one_token C addr a b : erc_cfg_ok C -> addr_ok addr -> token C addr a -> token C addr b -> a = b.
Proof. intros HC A H1 H2. apply token_of_iff in H1, H2; auto. congruence. Qed.
(** false: one token, one address *)
Theorem C135_one_address_refuted : ~ (forall C a x y, erc_cfg_ok C -> addr_ok x -> addr_ok y -> token C x a -> token C y a -> x = y).
Proof.
  intros H. pose (y := addr100 + 2 ^ 32).
  assert (T : token erC y 100) by (right; exists 1; split; [vm_compute; reflexivity|split; [lia|split; [lia|reflexivity]]]).
  assert (A : addr_ok y) by (split; [apply Z.leb_le|apply Z.ltb_lt]; vm_compute; reflexivity).
  pose proof (H erC 100 addr100 y erC_ok addr100_ok A token_100 T) as E. revert E. apply Z.eqb_neq. vm_compute. reflexivity.
Qed.
(** every asset answers at 2^96 addresses *)
Theorem C135_aliases C a mid : 0 <= a < 2 ^ 32 -> ec_exists C a = true -> 0 <= mid < 2 ^ 96 ->
  token C (asset_id_to_address a + mid * 2 ^ 32) a.
Proof. intros Ha He Hm. right. exists mid. unfold asset_id_to_address. split; [lia|auto]. Qed.
Example C135_example : ec_exists erC 100 = true /\ 0 <= 100 < 2 ^ 32 /\ token erC addr100 100.
Proof. split; [reflexivity|]. split; [lia|apply token_100]. Qed.
Print Assumptions C135_asset_address.
Print Assumptions C135_one_token.
Print Assumptions C135_one_address_refuted.
Print Assumptions C135_aliases.

(** ** C136: views return what is stored and change nothing *)
Theorem C136_total_supply C P now s cx a rest :
  erc_cfg_ok C -> ctx_ok cx -> cx_addr cx = cx_code cx -> cx_value cx = 0 -> token C (cx_code cx) a ->
  evm_call C P now s cx (calldata sel_totalSupply [] ++ rest) = Some (Ok (s, [iss (e_led s) a], [])).
Proof. intros HC. exact (view_supply C P HC now s cx a rest). Qed.
Theorem C136_balance_of C P now s cx a w x rest :
  erc_cfg_ok C -> ctx_ok cx -> cx_addr cx = cx_code cx -> cx_value cx = 0 -> token C (cx_code cx) a -> is_addr w x ->
  evm_call C P now s cx (calldata sel_balanceOf [w] ++ rest) =
    Some (Ok (s, [if a =? ec_native C then Z.max 0 (bal (e_led s) a (ec_map C x) - ec_locked C (ec_map C x)) else bal (e_led s) a (ec_map C x)], [])).
Proof. intros HC. exact (view_balance C P HC now s cx a w x rest). Qed.
Theorem C136_allowance C P now s cx a wo o wp p rest :
  erc_cfg_ok C -> ctx_ok cx -> cx_addr cx = cx_code cx -> cx_value cx = 0 -> token C (cx_code cx) a -> is_addr wo o -> is_addr wp p ->
  evm_call C P now s cx (calldata sel_allowance [wo; wp] ++ rest) = Some (Ok (s, [allowance C s a (ec_map C o) (ec_map C p)], [])).
Proof. intros HC. exact (view_allowance C P HC now s cx a wo o wp p rest). Qed.
Theorem C136_nonces C P now s cx a w x rest :
  erc_cfg_ok C -> ctx_ok cx -> cx_addr cx = cx_code cx -> cx_value cx = 0 -> token C (cx_code cx) a -> is_addr w x ->
  evm_call C P now s cx (calldata sel_nonces [w] ++ rest) = Some (Ok (s, [nonce s (cx_code cx) x], [])).
Proof. intros HC. exact (view_nonces C P HC now s cx a w x rest). Qed.
Example C136_example : ctx_ok (cxa 9 0 true) /\ is_addr 7 7 /\ allowance erC er0 100 7 8 = 90 /\ bal (e_led er0) 100 7 = 500 /\ iss (e_led er0) 1 = 1010.
Proof.
  split; [apply cxa_ok; [apply small_addr; reflexivity|apply small_u256; reflexivity]|]. split; [apply small_is_addr; reflexivity|].
  split; [|split]; apply Z.eqb_eq; vm_compute; reflexivity.
Qed.
Print Assumptions C136_total_supply.
Print Assumptions C136_balance_of.
Print Assumptions C136_allowance.
Print Assumptions C136_nonces.

(** ** C137: deposit and withdraw of the native token *)
(** [is_deposit]: the calldata starts with the selector of deposit(), is shorter than a selector, or starts with an unknown one *)
Definition is_deposit (bs : list Z) : Prop :=
  (length bs < 4)%nat \/ be (take 4 bs) = sel_deposit \/
  be (take 4 bs) ∉ [sel_totalSupply; sel_balanceOf; sel_allowance; sel_transfer; sel_approve; sel_transferFrom; 0x06fdde03; 0x95d89b41; 0x313ce567;
                    sel_deposit; sel_withdraw; sel_permit; sel_nonces; 0x3644e515].
Theorem C137_deposit_exact C P now s cx bs s' out logs :
  erc_cfg_ok C -> ctx_ok cx -> cx_code cx = native_erc20 -> is_deposit bs -> ercs C P s cx now bs s' out logs ->
  0 < cx_value cx /\ ec_is_native C = true /\ logs = [LDeposit (cx_code cx) (cx_caller cx) (cx_value cx)] /\
  (forall b w, bal (e_led s') b w = bal (e_led s) b w) /\ (forall b, iss (e_led s') b = iss (e_led s) b) /\
  same_allowances C s s' /\ same_nonces s s'.
Proof.
  intros HC Hx Hc HD. apply (deposit_exact C P HC now s cx bs s' out logs Hx Hc).
  destruct (decide (4 <= length bs)%nat) as [L|L]; [|right; intros sel [X _]; tauto].
  destruct HD as [HD|[HD|HD]]; [lia|left; split; auto|right]. intros sel [_ <-].
  destruct (native_selector _) as [x|] eqn:E; [exfalso|reflexivity]. apply native_sel_inv in E. apply HD.
  destruct x; try contradiction E; rewrite E; apply (bool_decide_unpack _); vm_compute; exact I.
Qed.
Theorem C137_withdraw_exact C P now s cx w rest s' out logs :
  erc_cfg_ok C -> ctx_ok cx -> cx_code cx = native_erc20 -> u256_ok w ->
  ercs C P s cx now (calldata sel_withdraw [w] ++ rest) s' out logs ->
  no_funds C cx s s' /\ same_allowances C s s' /\ same_nonces s s' /\ logs = [LWithdrawal (cx_code cx) (cx_caller cx) w].
Proof. intros HC. exact (withdraw_exact C P HC now s cx w rest s' out logs). Qed.
Example C137_example : exists s' out logs, ctx_ok (cxn 7 300 false) /\ is_deposit [] /\ ercs erC allow_all er0 (cxn 7 300 false) 0 [] s' out logs /\ (bal (e_led s') 1 7 =? 1000) = true.
Proof.
  destruct (runb_ex erC allow_all er0 (cxn 7 300 false) 0 [] (fun s' _ => bal (e_led s') 1 7 =? 1000)) as (s' & out & logs & H & G); [vm_compute; reflexivity|].
  exists s', out, logs. split; [apply cxn_ok; [apply small_addr; reflexivity|apply small_u256; reflexivity]|]. split; [left; cbn; lia|]. split; [exact H|exact G].
Qed.
Print Assumptions C137_deposit_exact.
Print Assumptions C137_withdraw_exact.

(** ** C138: supply *)
Theorem C138_supply_authority C P now s cx bs s' out logs b :
  erc_cfg_ok C -> ctx_ok cx -> bytes_ok bs -> ercs C P s cx now bs s' out logs -> iss (e_led s') b <> iss (e_led s) b ->
  token C (cx_code cx) b /\ b <> ec_native C /\
  ((exists w x v, invokes bs sel_mint [w; v] /\ is_addr w x /\ ec_map C (cx_caller cx) = ec_issuer C b /\
      iss (e_led s') b = iss (e_led s) b + v /\ bal (e_led s') b (ec_map C x) = bal (e_led s) b (ec_map C x) + v) \/
   (exists w x v, invokes bs sel_burn [w; v] /\ is_addr w x /\ ec_map C (cx_caller cx) = ec_admin C b /\
      iss (e_led s') b = iss (e_led s) b - Z.min v (bal (e_led s) b (ec_map C x)) /\
      bal (e_led s') b (ec_map C x) = bal (e_led s) b (ec_map C x) - Z.min v (bal (e_led s) b (ec_map C x)))).
Proof. intros HC. exact (supply_changes C P HC now s cx bs s' out logs b). Qed.
(** balances always add up to the supply *)
Theorem C138_balances_add_up C P s h :
  erc_cfg_ok C -> erc_wf C s -> Forall (erc_op_ok C) h -> ledger_wf (e_led (erc_run C P s h)).
Proof. intros HC W F. apply (run_wf C P HC h s W F). Qed.
(** false: a successful burn burns the amount it was asked to *)
Theorem C138_burn_exact_refuted : ~ (forall C P now s cx x v s' out logs a, erc_cfg_ok C -> erc_wf C s -> ctx_ok cx -> token C (cx_code cx) a ->
  ercs C P s cx now (calldata sel_burn [x; v]) s' out logs -> out = [1] -> iss (e_led s') a = iss (e_led s) a - v).
Proof.
  intros H.
  destruct (runb_ex erC allow_all er0 (cxa 5 0 false) 0 (calldata sel_burn [7; 700]) (fun s' out => (iss (e_led s') 100 =? 0) && bool_decide (out = [1]))) as (s' & out & logs & E & G);
    [vm_compute; reflexivity|].
  assert (X : ctx_ok (cxa 5 0 false)) by (apply cxa_ok; [apply small_addr; reflexivity|apply small_u256; reflexivity]).
  apply andb_prop in G as [G1 G2]. apply bool_decide_eq_true in G2. apply Z.eqb_eq in G1.
  pose proof (H _ _ _ _ _ _ _ _ _ _ 100 erC_ok er0_wf X token_100 E G2) as Z0. rewrite G1 in Z0.
  revert Z0. apply Z.eqb_neq. vm_compute. reflexivity.
Qed.
Example C138_example : exists s' out logs, ctx_ok (cxa 5 0 false) /\
  ercs erC allow_all er0 (cxa 5 0 false) 0 (calldata sel_mint [9; 40]) s' out logs /\ (iss (e_led s') 100 =? 540) = true.
Proof.
  destruct (runb_ex erC allow_all er0 (cxa 5 0 false) 0 (calldata sel_mint [9; 40]) (fun s' _ => iss (e_led s') 100 =? 540)) as (s' & out & logs & H & G); [vm_compute; reflexivity|].
  exists s', out, logs. split; [apply cxa_ok; [apply small_addr; reflexivity|apply small_u256; reflexivity]|]. split; [exact H|exact G].
Qed.
Print Assumptions C138_supply_authority.
Print Assumptions C138_balances_add_up.
Print Assumptions C138_burn_exact_refuted.
