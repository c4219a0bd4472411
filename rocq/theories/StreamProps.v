(** * StreamProps: property theorems C15-C20, C42, C43 (payment streams). *)
From Coq Require Import Sorting.Sorted.
From Verif Require Import Base MapSum Ledger AmmModel AmmEx StreamModel StreamSpec StreamProofs StreamProofs2 StreamProofs3 StreamProofs4.

(** ** A concrete reachable history used as witness: MaxStreamsCount 128, MaxFinishedStreamsCount 2, native asset 0 with ED 10 *)
Definition sxC : str_cfg := mkStrCfg 1 128 2 0 10 (fun o => match o with Root => true | _ => false end).
Definition sx_ops : list str_op :=
  [SSetMin Root 0 100; SSetMin Root 7 5;
   SCreate 10 11 1000 7 100 200 true;       (* id 0: rate 10 *)
   SCreate 10 12 5005 0 100 200 false;      (* id 1: rate 50, native *)
   STraitCreate 11 10 1000 7 50 150 true;   (* id 2: started in the past *)
   STime 150; SWithdraw 11 0 300; SWithdraw 10 2 1000; SCancel 10 0;
   SCreate 10 11 700 7 160 167 true;        (* id 3 *)
   STime 199; SWithdraw 12 1 4000].
Definition sx0 : str := str_init (mk_ledger [(0, 10, 10^12); (7, 10, 10^12); (7, 11, 10^12)]) 40.
Definition sx1 : str := fold_left (str_exec sxC allow_all) sx_ops sx0.
Lemma sxC_ok : str_cfg_ok sxC. Proof. unfold str_cfg_ok; cbn; lia. Qed.
Lemma sx_u128 x : z_bounds_b x = true -> 0 <= x <= U128MAX.
Proof. unfold z_bounds_b. intros H. apply andb_prop in H. lia. Qed.
Lemma sx1_reachable : str_reachable sxC allow_all sx1.
Proof.
  unfold sx1, sx_ops. cbn [fold_left].
  repeat (apply str_reach_step; [|cbn; repeat split; try discriminate; try (apply sx_u128; vm_compute; reflexivity); try lia]).
  apply str_reach_init; [apply mk_ledger_wf|lia].
Qed.

(** C15 *)
Theorem C15_streaming_solvent C P s :
  str_cfg_ok C -> str_reachable C P s -> forall a, total_owed s a <= bal (s_led s) a (str_acct C).
Proof. exact (fun HC R => i_solv _ _ _ (proj1 (reachable_str_inv C P HC s R))). Qed.
Print Assumptions C15_streaming_solvent.
Example C15_example : str_reachable sxC allow_all sx1 /\ total_owed sx1 0 = 1005 /\ total_owed sx1 7 = 700 /\
  bal (s_led sx1) 0 1 = 1005 /\ bal (s_led sx1) 7 1 = 700.
Proof. split; [apply sx1_reachable|]. vm_compute. auto. Qed.

(** C16.  In any reachable state, for every stream ever created: total paid to the recipient is at most the schedule
    (rate = deposit / duration per second) plus, in the native asset only, the existential deposit; and never more
    than the deposit. *)
Theorem C16_never_paid_ahead_of_schedule C P s :
  str_cfg_ok C -> str_reachable C P s ->
  forall id sender recipient deposit asset start stop c,
    In (ECreated id sender recipient deposit asset start stop c) (s_log s) ->
    paid s id <= deposit /\
    (s_now s < stop ->
     paid s id <= scheduled deposit start stop (s_now s) + (if bool_decide (asset = str_native C) then native_ed C else 0)).
Proof.
  intros HC R id sender recipient deposit asset start stop c Hin.
  pose proof (proj1 (reachable_str_inv C P HC s R)) as HI.
  destruct (i_created _ _ _ HI _ _ _ _ _ _ _ _ Hin) as [CO HM]. split.
  - assert (0 <= outstanding s id).
    { unfold outstanding. destruct (streams s !! id) as [st|] eqn:E; [|lia].
      destruct (i_streams _ _ _ HI _ _ E) as (_ & (_ & _ & _ & _ & _ & _ & ? & _) & _). destruct (has_finished st); lia. }
    pose proof (co_cons _ _ _ _ _ _ _ CO). pose proof (co_ref _ _ _ _ _ _ _ CO). lia.
  - exact (co_sched _ _ _ _ _ _ _ CO).
Qed.
Print Assumptions C16_never_paid_ahead_of_schedule.
Example C16_example : paid sx1 1 = 4000 /\ scheduled 5005 100 200 (s_now sx1) = 4950 /\ paid sx1 0 = 500 /\ paid sx1 2 = 1000.
Proof. vm_compute. auto. Qed.
(** the native-currency slack is real: withdrawing 4950 at t=199 sweeps the whole 5005? no: only when the rest is at most ED *)
Example C16_sweep_example :
  okb (withdraw sxC allow_all (fold_left (str_exec sxC allow_all) [STime 199] (fold_left (str_exec sxC allow_all)
        [SSetMin Root 0 100; SCreate 10 12 500 0 100 200 false] sx0)) 12 0 490)
      (fun s => paid s 0 =? 500) = true /\ scheduled 500 100 200 199 = 495.
Proof. split; vm_compute; reflexivity. Qed.

(** C17 *)
Theorem C17_deposit_conserved C P s :
  str_cfg_ok C -> str_reachable C P s ->
  forall id sender recipient deposit asset start stop c,
    In (ECreated id sender recipient deposit asset start stop c) (s_log s) ->
    deposit = paid s id + refunded s id + outstanding s id /\
    0 <= paid s id /\ 0 <= refunded s id /\ 0 <= outstanding s id /\
    (forall st, streams s !! id = Some st ->
       st_sender st = sender /\ st_recipient st = recipient /\ st_deposit st = deposit /\ st_asset st = asset /\
       st_start st = start /\ st_end st = stop).
Proof.
  intros HC R id sender recipient deposit asset start stop c Hin.
  pose proof (proj1 (reachable_str_inv C P HC s R)) as HI.
  destruct (i_created _ _ _ HI _ _ _ _ _ _ _ _ Hin) as [CO HM].
  split; [symmetry; exact (co_cons _ _ _ _ _ _ _ CO)|].
  split; [exact (co_paid _ _ _ _ _ _ _ CO)|]. split; [exact (co_ref _ _ _ _ _ _ _ CO)|]. split; [|exact HM].
  unfold outstanding. destruct (streams s !! id) as [st|] eqn:E; [|lia].
  destruct (i_streams _ _ _ HI _ _ E) as (_ & (_ & _ & _ & _ & _ & _ & ? & _) & _). destruct (has_finished st); lia.
Qed.
Print Assumptions C17_deposit_conserved.
(** every stream in storage has a creation event, so C16/C17 cover all streams *)
Theorem C17_every_stream_was_created C P s :
  str_cfg_ok C -> str_reachable C P s ->
  forall id st, streams s !! id = Some st ->
    In (ECreated id (st_sender st) (st_recipient st) (st_deposit st) (st_asset st) (st_start st) (st_end st) true) (s_log s).
Proof.
  exact (fun HC R id st E => proj2 (proj2 (proj2 (proj2 (i_streams _ _ _ (proj1 (reachable_str_inv C P HC s R)) id st E))))).
Qed.
Print Assumptions C17_every_stream_was_created.
Example C17_example : paid sx1 0 = 500 /\ refunded sx1 0 = 500 /\ outstanding sx1 0 = 0 /\ outstanding sx1 1 = 1005 /\
  In (ECreated 0 10 11 1000 7 100 200 true) (s_log sx1).
Proof. do 4 (split; [vm_compute; reflexivity|]). apply (nth_error_In _ 7%nat). vm_compute. reflexivity. Qed.

(** C18 *)
Theorem C18_cancel_splits_fairly C P s who id s' :
  str_cfg_ok C -> str_reachable C P s -> cancel C P s who id = Ok s' ->
  exists st, let acc := accrued st (s_now s) in
    streams s !! id = Some st /\ who = st_sender st /\ has_finished st = false /\ st_cancellable st = true /\
    0 <= acc <= st_remaining st /\
    (forall a w, bal (s_led s') a w = bal (s_led s) a w
        - at_ (st_asset st) (str_acct C) a w (st_remaining st)
        + at_ (st_asset st) (st_sender st) a w (st_remaining st - acc)
        + at_ (st_asset st) (st_recipient st) a w acc) /\
    s_log s' = ECancelled id (st_sender st) (st_recipient st) (st_asset st) (st_remaining st - acc) acc :: s_log s /\
    (forall x st0, x <> id -> streams s !! x = Some st0 -> has_finished st0 = false -> streams s' !! x = Some st0) /\
    (forall st0, streams s' !! id = Some st0 -> has_finished st0 = true).
Proof.
  intros HC R H. destruct (cancel_full C P HC s who id s' (reachable_str_inv C P HC s R) H) as (st & H1 & H2 & H3 & H4 & H5 & H6 & H7 & H8 & H9 & H10 & H11 & H12 & _).
  exists st. cbn zeta. do 5 (split; [assumption|]). do 3 (split; [assumption|]). assumption.
Qed.
Print Assumptions C18_cancel_splits_fairly.
Example C18_example : okb (cancel sxC allow_all sx1 10 3) (fun s => (bal (s_led s) 7 11 - bal (s_led sx1) 7 11 =? 700)) = true.
Proof. vm_compute. reflexivity. Qed.

(** C19 *)
Theorem C19_withdraw_only_recipient C P s who id amount s' :
  str_cfg_ok C -> str_reachable C P s -> who <> str_acct C -> 0 <= amount <= U128MAX ->
  withdraw C P s who id amount = Ok s' ->
  exists st paid_amt, let acc := accrued st (s_now s) in
    streams s !! id = Some st /\ who = st_recipient st /\ has_finished st = false /\ st_start st < s_now s /\
    amount <= acc /\ acc <= st_remaining st /\
    paid_amt = (if bool_decide (st_asset st = str_native C /\ st_remaining st <= amount + native_ed C) then st_remaining st else amount) /\
    (forall a w, bal (s_led s') a w = bal (s_led s) a w
        - at_ (st_asset st) (str_acct C) a w paid_amt + at_ (st_asset st) (st_recipient st) a w paid_amt) /\
    s_log s' = EWithdrawn id (st_recipient st) (st_asset st) paid_amt :: s_log s /\
    outstanding s' id = st_remaining st - paid_amt /\
    (paid_amt <> st_remaining st -> streams s' !! id = Some (set_rs st (st_remaining st - paid_amt) (st_status st))) /\
    (paid_amt = st_remaining st -> forall st0, streams s' !! id = Some st0 -> has_finished st0 = true) /\
    (forall x st0, x <> id -> streams s !! x = Some st0 -> has_finished st0 = false -> streams s' !! x = Some st0) /\
    (forall x st0, x <> id -> streams s' !! x = Some st0 -> streams s !! x = Some st0).
Proof.
  intros HC R Hw Ha H. destruct (withdraw_full C P HC s who id amount s' (reachable_str_inv C P HC s R) Hw Ha H) as (st & amt & H1 & H2 & H3 & H4 & H5 & H6 & H7 & H8 & H9 & H10 & H11 & H12 & H13 & H14 & H15 & _).
  exists st, amt. cbn zeta. do 5 (split; [assumption|]). split; [exact (proj2 H6)|]. do 4 (split; [assumption|]).
  split; [exact (fun Hne => proj1 (H14 Hne))|]. do 2 (split; [assumption|]). assumption.
Qed.
Print Assumptions C19_withdraw_only_recipient.
Example C19_example : okb (withdraw sxC allow_all sx1 11 3 100) (fun s => outstanding s 3 =? 600) = true /\
  is_ok (withdraw sxC allow_all sx1 10 3 100) = false.
Proof. vm_compute. auto. Qed.

(** C20 *)
Theorem C20_stream_lists C P s :
  str_cfg_ok C -> str_reachable C P s ->
  (forall acct kind, StronglySorted (fun a b => b < a) (lib_get (slib s) acct kind) /\
     Z.of_nat (length (lib_get (slib s) acct kind)) <= max_streams C) /\
  (forall acct, Z.of_nat (length (lib_get (slib s) acct KFinish)) <= max_finished C) /\
  (forall acct kind id, id ∈ lib_get (slib s) acct kind ->
     exists st, streams s !! id = Some st /\
       (kind = KSend /\ acct = st_sender st \/ kind = KReceive /\ acct = st_recipient st \/
        kind = KFinish /\ has_finished st = true /\ (acct = st_sender st \/ acct = st_recipient st))) /\
  (forall id st, streams s !! id = Some st ->
     id ∈ lib_get (slib s) (st_recipient st) KReceive /\
     (has_finished st = true -> id ∈ lib_get (slib s) (st_sender st) KFinish /\ id ∈ lib_get (slib s) (st_recipient st) KFinish)).
Proof.
  intros HC R. destruct (reachable_str_inv C P HC s R) as [HI HF].
  split; [intros acct kind; split; [apply (i_desc _ _ _ HI)|apply (i_len _ _ _ HI)]|].
  split; [exact HF|]. split; [intros; apply (i_sound _ _ _ HI); auto|].
  intros id st E. destruct (i_streams _ _ _ HI id st E) as ((? & ?) & _ & [?|?] & ? & _); [lia|auto].
Qed.
Print Assumptions C20_stream_lists.

(** an unfinished stream is untouched by every call except its own cancel (by the sender, if cancellable) and withdraw (by the recipient) *)
Theorem C20_unfinished_stream_kept C P s o id st :
  str_cfg_ok C -> str_reachable C P s -> str_op_ok C o -> streams s !! id = Some st -> has_finished st = false ->
  streams (str_exec C P s o) !! id = Some st \/
  (o = SCancel (st_sender st) id /\ st_cancellable st = true) \/ (exists amt, o = SWithdraw (st_recipient st) id amt).
Proof. exact (fun HC R => unfinished_frame C P HC s o id st (reachable_str_inv C P HC s R)). Qed.
Print Assumptions C20_unfinished_stream_kept.
Example C20_example : lib_get (slib sx1) 10 KSend = [3; 1; 0] /\ lib_get (slib sx1) 11 KFinish = [2; 0].
Proof. vm_compute. auto. Qed.

(** C42.  Nothing but a refused token transfer can block a due withdrawal or an allowed cancellation. *)
Theorem C42_withdraw_never_blocked C P s id st amount :
  str_cfg_ok C -> str_reachable C P s -> permits P ->
  streams s !! id = Some st -> has_finished st = false -> st_start st < s_now s -> 0 <= amount <= accrued st (s_now s) ->
  exists s', withdraw C P s (st_recipient st) id amount = Ok s'.
Proof. exact (fun HC R => withdraw_live C P HC s id st amount (reachable_str_inv C P HC s R)). Qed.
Print Assumptions C42_withdraw_never_blocked.
Theorem C42_cancel_never_blocked C P s id st :
  str_cfg_ok C -> str_reachable C P s -> permits P ->
  streams s !! id = Some st -> has_finished st = false -> st_cancellable st = true ->
  exists s', cancel C P s (st_sender st) id = Ok s'.
Proof. exact (fun HC R => cancel_live C P HC s id st (reachable_str_inv C P HC s R)). Qed.
Print Assumptions C42_cancel_never_blocked.
Example C42_example : permits allow_all /\ someb (streams sx1 !! 3) (fun st => negb (has_finished st) && st_cancellable st && (accrued st (s_now sx1) =? 700)) = true.
Proof. split; [intros ? ? ? ? ? ?; reflexivity|]. vm_compute. reflexivity. Qed.

(** C43.  What a successful create does. *)
Theorem C43_create_effect C P s who recipient deposit asset start stop c s' :
  str_cfg_ok C -> str_reachable C P s -> who <> str_acct C -> 0 <= deposit <= U128MAX -> 0 <= start ->
  create C P s who recipient deposit asset start stop c = Ok s' ->
  let id := next_id s in
  (exists m, min_deposit s !! asset = Some m /\ m <= deposit) /\
  s_now s <= start < stop /\ who <> recipient /\ 0 < deposit / (stop - start) /\
  streams s' !! id = Some (stream_new deposit asset (deposit / (stop - start)) who recipient start stop c) /\
  next_id s' = id + 1 /\ streams s !! id = None /\
  id ∈ lib_get (slib s') who KSend /\ id ∈ lib_get (slib s') recipient KReceive /\
  (forall a w, bal (s_led s') a w = bal (s_led s) a w - at_ asset who a w deposit + at_ asset (str_acct C) a w deposit).
Proof. exact (fun HC R => create_full C P HC s who recipient deposit asset start stop c s' (reachable_str_inv C P HC s R)). Qed.
Print Assumptions C43_create_effect.
Example C43_example : okb (create sxC allow_all sx1 10 12 1000 7 200 300 true) (fun s => next_id s =? 5) = true.
Proof. vm_compute. reflexivity. Qed.

#[global] Instance str_event_eq_dec : EqDecision str_event.
Proof. solve_decision. Defined.

(** C44.  The creation event of every stored stream carries its parties, deposit, asset and times ... *)
Theorem C44_creation_event_partial C P s :
  str_cfg_ok C -> str_reachable C P s ->
  forall id st, streams s !! id = Some st ->
    exists flag, In (ECreated id (st_sender st) (st_recipient st) (st_deposit st) (st_asset st) (st_start st) (st_end st) flag) (s_log s).
Proof. exact (fun HC R id st E => ex_intro _ true (C17_every_stream_was_created C P s HC R id st E)). Qed.
Print Assumptions C44_creation_event_partial.
(** ... but not the cancellable flag: the creation event does not report whether the stream can be cancelled (always "true"). *)
Theorem C44_event_reports_cancellable_refuted :
  exists C P s who recipient deposit asset start stop s' id st,
    str_cfg_ok C /\ str_reachable C P s /\ create C P s who recipient deposit asset start stop false = Ok s' /\
    streams s' !! id = Some st /\ st_cancellable st = false /\
    head (s_log s') = Some (ECreated id who recipient deposit asset start stop true).
Proof.
  destruct (okb_spec (create sxC allow_all sx1 10 12 1000 7 200 300 false)
     (fun s => someb (streams s !! 4) (fun st => negb (st_cancellable st)) &&
               bool_decide (head (s_log s) = Some (ECreated 4 10 12 1000 7 200 300 true)))) as (s' & E & H);
    [vm_compute; reflexivity|].
  apply andb_prop in H as [H1 H2]. apply someb_spec in H1 as (st & E1 & H1). apply bool_decide_eq_true in H2.
  exists sxC, allow_all, sx1, 10, 12, 1000, 7, 200, 300, s', 4, st.
  split; [apply sxC_ok|]. split; [apply sx1_reachable|]. split; [exact E|]. split; [exact E1|].
  split; [destruct (st_cancellable st); auto; discriminate|exact H2].
Qed.
Print Assumptions C44_event_reports_cancellable_refuted.
