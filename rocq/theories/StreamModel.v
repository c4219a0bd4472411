(** * StreamModel: pallets/streaming/src/lib.rs and types.rs (payment streams).
    Line numbers refer to lib.rs; "types" is pallets/streaming/src/types.rs. *)
From Verif Require Import Base MapSum Ledger AmmModel.

(** [StreamStatus], types 10-21 *)
Inductive status := Ongoing (as_collateral : bool) | Completed (cancelled : bool).
(** [StreamKind], types 24-31, coded as integers *)
Definition KSend : Z := 0.
Definition KReceive : Z := 1.
Definition KFinish : Z := 2.

(** [Stream], types 36-57 *)
Record stream := mkStream {
  st_remaining : Z; st_deposit : Z; st_asset : Z; st_rate : Z; st_sender : Z; st_recipient : Z;
  st_start : Z; st_end : Z; st_status : status; st_cancellable : bool
}.
(** [Stream::new], types 60-84 *)
Definition stream_new (deposit asset rate sender recipient start stop : Z) (cancellable : bool) : stream :=
  mkStream deposit deposit asset rate sender recipient start stop (Ongoing false) cancellable.

Definition set_rs (st : stream) (remaining : Z) (stt : status) : stream :=
  mkStream remaining (st_deposit st) (st_asset st) (st_rate st) (st_sender st) (st_recipient st)
           (st_start st) (st_end st) stt (st_cancellable st).

(** [has_finished], types 102-107 *)
Definition has_finished (st : stream) : bool := match st_status st with Ongoing _ => false | Completed _ => true end.
(** [has_withdrawn], types 115-117 *)
Definition has_withdrawn (st : stream) : bool := st_remaining st <? st_deposit st.
(** [claimed_balance], types 119-124 *)
Definition claimed_balance (st : stream) : res Z := ok_or (checked_sub (st_deposit st) (st_remaining st)) "Underflow".
(** [duration], types 126-130 (u64 subtraction) *)
Definition duration (st : stream) : res Z := ok_or (checked_sub (st_end st) (st_start st)) "Underflow".
(** [delta_of], types 165-177 *)
Definition delta_of (now : Z) (st : stream) : res Z :=
  if now <=? st_start st then Ok 0
  else if now <? st_end st then ok_or (checked_sub now (st_start st)) "Underflow"
  else ok_or (checked_sub (st_end st) (st_start st)) "Underflow".
(** [has_started], types 109-113 *)
Definition has_started (now : Z) (st : stream) : res bool :=
  let* d := delta_of now st in Ok (negb (d =? 0)).
(** [balance_of], types 180-224 *)
Definition balance_of (now : Z) (st : stream) (who : Z) : res Z :=
  let* delta := delta_of now st in
  let* dur := duration st in
  let* recipient_balance :=
    (if delta =? dur then Ok (st_remaining st)
     else if has_withdrawn st then
       let* available := ok_or (checked_mul delta (st_rate st)) "Overflow" in
       let* claimed := claimed_balance st in
       ok_or (checked_sub available claimed) "Underflow"
     else ok_or (checked_mul delta (st_rate st)) "Overflow") in
  if who =? st_recipient st then
    (if delta =? dur then Ok (st_remaining st) else Ok recipient_balance)
  else if who =? st_sender st then
    ok_or (checked_sub (st_remaining st) recipient_balance) "Underflow"
  else Ok 0.
(** [sender_balance], [recipient_balance], types 94-100 *)
Definition sender_balance (now : Z) (st : stream) : res Z := balance_of now st (st_sender st).
Definition recipient_balance (now : Z) (st : stream) : res Z := balance_of now st (st_recipient st).
(** [try_deduct], types 132-139 *)
Definition try_deduct (st : stream) (amount : Z) : res stream :=
  let* r := ok_or (checked_sub (st_remaining st) amount) "Underflow" in
  Ok (set_rs st r (st_status st)).
(** [try_complete], types 141-147 *)
Definition try_complete (st : stream) : stream :=
  if st_remaining st =? 0 then set_rs st (st_remaining st) (Completed false) else st.
(** [try_cancel], types 149-154 *)
Definition try_cancel (st : stream) (remaining : Z) : stream := set_rs st remaining (Completed true).

(** [Config], lines 64-102 *)
Record str_cfg := mkStrCfg {
  str_acct : account;                 (* account_id(), line 394 *)
  max_streams : Z; max_finished : Z;  (* MaxStreamsCount, MaxFinishedStreamsCount *)
  str_native : asset; native_ed : Z;  (* NativeCurrencyId, NativeExistentialDeposit *)
  update_origin : origin -> bool      (* UpdateOrigin *)
}.

(** Events, lines 141-170 (as emitted; the [cancellable] field of StreamCreated is always [true], line 538) *)
Inductive str_event :=
| ECreated (id sender recipient deposit asset start stop : Z) (cancellable : bool)
| EWithdrawn (id recipient asset amount : Z)
| ECancelled (id sender recipient asset sender_amount recipient_amount : Z).

(** Storage, lines 172-198, the ledger, the chain time and the event log (most recent first) *)
Record str := mkStr {
  streams : gmap Z stream;
  slib : gmap (Z * Z) (list Z);    (* StreamLibrary: (account, kind) -> ids *)
  next_id : Z;
  min_deposit : gmap Z Z;
  s_led : ledger;
  s_now : Z;                       (* T::UnixTime::now().as_secs() *)
  s_log : list str_event
}.

Section streaming.
  Context (C : str_cfg) (P : policy).

  Definition lib_get (l : gmap (Z * Z) (list Z)) (acct kind : Z) : list Z := default [] (l !! (acct, kind)).

  (** [sort_unstable_by(|a, b| b.cmp(a))]: descending (ids are integers, so stability is irrelevant) *)
  Fixpoint ins_desc (x : Z) (l : list Z) : list Z :=
    match l with [] => [x] | y :: r => if y <=? x then x :: l else y :: ins_desc x r end.
  Definition sort_ids (l : list Z) : list Z := foldr ins_desc [] l.

  (** [try_push_stream_library], lines 442-462 *)
  Definition try_push (l : gmap (Z * Z) (list Z)) (acct id kind : Z) : res (gmap (Z * Z) (list Z)) :=
    let r := lib_get l acct kind in
    let* r' := (if bool_decide (id ∈ r) then Ok r
                else if Z.of_nat (length r) <? max_streams C then Ok (r ++ [id])
                else Err "ExcessMaxStreamsCount") in
    Ok (<[(acct, kind) := sort_ids r']> l).

  (** remove the first occurrence *)
  Fixpoint remove_first (id : Z) (l : list Z) : list Z :=
    match l with [] => [] | x :: r => if x =? id then r else x :: remove_first id r end.
  (** [checked_remove], lines 469-479 *)
  Definition remove_kind (l : gmap (Z * Z) (list Z)) (acct id kind : Z) : gmap (Z * Z) (list Z) :=
    <[(acct, kind) := sort_ids (remove_first id (lib_get l acct kind))]> l.
  (** [try_remove_stream_library(account, id, None)], lines 464-490 *)
  Definition remove_all (l : gmap (Z * Z) (list Z)) (acct id : Z) : gmap (Z * Z) (list Z) :=
    remove_kind (remove_kind (remove_kind l acct id KSend) acct id KReceive) acct id KFinish.

  (** [checked_pop] applied to the Finish list of [acct], lines 414-434 *)
  Definition checked_pop (ss : gmap Z stream) (l : gmap (Z * Z) (list Z)) (acct : Z)
    : res (gmap Z stream * gmap (Z * Z) (list Z)) :=
    let r := lib_get l acct KFinish in
    if Z.of_nat (length r) <=? max_finished C then Ok (ss, <[(acct, KFinish) := r]> l)
    else
      match last r with
      | None => Ok (ss, <[(acct, KFinish) := r]> l)
      | Some id =>
          let* st := ok_or (ss !! id) "InvalidStreamId" in
          let l1 := remove_all l (st_sender st) id in
          let l2 := remove_all l1 (st_recipient st) id in
          Ok (delete id ss, <[(acct, KFinish) := removelast r]> l2)
      end.
  (** [update_finished_stream_library], lines 410-440 *)
  Definition update_finished (ss : gmap Z stream) (l : gmap (Z * Z) (list Z)) (sender recipient : Z)
    : res (gmap Z stream * gmap (Z * Z) (list Z)) :=
    let*' (ss1, l1) := checked_pop ss l sender in
    checked_pop ss1 l1 recipient.

  (** [do_create], lines 492-542; returns the new id and state *)
  Definition do_create (s : str) (sender recipient deposit asset start stop : Z) (cancellable : bool)
    : res (Z * str) :=
    let* _ := ensure (negb (sender =? recipient)) "RecipientIsAlsoSender" in
    let* dur := ok_or (checked_sub stop start) "InvalidDuration" in
    let* rate := ok_or (checked_div deposit dur) "InvalidRatePerSecond" in
    let* _ := ensure (negb (rate =? 0)) "InvalidRatePerSecond" in
    let* L := transfer P (s_led s) asset sender (str_acct C) deposit false in
    let st := stream_new deposit asset rate sender recipient start stop cancellable in
    let id := next_id s in
    let* nid := ok_or (checked_add id 1) "Overflow" in
    let*' (ss, l) := update_finished (<[id := st]> (streams s)) (slib s) sender recipient in
    Ok (id, mkStr ss l nid (min_deposit s) L (s_now s)
              (ECreated id sender recipient deposit asset start stop true :: s_log s)).

  Definition set_lib (s : str) (l : gmap (Z * Z) (list Z)) : str :=
    mkStr (streams s) l (next_id s) (min_deposit s) (s_led s) (s_now s) (s_log s).

  (** [ensure_valid_duration], lines 398-408 *)
  Definition ensure_valid_duration (now start stop : Z) : res unit :=
    let* _ := ensure (now <=? start) "StartTimeBeforeCurrentTime" in
    ensure (start <? stop) "EndTimeBeforeStartTime".

  (** extrinsic [create], lines 222-252 *)
  Definition create (s : str) (who recipient deposit asset start stop : Z) (cancellable : bool) : res str :=
    let* m := ok_or (min_deposit s !! asset) "InvalidAssetId" in
    let* _ := ensure (m <=? deposit) "DepositLowerThanMinimum" in
    let* _ := ensure_valid_duration (s_now s) start stop in
    let*' (id, s1) := do_create s who recipient deposit asset start stop cancellable in
    let* l1 := try_push (slib s1) who id KSend in
    let* l2 := try_push l1 recipient id KReceive in
    Ok (set_lib s1 l2).

  (** [StreamingTrait::create] (used by other pallets), lines 546-571 *)
  Definition trait_create (s : str) (who recipient deposit asset start stop : Z) (cancellable : bool) : res str :=
    let* _ := ensure (bool_decide (is_Some (min_deposit s !! asset))) "InvalidAssetId" in
    let*' (id, s1) := do_create s who recipient deposit asset start stop cancellable in
    let* l2 := try_push (slib s1) recipient id KReceive in
    Ok (set_lib s1 l2).

  (** push a finished stream to both parties and prune, lines 288-290 and 346-348 *)
  Definition finish_lib (ss : gmap Z stream) (l : gmap (Z * Z) (list Z)) (id sender recipient : Z)
    : res (gmap Z stream * gmap (Z * Z) (list Z)) :=
    let* l1 := try_push l sender id KFinish in
    let* l2 := try_push l1 recipient id KFinish in
    update_finished ss l2 sender recipient.

  (** extrinsic [cancel], lines 262-307 *)
  Definition cancel (s : str) (who id : Z) : res str :=
    let* st := ok_or (streams s !! id) "InvalidStreamId" in
    let* _ := ensure (who =? st_sender st) "NotTheSender" in
    let* _ := ensure (negb (has_finished st)) "HasFinished" in
    let* _ := ensure (st_cancellable st) "CannotBeCancelled" in
    let* sb := sender_balance (s_now s) st in
    let* rb := recipient_balance (s_now s) st in
    let* L1 := transfer P (s_led s) (st_asset st) (str_acct C) who sb false in
    let* L2 := transfer P L1 (st_asset st) (str_acct C) (st_recipient st) rb false in
    let st' := try_cancel st sb in
    let*' (ss, l) := finish_lib (<[id := st']> (streams s)) (slib s) id (st_sender st) (st_recipient st) in
    Ok (mkStr ss l (next_id s) (min_deposit s) L2 (s_now s)
          (ECancelled id who (st_recipient st) (st_asset st) sb rb :: s_log s)).

  (** extrinsic [withdraw], lines 318-368 *)
  Definition withdraw (s : str) (who id amount : Z) : res str :=
    let* st := ok_or (streams s !! id) "InvalidStreamId" in
    let* _ := ensure (who =? st_recipient st) "NotTheRecipient" in
    let* _ := ensure (negb (has_finished st)) "HasFinished" in
    let* started := has_started (s_now s) st in
    let* _ := ensure started "NotStarted" in
    let* rb := recipient_balance (s_now s) st in
    let* _ := ensure (amount <=? rb) "InsufficientStreamBalance" in
    let amt := if (st_asset st =? str_native C) && (st_remaining st <=? saturating_add amount (native_ed C))
               then st_remaining st else amount in
    let* st1 := try_deduct st amt in
    let st2 := try_complete st1 in
    let ss := <[id := st2]> (streams s) in
    let*' (ss', l) := (if has_finished st2 then finish_lib ss (slib s) id (st_sender st) who else Ok (ss, slib s)) in
    let* L := transfer P (s_led s) (st_asset st) (str_acct C) who amt false in
    Ok (mkStr ss' l (next_id s) (min_deposit s) L (s_now s)
          (EWithdrawn id (st_recipient st) (st_asset st) amt :: s_log s)).

  (** extrinsic [set_minimum_deposit], lines 379-389 *)
  Definition set_minimum_deposit (s : str) (o : origin) (asset v : Z) : res str :=
    let* _ := ensure (update_origin C o) "BadOrigin" in
    Ok (mkStr (streams s) (slib s) (next_id s) (<[asset := v]> (min_deposit s)) (s_led s) (s_now s) (s_log s)).

  (** ** Histories: calls, time and outside token movements *)
  Inductive str_op :=
  | SCreate (who recipient deposit asset start stop : Z) (cancellable : bool)
  | STraitCreate (who recipient deposit asset start stop : Z) (cancellable : bool)
  | SCancel (who id : Z)
  | SWithdraw (who id amount : Z)
  | SSetMin (o : origin) (asset v : Z)
  | STime (t : Z)
  | STransfer (a from to amt : Z)
  | SMint (a w amt : Z)
  | SBurn (a w amt : Z).

  Definition s_set_led (s : str) (L : ledger) : str :=
    mkStr (streams s) (slib s) (next_id s) (min_deposit s) L (s_now s) (s_log s).

  Definition str_step (s : str) (o : str_op) : res str :=
    match o with
    | SCreate w r d a b e c => create s w r d a b e c
    | STraitCreate w r d a b e c => trait_create s w r d a b e c
    | SCancel w id => cancel s w id
    | SWithdraw w id amt => withdraw s w id amt
    | SSetMin o a v => set_minimum_deposit s o a v
    | STime t => Ok (mkStr (streams s) (slib s) (next_id s) (min_deposit s) (s_led s) (Z.max (s_now s) t) (s_log s))
    | STransfer a f t amt => let* L := transfer P (s_led s) a f t amt false in Ok (s_set_led s L)
    | SMint a w amt => let* L := mint_into P (s_led s) a w amt in Ok (s_set_led s L)
    | SBurn a w amt => let* L := burn_from P (s_led s) a w amt in Ok (s_set_led s L)
    end.
  Definition str_exec (s : str) (o : str_op) : str := match str_step s o with Ok s' => s' | _ => s end.
  Definition str_init (L : ledger) (now : Z) : str := mkStr ∅ ∅ 0 ∅ L now [].
End streaming.
