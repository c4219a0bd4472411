(** * GateProps: shutdown, call filter and EVM-signed calls (C110-C115). *)
From Verif Require Import Base Ledger AmmEx GateModel GateSpec GateProofs.

(** A runtime with one further pallet, 4: call 0 transfers native tokens and removes the sender's record when it falls below the
    existential deposit; its storage counts the transfers made in each name. *)
Definition yrest := gmap Z Z.
Definition y_other (o : gorigin) (p k : Z) (args : list Z) (w : world yrest) : res (world yrest) :=
  match o, p, k, args with
  | OSigned x, 4, 0, [dest; amt] =>
      let* L := transfer allow_all (w_led w) 0 x dest amt false in
      let r := <[x := default 0 (w_rest w !! x) + 1]> (w_rest w) in
      if 2 <=? bal L 0 x then Ok (mkWorld L (w_nonce w) (w_deaths w) r)
      else Ok (mkWorld L (delete x (w_nonce w)) (<[x := deaths_of w x + 1]> (w_deaths w)) r)
  | _, _, _, _ => Err "BadOrigin"
  end.
Definition yC (verify : bool) : gate_cfg yrest :=
  mkGateCfg (fun c => (call_index c).1 =? 91) (fun c => (call_index c).1 <? 120)
    (fun o => match o with ORoot | OGov => true | _ => false end) verify 2012
    (fun sg '(m, n, c) w => match sg with a :: b :: d :: _ => (a =? w) && (b =? n) && (d =? m) | _ => false end)
    2 99 0 2 allow_all (fun _ _ => false) (fun a => a + 1000)
    (fun a o => match o with OSigned w => if w =? a + 2000 then Some w else None | _ => None end)
    (fun w _ _ => Some (w_led w)) y_other.
Definition yL : ledger := mk_ledger [(0, 7, 102); (0, 11, 1000); (5, 1003, 40)].
Definition y0 : gate yrest := mkGate ∅ ∅ (mkWorld yL ∅ ∅ ∅).
Definition ysig (w n : Z) : list Z := w :: n :: 2012 :: repeat 0 62.
Definition ypay (x n dest amt : Z) : ext := XUnsigned (GEvm (GOther 4 0 [dest; amt]) x (ysig x n) n).

Lemma y_records v : records_kept (yC v).
Proof.
  intros o p k args w w' a H. cbn in H. unfold y_other in H.
  destruct o as [| |x|]; try discriminate. destruct p as [|p|p]; try discriminate.
  do 3 (destruct p as [p|p|]; try discriminate). destruct k; try discriminate.
  destruct args as [|d [|m [|? ?]]]; try discriminate.
  bstep H L EL. destruct (2 <=? bal L 0 x); injection H as <-; unfold deaths_of, nonce_of; cbn.
  - split; [lia|auto with zarith].
  - destruct (decide (a = x)) as [->|N].
    + rewrite lookup_insert. cbn. unfold deaths_of. split; lia.
    + rewrite lookup_insert_ne, lookup_delete_ne by auto. split; lia.
Qed.

(** ** C110.  Emergency shutdown: every call that is not dispatched by root runs only if it is whitelisted, or generally
    allowed and neither its pallet nor itself is switched off; a refused call has no effect. *)
Theorem C110_filter_exact {R} (C : gate_cfg R) o c s :
  o <> ORoot ->
  ((gc_white C c = true \/ (gc_listed C c = true /\ pallet_disabled s (call_index c).1 = false /\ call_disabled s (call_index c).1 (call_index c).2 = false)) ->
     run_call C o c s = dispatch C c o s) /\
  (gc_white C c = false -> (gc_listed C c = false \/ pallet_disabled s (call_index c).1 = true \/ call_disabled s (call_index c).1 (call_index c).2 = true) ->
     run_call C o c s = Err "CallFiltered").
Proof.
  intros Ho.
  assert (E : run_call C o c s = let* _ := ensure (base_filter C s c) "CallFiltered" in dispatch C c o s) by (destruct o; tauto || reflexivity).
  rewrite E. unfold base_filter, shutdown_contains. destruct (call_index c) as [p k]. cbn [fst snd]. split.
  - intros [Hw|(Hl & Hp & Hc)]; [rewrite Hw; reflexivity|rewrite Hl, Hp, Hc, !orb_true_r; reflexivity].
  - intros Hw D. rewrite Hw. cbn [orb]. destruct D as [H|[H|H]]; rewrite H; cbn; rewrite ?andb_false_r; reflexivity.
Qed.

Theorem C110_toggle_exact {R} (C : gate_cfg R) o s :
  (forall p s', dispatch C (GTogglePallet p) o s = Ok s' -> gc_shutdown C o = true /\ g_w s' = g_w s /\
     (forall q, pallet_disabled s' q = if bool_decide (q = p) then negb (pallet_disabled s q) else pallet_disabled s q) /\
     (forall q k, call_disabled s' q k = call_disabled s q k)) /\
  (forall p k s', dispatch C (GToggleCall p k) o s = Ok s' -> gc_shutdown C o = true /\ g_w s' = g_w s /\
     (forall q, pallet_disabled s' q = pallet_disabled s q) /\
     (forall q j, call_disabled s' q j = if bool_decide (q = p /\ j = k) then negb (call_disabled s q j) else call_disabled s q j)).
Proof.
  split.
  - intros p s' H. cbn in H. unfold toggle_pallet in H. bstep H u E. injection H as <-. split; [exact E|]. split; [reflexivity|].
    split; [|reflexivity]. intros q. unfold pallet_disabled. cbn. case_bool_decide as Q.
    + subst. rewrite lookup_insert. reflexivity.
    + rewrite lookup_insert_ne by auto. reflexivity.
  - intros p k s' H. cbn in H. unfold toggle_call in H. bstep H u E. injection H as <-. split; [exact E|]. split; [reflexivity|].
    split; [reflexivity|]. intros q j. unfold call_disabled. cbn. case_bool_decide as Q.
    + destruct Q as [-> ->]. rewrite lookup_insert. reflexivity.
    + rewrite lookup_insert_ne by (intros [= -> ->]; tauto). reflexivity.
Qed.

(** Governance can always undo a shutdown: with the shutdown pallet whitelisted, its calls go through in every state, and
    twice the same toggle restores the flags. *)
Theorem C110_shutdown_can_be_undone {R} (C : gate_cfg R) s c :
  shutdown_whitelisted C -> gc_shutdown C OGov = true -> (exists p, c = GTogglePallet p) \/ (exists p k, c = GToggleCall p k) ->
  exists s1 s2, gstep C s (XGov c) = Ok s1 /\ gstep C s1 (XGov c) = Ok s2 /\ same_flags s s2 /\ g_w s2 = g_w s.
Proof.
  intros [W1 W2] Hg [(p & ->)|(p & k & ->)]; cbn; unfold base_filter, shutdown_contains; cbn; rewrite ?W1, ?W2; cbn;
    unfold toggle_pallet, toggle_call; rewrite Hg; cbn; eexists _, _; (split; [reflexivity|]); (split; [rewrite ?W1, ?W2, ?Hg; reflexivity|]);
    (split; [|reflexivity]).
  - split; [|reflexivity]. intros q. unfold pallet_disabled. cbn. destruct (decide (q = p)) as [->|N].
    + rewrite !lookup_insert. cbn. apply negb_involutive.
    + rewrite !lookup_insert_ne by auto. reflexivity.
  - split; [reflexivity|]. intros q j. unfold call_disabled. cbn. destruct (decide ((q, j) = (p, k))) as [[= -> ->]|N].
    + rewrite !lookup_insert. cbn. apply negb_involutive.
    + rewrite !lookup_insert_ne by congruence. reflexivity.
Qed.

(** No signed or unsigned transaction changes the flags. *)
Theorem C110_only_governance {R} (C : gate_cfg R) s x s' :
  governed_shutdown C -> gstep C s x = Ok s' -> match x with XSigned _ _ _ | XUnsigned _ => same_flags s s' | _ => True end.
Proof.
  intros G H. pose proof G as [GN GS]. destruct x as [w n c|c|c|c]; auto.
  - cbn -[run_call] in H. bstep H u En. destruct (U32MAX <=? _); [discriminate|]. bstep H L EL.
    match type of H with context [run_call C _ c ?x] => set (s1 := x) in * end.
    assert (F1 : same_flags s s1) by (apply flags_eq; reflexivity). clearbody s1.
    destruct (run_call C (OSigned w) c s1) as [s2| |] eqn:E2; try discriminate; injection H as <-; [|exact F1].
    eapply same_flags_trans; [exact F1|]. unfold run_call in E2. bstep E2 u2 Ef. exact (dispatch_flags C G c (OSigned w) s1 _ (GS w) E2).
  - cbn -[run_call] in H. assert (H' : run_call C ONone c s = Ok s') by (destruct c; try discriminate; exact H).
    unfold run_call in H'. bstep H' u2 Ef. exact (dispatch_flags C G c ONone s _ GN H').
Qed.

(** Switching off a pallet does not stop its calls: wrapped in an EVM-signed call they run without the filter. *)
Theorem C110_disabled_pallet_stopped_refuted :
  ~ (forall (C : gate_cfg yrest) s p k x s', gc_white C (GOther p k []) = false -> pallet_disabled s p = true -> gstep C s x = Ok s' ->
       match x with XUnsigned (GEvm (GOther q _ args) w _ _) => q = p -> w_rest (g_w s') = w_rest (g_w s) | _ => True end).
Proof.
  intros H. pose (s1 := gexec (yC true) y0 (XGov (GTogglePallet 4))).
  specialize (H (yC true) s1 4 0 (ypay 7 0 9 50)).
  destruct (gstep (yC true) s1 (ypay 7 0 9 50)) as [s'| |] eqn:E; [|vm_compute in E; discriminate E..].
  specialize (H s' eq_refl ltac:(vm_compute; reflexivity) eq_refl eq_refl).
  assert (K : okb (gstep (yC true) s1 (ypay 7 0 9 50)) (fun s' => default 0 (w_rest (g_w s') !! 7) =? 1) = true) by (vm_compute; reflexivity).
  rewrite E in K. cbn [okb] in K. rewrite H in K. vm_compute in K. discriminate K.
Qed.

Example C110_example : shutdown_whitelisted (yC true) /\ governed_shutdown (yC true) /\
  okb (gstep (yC true) y0 (XGov (GTogglePallet 4))) (fun s => pallet_disabled s 4 && negb (pallet_disabled s 5) && negb (base_filter (yC true) s (GOther 4 0 [9; 50]))) = true.
Proof. split; [split; reflexivity|]. split; [split; reflexivity|]. vm_compute. reflexivity. Qed.

(** ** C111.  An EVM-signed call raises the signer's nonce by one, moves exactly the fee from the signer to the treasury and then runs the
    inner call in the signer's name; if that fails, only fee and nonce remain. *)
Theorem C111_call_exact {R} (C : gate_cfg R) s c w sg n s' :
  gstep C s (XUnsigned (GEvm c w sg n)) = Ok s' -> w <> gc_treasury C -> 0 < gc_fee C -> gc_fee C + gc_ed C <= bal (w_led (g_w s)) (gc_nat C) w ->
  n = nonce_of (g_w s) w /\
  exists s1, charged C s s1 w /\
    ((exists s2, dispatch C c (OSigned w) s1 = Ok s2 /\ s' = s2) \/ (exists e, dispatch C c (OSigned w) s1 = Err e /\ s' = s1)).
Proof.
  intros H Nw Hf Hb. destruct (unsigned_evm C _ _ _ _ _ _ H) as (_ & s1 & E1 & D).
  apply evm_pre_ok in E1. destruct E1 as (_ & En & _ & _ & _ & Ed & Ec & Hc). split; [exact En|]. exists s1. split; [|exact D].
  apply charge_fee_ok in Hc. cbn in Hc. destruct Hc as (L & EL & Er & Dc).
  destruct (transfer_spec _ _ _ _ _ _ _ _ EL) as (TB & TI & _).
  assert (Hr : gc_ed C <= bal L (gc_nat C) w).
  { rewrite TB. unfold at_. rewrite !bool_decide_decide. destruct (decide (gc_nat C = gc_nat C /\ w = w)) as [_|?]; [|tauto].
    destruct (decide (gc_nat C = gc_nat C /\ w = gc_treasury C)) as [[_ ?]|_]; [tauto|]. lia. }
  destruct Dc as [(_ & EL' & Enn & _)|[(B & _)|(B & _)]]; [|lia..].
  split; [exact Ed|]. split; [exact Ec|]. split; [exact Er|]. split; [|split].
  - intros a. unfold nonce_of. rewrite Enn. unfold nonce_of. case_bool_decide as Q.
    + subst. rewrite lookup_insert. reflexivity.
    + rewrite lookup_insert_ne by auto. lia.
  - intros a x. rewrite EL'. apply TB.
  - intros a. rewrite EL'. apply TI.
Qed.

(** It is accepted whenever the nonce is the signer's, the signature valid, the call wrapper not filtered and the fee payable. *)
Theorem C111_call_accepted {R} (C : gate_cfg R) s c w sg n L :
  base_filter C s (GEvm c w sg n) = true -> n = nonce_of (g_w s) w -> n < U32MAX -> length sg = 65%nat ->
  (gc_verify C = true -> gc_sig C sg (gc_magic C, n, c) w = true) ->
  transfer (gc_pol C) (w_led (g_w s)) (gc_nat C) w (gc_treasury C) (gc_fee C) false = Ok L ->
  (forall s1, dispatch C c (OSigned w) s1 <> Panic) ->
  exists s', gstep C s (XUnsigned (GEvm c w sg n)) = Ok s'.
Proof.
  intros Hf Hn Hm Hl Hv Ht Hp. cbn -[base_filter evm_pre]. rewrite Hf. cbn -[evm_pre].
  assert (E1 : exists s1, evm_pre C s ONone c w sg n = Ok s1).
  { unfold evm_pre, sig_decodes, valid_signature. cbn -[charge_fee]. rewrite <- Hn, Z.eqb_refl, Hl. cbn -[charge_fee].
    assert (V : (if gc_verify C then gc_sig C sg (gc_magic C, n, c) w else true) = true) by (destruct (gc_verify C); auto).
    rewrite V. cbn -[charge_fee]. replace (U32MAX <=? n) with false by lia. unfold charge_fee. cbn. rewrite Ht. cbn.
    destruct (gc_ed C <=? bal L (gc_nat C) w); cbn; eauto. destruct (gc_keeps C (w_rest (g_w s)) w); cbn; eauto. }
  destruct E1 as (s1 & ->). cbn. destruct (dispatch C c (OSigned w) s1) eqn:E; eauto. destruct (Hp s1); auto.
Qed.

Example C111_example : okb (gstep (yC true) y0 (ypay 7 0 9 50)) (fun s => (bal (w_led (g_w s)) 0 7 =? 50) && (bal (w_led (g_w s)) 0 9 =? 50) && (bal (w_led (g_w s)) 0 99 =? 2) && (nonce_of (g_w s) 7 =? 1)) = true /\
  okb (gstep (yC true) y0 (ypay 7 0 9 5000)) (fun s => (bal (w_led (g_w s)) 0 7 =? 100) && (bal (w_led (g_w s)) 0 9 =? 0) && (bal (w_led (g_w s)) 0 99 =? 2) && (nonce_of (g_w s) 7 =? 1)) = true.
Proof. split; vm_compute; reflexivity. Qed.

(** ** C112.  Where signatures are verified, an unsigned transaction acts in the name of an account only with that account's signature over
    this chain's magic number, the account's current nonce and exactly the call that runs. *)
Theorem C112_signature_needed {R} (C : gate_cfg R) s c w sg n s' :
  gstep C s (XUnsigned (GEvm c w sg n)) = Ok s' -> gc_verify C = true ->
  length sg = 65%nat /\ gc_sig C sg (gc_magic C, nonce_of (g_w s) w, c) w = true.
Proof.
  intros H Hv. destruct (unsigned_evm C _ _ _ _ _ _ H) as (_ & s1 & E1 & _).
  apply evm_pre_ok in E1. destruct E1 as (_ & -> & Hl & V & _). split; auto.
Qed.

(** No other unsigned transaction has any effect, except on the caller of [withdraw], which needs an owner. *)
Theorem C112_other_unsigned {R} (C : gate_cfg R) s c s' :
  (forall a, gc_owner C a ONone = None) -> gstep C s (XUnsigned c) = Ok s' -> exists c' w sg n, c = GEvm c' w sg n.
Proof.
  intros HO H. destruct c; try discriminate; eauto. cbn -[base_filter] in H. bstep H u Ef. unfold evm_withdraw in H. rewrite HO in H. discriminate.
Qed.

(** Where they are not (the Heiko and Vanilla runtimes set VerifySignature to false), any 65 bytes are as good as a signature. *)
Theorem C112_unverified_any_bytes {R} (C : gate_cfg R) s c w sg sg' n :
  gc_verify C = false -> (forall x, gc_white C (GEvm c w x n) = gc_white C (GEvm c w sg n)) -> (forall x, gc_listed C (GEvm c w x n) = gc_listed C (GEvm c w sg n)) ->
  length sg = 65%nat -> length sg' = 65%nat ->
  gstep C s (XUnsigned (GEvm c w sg' n)) = gstep C s (XUnsigned (GEvm c w sg n)).
Proof.
  intros Hv W1 W2 Hl Hl'. cbn. unfold base_filter, shutdown_contains, evm_pre, sig_decodes, valid_signature. cbn.
  rewrite (W1 sg'), (W2 sg'), Hv, Hl, Hl'. reflexivity.
Qed.

Theorem C112_only_signer_refuted :
  ~ (forall (C : gate_cfg yrest) s c w sg n s', (forall sg' p, gc_sig C sg' p w = false) ->
       gstep C s (XUnsigned (GEvm c w sg n)) = Ok s' -> bal (w_led (g_w s)) 0 w <= bal (w_led (g_w s')) 0 w).
Proof.
  intros H.
  pose (C := mkGateCfg (gc_white (yC false)) (gc_listed (yC false)) (gc_shutdown (yC false)) false 2012 (fun _ _ _ => false) 2 99 0 2 allow_all (fun _ _ => false) (fun a => a) (fun _ _ => None) (fun w _ _ => Some (w_led w)) y_other : gate_cfg yrest).
  specialize (H C y0 (GOther 4 0 [9; 90]) 7 (repeat 0 65) 0).
  destruct (gstep C y0 (XUnsigned (GEvm (GOther 4 0 [9; 90]) 7 (repeat 0 65) 0))) as [s'| |] eqn:E; [|vm_compute in E; discriminate E..].
  specialize (H s' ltac:(intros; reflexivity) eq_refl).
  assert (K : okb (gstep C y0 (XUnsigned (GEvm (GOther 4 0 [9; 90]) 7 (repeat 0 65) 0))) (fun s' => bal (w_led (g_w s')) 0 7 <? bal (w_led (g_w y0)) 0 7) = true) by (vm_compute; reflexivity).
  rewrite E in K. cbn [okb] in K. lia.
Qed.

Example C112_example : is_ok (gstep (yC true) y0 (ypay 7 0 9 50)) = true /\ is_ok (gstep (yC true) y0 (XUnsigned (GEvm (GOther 4 0 [9; 50]) 7 (ysig 8 0) 0))) = false.
Proof. split; vm_compute; reflexivity. Qed.

(** ** C113.  A signed call runs at most once in the lifetime of the signer's account: between two transactions of the same account with the
    same nonce, EVM-signed or ordinary, whatever their calls, the account's record was removed. *)
Theorem C113_at_most_once {R} (C : gate_cfg R) s1 c w sg n s1' l s2' :
  records_kept C -> gstep C s1 (XUnsigned (GEvm c w sg n)) = Ok s1' ->
  (exists c' sg', gstep C (grun C s1' l) (XUnsigned (GEvm c' w sg' n)) = Ok s2') \/ (exists c', gstep C (grun C s1' l) (XSigned w n c') = Ok s2') ->
  deaths_of (g_w s1) w < deaths_of (g_w (grun C s1' l)) w.
Proof.
  intros HK H1 H2. destruct (unsigned_strict C HK _ _ _ _ _ _ H1) as (_ & A & B).
  destruct (grun_forward C HK l s1' w) as [A2 B2].
  assert (En : n = nonce_of (g_w (grun C s1' l)) w).
  { destruct H2 as [(c' & sg' & H2)|(c' & H2)]; [destruct (unsigned_strict C HK _ _ _ _ _ _ H2); auto|exact (signed_nonce C _ _ _ _ _ H2)]. }
  destruct (Z.eq_dec (deaths_of (g_w (grun C s1' l)) w) (deaths_of (g_w s1) w)) as [E|]; [|lia].
  assert (deaths_of (g_w s1') w = deaths_of (g_w s1) w) by lia.
  assert (deaths_of (g_w (grun C s1' l)) w = deaths_of (g_w s1') w) by lia.
  specialize (B ltac:(assumption)). specialize (B2 ltac:(assumption)). lia.
Qed.
Theorem C113_ordinary_at_most_once {R} (C : gate_cfg R) s1 c w n s1' l s2' :
  records_kept C -> gstep C s1 (XSigned w n c) = Ok s1' ->
  (exists c' sg', gstep C (grun C s1' l) (XUnsigned (GEvm c' w sg' n)) = Ok s2') \/ (exists c', gstep C (grun C s1' l) (XSigned w n c') = Ok s2') ->
  deaths_of (g_w s1) w < deaths_of (g_w (grun C s1' l)) w.
Proof.
  intros HK H1 H2. destruct (signed_strict C HK _ _ _ _ _ H1) as (A & B).
  destruct (grun_forward C HK l s1' w) as [A2 B2].
  assert (En : n = nonce_of (g_w (grun C s1' l)) w).
  { destruct H2 as [(c' & sg' & H2)|(c' & H2)]; [destruct (unsigned_strict C HK _ _ _ _ _ _ H2); auto|exact (signed_nonce C _ _ _ _ _ H2)]. }
  destruct (Z.eq_dec (deaths_of (g_w (grun C s1' l)) w) (deaths_of (g_w s1) w)) as [E|]; [|lia].
  assert (deaths_of (g_w s1') w = deaths_of (g_w s1) w) by lia.
  assert (deaths_of (g_w (grun C s1' l)) w = deaths_of (g_w s1') w) by lia.
  specialize (B ltac:(assumption)). specialize (B2 ltac:(assumption)). lia.
Qed.

(** Without that proviso it is false: the signed payload has no expiry, so once the account was emptied and filled again anyone can replay it. *)
Theorem C113_replay_refuted :
  ~ (forall (C : gate_cfg yrest) s c w sg n s1 l, gc_verify C = true -> records_kept C ->
       gstep C s (XUnsigned (GEvm c w sg n)) = Ok s1 -> gstep C (grun C s1 l) (XUnsigned (GEvm c w sg n)) = Err "BadNonce").
Proof.
  intros H. specialize (H (yC true) y0 (GOther 4 0 [9; 99]) 7 (ysig 7 0) 0).
  destruct (gstep (yC true) y0 (XUnsigned (GEvm (GOther 4 0 [9; 99]) 7 (ysig 7 0) 0))) as [s1| |] eqn:E; [|vm_compute in E; discriminate E..].
  specialize (H s1 [XSigned 11 0 (GOther 4 0 [7; 200])] eq_refl (y_records true) eq_refl).
  assert (K : okb (gstep (yC true) y0 (XUnsigned (GEvm (GOther 4 0 [9; 99]) 7 (ysig 7 0) 0)))
    (fun s1 => okb (gstep (yC true) (grun (yC true) s1 [XSigned 11 0 (GOther 4 0 [7; 200])]) (XUnsigned (GEvm (GOther 4 0 [9; 99]) 7 (ysig 7 0) 0)))
       (fun s2 => bal (w_led (g_w s2)) 0 9 =? 198)) = true) by (vm_compute; reflexivity).
  rewrite E in K. cbn [okb] in K. rewrite H in K. discriminate K.
Qed.

Example C113_example : okb (gstep (yC true) y0 (ypay 7 0 9 50)) (fun s => negb (is_ok (gstep (yC true) s (ypay 7 0 9 50))) && is_ok (gstep (yC true) s (ypay 7 1 9 40))) = true.
Proof. vm_compute. reflexivity. Qed.

(** ** C114.  The transaction pool accepts exactly the EVM-signed calls with the right nonce and signature; one accepted is executed,
    unless the signer cannot pay. *)
Theorem C114_pool_exact {R} (C : gate_cfg R) s c :
  validate_unsigned C s c = true <->
  exists c' w sg n, c = GEvm c' w sg n /\ n = nonce_of (g_w s) w /\ length sg = 65%nat /\ (gc_verify C = true -> gc_sig C sg (gc_magic C, n, c') w = true).
Proof.
  split.
  - destruct c as [| |c' w sg n| |]; try discriminate. cbn. intros H. apply andb_prop in H. destruct H as [H V]. apply andb_prop in H. destruct H as [N D].
    eexists _, _, _, _. split; [reflexivity|]. split; [lia|]. split; [apply Nat.eqb_eq; exact D|]. intros Hv. unfold valid_signature in V. rewrite Hv in V. exact V.
  - intros (c' & w & sg & n & -> & En & D & V). cbn. rewrite <- En, Z.eqb_refl. unfold sig_decodes, valid_signature. rewrite D. cbn.
    destruct (gc_verify C); auto.
Qed.
Theorem C114_accepted_runs {R} (C : gate_cfg R) s c w sg n L :
  validate_unsigned C s (GEvm c w sg n) = true -> base_filter C s (GEvm c w sg n) = true -> n < U32MAX ->
  transfer (gc_pol C) (w_led (g_w s)) (gc_nat C) w (gc_treasury C) (gc_fee C) false = Ok L -> (forall s1, dispatch C c (OSigned w) s1 <> Panic) ->
  exists s', gstep C s (XUnsigned (GEvm c w sg n)) = Ok s'.
Proof.
  intros V F M T P. apply C114_pool_exact in V. destruct V as (c' & w' & sg' & n' & [= <- <- <- <-] & En & D & V).
  eapply C111_call_accepted; eauto.
Qed.
(** An accepted call whose signer cannot pay costs nobody anything: its inclusion changes nothing and it is accepted again. *)
Theorem C114_unpayable_is_free {R} (C : gate_cfg R) s c w sg n e :
  validate_unsigned C s (GEvm c w sg n) = true -> n < U32MAX ->
  transfer (gc_pol C) (w_led (g_w s)) (gc_nat C) w (gc_treasury C) (gc_fee C) false = Err e ->
  let s' := gexec C s (XUnsigned (GEvm c w sg n)) in s' = s /\ validate_unsigned C s' (GEvm c w sg n) = true.
Proof.
  intros V M T. cbn zeta. assert (E : gexec C s (XUnsigned (GEvm c w sg n)) = s); [|rewrite E; auto].
  unfold gexec. cbn -[base_filter]. destruct (base_filter C s (GEvm c w sg n)); [|reflexivity]. cbn.
  cbn in V. apply andb_prop in V. destruct V as [V V3]. apply andb_prop in V. destruct V as [V1 V2].
  unfold evm_pre. cbn -[charge_fee]. rewrite V1, V2, V3. cbn -[charge_fee]. apply Z.eqb_eq in V1. rewrite <- V1. replace (U32MAX <=? n) with false by lia.
  unfold charge_fee. cbn. rewrite T. reflexivity.
Qed.
Theorem C114_accepted_pays_refuted :
  ~ (forall (C : gate_cfg yrest) s c w sg n, 0 < gc_fee C -> validate_unsigned C s (GEvm c w sg n) = true ->
       bal (w_led (g_w (gexec C s (XUnsigned (GEvm c w sg n))))) 0 99 = bal (w_led (g_w s)) 0 99 + gc_fee C).
Proof. intros H. specialize (H (yC true) y0 (GOther 4 0 [9; 50]) 8 (ysig 8 0) 0 ltac:(reflexivity) ltac:(vm_compute; reflexivity)). vm_compute in H. discriminate H. Qed.

(** What is charged: the fee moves from the signer to the treasury; a remainder below the existential deposit is destroyed with the account,
    in the signer's balance and in the total issuance; nobody else's balance and no other asset changes. *)
Theorem C114_fee_exact {R} (C : gate_cfg R) s o c w sg n s1 :
  evm_pre C s o c w sg n = Ok s1 -> w <> gc_treasury C -> 0 <= gc_fee C ->
  let L := w_led (g_w s) in let L1 := w_led (g_w s1) in
  exists dust, (dust = 0 /\ gc_ed C <= bal L1 (gc_nat C) w \/ dust < gc_ed C /\ bal L1 (gc_nat C) w = 0) /\
    (forall a x, bal L1 a x = bal L a x - at_ (gc_nat C) w a x (gc_fee C + dust) + at_ (gc_nat C) (gc_treasury C) a x (gc_fee C)) /\
    (forall a, iss L1 a = iss L a - (if bool_decide (a = gc_nat C) then dust else 0)).
Proof.
  intros H N F. cbn zeta. apply evm_pre_ok in H. destruct H as (_ & _ & _ & _ & _ & _ & _ & H). unfold charge_fee in H. bstep H L E. cbn [w_led] in E.
  apply transfer_spec in E as (E1 & E2 & _).
  destruct (gc_ed C <=? bal L (gc_nat C) w) eqn:Q.
  - injection H as <-. cbn [w_led]. exists 0. split; [left; lia|]. split; intros; [rewrite E1; unfold at_; repeat case_bool_decide; lia|rewrite E2; case_bool_decide; lia].
  - set (L' := set_iss (set_bal L (gc_nat C) w 0) (gc_nat C) (iss L (gc_nat C) - bal L (gc_nat C) w)) in *.
    assert (EL : w_led (g_w s1) = L') by (destruct (gc_keeps C _ w); injection H as <-; reflexivity). rewrite EL.
    exists (bal L (gc_nat C) w). assert (B : forall a x, bal L' a x = if bool_decide (a = gc_nat C /\ x = w) then 0 else bal L a x).
    { intros a x. unfold L'. rewrite bal_set_iss, bal_set_bal. reflexivity. }
    split; [right; split; [lia|rewrite B, bool_decide_true by auto; reflexivity]|]. split; intros a.
    + intros x. rewrite B. rewrite !E1. unfold at_. destruct (decide (a = gc_nat C /\ x = w)) as [[-> ->]|K].
      * rewrite !(bool_decide_true (gc_nat C = gc_nat C /\ w = w)) by auto. rewrite !(bool_decide_false (_ /\ w = gc_treasury C)) by tauto. lia.
      * rewrite !(bool_decide_false (a = gc_nat C /\ x = w)) by exact K. lia.
    + unfold L'. rewrite iss_set_iss, iss_set_bal. rewrite !E2. case_bool_decide; subst; lia.
Qed.
Example C114_example : validate_unsigned (yC true) y0 (GEvm (GOther 4 0 [9; 50]) 7 (ysig 7 0) 0) = true /\ is_ok (gstep (yC true) y0 (ypay 7 0 9 50)) = true.
Proof. split; vm_compute; reflexivity. Qed.

(** ** C115.  [withdraw] moves exactly the amount from the account of an EVM address to its owner's native account, and only for the owner. *)
Theorem C115_withdraw_exact {R} (C : gate_cfg R) s o a ad v s' :
  dispatch C (GWithdraw a ad v) o s = Ok s' ->
  exists dest, gc_owner C ad o = Some dest /\ same_flags s s' /\ w_nonce (g_w s') = w_nonce (g_w s) /\ w_rest (g_w s') = w_rest (g_w s) /\
    (forall b x, bal (w_led (g_w s')) b x = bal (w_led (g_w s)) b x - at_ a (gc_map C ad) b x v + at_ a dest b x v) /\
    (forall b, iss (w_led (g_w s')) b = iss (w_led (g_w s)) b) /\
    (0 < v -> gc_map C ad <> dest -> v <= bal (w_led (g_w s)) a (gc_map C ad)).
Proof.
  intros H. cbn in H. unfold evm_withdraw in H. bstep H d E. bstep H L EL. injection H as <-. exists d. cbn.
  destruct (transfer_spec _ _ _ _ _ _ _ _ EL) as (TB & TI & TO).
  split; [exact E|]. split; [apply flags_eq; reflexivity|]. auto.
Qed.
Theorem C115_withdraw_possible {R} (C : gate_cfg R) s o a ad v dest :
  gc_owner C ad o = Some dest -> 0 <= v <= bal (w_led (g_w s)) a (gc_map C ad) -> allow_transfer (gc_pol C) false (w_led (g_w s)) a (gc_map C ad) dest v = true ->
  exists s', dispatch C (GWithdraw a ad v) o s = Ok s'.
Proof.
  intros E B A. cbn. unfold evm_withdraw. rewrite E. cbn. unfold transfer. destruct (v =? 0) eqn:V; cbn; [eauto|]. rewrite A. cbn.
  destruct (gc_map C ad =? dest); cbn; [eauto|]. replace ((0 <? v) && (v <=? bal (w_led (g_w s)) a (gc_map C ad))) with true by lia. cbn. eauto.
Qed.
Example C115_example : okb (dispatch (yC true) (GWithdraw 5 3 15) (OSigned 2003) y0) (fun s => (bal (w_led (g_w s)) 5 1003 =? 25) && (bal (w_led (g_w s)) 5 2003 =? 15)) = true.
Proof. vm_compute. reflexivity. Qed.

Print Assumptions C110_filter_exact.  Print Assumptions C110_toggle_exact.  Print Assumptions C110_shutdown_can_be_undone.
Print Assumptions C110_only_governance.  Print Assumptions C110_disabled_pallet_stopped_refuted.
Print Assumptions C111_call_exact.  Print Assumptions C111_call_accepted.
Print Assumptions C112_signature_needed.  Print Assumptions C112_other_unsigned.  Print Assumptions C112_unverified_any_bytes.  Print Assumptions C112_only_signer_refuted.
Print Assumptions C113_at_most_once.  Print Assumptions C113_ordinary_at_most_once.  Print Assumptions C113_replay_refuted.
Print Assumptions C114_pool_exact.  Print Assumptions C114_accepted_runs.  Print Assumptions C114_unpayable_is_free.  Print Assumptions C114_accepted_pays_refuted.  Print Assumptions C114_fee_exact.
Print Assumptions C115_withdraw_exact.  Print Assumptions C115_withdraw_possible.
