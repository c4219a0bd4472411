(** * AuthProps: delegation, nested calls and the call filter (C151-C156). *)
From Verif Require Import Base Ledger AmmEx AmmModel StreamModel AuthModel AuthSpec AuthProofs AuthProofs2.

(** An example runtime: token transfers, the streaming pallet (the model of C15-C20) and a switch that shuts the streaming pallet down. *)
Definition zrest : Type := str * bool.
Definition zSC : str_cfg := mkStrCfg 1 128 2 0 10 (fun o => match o with Root => true | _ => false end).
Definition z_other (o : caller) (p : pallet) (f : string) (args : list Z) (r : zrest) : res zrest :=
  match o, p, args with
  | CSigned w, Streaming, [rcpt; dep; asset; start; stop] =>
      let* s := create zSC allow_all (fst r) w rcpt dep asset start stop true in Ok (s, snd r)
  | CSigned w, Streaming, [id; amt] => let* s := withdraw zSC allow_all (fst r) w id amt in Ok (s, snd r)
  | CSigned w, Balances, [dest; amt] =>
      let* L := transfer allow_all (s_led (fst r)) 0 w dest amt false in Ok (s_set_led (fst r) L, snd r)
  | CRoot, EmergencyShutdown, [] => Ok (fst r, negb (snd r))
  | CSigned w, Democracy, [k] => Ok r
  | CSigned w, Assets, [k] => Ok r
  | _, _, _ => Err "BadOrigin"
  end.
Definition zC : auth_cfg zrest :=
  mkAuthCfg (fun r p _ => match p with Streaming => snd r | _ => false end) z_other (fun _ _ => true)
    (fun w i => 10^6 + Z.abs (w * 1000 + i)) (fun l th => 10^9 + Z.abs (th + 100 * fold_left (fun a x => a * 1000 + x) l 0)) (fun r _ _ _ _ => Ok (r, false))
    (fun w t i h xi => - Z.abs (1 + ptype_ix t + 10 * i + 100 * h + 10^6 * xi + 10^9 * w))
    (fun c => match c with Leaf _ _ (a :: _) => a | _ => 0 end) (fun _ _ w => w =? 50) (fun _ _ => 3)
    (fun r w c sg n => match sg with [x] => if x =? w then Ok r else Err "InvalidSignature" | _ => Err "InvalidSignature" end) 32 32 100.
Definition zL : ledger := mk_ledger [(0, 10, 10^12); (0, 11, 10^6); (0, 12, 10^6)].
Definition z_start : auth zrest := mkAuth ∅ ∅ 5 0 (fold_left (str_exec zSC allow_all) [SSetMin Root 0 100] (str_init zL 40), false) [].
(** account 10 lets 11 manage its streams and 12 vote for it *)
Definition z1 : auth zrest := fold_left (exec zC) [XSigned 10 (AddProxy 11 PStreaming 0); XSigned 10 (AddProxy 12 PGovernance 0)] z_start.

(** ** C151.  Delegation does not grow.  Take any group of accounts whose full delegates, owners and co-signers all belong to it.
    However the others nest and combine their calls, over any history, they cannot change the group's delegates, and every call
    that runs in a member's name is one that a limited delegation registered at the start hands out. *)
Theorem C151_delegation_does_not_grow {R} (C : auth_cfg R) P s l :
  own_group C P s -> Forall (by_outsider P) l ->
  (forall y, P y -> delegates (fold_left (exec C) l s) y = delegates s y) /\
  (forall y c, P y -> ran s (fold_left (exec C) l s) (CSigned y, c) -> delegated C P s y c) /\
  own_group C P (fold_left (exec C) l s).
Proof.
  intros G F. assert (K : kept C P s s) by (split; [auto|split; [apply (og_quiet C P s G)|exists []; split; [reflexivity|intros y c H; set_solver]]]).
  pose proof (hist_kept C P s G l s F K) as (K1 & K2 & l0 & K3 & K4).
  split; [exact K1|]. split.
  - intros y c Py (l1 & E1 & E2). rewrite K3 in E1. apply app_inv_tail in E1 as ->. exact (K4 y c E2 Py).
  - destruct G as [G1 G2 G3 G4 G5]. split; auto. intros x e Px He. rewrite (K1 x Px) in He. exact (G1 x e Px He).
Qed.
(** In particular nobody outside it moves a member's tokens by a token call, manages its delegates, multisigs or identity, or sends XCM. *)
Theorem C151_no_token_calls {R} (C : auth_cfg R) P s l y c :
  own_group C P s -> Forall (by_outsider P) l -> P y -> ran s (fold_left (exec C) l s) (CSigned y, c) ->
  delegable (fn_of c).1 /\ forall p, In p [Balances; Assets; CurrencyAdapter; XTokens; Vesting; Bridge; Proxy; Multisig; Identity; Session; PolkadotXcm; System] -> (fn_of c).1 <> p.
Proof.
  intros G F Py H. destruct (proj1 (proj2 (C151_delegation_does_not_grow C P s l G F)) y c Py H) as (z & e & _ & _ & Hn & Hf & _).
  assert (D : delegable (fn_of c).1).
  { unfold ptype_filter in Hf. destruct (fn_of c) as [p f]. unfold delegable. cbn [fst]. destruct (pd_type e); [congruence|..]; destruct p; try discriminate Hf; cbn; tauto. }
  split; [exact D|]. intros p Hp E. rewrite E in D. cbn in Hp. unfold delegable in D. cbn in D.
  repeat (destruct Hp as [<-|Hp]; [repeat (destruct D as [D|D]; [discriminate D|]); exact D|]). exact Hp.
Qed.
(** An account that has no delegates, and is no multisig or derived account, acts only when it signs. *)
Theorem C151_undelegated {R} (C : auth_cfg R) x s l c :
  own_group C (eq x) s -> delegates s x = [] -> Forall (by_outsider (eq x)) l -> ~ ran s (fold_left (exec C) l s) (CSigned x, c).
Proof.
  intros G D F H. destruct (proj1 (proj2 (C151_delegation_does_not_grow C (eq x) s l G F)) x c eq_refl H) as (z & e & <- & He & _).
  rewrite D in He. set_solver.
Qed.

Lemma zC_ids x : 0 < x < 10^6 -> (forall w i, ac_derive zC w i <> x) /\ (forall l th, ac_multi_id zC l th <> x) /\ (forall w t i h xi, ac_pure zC w t i h xi <> x).
Proof. intros Hx. cbn. split; [|split]; intros; lia. Qed.
Lemma z1_group : own_group zC (eq 10) z1.
Proof.
  destruct (zC_ids 10) as (I1 & I2 & I3); [lia|]. split.
  - intros x e <- He Ea. replace (delegates z1 10) with [mkPdef 11 PStreaming 0; mkPdef 12 PGovernance 0] in He by (vm_compute; reflexivity).
    apply elem_of_cons in He as [->|He]; [discriminate Ea|]. apply elem_of_list_singleton in He as ->. discriminate Ea.
  - intros w i E. destruct (I1 w i). congruence.
  - intros w os th E. destruct (I2 (w :: os) th). congruence.
  - intros w t i h xi E. destruct (I3 w t i h xi). congruence.
  - intros d <-. vm_compute. reflexivity.
Qed.
(** A stream delegate opens a stream for account 10; the voting delegate votes in a batch, and its attempts to transfer, to add
    a delegate directly, through a batch or a derived account have no effect. *)
Definition z_hist : list (@ext zrest) :=
  [XSigned 11 (ProxyCall 10 None (Leaf Streaming "create" [13; 1000; 0; 100; 200]));
   XSigned 11 (ProxyCall 10 None (Leaf Balances "transfer" [11; 7]));
   XSigned 12 (ProxyCall 10 (Some PGovernance) (Batch BForce
      [Leaf Democracy "vote" [3]; Leaf Balances "transfer" [12; 7]; AddProxy 12 PAny 0; AddProxy 14 PGovernance 0;
       AsDerivative 0 (Leaf Democracy "vote" [4]); AsDerivative 0 (Leaf Balances "transfer" [12; 7])]));
   XSigned 12 (AddProxy 11 PAny 0); XSigned 11 (ProxyCall 12 None (ProxyCall 10 None (Leaf Democracy "vote" [5])))].
Example C151_example : own_group zC (eq 10) z1 /\ Forall (by_outsider (eq 10)) z_hist /\
  let s := fold_left (exec zC) z_hist z1 in
  (bal (s_led (fst (r_rest s))) 0 10 =? 10^12 - 1000) = true /\
  List.filter (fun e => match e with (CSigned 10, Leaf _ _ _) | (CSigned 1010000, Leaf _ _ _) => true | _ => false end) (r_log s) =
    [(CSigned 10, Leaf Democracy "vote" [5]); (CSigned 1010000, Leaf Democracy "vote" [4]); (CSigned 10, Leaf Democracy "vote" [3]);
     (CSigned 10, Leaf Streaming "create" [13; 1000; 0; 100; 200])].
Proof.
  split; [exact z1_group|]. split; [repeat constructor; cbn; discriminate|]. cbv zeta. split; vm_compute; reflexivity.
Qed.

(** ** C152.  What a delegate's call does: it runs, in the principal's name and only if the delegation's type and the runtime allow it;
    different limited types never allow the same call. *)
Theorem C152_types_disjoint t t' c :
  t <> PAny -> t' <> PAny -> ptype_filter t c = true -> ptype_filter t' c = true -> t = t'.
Proof.
  intros H H' F F'. unfold ptype_filter in *. destruct (fn_of c) as [p f].
  destruct t; [congruence|..]; destruct t'; try congruence; destruct p; discriminate.
Qed.
Lemma leaf_run {R} (C : auth_cfg R) p f a o s :
  run C (Leaf p f a) false o s = if passes C s o (Leaf p f a) then let* r := ac_other C (o_caller o) p f a (r_rest s) in Ok (set_rest (note s (o_caller o) (Leaf p f a)) r) else Err "CallFiltered".
Proof. cbn [run orb]. destruct (passes C s o (Leaf p f a)); reflexivity. Qed.
Lemma proxied_pass {R} (C : auth_cfg R) (s : auth R) x t c : (forall d t' dl, c <> AddProxy d t' dl) -> (forall d t' dl, c <> RemoveProxy d t' dl) ->
  c <> RemoveProxies -> (forall sp t' i h xi, c <> KillPure sp t' i h xi) ->
  passes C s (mkOrg (CSigned x) [FProxy t]) c = base_filter C s c && ptype_filter t c.
Proof. intros H1 H2 H3 H4. unfold passes. cbn [o_caller o_filters forallb]. rewrite andb_true_r. f_equal. destruct c; try reflexivity; exfalso; [eapply H1|eapply H2|eapply H3|eapply H4]; reflexivity. Qed.
Theorem C152_delegated_call_exact {R} (C : auth_cfg R) s w x force p f a s' :
  step C s (XSigned w (ProxyCall x force (Leaf p f a))) = Ok s' ->
  exists e, e ∈ delegates s x /\ pd_delegate e = w /\ pd_delay e = 0 /\ match force with Some t => pd_type e = t | None => True end /\
    (forall y, delegates s' y = delegates s y) /\ (forall y, anns s' y = anns s y) /\
    r_rest s' = if ptype_filter (pd_type e) (Leaf p f a) && ((white p f || listed p f) && (white p f || negb (ac_off C (r_rest s) p f)))
                then match ac_other C (CSigned x) p f a (r_rest s) with Ok r => r | _ => r_rest s end
                else r_rest s.
Proof.
  intros H. cbn [step] in H. change (run C (ProxyCall x force (Leaf p f a)) false (fresh (CSigned w)) s) with
    (if negb (passes C s (fresh (CSigned w)) (ProxyCall x force (Leaf p f a))) then Err "CallFiltered" else
     let s1 := note s (CSigned w) (ProxyCall x force (Leaf p f a)) in
     let* d := find_proxy s1 x w force in
     let* _ := ensure (pd_delay d =? 0) "Unannounced" in
     or_keep s1 (run C (Leaf p f a) false (mkOrg (CSigned x) [FProxy (pd_type d)]) s1)) in H.
  destruct (passes C s _ _); cbn [negb] in H; [|discriminate H]. cbv zeta in H. bstep H e Ee. bstep H u Eu.
  apply find_proxy_spec in Ee as (E1 & E2 & E3). exists e. split; [exact E1|]. split; [exact E2|]. split; [lia|]. split; [exact E3|].
  rewrite leaf_run, proxied_pass in H by discriminate.
  change (base_filter C (note s (CSigned w) (ProxyCall x force (Leaf p f a))) (Leaf p f a)) with
    ((white p f || listed p f) && (white p f || negb (ac_off C (r_rest s) p f))) in H.
  rewrite (andb_comm (ptype_filter _ _)). destruct (_ && ptype_filter _ _).
  - cbn [o_caller note r_rest] in H. destruct (ac_other C (CSigned x) p f a (r_rest s)); cbn in H; [injection H as <-|injection H as <-|discriminate H]; repeat split; reflexivity.
  - cbn in H. injection H as <-. repeat split; reflexivity.
Qed.
(** A delegate without delay can use its delegation. *)
Theorem C152_delegate_can_act {R} (C : auth_cfg R) s w x t p f a r :
  mkPdef w t 0 ∈ delegates s x -> (forall e, e ∈ delegates s x -> pd_delegate e = w -> pd_type e = t -> pd_delay e = 0) ->
  ptype_filter t (Leaf p f a) = true -> white p f || listed p f = true -> ac_off C (r_rest s) p f = false ->
  ac_other C (CSigned x) p f a (r_rest s) = Ok r ->
  exists s', step C s (XSigned w (ProxyCall x (Some t) (Leaf p f a))) = Ok s' /\ r_rest s' = r.
Proof.
  intros He Hu Ht Hw Hoff Hr. cbn [step]. set (s1 := note s (CSigned w) (ProxyCall x (Some t) (Leaf p f a))).
  assert (Fd : exists e, find_proxy s1 x w (Some t) = Ok e /\ pd_type e = t /\ pd_delay e = 0).
  { unfold find_proxy. destruct (List.find _ (delegates s1 x)) as [e|] eqn:F.
    - exists e. split; [reflexivity|]. apply List.find_some in F as [F1 F2]. apply andb_prop in F2 as [F2 F3].
      apply bool_decide_eq_true in F2. apply bool_decide_eq_true in F3. split; [exact F3|]. apply Hu; auto. apply elem_of_list_In, F1.
    - exfalso. pose proof (List.find_none _ _ F (mkPdef w t 0) ltac:(apply elem_of_list_In; exact He)) as N. cbn in N.
      rewrite !bool_decide_true in N by reflexivity. discriminate N. }
  destruct Fd as (e & Fd & Et & Ed). exists (set_rest (note s1 (CSigned x) (Leaf p f a)) r). split; [|reflexivity].
  change (run C (ProxyCall x (Some t) (Leaf p f a)) false (fresh (CSigned w)) s) with
     (let* d := find_proxy s1 x w (Some t) in
     let* _ := ensure (pd_delay d =? 0) "Unannounced" in
     or_keep s1 (run C (Leaf p f a) false (mkOrg (CSigned x) [FProxy (pd_type d)]) s1)).
  rewrite Fd. cbn [rbind]. rewrite Ed. cbn [Z.eqb ensure rbind]. rewrite leaf_run, proxied_pass, Et, Ht by discriminate.
  change (base_filter C s1 (Leaf p f a)) with ((white p f || listed p f) && (white p f || negb (ac_off C (r_rest s) p f))).
  rewrite Hw, Hoff, orb_true_r. cbn [andb negb o_caller]. change (r_rest s1) with (r_rest s). rewrite Hr. reflexivity.
Qed.
Example C152_example : mkPdef 11 PStreaming 0 ∈ delegates z1 10 /\
  okb (step zC z1 (XSigned 11 (ProxyCall 10 (Some PStreaming) (Leaf Streaming "create" [13; 1000; 0; 100; 200])))) (fun s => bal (s_led (fst (r_rest s))) 0 10 =? 10^12 - 1000) = true /\
  okb (step zC z1 (XSigned 11 (ProxyCall 10 None (Leaf Balances "transfer" [11; 7])))) (fun s => bal (s_led (fst (r_rest s))) 0 10 =? 10^12) = true.
Proof.
  split; [replace (delegates z1 10) with [mkPdef 11 PStreaming 0; mkPdef 12 PGovernance 0] by (vm_compute; reflexivity); left|].
  split; vm_compute; reflexivity.
Qed.

(** ** C153.  The call filter holds at every depth: whatever an account (or a council) wraps into batches, delegated, derived, multisig
    and council calls, only calls on the runtime's lists run ... *)
Theorem C153_filter_everywhere {R} (C : auth_cfg R) s x s' o c' :
  match x with XSigned _ _ => True | XGov o _ => o <> CRoot /\ o <> CNone | _ => False end ->
  step C s x = Ok s' -> ran s s' (o, c') -> white (fn_of c').1 (fn_of c').2 || listed (fn_of c').1 (fn_of c').2 = true.
Proof.
  intros Hx H (l & E & Hin).
  assert (K : grown (fun _ => True) (fun c => white (fn_of c).1 (fn_of c).2 || listed (fn_of c).1 (fn_of c).2 = true) s s').
  { assert (K0 : grown (fun _ => True) (fun c => white (fn_of c).1 (fn_of c).2 || listed (fn_of c).1 (fn_of c).2 = true) s s)
      by (split; [exact I|exists []; split; [reflexivity|intros ? ? Hn; set_solver]]).
    assert (HQ : forall (s1 : auth R) c, True -> base_filter C s1 c = true -> white (fn_of c).1 (fn_of c).2 || listed (fn_of c).1 (fn_of c).2 = true).
    { intros s1 c _ B. unfold base_filter in B. destruct (fn_of c). apply andb_prop in B. tauto. }
    destruct x as [w c|c|o0 c|g|]; try contradiction; cbn [step] in H.
    - refine (run_grown C _ _ s HQ _ _ c _ s s' _ _ K0 H); auto; discriminate.
    - destruct Hx as [N1 N2]. destruct o0; try congruence; try discriminate H.
      all: refine (run_grown C _ _ s HQ _ _ c _ s s' _ _ K0 H); auto; discriminate. }
  destruct K as (_ & l0 & E0 & K). rewrite E0 in E. apply app_inv_tail in E as ->. exact (K _ _ Hin).
Qed.
(** ... for instance no XCM is sent or executed and no asset created, destroyed or approved by such a call; *)
Theorem C153_never_signed {R} (C : auth_cfg R) s w c s' o c' :
  step C s (XSigned w c) = Ok s' -> ran s s' (o, c') ->
  forall f, fn_of c' <> (PolkadotXcm, "send"%string) /\ fn_of c' <> (PolkadotXcm, "execute"%string) /\ fn_of c' <> (PolkadotXcm, "reserve_transfer_assets"%string) /\
    fn_of c' <> (PolkadotXcm, "teleport_assets"%string) /\ fn_of c' <> (Assets, "create"%string) /\ fn_of c' <> (Assets, "start_destroy"%string) /\
    fn_of c' <> (Assets, "approve_transfer"%string) /\ fn_of c' <> (Assets, "transfer_approved"%string) /\ fn_of c' <> (CollatorSelection, f).
Proof.
  intros H Hr f. pose proof (C153_filter_everywhere C s (XSigned w c) s' o c' I H Hr) as K. destruct (fn_of c') as [p g]. cbn [fst snd] in K.
  repeat split; intros E; injection E as -> E; try subst g; discriminate K.
Qed.
(** ... and, while a function is switched off and no such call switches it on, that function does not run, unless whitelisted. *)
Theorem C153_shutdown_everywhere {R} (C : auth_cfg R) s w c s' o c' p f :
  (forall o p' f' a r r', o <> CRoot -> ac_off C r p f = true -> ac_other C o p' f' a r = Ok r' -> ac_off C r' p f = true) ->
  (forall r w th os c r' b, ac_off C r p f = true -> ac_multi C r w th os c = Ok (r', b) -> ac_off C r' p f = true) ->
  ac_off C (r_rest s) p f = true -> white p f = false ->
  step C s (XSigned w c) = Ok s' -> ran s s' (o, c') -> fn_of c' <> (p, f) /\ ac_off C (r_rest s') p f = true.
Proof.
  intros H1 H2 Hoff Hw H (l & E & Hin).
  assert (K0 : grown (fun r => ac_off C r p f = true) (fun c => fn_of c <> (p, f)) s s)
    by (split; [exact Hoff|exists []; split; [reflexivity|intros ? ? Hn; set_solver]]).
  assert (HQ : forall (s1 : auth R) c, ac_off C (r_rest s1) p f = true -> base_filter C s1 c = true -> fn_of c <> (p, f)).
  { intros s1 c1 J B Ec. unfold base_filter in B. rewrite Ec in B. rewrite Hw, J in B. cbn in B. rewrite andb_false_r in B. discriminate B. }
  cbn [step] in H.
  assert (K : grown (fun r => ac_off C r p f = true) (fun c => fn_of c <> (p, f)) s s')
    by (refine (run_grown C _ _ s HQ _ _ c _ s s' _ _ K0 H); [intros o0 p0 f0 a r r' N1 _; apply H1, N1|exact H2|discriminate|discriminate]).
  destruct K as (J & l0 & E0 & K). split; [|exact J]. rewrite E0 in E. apply app_inv_tail in E as ->. exact (K _ _ Hin).
Qed.
(** The signature pallet is the one way around: its inner call skips the filter, so unlisted calls run as well. *)
Theorem C153_evm_signed_filtered_refuted :
  ~ (forall {R} (C : auth_cfg R) s c w sg n s' o c', step C s (XUnsigned (EvmSigned c w sg n)) = Ok s' -> ran s s' (o, c') ->
       white (fn_of c').1 (fn_of c').2 || listed (fn_of c').1 (fn_of c').2 = true).
Proof.
  intros H. specialize (H zrest zC z1 (Leaf Assets "create" [77]) 11 [11] 0).
  destruct (step zC z1 (XUnsigned (EvmSigned (Leaf Assets "create" [77]) 11 [11] 0))) as [s'|e|] eqn:E; [|vm_compute in E; discriminate E..].
  assert (Q : r_log s' = [(CSigned 11, Leaf Assets "create" [77]); (CNone, EvmSigned (Leaf Assets "create" [77]) 11 [11] 0)] ++ r_log z1).
  { cbn in E. injection E as <-. reflexivity. }
  specialize (H s' (CSigned 11) (Leaf Assets "create" [77]) eq_refl). cbn in H. enough (false = true) by discriminate. apply H.
  exists [(CSigned 11, Leaf Assets "create" [77]); (CNone, EvmSigned (Leaf Assets "create" [77]) 11 [11] 0)]. split; [exact Q|left].
Qed.
Definition z_off : auth zrest := exec zC z1 (XGov CRoot (Leaf EmergencyShutdown "toggle_pallet" [])).
Example C153_example : ac_off zC (r_rest z_off) Streaming "create" = true /\ white Streaming "create" = false /\
  okb (step zC z_off (XSigned 11 (Batch BBatch [Leaf Streaming "create" [13; 1000; 0; 100; 200]]))) (fun s => Nat.eqb (length (r_log s)) (S (length (r_log z_off)))) = true /\
  okb (step zC z_off (XSigned 11 (Batch BBatch [Leaf Balances "transfer" [13; 10]; Leaf Streaming "create" [13; 1000; 0; 100; 200]]))) (fun s => bal (s_led (fst (r_rest s))) 0 13 =? 10) = true.
Proof. repeat split; vm_compute; reflexivity. Qed.

(** ** C154.  Principals control their delegates: each entry they add is added exactly, an entry they remove is gone, they can always
    remove all of them - even during a shutdown - and a former delegate is refused. *)
Lemma pinsert_in x l y : y ∈ pinsert x l <-> y = x \/ y ∈ l.
Proof. induction l as [|z l IH]; cbn; [set_solver|]. destruct (pdef_lt z x); [rewrite !elem_of_cons, IH; tauto|rewrite !elem_of_cons; tauto]. Qed.
Lemma pinsert_len x l : length (pinsert x l) = S (length l).
Proof. induction l as [|z l IH]; cbn; [reflexivity|]. destruct (pdef_lt z x); cbn; [rewrite IH|]; reflexivity. Qed.
Lemma has_pdef_in x l : has_pdef x l = true <-> x ∈ l.
Proof.
  unfold has_pdef. rewrite existsb_exists. split.
  - intros (y & H1 & H2). apply bool_decide_eq_true in H2 as ->. apply elem_of_list_In, H1.
  - intros H. exists x. split; [apply elem_of_list_In, H|apply bool_decide_eq_true; reflexivity].
Qed.
Theorem C154_add_exact {R} (C : auth_cfg R) s x d t dl s' :
  step C s (XSigned x (AddProxy d t dl)) = Ok s' ->
  x <> d /\ mkPdef d t dl ∉ delegates s x /\
  (forall e, e ∈ delegates s' x <-> e = mkPdef d t dl \/ e ∈ delegates s x) /\ Z.of_nat (length (delegates s' x)) <= ac_maxp C /\
  (forall y, y <> x -> delegates s' y = delegates s y) /\ (forall y, anns s' y = anns s y) /\ r_rest s' = r_rest s.
Proof.
  intros H. cbn [step] in H. change (run C (AddProxy d t dl) false (fresh (CSigned x)) s) with
    (do_add C (note s (CSigned x) (AddProxy d t dl)) (fresh (CSigned x)) d t dl) in H.
  unfold do_add in H. cbn [who fresh o_caller rbind] in H. bstep H u1 E1. bstep H u2 E2. bstep H u3 E3. bstep H u4 E4. injection H as Hs.
  change (delegates (note s (CSigned x) (AddProxy d t dl)) x) with (delegates s x) in *.
  assert (Dx : delegates s' x = pinsert (mkPdef d t dl) (delegates s x))
    by (rewrite <- Hs; unfold delegates at 1; cbn [r_prox set_prox]; rewrite lookup_insert; reflexivity).
  rewrite Dx. split; [lia|]. split.
  { intros Hin. apply has_pdef_in in Hin. rewrite Hin in E2. discriminate E2. }
  split; [intros e; apply pinsert_in|]. split; [rewrite pinsert_len; lia|]. rewrite <- Hs. split; [|split; reflexivity].
  intros y N. unfold delegates at 1. cbn [r_prox set_prox]. rewrite lookup_insert_ne by auto. reflexivity.
Qed.
Theorem C154_remove_exact {R} (C : auth_cfg R) s x d t dl :
  (mkPdef d t dl ∈ delegates s x -> exists s', step C s (XSigned x (RemoveProxy d t dl)) = Ok s') /\
  forall s', step C s (XSigned x (RemoveProxy d t dl)) = Ok s' ->
    mkPdef d t dl ∈ delegates s x /\ (forall e, e ∈ delegates s' x <-> e <> mkPdef d t dl /\ e ∈ delegates s x) /\
    (forall y, y <> x -> delegates s' y = delegates s y) /\ (forall y, anns s' y = anns s y) /\ r_rest s' = r_rest s.
Proof.
  cbn [step]. change (run C (RemoveProxy d t dl) false (fresh (CSigned x)) s) with
    (do_remove (note s (CSigned x) (RemoveProxy d t dl)) (fresh (CSigned x)) d t dl).
  unfold do_remove. cbn [who fresh o_caller rbind].
  change (delegates (note s (CSigned x) (RemoveProxy d t dl)) x) with (delegates s x). split.
  - intros Hin. apply has_pdef_in in Hin. rewrite Hin. eexists; reflexivity.
  - intros s' H. bstep H u E1. injection H as <-. split; [apply has_pdef_in, E1|].
    set (l := List.filter (fun y => negb (bool_decide (y = mkPdef d t dl))) (delegates s x)).
    assert (El : forall e, e ∈ l <-> e <> mkPdef d t dl /\ e ∈ delegates s x).
    { intros e. unfold l. rewrite !elem_of_list_In, filter_In, negb_true_iff, bool_decide_eq_false. tauto. }
    split; [|split; [|split; reflexivity]].
    + intros e. rewrite <- El. unfold delegates at 1. cbn [r_prox set_prox]. destruct l; [rewrite lookup_delete|rewrite lookup_insert]; reflexivity.
    + intros y N. unfold delegates at 1. cbn [r_prox set_prox]. destruct l; [rewrite lookup_delete_ne by auto|rewrite lookup_insert_ne by auto]; reflexivity.
Qed.
Theorem C154_always_revocable {R} (C : auth_cfg R) s x :
  exists s', step C s (XSigned x RemoveProxies) = Ok s' /\ delegates s' x = [] /\
    (forall y, y <> x -> delegates s' y = delegates s y) /\ (forall y, anns s' y = anns s y) /\ r_rest s' = r_rest s.
Proof.
  eexists. split; [reflexivity|]. split; [unfold delegates; cbn; rewrite lookup_delete; reflexivity|].
  split; [intros y N; unfold delegates; cbn; rewrite lookup_delete_ne by auto; reflexivity|]. split; reflexivity.
Qed.
Theorem C154_former_delegate_refused {R} (C : auth_cfg R) s w v x force c :
  (forall e, e ∈ delegates s x -> pd_delegate e <> w) ->
  step C s (XSigned w (ProxyCall x force c)) = Err "NotProxy" /\ step C s (XSigned v (ProxyAnnounced w x force c)) = Err "NotProxy".
Proof.
  intros N.
  assert (F : forall s1 : auth R, r_prox s1 = r_prox s -> find_proxy s1 x w force = Err "NotProxy").
  { intros s1 E. destruct (find_proxy s1 x w force) as [e|e|] eqn:Q.
    - apply find_proxy_spec in Q as (Q1 & Q2 & _). unfold delegates in *. rewrite E in Q1. destruct (N e Q1 Q2).
    - unfold find_proxy in Q. destruct (List.find _ _); cbn in Q; [discriminate Q|symmetry; exact Q].
    - unfold find_proxy in Q. destruct (List.find _ _); discriminate Q. }
  split; cbn [step].
  - change (run C (ProxyCall x force c) false (fresh (CSigned w)) s) with
      (let* d := find_proxy (note s (CSigned w) (ProxyCall x force c)) x w force in
       let* _ := ensure (pd_delay d =? 0) "Unannounced" in
       or_keep (note s (CSigned w) (ProxyCall x force c)) (run C c false (mkOrg (CSigned x) [FProxy (pd_type d)]) (note s (CSigned w) (ProxyCall x force c)))).
    rewrite F by reflexivity. reflexivity.
  - cbn [run]. change (passes C s (fresh (CSigned v)) (ProxyAnnounced w x force c)) with true. cbn [orb negb who fresh o_caller rbind].
    rewrite F by reflexivity. reflexivity.
Qed.
Example C154_example : okb (step zC z1 (XSigned 10 (AddProxy 13 PLoans 7))) (fun s => Nat.eqb (length (delegates s 10)) 3) = true /\
  okb (step zC z_off (XSigned 10 RemoveProxies)) (fun s => Nat.eqb (length (delegates s 10)) 0) = true /\
  okb (step zC z1 (XSigned 10 (RemoveProxy 11 PStreaming 0))) (fun s => Nat.eqb (length (delegates s 10)) 1) = true /\
  step zC (exec zC z1 (XSigned 10 RemoveProxies)) (XSigned 11 (ProxyCall 10 None (Leaf Streaming "create" [13; 1000; 0; 100; 200]))) = Err "NotProxy".
Proof. repeat split; vm_compute; reflexivity. Qed.

(** ** C155.  Delayed delegates: such a delegate acts only on a call it announced, and not before the delay has passed since the announcement,
    whatever happens in between; the principal can strike out any announcement, and a ripe one can be used. *)
Lemma flt_len {A} (f : A -> bool) l : (length (List.filter f l) <= length l)%nat.
Proof. induction l as [|a l IH]; cbn; [lia|]. destruct (f a); cbn; lia. Qed.
Lemma announced_run {R} (C : auth_cfg R) v del x force c s :
  step C s (XSigned v (ProxyAnnounced del x force c)) =
  let s0 := note s (CSigned v) (ProxyAnnounced del x force c) in
  let* d := find_proxy s0 x del force in
  let* s1 := edit_anns s0 del (fun a => ann_is x (ac_hash C c) a && (pd_delay d <=? Z.max 0 (r_now s0 - an_height a))) "Unannounced" in
  or_keep s1 (run C c false (mkOrg (CSigned x) [FProxy (pd_type d)]) s1).
Proof. cbn [step run]. change (passes C s (fresh (CSigned v)) (ProxyAnnounced del x force c)) with true. reflexivity. Qed.
Theorem C155_announced_only {R} (C : auth_cfg R) s v del x force c s' :
  step C s (XSigned v (ProxyAnnounced del x force c)) = Ok s' ->
  exists e a, e ∈ delegates s x /\ pd_delegate e = del /\ a ∈ anns s del /\ an_real a = x /\ an_hash a = ac_hash C c /\
    pd_delay e <= Z.max 0 (r_now s - an_height a).
Proof.
  rewrite announced_run. cbv zeta. intros H. bstep H e Ee. bstep H s1 E1. apply find_proxy_spec in Ee as (F1 & F2 & _).
  apply edit_anns_spec in E1 as (_ & _ & _ & _ & _ & _ & a & A1 & A2). apply andb_prop in A2 as [A2 A3]. unfold ann_is in A2.
  apply andb_prop in A2 as [A2 A4]. exists e, a. split; [exact F1|]. split; [exact F2|]. split; [exact A1|]. split; [lia|]. split; [lia|].
  apply Z.leb_le in A3. exact A3.
Qed.
Theorem C155_notice_period {R} (C : auth_cfg R) s l D v del x force c :
  let s1 := fold_left (exec C) l s in
  (forall a, a ∈ anns s del -> an_real a = x -> an_hash a <> ac_hash C c) ->
  (forall e, e ∈ delegates s1 x -> pd_delegate e = del -> D <= pd_delay e) ->
  blocks l < D ->
  (forall s', step C s1 (XSigned v (ProxyAnnounced del x force c)) <> Ok s') /\
  (forall s' c', step C s1 (XSigned del (ProxyCall x force c')) <> Ok s').
Proof.
  intros s1 Hn He Hb. destruct (hist_noticed C l s) as [N1 N2]. fold s1 in N1, N2. split; intros s'.
  - intros H. apply C155_announced_only in H as (e & a & E1 & E2 & A1 & A2 & A3 & A4). specialize (He e E1 E2).
    assert (0 <= blocks l) by (unfold blocks; lia). destruct (N2 del a A1) as [A|A]; [exact (Hn a A A2 A3)|]. lia.
  - intros c' H. cbn [step] in H. change (run C (ProxyCall x force c') false (fresh (CSigned del)) s1) with
      (let* d := find_proxy (note s1 (CSigned del) (ProxyCall x force c')) x del force in
       let* _ := ensure (pd_delay d =? 0) "Unannounced" in
       or_keep (note s1 (CSigned del) (ProxyCall x force c')) (run C c' false (mkOrg (CSigned x) [FProxy (pd_type d)]) (note s1 (CSigned del) (ProxyCall x force c')))) in H.
    bstep H e Ee. bstep H u Eu. apply find_proxy_spec in Ee as (F1 & F2 & _). specialize (He e F1 F2). assert (0 <= blocks l) by (unfold blocks; lia). lia.
Qed.
Theorem C155_rejected {R} (C : auth_cfg R) s x del h :
  (forall s', step C s (XSigned x (RejectAnnouncement del h)) = Ok s' ->
     (forall a, a ∈ anns s' del <-> a ∈ anns s del /\ ~ (an_real a = x /\ an_hash a = h)) /\ (forall d, d <> del -> anns s' d = anns s d) /\
     (forall y, delegates s' y = delegates s y) /\ r_rest s' = r_rest s) /\
  ((exists a, a ∈ anns s del /\ an_real a = x /\ an_hash a = h) -> exists s', step C s (XSigned x (RejectAnnouncement del h)) = Ok s').
Proof.
  cbn [step]. change (run C (RejectAnnouncement del h) false (fresh (CSigned x)) s) with
    (edit_anns (note s (CSigned x) (RejectAnnouncement del h)) del (ann_is x h) "NotFound"). split.
  - intros s' H. apply edit_anns_spec in H as (E1 & _ & _ & E2 & _ & E3 & _).
    split; [|split; [|split; [intros y; unfold delegates; rewrite E1; reflexivity|exact E2]]].
    + intros a. rewrite E3. destruct (decide (del = del)); [|congruence]. change (anns (note s (CSigned x) (RejectAnnouncement del h)) del) with (anns s del).
      rewrite !elem_of_list_In, filter_In. unfold ann_is. rewrite negb_true_iff, andb_false_iff, !Z.eqb_neq. split; intros [X Y]; (split; [exact X|]); lia.
    + intros d N. rewrite E3. destruct (decide (d = del)); [contradiction|reflexivity].
  - intros (a & A1 & A2 & A3). unfold edit_anns. change (anns (note s (CSigned x) (RejectAnnouncement del h)) del) with (anns s del).
    assert (L : (length (List.filter (fun a => negb (ann_is x h a)) (anns s del)) < length (anns s del))%nat).
    { clear - A1 A2 A3. induction A1 as [a l|a b l Hin IH]; cbn.
      - unfold ann_is at 1. rewrite A2, A3, !Z.eqb_refl. cbn. pose proof (flt_len (fun a => negb (ann_is x h a)) l). lia.
      - specialize (IH A2 A3). destruct (negb (ann_is x h b)); cbn; lia. }
    apply Nat.ltb_lt in L. rewrite L. eexists; reflexivity.
Qed.
Theorem C155_ripe_usable {R} (C : auth_cfg R) s v del x t dl c a :
  mkPdef del t dl ∈ delegates s x -> (forall e, e ∈ delegates s x -> pd_delegate e = del -> pd_type e = t -> pd_delay e = dl) ->
  a ∈ anns s del -> an_real a = x -> an_hash a = ac_hash C c -> dl <= r_now s - an_height a -> (forall o s1, run C c false o s1 <> Panic) ->
  exists s', step C s (XSigned v (ProxyAnnounced del x (Some t) c)) = Ok s'.
Proof.
  intros He Hu A1 A2 A3 A4 HP. rewrite announced_run. cbv zeta. set (s0 := note s (CSigned v) (ProxyAnnounced del x (Some t) c)).
  assert (Fd : exists e, find_proxy s0 x del (Some t) = Ok e /\ pd_delay e = dl).
  { unfold find_proxy. destruct (List.find _ (delegates s0 x)) as [e|] eqn:F.
    - exists e. split; [reflexivity|]. apply List.find_some in F as [F1 F2]. apply andb_prop in F2 as [F2 F3].
      apply bool_decide_eq_true in F2. apply bool_decide_eq_true in F3. apply Hu; auto. apply elem_of_list_In, F1.
    - exfalso. pose proof (List.find_none _ _ F (mkPdef del t dl) ltac:(apply elem_of_list_In; exact He)) as N. cbn in N.
      rewrite !bool_decide_true in N by reflexivity. discriminate N. }
  destruct Fd as (e & Fd & Ed). rewrite Fd. cbn [rbind]. unfold edit_anns. change (anns s0 del) with (anns s del). change (r_now s0) with (r_now s).
  set (drop := fun a0 : pann => ann_is x (ac_hash C c) a0 && (pd_delay e <=? Z.max 0 (r_now s - an_height a0))).
  assert (Da : drop a = true) by (unfold drop, ann_is; rewrite A2, A3, !Z.eqb_refl; cbn; apply Z.leb_le; lia).
  assert (L : (length (List.filter (fun a => negb (drop a)) (anns s del)) < length (anns s del))%nat).
  { clear - A1 Da. induction A1 as [a l|a b l Hin IH]; cbn.
    - rewrite Da. cbn. pose proof (flt_len (fun a => negb (drop a)) l). lia.
    - specialize (IH Da). destruct (negb (drop b)); cbn; lia. }
  apply Nat.ltb_lt in L. unfold drop in L. rewrite L. cbn [ensure rbind].
  match goal with |- context [or_keep ?s1 (run C c false ?o ?s1)] => destruct (run C c false o s1) eqn:Er; [eexists; reflexivity|eexists; reflexivity|destruct (HP o s1 Er)] end.
Qed.
(** account 10 gives 12 a delay of five blocks *)
Definition z2 : auth zrest := fold_left (exec zC) [XSigned 10 (AddProxy 13 PGovernance 5); XSigned 13 (Announce 10 3)] z1.
Definition z_wait (n : nat) : auth zrest := fold_left (exec zC) (repeat XBlock n) z2.
Example C155_example :
  step zC (z_wait 4) (XSigned 11 (ProxyAnnounced 13 10 None (Leaf Democracy "vote" [3]))) = Err "Unannounced" /\
  okb (step zC (z_wait 5) (XSigned 11 (ProxyAnnounced 13 10 None (Leaf Democracy "vote" [3]))))
     (fun s => match r_log s with (CSigned 10, Leaf Democracy _ [3]) :: _ => true | _ => false end) = true /\
  step zC (exec zC (z_wait 5) (XSigned 10 (RejectAnnouncement 13 3))) (XSigned 11 (ProxyAnnounced 13 10 None (Leaf Democracy "vote" [3]))) = Err "Unannounced".
Proof. repeat split; vm_compute; reflexivity. Qed.

(** ** C156.  A limited delegate could be expected not to get hold of the principal's tokens.  The streaming type does not keep that: it
    may open a stream to the delegate itself, which the delegate then empties. *)
Theorem C156_limited_delegate_gets_nothing_refuted :
  ~ (forall (l : list (@ext zrest)) (s : auth zrest) x w, own_group zC (eq x) s -> x <> w -> Forall (by_outsider (eq x)) l ->
       bal (s_led (fst (r_rest s))) 0 x <= bal (s_led (fst (r_rest (fold_left (exec zC) l s)))) 0 x \/
       bal (s_led (fst (r_rest (fold_left (exec zC) l s)))) 0 w <= bal (s_led (fst (r_rest s))) 0 w).
Proof.
  intros H. pose (l := [XSigned 11 (ProxyCall 10 None (Leaf Streaming "create" [11; 10^11; 0; 100; 200])); XHook (fun r => (str_exec zSC allow_all (fst r) (STime 300), snd r));
     XSigned 11 (Leaf Streaming "withdraw" [0; 10^11])] : list (@ext zrest)).
  specialize (H l z1 10 11 z1_group ltac:(discriminate) ltac:(repeat constructor; cbn; discriminate)).
  assert (K : (bal (s_led (fst (r_rest (fold_left (exec zC) l z1)))) 0 10 =? 10^12 - 10^11) &&
              (bal (s_led (fst (r_rest (fold_left (exec zC) l z1)))) 0 11 =? 10^6 + 10^11) &&
              (bal (s_led (fst (r_rest z1))) 0 10 =? 10^12) && (bal (s_led (fst (r_rest z1))) 0 11 =? 10^6) = true) by (vm_compute; reflexivity).
  apply andb_prop in K as [K K4]. apply andb_prop in K as [K K3]. apply andb_prop in K as [K1 K2].
  apply Z.eqb_eq in K1, K2, K3, K4. rewrite K1, K2, K3, K4 in H. lia.
Qed.
