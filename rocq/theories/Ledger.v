(** * Ledger: the fungible-asset interface ([T::Assets]) used by the pallets.

    Models the trait surface ([Inspect], [Mutate], [Transfer]) of pallets/currency-adapter/src/lib.rs:115-230,
    which forwards to pallet-balances (native asset) and pallet-assets (all others).  Those two pallets are
    external; their behaviour is abstracted as follows (trusted base, see DESIGN.md):
    - a map (asset, account) -> free balance and a total issuance per asset;
    - [transfer] moves exactly the amount, or fails; [mint_into]/[burn_from] change one balance and the issuance;
    - any operation may in addition fail for reasons we do not model (frozen or locked balance, existential
      deposit, keep_alive, unknown asset, account creation limits): an arbitrary [policy] decides that, and all
      theorems quantify over it;
    - existential-deposit dust: accounts of non-native assets are assumed not to be reaped with a non-zero
      balance (minimum balance <= 1). *)
From Verif Require Import Base MapSum.

(** asset ids (u32) and account ids (32 bytes, abstract) as integers *)
Notation asset := Z (only parsing).
Notation account := Z (only parsing).

Record ledger := mkLedger {
  l_bal : gmap (Z * Z) Z;   (* (asset, account) -> balance *)
  l_iss : gmap Z Z          (* asset -> total issuance *)
}.

Definition empty_ledger : ledger := mkLedger ∅ ∅.

Definition bal (L : ledger) (a : asset) (w : account) : Z := default 0 (l_bal L !! (a, w)).
Definition iss (L : ledger) (a : asset) : Z := default 0 (l_iss L !! a).

(** Extra reasons for an operation to be refused; [allow_transfer keep_alive L a from to amt]. *)
Record policy := mkPolicy {
  allow_transfer : bool -> ledger -> asset -> account -> account -> Z -> bool;
  allow_mint : ledger -> asset -> account -> Z -> bool;
  allow_burn : ledger -> asset -> account -> Z -> bool;
  (* reducible_balance(asset, who, keep_alive) never exceeds the balance (checked at use) *)
  reducible : bool -> ledger -> asset -> account -> Z
}.
Definition allow_all : policy :=
  mkPolicy (fun _ _ _ _ _ _ => true) (fun _ _ _ _ => true) (fun _ _ _ _ => true) (fun _ L a w => bal L a w).

Definition set_bal (L : ledger) (a : asset) (w : account) (v : Z) : ledger :=
  mkLedger (<[(a, w) := v]> (l_bal L)) (l_iss L).
Definition set_iss (L : ledger) (a : asset) (v : Z) : ledger :=
  mkLedger (l_bal L) (<[a := v]> (l_iss L)).

(** [T::Assets::transfer(asset, from, to, amount, keep_alive)], currency-adapter lib.rs:216-229.
    A transfer of zero and a transfer to oneself do not change anything. *)
Definition transfer (P : policy) (L : ledger) (a : asset) (from to : account) (amt : Z) (keep_alive : bool)
  : res ledger :=
  if amt =? 0 then Ok L else
  if negb (allow_transfer P keep_alive L a from to amt) then Err "TransferRefused" else
  if from =? to then Ok L else
  if (0 <? amt) && (amt <=? bal L a from) then
    let L1 := set_bal L a from (bal L a from - amt) in
    Ok (set_bal L1 a to (bal L1 a to + amt))
  else Err "BalanceLow".

(** [T::Assets::mint_into], currency-adapter lib.rs:190-200 *)
Definition mint_into (P : policy) (L : ledger) (a : asset) (w : account) (amt : Z) : res ledger :=
  if amt =? 0 then Ok L else
  if negb (allow_mint P L a w amt) then Err "MintRefused" else
  if amt <? 0 then Panic else
  let* i := ok_or (checked_add (iss L a) amt) "Overflow" in
  Ok (set_iss (set_bal L a w (bal L a w + amt)) a i).

(** [T::Assets::burn_from], currency-adapter lib.rs:202-212 *)
Definition burn_from (P : policy) (L : ledger) (a : asset) (w : account) (amt : Z) : res ledger :=
  if amt =? 0 then Ok L else
  if negb (allow_burn P L a w amt) then Err "BurnRefused" else
  if (0 <? amt) && (amt <=? bal L a w) then
    Ok (set_iss (set_bal L a w (bal L a w - amt)) a (iss L a - amt))
  else Err "BalanceLow".

(** ** Characterisation lemmas *)
Lemma bal_set_bal L a w v a' w' :
  bal (set_bal L a w v) a' w' = if bool_decide (a' = a /\ w' = w) then v else bal L a' w'.
Proof.
  unfold bal, set_bal; cbn. case_bool_decide as E.
  - destruct E; subst. rewrite lookup_insert; auto.
  - rewrite lookup_insert_ne; auto. intros [= -> ->]; auto.
Qed.
Lemma bal_set_iss L a v a' w' : bal (set_iss L a v) a' w' = bal L a' w'.
Proof. reflexivity. Qed.
Lemma iss_set_bal L a w v a' : iss (set_bal L a w v) a' = iss L a'.
Proof. reflexivity. Qed.
Lemma iss_set_iss L a v a' : iss (set_iss L a v) a' = if bool_decide (a' = a) then v else iss L a'.
Proof.
  unfold iss, set_iss; cbn. case_bool_decide; subst.
  - rewrite lookup_insert; auto.
  - rewrite lookup_insert_ne; auto.
Qed.

(** [d]elta notation: the amount account [w'] gains in asset [a'] when [amt] of [a] arrives at [w] *)
Definition at_ (a w a' w' amt : Z) : Z := if bool_decide (a' = a /\ w' = w) then amt else 0.

Lemma transfer_spec P L a from to amt ka L' :
  transfer P L a from to amt ka = Ok L' ->
  (forall a' w', bal L' a' w' = bal L a' w' - at_ a from a' w' amt + at_ a to a' w' amt) /\
  (forall a', iss L' a' = iss L a') /\
  (0 < amt -> from <> to -> amt <= bal L a from).
Proof.
  unfold transfer, at_. destruct (amt =? 0) eqn:E0.
  { intros [= <-]. repeat split; intros; try lia.
    repeat case_bool_decide; lia. }
  destruct (negb _); [discriminate|].
  destruct (from =? to) eqn:E1.
  { intros [= <-]. assert (from = to) by lia. subst. repeat split; intros; try lia. }
  destruct ((0 <? amt) && (amt <=? bal L a from)) eqn:E2; [|discriminate].
  intros [= <-]. apply andb_prop in E2. repeat split; intros; try lia.
  rewrite !bal_set_bal. repeat case_bool_decide; try lia; try tauto; destruct_and?; subst; lia.
Qed.

Lemma mint_spec P L a w amt L' :
  mint_into P L a w amt = Ok L' ->
  0 <= amt /\
  (forall a' w', bal L' a' w' = bal L a' w' + at_ a w a' w' amt) /\
  (forall a', iss L' a' = iss L a' + (if bool_decide (a' = a) then amt else 0)).
Proof.
  unfold mint_into, at_. destruct (amt =? 0) eqn:E0.
  { intros [= <-]. repeat split; intros; try lia; repeat case_bool_decide; lia. }
  destruct (negb _); [discriminate|]. destruct (amt <? 0) eqn:E1; [discriminate|].
  intros H. bstep H i E. injection H as <-. destruct E as [-> E]. repeat split; intros; try lia.
  - rewrite bal_set_iss, bal_set_bal. repeat case_bool_decide; try lia; destruct_and?; subst; lia.
  - rewrite iss_set_iss, !iss_set_bal. repeat case_bool_decide; subst; lia.
Qed.

Lemma burn_spec P L a w amt L' :
  burn_from P L a w amt = Ok L' ->
  0 <= amt /\ (0 < amt -> amt <= bal L a w) /\
  (forall a' w', bal L' a' w' = bal L a' w' - at_ a w a' w' amt) /\
  (forall a', iss L' a' = iss L a' - (if bool_decide (a' = a) then amt else 0)).
Proof.
  unfold burn_from, at_. destruct (amt =? 0) eqn:E0.
  { intros [= <-]. repeat split; intros; try lia; repeat case_bool_decide; lia. }
  destruct (negb _); [discriminate|].
  destruct ((0 <? amt) && (amt <=? bal L a w)) eqn:E1; [|discriminate].
  intros [= <-]. apply andb_prop in E1. repeat split; intros; try lia.
  - rewrite bal_set_iss, bal_set_bal. repeat case_bool_decide; try lia; destruct_and?; subst; lia.
  - rewrite iss_set_iss, !iss_set_bal. repeat case_bool_decide; subst; lia.
Qed.

(** ** Ledger well-formedness: balances are non-negative and the issuance is the sum of balances. *)
Definition sum_bal (L : ledger) (a : asset) : Z :=
  msum (fun k v => if bool_decide (k.1 = a) then v else 0) (l_bal L).

Definition ledger_wf (L : ledger) : Prop :=
  (forall a w, 0 <= bal L a w) /\ (forall a, iss L a = sum_bal L a).

Lemma sum_bal_set_bal L a w v a' :
  sum_bal (set_bal L a w v) a' = sum_bal L a' + (if bool_decide (a' = a) then v - bal L a w else 0).
Proof.
  unfold sum_bal, set_bal, bal; cbn. rewrite msum_insert.
  destruct (l_bal L !! (a, w)) as [v0|] eqn:E; cbn; repeat case_bool_decide; subst; try congruence; lia.
Qed.

Lemma transfer_wf P L a from to amt ka L' :
  0 <= amt -> ledger_wf L -> transfer P L a from to amt ka = Ok L' -> ledger_wf L'.
Proof.
  intros Hamt [Hb Hi] H. pose proof (transfer_spec _ _ _ _ _ _ _ _ H) as (S1 & S2 & S3).
  split.
  - intros a' w'. rewrite S1. pose proof (Hb a' w'). unfold at_.
    repeat case_bool_decide; destruct_and?; subst; try lia.
  - intros a'. rewrite S2, Hi. clear S1 S2 S3. revert H. unfold transfer.
    destruct (amt =? 0) eqn:E0; [intros [= <-]; auto|].
    destruct (negb _); [discriminate|].
    destruct (from =? to) eqn:E1; [intros [= <-]; auto|].
    destruct (_ && _); [|discriminate]. intros [= <-].
    rewrite !sum_bal_set_bal, bal_set_bal. repeat case_bool_decide; destruct_and?; subst; lia.
Qed.

Lemma mint_wf P L a w amt L' :
  ledger_wf L -> mint_into P L a w amt = Ok L' -> ledger_wf L'.
Proof.
  intros [Hb Hi] H. pose proof (mint_spec _ _ _ _ _ _ H) as (S0 & S1 & S2).
  split.
  - intros a' w'. rewrite S1. pose proof (Hb a' w'). unfold at_. case_bool_decide; lia.
  - intros a'. rewrite S2, Hi. clear S1 S2. revert H. unfold mint_into.
    destruct (amt =? 0) eqn:E0; [intros [= <-]; case_bool_decide; lia|].
    destruct (negb _); [discriminate|]. destruct (amt <? 0); [discriminate|].
    intros H. bstep H i E. injection H as <-. unfold sum_bal, set_iss; cbn [l_bal].
    change (msum _ _) with (sum_bal (set_bal L a w (bal L a w + amt)) a') at 2.
    rewrite sum_bal_set_bal. unfold sum_bal. case_bool_decide; lia.
Qed.

Lemma burn_wf P L a w amt L' :
  ledger_wf L -> burn_from P L a w amt = Ok L' -> ledger_wf L'.
Proof.
  intros [Hb Hi] H. pose proof (burn_spec _ _ _ _ _ _ H) as (S0 & S3 & S1 & S2).
  split.
  - intros a' w'. rewrite S1. pose proof (Hb a' w'). unfold at_. case_bool_decide; destruct_and?; subst; lia.
  - intros a'. rewrite S2, Hi. clear S1 S2. revert H. unfold burn_from.
    destruct (amt =? 0) eqn:E0; [intros [= <-]; case_bool_decide; lia|].
    destruct (negb _); [discriminate|]. destruct (_ && _); [|discriminate].
    intros [= <-]. unfold sum_bal, set_iss; cbn [l_bal].
    change (msum _ _) with (sum_bal (set_bal L a w (bal L a w - amt)) a') at 2.
    rewrite sum_bal_set_bal. unfold sum_bal. case_bool_decide; lia.
Qed.

Lemma bal_le_iss L a w : ledger_wf L -> bal L a w <= iss L a.
Proof.
  intros [Hb Hi]. rewrite Hi. unfold bal. destruct (l_bal L !! (a, w)) as [v|] eqn:E; cbn.
  - pose proof (msum_ge_elem (fun k v => if bool_decide (k.1 = a) then v else 0) (l_bal L) (a, w) v) as M.
    cbn in M. rewrite bool_decide_true in M by auto. apply M; auto.
    intros [a' w'] v' E'; cbn. specialize (Hb a' w'). unfold bal in Hb. rewrite E' in Hb; cbn in Hb.
    case_bool_decide; lia.
  - apply msum_nonneg. intros [a' w'] v' E'; cbn. specialize (Hb a' w'). unfold bal in Hb. rewrite E' in Hb; cbn in Hb.
    case_bool_decide; lia.
Qed.

Lemma bal2_le_iss L a w1 w2 : ledger_wf L -> w1 <> w2 -> bal L a w1 + bal L a w2 <= iss L a.
Proof.
  intros [Hb Hi] Hne.
  destruct (l_bal L !! (a, w1)) as [v1|] eqn:E1.
  - destruct (l_bal L !! (a, w2)) as [v2|] eqn:E2.
    + pose proof (msum_ge_elem2 (fun k v => if bool_decide (k.1 = a) then v else 0) (l_bal L) (a, w1) v1 (a, w2) v2) as M.
      cbn in M. rewrite !bool_decide_true in M by auto. rewrite Hi. unfold bal. rewrite E1, E2; cbn. apply M; auto; [|congruence].
      intros [a' w'] v' E'; cbn. specialize (Hb a' w'). unfold bal in Hb. rewrite E' in Hb; cbn in Hb.
      case_bool_decide; lia.
    + assert (bal L a w2 = 0) as -> by (unfold bal; rewrite E2; auto).
      pose proof (bal_le_iss L a w1 (conj Hb Hi)). lia.
  - assert (bal L a w1 = 0) as -> by (unfold bal; rewrite E1; auto).
    pose proof (bal_le_iss L a w2 (conj Hb Hi)). lia.
Qed.

Lemma empty_ledger_wf : ledger_wf empty_ledger.
Proof.
  split; intros.
  - unfold bal; cbn. rewrite lookup_empty. cbn; lia.
  - unfold iss, sum_bal; cbn. rewrite lookup_empty, msum_empty. reflexivity.
Qed.
