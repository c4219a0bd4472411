(** * XhProofs2: the encoding of relay-chain calls is unambiguous. *)
From Verif Require Import Base MapSum Ledger AmmModel XcmModel XhModel XhSpec.

Lemma le_length n x : length (le n x) = n.
Proof. revert x. induction n; cbn; auto. Qed.
Lemma pow_S (n : nat) : 256 ^ Z.of_nat (S n) = 256 * 256 ^ Z.of_nat n.
Proof. rewrite Nat2Z.inj_succ, Z.pow_succ_r by lia. reflexivity. Qed.
Lemma le_inj n x y r r' : 0 <= x < 256 ^ Z.of_nat n -> 0 <= y < 256 ^ Z.of_nat n -> le n x ++ r = le n y ++ r' -> x = y /\ r = r'.
Proof.
  revert x y. induction n as [|n IH]; intros x y Hx Hy H.
  - change (256 ^ Z.of_nat 0) with 1 in *. cbn in H. split; [lia|exact H].
  - cbn [le app] in H. injection H as H0 H1. rewrite pow_S in Hx, Hy. set (p := 256 ^ Z.of_nat n) in *.
    assert (Q : forall z, 0 <= z < 256 * p -> 0 <= z / 256 < p).
    { intros z Hz. split; [apply Z.div_pos; lia|]. apply Z.div_lt_upper_bound; lia. }
    destruct (IH (x / 256) (y / 256) (Q x Hx) (Q y Hy) H1) as [E1 E2]. split; [|exact E2].
    pose proof (Z.div_mod x 256). pose proof (Z.div_mod y 256). lia.
Qed.
(** with explicit powers *)
Lemma le_inj' (n : nat) k x y r r' : Z.of_nat n = k -> bytes_ok k x -> bytes_ok k y -> le n x ++ r = le n y ++ r' -> x = y /\ r = r'.
Proof. unfold bytes_ok. intros <-. apply le_inj. Qed.

Lemma nbytes_ge fuel n x : (n <= nbytes fuel n x <= n + fuel)%nat.
Proof. revert n. induction fuel as [|f IH]; intros n; cbn [nbytes]; [lia|]. destruct (x <? _); [lia|]. specialize (IH (S n)). lia. Qed.
Lemma nbytes_bound fuel n x : x < 256 ^ Z.of_nat (n + fuel) -> x < 256 ^ Z.of_nat (nbytes fuel n x).
Proof.
  revert n. induction fuel as [|f IH]; intros n H; cbn [nbytes]; [rewrite Nat.add_0_r in H; exact H|].
  destruct (x <? 256 ^ Z.of_nat n) eqn:E; [lia|]. apply IH. rewrite Nat.add_succ_comm. exact H.
Qed.
Lemma le_head n x : exists t, le (S n) x = x mod 256 :: t.
Proof. cbn. eauto. Qed.

(** the mode of a compact number is in its first two bits *)
Definition cmode (x : Z) : Z := if x <? 2 ^ 6 then 0 else if x <? 2 ^ 14 then 1 else if x <? 2 ^ 30 then 2 else 3.
Lemma mod4 a k : 0 <= k < 4 -> (4 * a + k) mod 256 mod 4 = k.
Proof.
  intros H. replace (4 * a + k) with (k + a * 4) by lia.
  rewrite <- (Znumtheory.Zmod_div_mod 4 256 (k + a * 4)) by (try lia; exists 64; reflexivity). rewrite Z.mod_add by lia. apply Z.mod_small. exact H.
Qed.
Lemma compact_head x r : 0 <= x -> exists b t, compact x ++ r = b :: t /\ b mod 4 = cmode x.
Proof.
  intros Hx. unfold compact, cmode. destruct (x <? 2 ^ 6) eqn:E1.
  - eexists _, _. split; [reflexivity|]. rewrite Z.mul_comm. apply Z.mod_mul. lia.
  - destruct (x <? 2 ^ 14) eqn:E2; [|destruct (x <? 2 ^ 30) eqn:E3].
    + destruct (le_head 1 (4 * x + 1)) as [t ->]. eexists _, _. split; [reflexivity|]. apply mod4. lia.
    + destruct (le_head 3 (4 * x + 2)) as [t ->]. eexists _, _. split; [reflexivity|]. apply mod4. lia.
    + eexists _, _. split; [reflexivity|]. replace (4 * _ + 3) with (3 + (Z.of_nat (nbytes 12 4 x) - 4) * 4) by lia. rewrite Z.mod_add by lia. reflexivity.
Qed.
Lemma compact_inj x y r r' : bytes_ok 16 x -> bytes_ok 16 y -> compact x ++ r = compact y ++ r' -> x = y /\ r = r'.
Proof.
  intros Hx Hy H. assert (M : cmode x = cmode y).
  { destruct (compact_head x r (proj1 Hx)) as (b & t & B1 & B2). destruct (compact_head y r' (proj1 Hy)) as (b' & t' & B3 & B4). rewrite H in B1. rewrite B1 in B3. injection B3 as <- _. congruence. }
  unfold compact in H. unfold cmode in M. unfold bytes_ok in *.
  destruct (x <? 2 ^ 6) eqn:X1; [|destruct (x <? 2 ^ 14) eqn:X2; [|destruct (x <? 2 ^ 30) eqn:X3]];
  (destruct (y <? 2 ^ 6) eqn:Y1; [|destruct (y <? 2 ^ 14) eqn:Y2; [|destruct (y <? 2 ^ 30) eqn:Y3]]); try discriminate M.
  - cbn [app] in H. injection H as H1 H2. split; [lia|exact H2].
  - apply le_inj in H; [|change (256 ^ Z.of_nat 2) with (4 * 2 ^ 14); lia..]. split; [lia|apply H].
  - apply le_inj in H; [|change (256 ^ Z.of_nat 4) with (4 * 2 ^ 30); lia..]. split; [lia|apply H].
  - remember (nbytes 12 4 x) as n eqn:Qn. remember (nbytes 12 4 y) as n' eqn:Qn'. cbn [app] in H. injection H as H1 H2.
    pose proof (nbytes_bound 12 4 x (proj2 Hx)) as Bx. pose proof (nbytes_bound 12 4 y (proj2 Hy)) as By. rewrite <- Qn in Bx. rewrite <- Qn' in By.
    clear Qn Qn'. assert (n = n') by lia. subst n'. apply le_inj in H2; [exact H2|split; [apply Hx|exact Bx]|split; [apply Hy|exact By]].
Qed.

Lemma enc_acct_inj w w' r r' : acct_ok w -> acct_ok w' -> enc_acct w ++ r = enc_acct w' ++ r' -> w = w' /\ r = r'.
Proof. unfold acct_ok, enc_acct. apply le_inj'. reflexivity. Qed.
Lemma enc_addr_inj w w' r r' : acct_ok w -> acct_ok w' -> enc_addr w ++ r = enc_addr w' ++ r' -> w = w' /\ r = r'.
Proof. unfold enc_addr. cbn [app]. intros H1 H2 H. apply (f_equal (@tail Z)) in H. cbn [tail] in H. apply enc_acct_inj; auto. Qed.
Lemma enc_payee_inj p p' r r' :
  match p with PAccount w => acct_ok w | _ => True end -> match p' with PAccount w => acct_ok w | _ => True end ->
  enc_payee p ++ r = enc_payee p' ++ r' -> p = p' /\ r = r'.
Proof.
  intros H1 H2 H. destruct p, p'; cbn [enc_payee app] in H; try discriminate H; apply (f_equal (@tail Z)) in H; cbn [tail] in H; auto.
  apply enc_acct_inj in H; auto. destruct H as [-> ->]. auto.
Qed.
Lemma enc_opt_inj t t' r r' : enc_opt t ++ r = enc_opt t' ++ r' -> t = t' /\ r = r'.
Proof. destruct t, t'; cbn; intros [=]; subst; auto. Qed.
Lemma targets_inj ts : forall ts' r r', Forall acct_ok ts -> Forall acct_ok ts' -> length ts = length ts' ->
  flat_map enc_addr ts ++ r = flat_map enc_addr ts' ++ r' -> ts = ts' /\ r = r'.
Proof.
  induction ts as [|w ts IH]; intros [|w' ts'] r r' F F' L H; try discriminate L; [auto|].
  cbn [flat_map] in H. rewrite <- !app_assoc in H. inversion F; inversion F'; subst. apply enc_addr_inj in H as [-> H]; auto.
  apply IH in H as [-> ->]; auto.
Qed.
Lemma b4_16 x : bytes_ok 4 x -> bytes_ok 16 x.
Proof. unfold bytes_ok. change (256 ^ 4) with 4294967296. intros H. split; [lia|]. apply Z.lt_trans with 4294967296; [lia|reflexivity]. Qed.

Ltac ainj H :=
  first
  [ apply enc_addr_inj in H; [|assumption..]; destruct H as [-> H]
  | apply enc_acct_inj in H; [|assumption..]; destruct H as [-> H]
  | apply compact_inj in H; [|first [assumption|apply b4_16; assumption]..]; destruct H as [-> H]
  | apply enc_payee_inj in H; [|assumption..]; destruct H as [-> H]
  | apply enc_opt_inj in H; destruct H as [-> H]
  | eapply (le_inj' 4 4) in H; [|reflexivity|assumption..]; destruct H as [-> H]
  | eapply (le_inj' 2 2) in H; [|reflexivity|assumption..]; destruct H as [-> H] ].

Lemma enc_inj net : net <> OtherNet -> forall c c' r r', call_ok c -> call_ok c' -> enc net c ++ r = enc net c' ++ r' -> c = c' /\ r = r'.
Proof.
  intros N. induction c; intros c' r r' K K' H; destruct c'; cbn [enc] in H; rewrite <- ?app_comm_cons, <- ?app_assoc in H;
    (destruct net; [| |contradiction]); cbn [pidx] in H; try discriminate H; apply (f_equal (@tail Z)) in H; cbn [tail] in H; apply (f_equal (@tail Z)) in H; cbn [tail] in H; cbn [call_ok] in K, K';
    repeat match goal with A : _ /\ _ |- _ => destruct A end.
  all: try (repeat ainj H; subst; auto; fail).
  all: try (apply enc_addr_inj in H; [|assumption..]; destruct H as [-> H]; destruct keep_alive, keep_alive0; cbn in H; try discriminate H; injection H as <-; auto; fail).
  all: try (repeat ainj H; cbn [app] in H; apply (f_equal (@tail Z)) in H; cbn [tail] in H; first [subst; auto; fail|eapply IHc in H; [|assumption..]; destruct H as [-> ->]; auto]; fail).
  all: try (apply compact_inj in H; [|apply b4_16; assumption..]; destruct H as [L H]; apply targets_inj in H; [|assumption|assumption|lia]; destruct H as [-> ->]; auto; fail).
  all: try (repeat ainj H; eapply IHc in H; [|assumption..]; destruct H as [-> ->]; auto; fail).
Qed.
