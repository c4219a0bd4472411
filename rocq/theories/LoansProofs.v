(** * LoansProofs: interest rate models, and frame lemmas for the building blocks of the loans pallet. *)
From Verif Require Import Base MapSum Ledger AmmModel LoansModel LoansSpec.

Lemma FDIV_val : FDIV = 10 ^ 18. Proof. vm_compute; reflexivity. Qed.
Lemma PMILL_val : PMILL = 10 ^ 6. Proof. vm_compute; reflexivity. Qed.
Lemma U128MAX_val : U128MAX = 2 ^ 128 - 1. Proof. vm_compute; reflexivity. Qed.
Lemma MAX_EXRATE_val : MAX_EXRATE = 10 ^ 18. Proof. vm_compute; reflexivity. Qed.
Lemma MIN_EXRATE_val : MIN_EXRATE = 2 * 10 ^ 16. Proof. vm_compute; reflexivity. Qed.
Lemma MIN_VALID_val : MIN_VALID_EXRATE = 15 * 10 ^ 15. Proof. vm_compute; reflexivity. Qed.
Lemma SPY_val : SPY = 31536000. Proof. vm_compute; reflexivity. Qed.
Lemma RSCALE_val : RSCALE = 10 ^ 12. Proof. vm_compute; reflexivity. Qed.
Lemma FDIV_eq : FDIV = 10 ^ 12 * PMILL. Proof. vm_compute; reflexivity. Qed.

(** ** Rate models *)
Lemma div_mul_12 x y : 0 < y -> x * 10 ^ 12 / (10 ^ 12 * y) = x / y.
Proof. intros. rewrite (Z.mul_comm x). apply Z.div_mul_cancel_l; lia. Qed.
Lemma f_mul_permill d u : 0 <= d <= U128MAX -> is_permill u -> f_saturating_mul d (f_of_permill u) = d * u / PMILL.
Proof.
  intros Hd [Hu1 Hu2]. unfold f_saturating_mul, f_of_permill.
  rewrite Z.mul_assoc, FDIV_eq, div_mul_12 by apply PMILL_pos.
  apply sat128_id. pose proof PMILL_pos. split.
  - apply Z.div_pos; nia.
  - apply Z.div_le_upper_bound; nia.
Qed.
Lemma f_div_permill x j : 0 <= x -> 0 < j <= PMILL -> x * PMILL <= U128MAX ->
  f_checked_div x (f_of_permill j) = Some (x * PMILL / j).
Proof.
  intros Hx Hj Hb. unfold f_checked_div, f_of_permill.
  destruct (j * 10 ^ 12 =? 0) eqn:E; [lia|].
  assert (x * FDIV / (j * 10 ^ 12) = x * PMILL / j) as ->.
  { rewrite FDIV_eq. replace (x * (10 ^ 12 * PMILL)) with (x * PMILL * 10 ^ 12) by ring.
    rewrite (Z.mul_comm j). apply div_mul_12. lia. }
  apply chk_some. split; auto. split.
  - apply Z.div_pos; [pose proof PMILL_pos; nia|lia].
  - apply Z.div_le_upper_bound; [lia|]. pose proof U128MAX_pos. transitivity U128MAX; [lia|nia].
Qed.

Definition jump_lo (base jump ju u : Z) : Z := (jump - base) * u / PMILL * PMILL / ju + base.
Definition jump_hi (jump full ju u : Z) : Z := (full - jump) * (u - ju) / PMILL * PMILL / (PMILL - ju) + jump.

Lemma check_jump base jump full ju :
  check_model (Jump base jump full ju) = true ->
  base <= MAX_BASE /\ jump <= MAX_JUMP /\ full <= MAX_FULL /\ base <= jump <= full.
Proof.
  cbn. destruct (_ || _) eqn:E1; [discriminate|]. destruct ((jump <? base) || _) eqn:E2; [discriminate|].
  intros _. apply orb_false_iff in E1 as [E1 E1c]. apply orb_false_iff in E1 as [E1a E1b].
  apply orb_false_iff in E2 as [E2a E2b]. lia.
Qed.
Lemma small_u128 d : 0 <= d <= MAX_FULL -> 0 <= d <= U128MAX.
Proof. unfold MAX_FULL. rewrite U128MAX_val. lia. Qed.

Lemma scale_le d e n : 0 <= d -> 0 <= e <= n -> 0 < n -> 0 <= d * e / PMILL * PMILL / n <= d.
Proof.
  intros. pose proof PMILL_pos. assert (0 <= d * e / PMILL) by (apply Z.div_pos; nia).
  pose proof (div_le_mul (d * e) PMILL PMILL_pos). split.
  - apply Z.div_pos; nia.
  - apply Z.div_le_upper_bound; nia.
Qed.
Lemma scale_mono d e e' n : 0 <= d -> 0 <= e <= e' -> 0 < n -> d * e / PMILL * PMILL / n <= d * e' / PMILL * PMILL / n.
Proof.
  intros. pose proof PMILL_pos. apply Z.div_le_mono; [lia|]. apply Z.mul_le_mono_nonneg_r; [lia|].
  apply Z.div_le_mono; nia.
Qed.
Lemma scale_full_lower d n : 0 <= d -> 0 < n <= PMILL -> d * n <= (d * n / PMILL * PMILL / n) * n + n + PMILL.
Proof.
  intros. pose proof PMILL_pos. pose proof (div_gt_mul (d * n) PMILL PMILL_pos).
  pose proof (div_gt_mul (d * n / PMILL * PMILL) n ltac:(lia)). nia.
Qed.
Lemma scale_zero n : 0 / PMILL * PMILL / n = 0.
Proof. rewrite (Zdiv_0_l PMILL), Z.mul_0_l. apply Zdiv_0_l. Qed.

Lemma jump_rate_lo base jump full ju u :
  check_model (Jump base jump full ju) = true -> 0 <= base -> is_permill ju -> 0 < ju -> 0 <= u <= ju ->
  get_borrow_rate (Jump base jump full ju) u = Some (jump_lo base jump ju u).
Proof.
  intros Hm Hb [_ Hj] Hj0 Hu. apply check_jump in Hm as (H1 & H2 & H3 & H4 & H5).
  unfold get_borrow_rate. rewrite (proj2 (Z.leb_le u ju)) by lia.
  assert (Hd : 0 <= jump - base <= MAX_FULL) by (unfold MAX_FULL, MAX_JUMP in *; lia).
  unfold checked_sub. rewrite (proj2 (chk_some (jump - base) (jump - base)) (conj eq_refl (small_u128 _ Hd))). cbn [obind].
  rewrite f_mul_permill by first [apply small_u128; lia | split; lia].
  pose proof PMILL_pos. pose proof (scale_le (jump - base) u ju ltac:(lia) Hu Hj0) as Hs.
  pose proof (div_le_mul ((jump - base) * u) PMILL PMILL_pos).
  assert (0 <= (jump - base) * u / PMILL) by (apply Z.div_pos; nia).
  rewrite f_div_permill; [| lia | lia |].
  2:{ rewrite U128MAX_val. unfold MAX_FULL in *. rewrite PMILL_val in *. nia. }
  cbn [obind]. unfold checked_add. apply chk_some. unfold jump_lo. split; [reflexivity|].
  unfold MAX_BASE, MAX_JUMP, MAX_FULL in *. rewrite U128MAX_val. lia.
Qed.
Lemma jump_rate_hi base jump full ju u :
  check_model (Jump base jump full ju) = true -> 0 <= base -> is_permill ju -> ju < u <= PMILL ->
  get_borrow_rate (Jump base jump full ju) u = Some (jump_hi jump full ju u).
Proof.
  intros Hm Hb [Hj0 Hj] Hu. apply check_jump in Hm as (H1 & H2 & H3 & H4 & H5).
  unfold get_borrow_rate. rewrite (proj2 (Z.leb_gt u ju)) by lia.
  assert (Hd : 0 <= full - jump <= MAX_FULL) by (unfold MAX_FULL, MAX_JUMP in *; lia).
  unfold checked_sub, saturating_sub. rewrite !Z.max_r by lia.
  rewrite (proj2 (chk_some (full - jump) (full - jump)) (conj eq_refl (small_u128 _ Hd))). cbn [obind].
  rewrite f_mul_permill by first [apply small_u128; lia | split; lia].
  pose proof PMILL_pos. pose proof (scale_le (full - jump) (u - ju) (PMILL - ju) ltac:(lia) ltac:(lia) ltac:(lia)) as Hs.
  pose proof (div_le_mul ((full - jump) * (u - ju)) PMILL PMILL_pos).
  assert (0 <= (full - jump) * (u - ju) / PMILL) by (apply Z.div_pos; nia).
  rewrite f_div_permill; [| lia | lia |].
  2:{ rewrite U128MAX_val. unfold MAX_FULL in *. rewrite PMILL_val in *. nia. }
  cbn [obind]. unfold checked_add. apply chk_some. unfold jump_hi. split; [reflexivity|].
  unfold MAX_BASE, MAX_JUMP, MAX_FULL in *. rewrite U128MAX_val. lia.
Qed.

Lemma jump_props base jump full ju :
  check_model (Jump base jump full ju) = true -> 0 <= base -> is_permill ju -> 0 < ju ->
  exists r : Z -> Z,
    (forall u, 0 <= u <= PMILL -> get_borrow_rate (Jump base jump full ju) u = Some (r u)) /\
    (forall u u', 0 <= u -> u <= u' -> u' <= PMILL -> r u <= r u') /\
    r 0 = base /\
    (forall u, 0 <= u <= PMILL -> base <= r u <= full) /\
    (forall u, 0 <= u <= ju -> r u <= jump) /\
    (ju < PMILL -> full * (PMILL - ju) <= r PMILL * (PMILL - ju) + (PMILL - ju) + PMILL).
Proof.
  intros Hm Hb Hj Hj0. pose proof (check_jump _ _ _ _ Hm) as (H1 & H2 & H3 & H4 & H5). destruct Hj as [_ Hj].
  exists (fun u => if u <=? ju then jump_lo base jump ju u else jump_hi jump full ju u).
  assert (Hlo : forall u, 0 <= u <= ju -> base <= jump_lo base jump ju u <= jump).
  { intros u Hu. unfold jump_lo. pose proof (scale_le (jump - base) u ju). lia. }
  assert (Hhi : forall u, ju < u <= PMILL -> jump <= jump_hi jump full ju u <= full).
  { intros u Hu. unfold jump_hi. pose proof (scale_le (full - jump) (u - ju) (PMILL - ju)). lia. }
  repeat match goal with |- _ /\ _ => split end.
  - intros u Hu. destruct (Z.leb_spec u ju).
    + apply jump_rate_lo; auto; [split|]; lia.
    + apply jump_rate_hi; auto; [split|]; lia.
  - intros u u' Hu Huu Hu'. destruct (Z.leb_spec u ju), (Z.leb_spec u' ju); try lia.
    + unfold jump_lo. pose proof (scale_mono (jump - base) u u' ju). lia.
    + specialize (Hlo u). specialize (Hhi u'). lia.
    + unfold jump_hi. pose proof (scale_mono (full - jump) (u - ju) (u' - ju) (PMILL - ju)). lia.
  - rewrite (proj2 (Z.leb_le 0 ju)) by lia. unfold jump_lo. rewrite Z.mul_0_r. rewrite scale_zero. lia.
  - intros u Hu. destruct (Z.leb_spec u ju); [specialize (Hlo u)|specialize (Hhi u)]; lia.
  - intros u Hu. rewrite (proj2 (Z.leb_le u ju)) by lia. specialize (Hlo u). lia.
  - intros Hlt. rewrite (proj2 (Z.leb_gt PMILL ju)) by lia. unfold jump_hi.
    pose proof (scale_full_lower (full - jump) (PMILL - ju)). nia.
Qed.

(** curve model *)
Lemma f_mul_unit x y : 0 <= x <= FDIV -> 0 <= y <= FDIV -> f_saturating_mul x y = x * y / FDIV /\ 0 <= x * y / FDIV <= FDIV.
Proof.
  intros Hx Hy. unfold f_saturating_mul. pose proof FDIV_pos.
  assert (0 <= x * y / FDIV <= FDIV). { split; [apply Z.div_pos; nia|apply Z.div_le_upper_bound; nia]. }
  split; auto. apply sat128_id. rewrite FDIV_val, U128MAX_val in *. lia.
Qed.
Lemma f_mul_unit_mono x x' y y' : 0 <= x <= x' -> 0 <= y <= y' -> x * y / FDIV <= x' * y' / FDIV.
Proof. intros. apply Z.div_le_mono; [apply FDIV_pos|nia]. Qed.
Lemma f_pow9_unit x : 0 <= x <= FDIV -> 0 <= f_pow9 x <= FDIV.
Proof.
  intros Hx. unfold f_pow9. pose proof FDIV_pos.
  destruct (f_mul_unit FDIV x) as [-> ?]; [lia|lia|].
  destruct (f_mul_unit x x) as [-> ?]; [lia|lia|].
  destruct (f_mul_unit (x * x / FDIV) (x * x / FDIV)) as [-> ?]; [lia|lia|].
  match goal with |- context [f_saturating_mul (?a / FDIV) (?a / FDIV)] =>
    destruct (f_mul_unit (a / FDIV) (a / FDIV)) as [-> ?]; [lia|lia|] end.
  match goal with |- 0 <= f_saturating_mul ?a ?b <= _ =>
    destruct (f_mul_unit a b) as [-> ?]; [lia|lia|] end. lia.
Qed.
Lemma f_pow9_mono x x' : 0 <= x <= x' -> x' <= FDIV -> f_pow9 x <= f_pow9 x'.
Proof.
  intros Hx Hx'. pose proof FDIV_pos. unfold f_pow9.
  destruct (f_mul_unit FDIV x) as [-> ?]; [lia|lia|]. destruct (f_mul_unit FDIV x') as [-> ?]; [lia|lia|].
  destruct (f_mul_unit x x) as [-> ?]; [lia|lia|]. destruct (f_mul_unit x' x') as [-> ?]; [lia|lia|].
  pose proof (f_mul_unit_mono x x' x x' ltac:(lia) ltac:(lia)) as M2.
  set (a := x * x / FDIV) in *. set (a' := x' * x' / FDIV) in *.
  destruct (f_mul_unit a a) as [-> ?]; [lia|lia|]. destruct (f_mul_unit a' a') as [-> ?]; [lia|lia|].
  pose proof (f_mul_unit_mono a a' a a' ltac:(lia) ltac:(lia)) as M4.
  set (b := a * a / FDIV) in *. set (b' := a' * a' / FDIV) in *.
  destruct (f_mul_unit b b) as [-> ?]; [lia|lia|]. destruct (f_mul_unit b' b') as [-> ?]; [lia|lia|].
  pose proof (f_mul_unit_mono b b' b b' ltac:(lia) ltac:(lia)) as M8.
  set (e := b * b / FDIV) in *. set (e' := b' * b' / FDIV) in *.
  pose proof (f_mul_unit_mono FDIV FDIV x x' ltac:(lia) ltac:(lia)) as M1.
  set (g := FDIV * x / FDIV) in *. set (g' := FDIV * x' / FDIV) in *.
  destruct (f_mul_unit g e) as [-> ?]; [lia|lia|]. destruct (f_mul_unit g' e') as [-> ?]; [lia|lia|].
  apply f_mul_unit_mono; lia.
Qed.
Lemma f_pow9_zero : f_pow9 0 = 0. Proof. vm_compute. reflexivity. Qed.
Lemma f_pow9_one : f_pow9 FDIV = FDIV. Proof. vm_compute. reflexivity. Qed.

Lemma curve_props base :
  check_model (Curve base) = true -> 0 <= base ->
  exists r : Z -> Z,
    (forall u, 0 <= u <= PMILL -> get_borrow_rate (Curve base) u = Some (r u)) /\
    (forall u u', 0 <= u -> u <= u' -> u' <= PMILL -> r u <= r u') /\
    r 0 = base /\ r PMILL = base + FDIV /\ (forall u, 0 <= u <= PMILL -> base <= r u <= base + FDIV).
Proof.
  cbn. intros Hm Hb. apply Z.leb_le in Hm. exists (fun u => f_pow9 (f_of_permill u) + base).
  assert (Hp : forall u, 0 <= u <= PMILL -> 0 <= f_of_permill u <= FDIV).
  { intros u Hu. unfold f_of_permill. rewrite FDIV_eq. lia. }
  repeat match goal with |- _ /\ _ => split end.
  - intros u Hu. apply chk_some. split; auto. pose proof (f_pow9_unit _ (Hp u Hu)).
    rewrite FDIV_val, U128MAX_val in *. unfold MAX_CURVE_BASE in *. lia.
  - intros u u' H1 H2 H3. pose proof (f_pow9_mono (f_of_permill u) (f_of_permill u')).
    pose proof (Hp u). pose proof (Hp u'). unfold f_of_permill in *. lia.
  - unfold f_of_permill. rewrite Z.mul_0_l, f_pow9_zero. lia.
  - unfold f_of_permill. replace (PMILL * 10 ^ 12) with FDIV by (rewrite FDIV_eq; lia). rewrite f_pow9_one. lia.
  - intros u Hu. pose proof (f_pow9_unit _ (Hp u Hu)). lia.
Qed.
