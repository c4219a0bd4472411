(** * Base: result monad and the fixed-width arithmetic used by every pallet.

    Rust [Result<_, DispatchError>] is [res]; a Rust panic (array index, [unwrap] on [None], raw [+]/[-]
    overflow: the workspace Cargo.toml sets [overflow-checks = true] for release) is the explicit value [Panic].

    [Balance] = u128, [Rate]/[Price] = [FixedU128] (inner value, unit 10^18) and [Ratio] = [Permill]
    (parts, unit 10^6): primitives/src/lib.rs:76-103.  The semantics of [FixedU128] and [Permill] operations
    are those of sp-arithmetic (polkadot-v0.9.38), an external dependency that is part of the trusted base. *)
From Coq Require Export ZArith Lia.
From stdpp Require Export gmap strings list.
Global Open Scope Z_scope.

Inductive res (A : Type) : Type :=
| Ok (a : A)
| Err (e : string)
| Panic.
Arguments Ok {A} a.
Arguments Err {A} e.
Arguments Panic {A}.

Definition rbind {A B} (m : res A) (k : A -> res B) : res B :=
  match m with Ok a => k a | Err e => Err e | Panic => Panic end.

Notation "'let*' x ':=' m 'in' k" := (rbind m (fun x => k))
  (at level 200, x name, m at level 100, k at level 200).
Notation "'let*'' p ':=' m 'in' k" := (rbind m (fun p => k))
  (at level 200, p strict pattern, m at level 100, k at level 200).

(** [ensure!(cond, err)] *)
Definition ensure (b : bool) (e : string) : res unit := if b then Ok tt else Err e.
(** [opt.ok_or(err)?] *)
Definition ok_or {A} (o : option A) (e : string) : res A :=
  match o with Some a => Ok a | None => Err e end.
(** [opt.unwrap()] *)
Definition unwrap {A} (o : option A) : res A :=
  match o with Some a => Ok a | None => Panic end.

Definition is_ok {A} (r : res A) : bool := match r with Ok _ => true | _ => false end.

(** ** u128 *)
Definition U128 : Z := 2 ^ 128.
Definition U128MAX : Z := 2 ^ 128 - 1.
Definition U64MAX : Z := 2 ^ 64 - 1.
Definition U32MAX : Z := 2 ^ 32 - 1.

Definition in_u128 (x : Z) : bool := (0 <=? x) && (x <=? U128MAX).

(** result of a checked u128 operation *)
Definition chk (x : Z) : option Z := if in_u128 x then Some x else None.
Definition checked_add (a b : Z) : option Z := chk (a + b).
Definition checked_sub (a b : Z) : option Z := chk (a - b).
Definition checked_mul (a b : Z) : option Z := chk (a * b).
Definition checked_div (a b : Z) : option Z := if b =? 0 then None else Some (a / b).
Definition sat128 (x : Z) : Z := Z.max 0 (Z.min x U128MAX).
Definition saturating_sub (a b : Z) : Z := Z.max 0 (a - b).
Definition saturating_add (a b : Z) : Z := sat128 (a + b).
(** raw [a + b], [a - b] on u128 with overflow checks on *)
Definition raw_add (a b : Z) : res Z := unwrap (checked_add a b).
Definition raw_sub (a b : Z) : res Z := unwrap (checked_sub a b).
Definition raw_mul (a b : Z) : res Z := unwrap (checked_mul a b).

(** ** FixedU128 (sp-arithmetic fixed_point.rs), inner values *)
Definition FDIV : Z := 10 ^ 18.
Definition f_checked_mul (a b : Z) : option Z := chk (a * b / FDIV).
Definition f_checked_div (a b : Z) : option Z := if b =? 0 then None else chk (a * FDIV / b).
(** [FixedU128::checked_mul_int(n)] with n : u128 *)
Definition f_checked_mul_int (a n : Z) : option Z := chk (a * n / FDIV).
Definition f_saturating_mul_int (a n : Z) : Z := sat128 (a * n / FDIV).
Definition f_saturating_mul (a b : Z) : Z := sat128 (a * b / FDIV).
Definition f_checked_from_rational (n d : Z) : option Z := if d =? 0 then None else chk (n * FDIV / d).
(** [saturating_from_rational] panics when the denominator is zero *)
Definition f_saturating_from_rational (n d : Z) : res Z :=
  if d =? 0 then Panic else Ok (sat128 (n * FDIV / d)).
Definition f_reciprocal (a : Z) : option Z := f_checked_div FDIV a.
(** [From<Permill> for FixedU128] *)
Definition f_of_permill (p : Z) : Z := p * 10 ^ 12.

(** ** Permill (sp-arithmetic per_things.rs), parts in [0, 10^6] *)
Definition PMILL : Z := 10 ^ 6.
Definition cdiv (a b : Z) : Z := (a + b - 1) / b.
Definition p_mul_floor (p x : Z) : Z := p * x / PMILL.
Definition p_mul_ceil (p x : Z) : Z := cdiv (p * x) PMILL.
(** [saturating_reciprocal_mul_floor/ceil]: x / p; panics (division by zero) when p is zero *)
Definition p_recip_mul_floor (p x : Z) : res Z :=
  if p =? 0 then Panic else Ok (sat128 (x * PMILL / p)).
Definition p_recip_mul_ceil (p x : Z) : res Z :=
  if p =? 0 then Panic else Ok (sat128 (cdiv (x * PMILL) p)).
Definition p_checked_sub (a b : Z) : option Z := if b <=? a then Some (a - b) else None.
(** [Permill::from_rational(p, q)] rounds down; q = 0 or p > q gives one *)
Definition p_from_rational (p q : Z) : Z :=
  if (q =? 0) || (q <? p) then PMILL else p * PMILL / q.

(** ** Proof support *)
Lemma rbind_ok {A B} (m : res A) (k : A -> res B) b :
  rbind m k = Ok b -> exists a, m = Ok a /\ k a = Ok b.
Proof. destruct m; cbn; intros; try discriminate. eauto. Qed.

Lemma ensure_ok b e u : ensure b e = Ok u -> b = true.
Proof. destruct b; cbn; congruence. Qed.

Lemma ok_or_ok {A} (o : option A) e a : ok_or o e = Ok a -> o = Some a.
Proof. destruct o; cbn; congruence. Qed.

Lemma unwrap_ok {A} (o : option A) a : unwrap o = Ok a -> o = Some a.
Proof. destruct o; cbn; congruence. Qed.

Lemma chk_some x y : chk x = Some y <-> y = x /\ 0 <= x <= U128MAX.
Proof.
  unfold chk, in_u128. destruct (0 <=? x) eqn:E1, (x <=? U128MAX) eqn:E2; cbn;
    (split; [intros H; first [discriminate H | injection H as H; lia] | intros [-> H]; first [reflexivity | lia]]).
Qed.

Lemma checked_add_some a b c : checked_add a b = Some c -> c = a + b /\ 0 <= a + b <= U128MAX.
Proof. apply chk_some. Qed.
Lemma checked_sub_some a b c : checked_sub a b = Some c -> c = a - b /\ 0 <= a - b <= U128MAX.
Proof. apply chk_some. Qed.
Lemma checked_mul_some a b c : checked_mul a b = Some c -> c = a * b /\ 0 <= a * b <= U128MAX.
Proof. apply chk_some. Qed.
Lemma checked_div_some a b c : checked_div a b = Some c -> c = a / b /\ b <> 0.
Proof. unfold checked_div. destruct (b =? 0) eqn:E; intros H; inversion H. lia. Qed.
Lemma raw_add_ok a b c : raw_add a b = Ok c -> c = a + b /\ 0 <= a + b <= U128MAX.
Proof. intros H; apply unwrap_ok, checked_add_some in H; auto. Qed.
Lemma raw_sub_ok a b c : raw_sub a b = Ok c -> c = a - b /\ 0 <= a - b <= U128MAX.
Proof. intros H; apply unwrap_ok, checked_sub_some in H; auto. Qed.
Lemma raw_mul_ok a b c : raw_mul a b = Ok c -> c = a * b /\ 0 <= a * b <= U128MAX.
Proof. intros H; apply unwrap_ok, checked_mul_some in H; auto. Qed.
Lemma f_checked_mul_some a b c : f_checked_mul a b = Some c -> c = a * b / FDIV /\ 0 <= c <= U128MAX.
Proof. intros H; apply chk_some in H. destruct H; subst; auto. Qed.
Lemma f_checked_mul_int_some a b c : f_checked_mul_int a b = Some c -> c = a * b / FDIV /\ 0 <= c <= U128MAX.
Proof. intros H; apply chk_some in H. destruct H; subst; auto. Qed.
Lemma f_checked_div_some a b c :
  f_checked_div a b = Some c -> b <> 0 /\ c = a * FDIV / b /\ 0 <= c <= U128MAX.
Proof.
  unfold f_checked_div. destruct (b =? 0) eqn:E; [discriminate|].
  intros H; apply chk_some in H. destruct H; subst; repeat split; auto; lia.
Qed.
Lemma f_checked_from_rational_some a b c :
  f_checked_from_rational a b = Some c -> b <> 0 /\ c = a * FDIV / b /\ 0 <= c <= U128MAX.
Proof. apply f_checked_div_some. Qed.

Lemma sat128_range x : 0 <= sat128 x <= U128MAX.
Proof. unfold sat128, U128MAX. lia. Qed.
Lemma sat128_id x : 0 <= x <= U128MAX -> sat128 x = x.
Proof. unfold sat128. lia. Qed.

Lemma FDIV_pos : 0 < FDIV. Proof. reflexivity. Qed.
Lemma PMILL_pos : 0 < PMILL. Proof. reflexivity. Qed.
Lemma U128MAX_pos : 0 < U128MAX. Proof. reflexivity. Qed.
Global Opaque U128MAX U64MAX U32MAX FDIV PMILL.

(** floor-division facts used everywhere *)
Lemma div_le_mul a b : 0 < b -> b * (a / b) <= a.
Proof. intros. apply Z.mul_div_le; lia. Qed.
Lemma div_gt_mul a b : 0 < b -> a < b * (a / b) + b.
Proof. intros. pose proof (Z.mul_succ_div_gt a b). lia. Qed.
Lemma cdiv_ge a b : 0 < b -> a <= b * cdiv a b.
Proof. intros. unfold cdiv. pose proof (div_gt_mul (a + b - 1) b). lia. Qed.
Lemma cdiv_lt a b : 0 < b -> b * cdiv a b < a + b.
Proof. intros. unfold cdiv. pose proof (div_le_mul (a + b - 1) b). lia. Qed.

(** Inversion of monadic code: [binv H] splits [H : rbind m k = Ok r] recursively. *)
Ltac ok_simpl H :=
  lazymatch type of H with
  | Ok _ = Ok _ => injection H as H
  | ensure _ _ = Ok _ => apply ensure_ok in H
  | ok_or _ _ = Ok _ => apply ok_or_ok in H
  | unwrap _ = Ok _ => apply unwrap_ok in H
  | _ => idtac
  end.
Ltac ok_arith H :=
  lazymatch type of H with
  | checked_add _ _ = Some _ => apply checked_add_some in H
  | checked_sub _ _ = Some _ => apply checked_sub_some in H
  | checked_mul _ _ = Some _ => apply checked_mul_some in H
  | checked_div _ _ = Some _ => apply checked_div_some in H
  | f_checked_mul _ _ = Some _ => apply f_checked_mul_some in H
  | f_checked_div _ _ = Some _ => apply f_checked_div_some in H
  | f_checked_mul_int _ _ = Some _ => apply f_checked_mul_int_some in H
  | f_checked_from_rational _ _ = Some _ => apply f_checked_from_rational_some in H
  | raw_add _ _ = Ok _ => apply raw_add_ok in H
  | raw_sub _ _ = Ok _ => apply raw_sub_ok in H
  | raw_mul _ _ = Ok _ => apply raw_mul_ok in H
  | _ => idtac
  end.
(** one step: [H : rbind m k = Ok r] gives [E : m = Ok x] (simplified) and [H : k x = Ok r] *)
Tactic Notation "bstep" hyp(H) ident(x) ident(E) :=
  apply rbind_ok in H; destruct H as [x [E H]]; ok_simpl E; ok_arith E; cbv beta iota in H.
