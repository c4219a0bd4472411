From Verif Require Import Base MapSum Ledger AmmModel AmmSpec AmmProofs AmmInv AmmProofs5 StableModel StableSpec StableProofs.

Lemma fit_in x : 0 <= x <= U128MAX -> fit x = x.
Proof. intros H. unfold fit, in_u128. replace ((0 <=? x) && (x <=? U128MAX)) with true by lia. auto. Qed.
Lemma fit_big x : U128MAX < x -> fit x = 0.
Proof. intros H. unfold fit, in_u128. replace ((0 <=? x) && (x <=? U128MAX)) with false by lia. auto. Qed.
Lemma fit_nonneg x : 0 <= fit x.
Proof. unfold fit, in_u128. destruct ((0 <=? x) && (x <=? U128MAX)) eqn:E; lia. Qed.
Lemma ndiv_nonneg a b : 0 <= ndiv a b.
Proof.
  unfold ndiv. destruct (fit b =? 0) eqn:E; [lia|]. pose proof (fit_nonneg a). pose proof (fit_nonneg b).
  apply Z.div_pos; lia.
Qed.
Lemma ndiv_0 b : ndiv 0 b = 0.
Proof. unfold ndiv. pose proof (fit_nonneg b). destruct (fit b =? 0) eqn:E; [auto|]. replace (fit 0) with 0 by (symmetry; apply fit_in; pose proof U128MAX_pos; lia). apply Z.div_0_l. lia. Qed.
Lemma ndiv_big a b : U128MAX < a -> ndiv a b = 0.
Proof. intros H. unfold ndiv. rewrite (fit_big a H). destruct (fit b =? 0); reflexivity. Qed.

(** pools whose value overflows: D is computed as 0 *)
Lemma U128MAX_ge : 2 ^ 100 <= U128MAX.
Proof. apply Z.leb_le; vm_compute; reflexivity. Qed.

Lemma sum_big amp S : 0 <= amp <= 255 -> 0 <= S -> U128MAX < 4 * amp * S * S -> 1 < S.
Proof. intros Ha HS H. pose proof U128MAX_ge. assert (E : 2 ^ 100 = 1267650600228229401496703205376) by reflexivity. nia. Qed.

Lemma compute_d_overflow x y amp :
  1 <= amp <= 255 -> 0 <= x -> 0 <= y -> U128MAX < 4 * amp * (x + y) * (x + y) -> compute_d x y amp = Ok 0.
Proof.
  intros Ha Hx Hy HB. pose proof (sum_big amp (x + y) ltac:(lia) ltac:(lia) HB) as H1.
  unfold compute_d. replace (x + y =? 0) with false by lia.
  set (ann := amp * 2 * 2). set (S := x + y) in *.
  assert (R1 : d_round x y ann S S = Ok 0).
  { unfold d_round. pose proof (ndiv_nonneg (ndiv (S * S) (x * 2) * S) (y * 2)) as Hp.
    set (dp := ndiv (ndiv (S * S) (x * 2) * S) (y * 2)) in *. clearbody dp.
    assert (0 <= ann * S + 3 * dp - S) by (subst ann; nia). replace (0 <=? ann * S + 3 * dp - S) with true by lia. cbn [ensure rbind].
    rewrite ndiv_big; auto. subst ann. nia. }
  assert (R2 : d_round x y ann S 0 = Ok 0).
  { unfold d_round. change (0 * 0) with 0. rewrite ndiv_0. change (0 * 0) with 0. rewrite ndiv_0, !Z.mul_0_r. cbn. rewrite ndiv_0. reflexivity. }
  change 255%nat with (2 + 253)%nat. generalize 253%nat as n. intros n. cbn [Nat.add d_loop].
  rewrite R1. cbn [rbind]. unfold close at 1. replace (Z.abs (0 - S) <=? 1) with false by lia.
  rewrite R2. cbn. reflexivity.
Qed.

Lemma compute_base_zero nq amp : 0 <= nq -> compute_base nq amp 0 = Ok 0.
Proof.
  intros H. unfold compute_base. cbv zeta. rewrite ndiv_0. rewrite ?Z.mul_0_l, ?ndiv_0.
  change 255%nat with (1 + 254)%nat. generalize 254%nat as n. intros n. cbn [Nat.add b_loop]. unfold b_round.
  rewrite !Z.mul_0_r. replace (0 <=? 0 + nq - 0) with true by lia. cbn [ensure rbind]. change (0 + 0) with 0. rewrite ndiv_0. cbn. reflexivity.
Qed.

(** a balanced pool of x and x is worth exactly 2x *)
Lemma compute_d_balanced x amp :
  1 <= amp -> 0 <= x -> 4 * (2 * amp + 1) * x * (2 * x) <= U128MAX -> compute_d x x amp = Ok (2 * x).
Proof.
  intros Ha Hx HB. unfold compute_d. destruct (decide (x = 0)) as [->|Hne]; [reflexivity|].
  replace (x + x =? 0) with false by lia. replace (x + x) with (2 * x) by lia.
  change 255%nat with (1 + 254)%nat. generalize 254%nat as n. intros n. cbn [Nat.add d_loop].
  assert (X1 : 0 < x) by lia. 
  assert (B1 : 4 * x * x <= U128MAX) by nia.
  assert (R : d_round x x (amp * 2 * 2) (2 * x) (2 * x) = Ok (2 * x)).
  { unfold d_round.
    assert (E1 : ndiv (2 * x * (2 * x)) (x * 2) = 2 * x).
    { unfold ndiv. rewrite (fit_in (x * 2)), (fit_in (2 * x * (2 * x))) by nia. replace (x * 2 =? 0) with false by lia.
      replace (x * 2) with (2 * x) by lia. apply Z.div_mul. lia. }
    rewrite !E1. 
    replace (0 <=? amp * 2 * 2 * (2 * x) + 3 * (2 * x) - 2 * x) with true by nia. cbn [ensure rbind]. f_equal.
    unfold ndiv. rewrite !fit_in by nia.
    replace (amp * 2 * 2 * (2 * x) + 3 * (2 * x) - 2 * x =? 0) with false by nia.
    replace ((amp * 2 * 2 * (2 * x) + 2 * x * 2) * (2 * x)) with (2 * x * (amp * 2 * 2 * (2 * x) + 3 * (2 * x) - 2 * x)) by ring.
    apply Z.div_mul. nia. }
  rewrite R. cbn [rbind]. unfold close. rewrite Z.sub_diag. cbn [Z.abs Z.leb Z.compare].
  rewrite chk_ok by nia. reflexivity.
Qed.

(** ** Accuracy of [compute_d] *)
Lemma ndiv_pos_inv a b : 0 < ndiv a b -> 0 <= a <= U128MAX /\ 0 < b <= U128MAX /\ ndiv a b = a / b.
Proof.
  unfold ndiv, fit, in_u128. destruct ((0 <=? b) && (b <=? U128MAX)) eqn:Eb, ((0 <=? a) && (a <=? U128MAX)) eqn:Ea;
    cbn [Z.eqb]; intros H; try lia; destruct (b =? 0) eqn:E; try lia.
  rewrite Z.div_0_l in H by lia. lia.
Qed.
Lemma ndiv_in a b : 0 <= a <= U128MAX -> 0 < b <= U128MAX -> ndiv a b = a / b.
Proof. intros Ha Hb. unfold ndiv. rewrite !fit_in by lia. replace (b =? 0) with false by lia. auto. Qed.

Lemma d_loop_last n x y ann S d D :
  0 <= d -> d_loop n x y ann S d = Ok D -> exists e, 0 <= e /\ d_round x y ann S e = Ok D /\ e - 1 <= D <= e + 1.
Proof.
  revert d. induction n as [|n IH]; intros d Hd H; cbn [d_loop] in H; [discriminate H|].
  bstep H d' Ed. assert (0 <= d').
  { unfold d_round in Ed. bstep Ed u Eu. injection Ed as <-. apply ndiv_nonneg. }
  destruct (close d' d) eqn:Ec.
  - ok_simpl H. apply chk_some in H. destruct H as [-> _]. exists d. unfold close in Ec. repeat split; auto; lia.
  - apply (IH d'); auto.
Qed.

(** the last Newton round pins the root: pure arithmetic *)
Lemma newton_upper x y n e p S D :
  0 < x -> 0 < y -> 3 <= n -> 0 < e -> 0 <= p -> 4 * x * y * p <= e * e * e ->
  ((n + 1) * S + p * 2) * e < (D + 1) * (n * e + 3 * p) -> e - 1 <= D <= e + 1 ->
  4 * x * y * ((n + 1) * S - n * (e + 2)) < (e + 2) * (e + 2) * (e + 2).
Proof.
  intros Hx Hy Hn He Hp HP HD HDe.
  assert (H1 : ((n + 1) * S + p * 2) * e < (e + 2) * (n * e + 3 * p)) by nia.
  assert (H2 : e * ((n + 1) * S - n * e - p) < 2 * (n * e + 3 * p)) by lia.
  set (h := (n + 1) * S - n * e - p) in *.
  assert (Q : 0 < x * y) by nia.
  assert (H3 : 4 * x * y * e * h < 8 * x * y * n * e + 6 * (e * e * e)) by nia.
  assert (H4 : 4 * x * y * h < 8 * x * y * n + 6 * e * e) by nia.
  replace ((n + 1) * S - n * (e + 2)) with (h + p - 2 * n) by (subst h; ring). nia.
Qed.
Lemma newton_lower x y n e p S D :
  0 < x -> 0 < y -> 3 <= n -> 0 < e -> 0 <= p -> e * e * e < 4 * x * y * p + 2 * x * e + 4 * x * y ->
  4 * x * y * p <= e * e * e -> x <= e + 1 ->
  D * (n * e + 3 * p) <= ((n + 1) * S + p * 2) * e -> e - 1 <= D <= e + 1 -> 
  (e - 4) * (e - 4) * (e - 4) <= 4 * x * y * ((n + 1) * S - n * (e - 4)).
Proof.
  intros Hx Hy Hn He Hp HP HP2 Hxe HD HDe.
  assert (H1 : (e - 1) * (n * e + 3 * p) <= ((n + 1) * S + p * 2) * e) by nia.
  set (h := (n + 1) * S - n * e - p) in *.
  assert (H2 : - (n * e + 3 * p) <= e * h) by (subst h; lia).
  assert (Q : 1 <= x * y) by nia.
  assert (H3 : - (4 * x * y * n * e + 3 * (e * e * e)) <= 4 * x * y * e * h) by nia.
  assert (H4 : - (4 * x * y * n + 3 * (e * e)) <= 4 * x * y * h) by nia.
  replace ((n + 1) * S - n * (e - 4)) with (h + p + 4 * n) by (subst h; ring).
  assert (H5 : 2 * x * e <= 2 * e * e + 2 * e) by nia.
  assert (H6 : x * y * 3 <= x * y * n) by nia.
  assert (H7 : 0 <= 7 * e * e - 50 * e + 96) by (pose proof (Z.square_nonneg (14 * e - 50)) as K; clear - K; lia).
  clear - H4 H5 H6 H7 HP Q. lia.
Qed.

Lemma cube_mono t t' : t <= t' -> t * t * t <= t' * t' * t'.
Proof.
  intros H. assert (0 <= (t' - t) * (4 * (t' * t' + t' * t + t * t))); [|lia].
  apply Z.mul_nonneg_nonneg; [lia|]. pose proof (Z.square_nonneg (2 * t' + t)) as K1. pose proof (Z.square_nonneg t) as K2. clear - K1 K2. lia.
Qed.

Lemma compute_d_accurate x y amp D :
  1 <= amp -> 0 < x -> 0 < y -> 2 * x <= U128MAX -> 2 * y <= U128MAX ->
  compute_d x y amp = Ok D -> 0 < D -> x <= D ->
  (D + 1) * (D + 1) <= U128MAX -> (D + 1) * (D + 1) * (D + 1) <= 2 * x * U128MAX ->
  curve_gap amp x y (D - 5) <= 0 < curve_gap amp x y (D + 3).
Proof.
  intros Ha Hx Hy Hx2 Hy2 H HD HxD HO1 HO2. unfold compute_d in H. replace (x + y =? 0) with false in H by lia.
  apply d_loop_last in H; [|lia]. destruct H as (e & He0 & Hr & HDe).
  unfold d_round in Hr. bstep Hr u Eu. injection Hr as Hr.
  assert (He : 0 < e).
  { destruct (decide (e = 0)) as [->|]; [|lia]. exfalso. rewrite !Z.mul_0_r, ndiv_0 in Hr. lia. }
  pose proof (ndiv_pos_inv _ _ ltac:(rewrite Hr; exact HD)) as (N1 & N2 & N3). rewrite Hr in N3.
  assert (Hee : 0 <= e * e <= U128MAX) by nia.
  rewrite (ndiv_in (e * e) (x * 2)) in * by lia.
  set (q := e * e / (x * 2)) in *.
  assert (Q1 : q * (x * 2) <= e * e) by (subst q; pose proof (div_le_mul (e * e) (x * 2)); lia).
  assert (Q2 : e * e < (q + 1) * (x * 2)) by (subst q; pose proof (div_gt_mul (e * e) (x * 2)); lia).
  assert (Q0 : 0 <= q) by (subst q; apply Z.div_pos; lia). clearbody q.
  assert (Hqe : 0 <= q * e <= U128MAX).
  { split; [nia|]. assert (q * (x * 2) * e <= (D + 1) * (D + 1) * (D + 1)).
    { etransitivity; [apply Z.mul_le_mono_nonneg_r; [lia|exact Q1]|].
      apply Z.mul_le_mono_nonneg; [nia|nia|lia|lia]. }
    nia. }
  rewrite (ndiv_in (q * e) (y * 2)) in * by lia.
  set (p := q * e / (y * 2)) in *.
  assert (P1 : p * (y * 2) <= q * e) by (subst p; pose proof (div_le_mul (q * e) (y * 2)); lia).
  assert (P2 : q * e < (p + 1) * (y * 2)) by (subst p; pose proof (div_gt_mul (q * e) (y * 2)); lia).
  assert (P0 : 0 <= p) by (subst p; apply Z.div_pos; lia). clearbody p.
  set (n := 4 * amp - 1).
  replace (amp * 2 * 2 * (x + y) + p * 2) with ((n + 1) * (x + y) + p * 2) in * by (subst n; ring).
  replace (amp * 2 * 2 * e + 3 * p - e) with (n * e + 3 * p) in * by (subst n; ring).
  assert (D1 : D * (n * e + 3 * p) <= ((n + 1) * (x + y) + p * 2) * e).
  { rewrite N3. pose proof (div_le_mul (((n + 1) * (x + y) + p * 2) * e) (n * e + 3 * p)). lia. }
  assert (D2 : ((n + 1) * (x + y) + p * 2) * e < (D + 1) * (n * e + 3 * p)).
  { rewrite N3. pose proof (div_gt_mul (((n + 1) * (x + y) + p * 2) * e) (n * e + 3 * p)). lia. }
  assert (Hn : 3 <= n) by (subst n; lia).
  assert (E1 : 4 * x * y * p <= e * e * e) by (clear - P1 Q1 P0 Q0 He Hx Hy; nia).
  assert (E2 : e * e * e < 4 * x * y * p + 2 * x * e + 4 * x * y) by (clear - P2 Q2 P0 Q0 He Hx Hy; nia).
  assert (U := newton_upper x y n e p (x + y) D Hx Hy Hn He P0 E1 D2 HDe).
  assert (Lo := newton_lower x y n e p (x + y) D Hx Hy Hn He P0 E2 E1 ltac:(lia) D1 HDe).
  clear - U Lo HDe Hx Hy Hn He HD.
  assert (G : forall t, curve_gap amp x y t = t * t * t - 4 * x * y * ((n + 1) * (x + y) - n * t)) by (intros; unfold curve_gap; subst n; ring).
  assert (M : forall t t', t <= t' -> t * t * t - 4 * x * y * ((n + 1) * (x + y) - n * t) <= t' * t' * t' - 4 * x * y * ((n + 1) * (x + y) - n * t')).
  { intros t t' Ht. pose proof (cube_mono t t' Ht) as K1.
    assert (K2 : 0 <= 4 * x * y * n) by (clear - Hx Hy Hn; repeat apply Z.mul_nonneg_nonneg; lia).
    pose proof (Z.mul_le_mono_nonneg_l t t' (4 * x * y * n) K2 Ht) as K3. clear - K1 K3. lia. }
  rewrite !G. split.
  - etransitivity; [apply (M _ (e - 4)); lia|]. lia.
  - eapply Z.lt_le_trans; [|apply (M (e + 2)); lia]. lia.
Qed.

(** ** Accuracy of [compute_base] *)
Lemma b_loop_last n s ann d t y Y :
  0 <= y -> b_loop n s ann d t y = Ok Y -> exists e, 0 <= e /\ b_round s ann d t e = Ok Y /\ e - 1 <= Y <= e + 1.
Proof.
  revert y. induction n as [|n IH]; intros y Hy H; cbn [b_loop] in H; [discriminate H|].
  bstep H y' Ey. assert (0 <= y').
  { unfold b_round in Ey. bstep Ey u Eu. injection Ey as <-. apply ndiv_nonneg. }
  destruct (close y' y) eqn:Ec.
  - ok_simpl H. apply chk_some in H. destruct H as [-> _]. exists y. unfold close in Ec. repeat split; auto; lia.
  - apply (IH y'); auto.
Qed.

Lemma compute_base_accurate X amp D Y :
  1 <= amp -> 0 < X <= U128MAX -> D <= 2 * X -> 24 * amp <= D -> D * D * D <= 4 * U128MAX ->
  compute_base X amp D = Ok Y -> 0 < Y ->
  curve_gap amp X (Y + 4) D <= 0 <= curve_gap amp X (Y - 3) D.
Proof.
  intros Ha HX HDX HD HO H HY. unfold compute_base in H. cbv zeta in H.
  pose proof U128MAX_ge as HU. assert (EU : 2 ^ 100 = 1267650600228229401496703205376) by reflexivity. rewrite EU in HU. clear EU.
  assert (HDu : D <= U128MAX) by nia.
  assert (Hdn : ndiv D 2 = D / 2) by (apply ndiv_in; lia). rewrite Hdn in H.
  assert (K1 : 2 * (D / 2) <= D) by (pose proof (div_le_mul D 2); lia).
  assert (K2 : D - 1 <= 2 * (D / 2)) by (pose proof (div_gt_mul D 2); lia).
  set (m := D / 2) in *. clearbody m. clear Hdn.
  assert (D0 : 0 <= D) by (clear - HD Ha; lia). assert (M0 : 0 <= m) by (clear - K2 HD Ha; lia).
  assert (MM : (2 * m) * (2 * m) <= D * D) by (apply Z.mul_le_mono_nonneg; lia).
  assert (MM2 : (D - 1) * (D - 1) <= (2 * m) * (2 * m)) by (apply Z.mul_le_mono_nonneg; lia).
  assert (MD : 4 * (m * m * D) <= D * D * D).
  { replace (4 * (m * m * D)) with ((2 * m) * (2 * m) * D) by ring. apply Z.mul_le_mono_nonneg_r; [exact D0|exact MM]. }
  assert (Hc : 0 <= m * m * D <= U128MAX).
  { split; [repeat apply Z.mul_nonneg_nonneg; assumption|]. clear - MD HO. lia. }
  rewrite (ndiv_in (m * m * D) X) in H by lia. set (t := m * m * D / X) in *.
  assert (T1 : t * X <= m * m * D) by (subst t; pose proof (div_le_mul (m * m * D) X); lia).
  assert (T2 : m * m * D < (t + 1) * X) by (subst t; pose proof (div_gt_mul (m * m * D) X); lia).
  clearbody t.
  apply b_loop_last in H; [|lia]. destruct H as (y & Hy0 & Hr & HYy). unfold b_round in Hr. bstep Hr u Eu. injection Hr as Hr.
  pose proof (ndiv_pos_inv _ _ ltac:(rewrite Hr; lia)) as (N1 & N2 & N3). rewrite Hr in N3.
  set (a := 4 * amp). replace (amp * 2 * 2) with a in * by (subst a; ring).
  set (den := a * (2 * y + X - D) + D) in *.
  assert (Y1 : Y * den <= a * y * y + t) by (rewrite N3; pose proof (div_le_mul (a * y * y + t) den); lia).
  assert (Y2 : a * y * y + t < (Y + 1) * den) by (rewrite N3; pose proof (div_gt_mul (a * y * y + t) den); lia).
  assert (HdD : D <= den).
  { assert (A0 : 0 <= a * (2 * y + X - D)) by (apply Z.mul_nonneg_nonneg; [subst a; lia|]; clear - Eu; lia). subst den. clear - A0. lia. }
  assert (F1 : 4 * X * t <= D * D * D) by (clear - MD T1; lia).
  assert (F2 : D * D * D < 4 * X * t + 4 * X + 2 * D * D).
  { assert (K : (D * D - 2 * D) * D <= (2 * m) * (2 * m) * D) by (apply Z.mul_le_mono_nonneg_r; [exact D0|]; clear - MM2; lia).
    clear - K T2. lia. }
  (* the polynomial ann y^2 + B y - D^3/(4X), times 4X *)
  set (B := a * X + D - a * D).
  assert (Eden : den = 2 * a * y + B) by (subst den B; ring). 
  assert (G : forall z, curve_gap amp X z D = D * D * D - 4 * X * (a * z * z + B * z)).
  { intros z. unfold curve_gap. subst B a. ring. }
  rewrite !G. clear G.
  set (h := a * y * y + B * y - t).
  assert (den0 : 0 <= den) by (clear - HdD D0; lia).
  assert (W1 : (y - 1) * den <= Y * den) by (apply Z.mul_le_mono_nonneg_r; [exact den0|clear - HYy; lia]).
  assert (W2 : (Y + 1) * den <= (y + 2) * den) by (apply Z.mul_le_mono_nonneg_r; [exact den0|clear - HYy; lia]).
  assert (h1 : h <= den).
  { assert (K : (y - 1) * den <= a * y * y + t) by (clear - W1 Y1; lia). subst h. clear - K Eden. rewrite Eden in *. lia. }
  assert (h2 : - 2 * den < h).
  { assert (K : a * y * y + t < (y + 2) * den) by (clear - W2 Y2; lia). subst h. clear - K Eden. rewrite Eden in *. lia. }
  assert (Ha4 : 4 <= a) by (subst a; clear - Ha; lia). assert (Had : 6 * a <= den) by (subst a; clear - HD HdD; lia).
  assert (HXd : D * D <= 2 * X * den) by (apply Z.mul_le_mono_nonneg; lia).
  assert (X0 : 0 <= 4 * X) by (clear - HX; lia).
  split.
  - (* at Y + 4 = y + j, j >= 3 *)
    assert (exists j, Y + 4 = y + j /\ 3 <= j) as (j & -> & Hj) by (exists (Y + 4 - y); clear - HYy; lia).
    replace (a * (y + j) * (y + j) + B * (y + j)) with (h + t + j * den + a * j * j) by (subst h; rewrite Eden; ring).
    assert (J1 : 3 * den <= j * den) by (apply Z.mul_le_mono_nonneg_r; [exact den0|exact Hj]).
    assert (J2 : 0 <= a * j * j) by (repeat apply Z.mul_nonneg_nonneg; clear - Ha4 Hj; lia).
    assert (J3 : 12 * 3 <= a * j * j) by (apply Z.mul_le_mono_nonneg; [lia| |lia|exact Hj]; change 12 with (4 * 3); apply Z.mul_le_mono_nonneg; clear - Ha4 Hj; lia).
    assert (J4 : den + 36 <= h + j * den + a * j * j) by (clear - J1 J3 h2; lia).
    pose proof (Z.mul_le_mono_nonneg_l _ _ (4 * X) X0 J4) as J5. clear - J5 F2 HXd HX. lia.
  - assert (exists j, Y - 3 = y - j /\ 2 <= j <= 4) as (j & -> & Hj) by (exists (y + 3 - Y); clear - HYy HY; lia).
    replace (a * (y - j) * (y - j) + B * (y - j)) with (h + t - j * den + a * j * j) by (subst h; rewrite Eden; ring).
    assert (J1 : h - j * den + a * j * j <= 0).
    { assert (j = 2 \/ j = 3 \/ j = 4) as [->|[->| ->]] by (clear - Hj; lia); clear - h1 Had Ha4; lia. }
    assert (J2 : 4 * X * (h - j * den + a * j * j) <= 0) by (apply Z.mul_nonneg_nonpos; [exact X0|exact J1]). clear - J2 F1. lia.
Qed.
