(** * CrowdProofs: sums over vaults and contributions, the structural invariant. *)
From Verif Require Import Base MapSum Ledger AmmModel StreamModel StreamSpec CrowdModel CrowdSpec.

Lemma msum_upd1 {K} `{Countable K} {V} (f g : K -> V -> Z) (m : gmap K V) a v : m !! a = Some v ->
  (forall k v, m !! k = Some v -> k <> a -> g k v = f k v) -> msum g m = msum f m + (g a v - f a v).
Proof.
  intros E Hfg. rewrite (msum_delete f m a v E), (msum_delete g m a v E).
  rewrite (msum_ext g f (delete a m)); [lia|]. intros k v' Hk. apply lookup_delete_Some in Hk as [H1 H2]. apply Hfg; auto.
Qed.

(** writing one contribution *)
Definition cput (con : gmap (Z * Z * Z) Z) (t k w x : Z) : gmap (Z * Z * Z) Z :=
  if x =? 0 then delete (t, k, w) con else <[(t, k, w) := x]> con.
Lemma con_put_con s t k w x : c_con (con_put s t k w x) = cput (c_con s) t k w x.
Proof. reflexivity. Qed.
Lemma cput_get con t k w x t' k' w' :
  default 0 (cput con t k w x !! (t', k', w')) = if bool_decide (t' = t /\ k' = k /\ w' = w) then x else default 0 (con !! (t', k', w')).
Proof.
  unfold cput. case_bool_decide as Hd.
  - destruct Hd as (-> & -> & ->). destruct (x =? 0) eqn:E; [rewrite lookup_delete|rewrite lookup_insert]; cbn; lia.
  - assert ((t, k, w) <> (t', k', w')) by (intros [= -> -> ->]; tauto).
    destruct (x =? 0); [rewrite lookup_delete_ne|rewrite lookup_insert_ne]; auto.
Qed.
Lemma cput_some con t k w x t' k' w' y : cput con t k w x !! (t', k', w') = Some y ->
  (t' = t /\ k' = k /\ w' = w /\ y = x /\ x <> 0) \/ (con !! (t', k', w') = Some y /\ (t', k', w') <> (t, k, w)).
Proof.
  unfold cput. destruct (x =? 0) eqn:E.
  - intros H. apply lookup_delete_Some in H as [H1 H2]. right. split; auto.
  - intros H. apply lookup_insert_Some in H as [[H1 H2]|[H1 H2]]; [left; inversion H1; subst; repeat split; auto; lia|right; split; auto].
Qed.
Lemma book_cput con t k w x t' k' :
  book (cput con t k w x) t' k' = book con t' k' + (if bool_decide (t' = t /\ k' = k) then x - default 0 (con !! (t, k, w)) else 0).
Proof.
  unfold book, cput. assert (Hb : bool_decide ((t, k) = (t', k')) = bool_decide (t' = t /\ k' = k)).
  { apply bool_decide_ext. split; [intros [= -> ->]; auto|intros [-> ->]; auto]. }
  destruct (x =? 0) eqn:E.
  - destruct (con !! (t, k, w)) as [y|] eqn:Ey.
    + rewrite (msum_delete _ con (t, k, w) y Ey). cbn [fst snd default]. rewrite Hb. clear Hb. case_bool_decide; cbn; lia.
    + rewrite delete_notin by auto. cbn. clear Hb. case_bool_decide; lia.
  - rewrite msum_insert. cbn [fst snd]. rewrite Hb. clear Hb. destruct (con !! (t, k, w)) as [y|] eqn:Ey; cbn; case_bool_decide; lia.
Qed.
Lemma book_elem con t k w x : (forall key y, con !! key = Some y -> 0 < y) -> con !! (t, k, w) = Some x -> x <= book con t k.
Proof.
  intros Hp Hx. unfold book.
  pose proof (msum_ge_elem (fun key x => if bool_decide (key.1 = (t, k)) then x else 0) con (t, k, w) x) as Hm.
  cbn [fst] in Hm. rewrite bool_decide_true in Hm by auto. apply Hm; auto.
  intros key y Hy. case_bool_decide; [|lia]. specialize (Hp _ _ Hy). lia.
Qed.
Lemma book_nonneg con t k : (forall key y, con !! key = Some y -> 0 < y) -> 0 <= book con t k.
Proof. intros Hp. apply msum_nonneg. intros key y Hy. case_bool_decide; [|lia]. specialize (Hp _ _ Hy). lia. Qed.
Lemma book_zero con t k : (forall w, con !! (t, k, w) = None) -> book con t k = 0.
Proof.
  intros Hn. unfold book. apply msum_zero. intros [[t' k'] w'] y Hy. cbn. case_bool_decide as Hd; auto.
  inversion Hd; subst. rewrite Hn in Hy. discriminate.
Qed.

Ltac kbk := repeat match goal with
  | |- context[bool_decide (?t = ?t /\ ?k = ?k)] => rewrite (bool_decide_true (t = t /\ k = k)) by (split; reflexivity)
  | |- context[bool_decide (?t = ?t /\ ?a = ?b)] => rewrite (bool_decide_false (t = t /\ a = b)) by (let H := fresh in intros [_ H]; discriminate H)
  end.
(** ** the structural invariant *)
Section inv.
  Context (C : cr_cfg) (ct : Z -> bool).
  Record vault_ok (s : cr) (k : Z * Z * Z) (v : vault) : Prop := {
    vo_ls : v_ls v = k.1.2; vo_le : v_le v = k.2; vo_trie : v_trie v < c_next s;
    vo_pend : v_pend v = book (c_con s) (v_trie v) KPend; vo_fly : v_fly v = book (c_con s) (v_trie v) KFly;
    vo_contr : 0 <= v_contr v;
    vo_ctok : c_ctok s !! (v_ls v, v_le v) = Some (v_ctoken v); vo_ct : ct (v_ctoken v) = true;
    vo_cur : c_leases s !! k.1.1 = Some (k.1.2, k.2) \/ ended (v_phase v)
  }.
  Record cst (s : cr) : Prop := {
    cs_vault : forall k v, c_vaults s !! k = Some v -> vault_ok s k v;
    cs_uniq : forall k1 k2 v1 v2, c_vaults s !! k1 = Some v1 -> c_vaults s !! k2 = Some v2 -> v_trie v1 = v_trie v2 -> k1 = k2;
    cs_con : forall t k w x, c_con s !! (t, k, w) = Some x -> 0 < x /\ w <> cc_acct C /\ (k = KPend \/ k = KFly \/ k = KContr) /\
      exists key v, c_vaults s !! key = Some v /\ v_trie v = t;
    cs_lease : forall para a b, c_leases s !! para = Some (a, b) -> is_Some (c_vaults s !! (para, a, b));
    cs_req : forall q para a b x p, c_reqs s !! q = Some (QWithdraw para a b x p) -> ended p;
    cs_reqc : forall q para a b w x, c_reqs s !! q = Some (QContribute para a b w x) -> 0 <= x /\ w <> cc_acct C;
    cs_qid : forall q r, c_reqs s !! q = Some r -> q < c_qid s;
    cs_bonus : forall k b, c_bonus s !! k = Some b -> 0 <= bo_per b <= U128MAX /\ 0 <= bo_start b /\ 0 <= bo_end b
  }.
  Lemma cst_pos s : cst s -> forall key y, c_con s !! key = Some y -> 0 < y.
  Proof. intros Hs [[t k] w] y Hy. apply (cs_con _ Hs) in Hy. tauto. Qed.

  (** a change that leaves the fields the invariant talks about alone *)
  Definition same_books (s s' : cr) : Prop :=
    c_vaults s' = c_vaults s /\ c_con s' = c_con s /\ c_next s' = c_next s /\ c_ctok s' = c_ctok s /\ c_leases s' = c_leases s.
  Lemma cst_same s s' : same_books s s' -> c_reqs s' = c_reqs s -> c_qid s' = c_qid s -> c_bonus s' = c_bonus s -> cst s -> cst s'.
  Proof.
    intros (H1 & H2 & H3 & H4 & H5) H6 H7 H8 Hs. destruct s, s'; cbn in *; subst. destruct Hs; split; cbn in *; auto.
    intros k v Hv. destruct (cs_vault0 _ _ Hv). split; cbn in *; auto.
  Qed.
  Lemma sums_same s s' : c_vaults s' = c_vaults s -> c_con s' = c_con s ->
    held s' = held s /\ lent s' = lent s /\ (forall c, lent_for s' c = lent_for s c) /\ (forall c, unclaimed s' c = unclaimed s c).
  Proof. unfold held, lent, lent_for, unclaimed. intros -> ->. auto. Qed.

  (** a new request *)
  Lemma cst_req s q r : cst s -> q = c_qid s ->
    match r with QContribute _ _ _ w x => 0 <= x /\ w <> cc_acct C | QWithdraw _ _ _ _ p => ended p end ->
    cst (set_c_qid (set_c_reqs s (<[q := r]> (c_reqs s))) (q + 1)).
  Proof.
    intros Hs -> Hr. destruct Hs; split; cbn in *; auto.
    - intros k v Hv. destruct (cs_vault0 _ _ Hv). split; auto.
    - intros q para a b x p Hq. apply lookup_insert_Some in Hq as [[_ ->]|[_ Hq]]; eauto.
    - intros q para a b w x Hq. apply lookup_insert_Some in Hq as [[_ ->]|[_ Hq]]; eauto.
    - intros q r' Hq. apply lookup_insert_Some in Hq as [[<- _]|[_ Hq]]; [lia|]. apply cs_qid0 in Hq. lia.
  Qed.
  Lemma cst_unreq s q : cst s -> cst (set_c_reqs s (delete q (c_reqs s))).
  Proof.
    intros Hs. destruct Hs; split; cbn in *; auto.
    - intros k v Hv. destruct (cs_vault0 _ _ Hv). split; auto.
    - intros q' para a b x p Hq. apply lookup_delete_Some in Hq as [_ Hq]. eauto.
    - intros q' para a b w x Hq. apply lookup_delete_Some in Hq as [_ Hq]. eauto.
    - intros q' r' Hq. apply lookup_delete_Some in Hq as [_ Hq]. eauto.
  Qed.

  (** a change of one vault that touches neither its books nor its identity *)
  Lemma cst_vault s k v v' : cst s -> c_vaults s !! k = Some v ->
    v_ctoken v' = v_ctoken v -> v_pend v' = v_pend v -> v_fly v' = v_fly v -> v_trie v' = v_trie v -> v_ls v' = v_ls v -> v_le v' = v_le v ->
    0 <= v_contr v' -> (v_phase v' = v_phase v \/ ended (v_phase v') \/ c_leases s !! k.1.1 = Some (k.1.2, k.2)) ->
    cst (put_vault s k v').
  Proof.
    intros Hs Hk E1 E2 E3 E4 E5 E6 Hc Hp. destruct (cs_vault _ Hs _ _ Hk). destruct Hs; split; cbn in *; auto.
    - intros k0 v0 Hv. apply lookup_insert_Some in Hv as [[<- <-]|[Hne Hv]].
      + split; cbn; rewrite ?E1, ?E2, ?E3, ?E4, ?E5, ?E6; auto. destruct Hp as [->|[Hp|Hp]]; auto.
      + destruct (cs_vault0 _ _ Hv). split; auto.
    - intros k1 k2 v1 v2 H1 H2 Ht. apply lookup_insert_Some in H1 as [[<- <-]|[N1 H1]], H2 as [[<- <-]|[N2 H2]]; auto; rewrite ?E4 in Ht; eauto.
    - intros t k0 w x Hx. destruct (cs_con0 _ _ _ _ Hx) as (? & ? & ? & key & v0 & Hv & Ht). repeat (split; [assumption|]).
      destruct (decide (key = k)) as [->|Hne].
      + exists k, v'. rewrite lookup_insert. split; auto. congruence.
      + exists key, v0. rewrite lookup_insert_ne by auto. auto.
    - intros para a b Hl. destruct (decide ((para, a, b) = k)) as [<-|Hne]; [rewrite lookup_insert; eauto|rewrite lookup_insert_ne; auto].
  Qed.
  Lemma sums_vault s k v v' : c_vaults s !! k = Some v -> v_ctoken v' = v_ctoken v -> v_trie v' = v_trie v ->
    held (put_vault s k v') = held s + (v_pend v' + v_fly v' - v_pend v - v_fly v) /\
    lent (put_vault s k v') = lent s + (v_contr v' - v_contr v) /\
    (forall c, lent_for (put_vault s k v') c = lent_for s c + (if bool_decide (v_ctoken v = c) then v_contr v' - v_contr v else 0)) /\
    (forall c, unclaimed (put_vault s k v') c = unclaimed s c).
  Proof.
    intros Hk E1 E2. unfold held, lent, lent_for, unclaimed, put_vault. cbn [c_vaults c_con set_c_vaults].
    rewrite !msum_insert, Hk. repeat split; intros; rewrite ?msum_insert, ?Hk, ?E1, ?E2; try case_bool_decide; lia.
  Qed.

  (** one book entry and the vault's counter change by the same amount *)
  Lemma v_put_id v k c : v_ctoken (v_put v k c) = v_ctoken v /\ v_trie (v_put v k c) = v_trie v /\ v_ls (v_put v k c) = v_ls v /\
    v_le (v_put v k c) = v_le v /\ v_phase (v_put v k c) = v_phase v /\ v_proxy (v_put v k c) = v_proxy v.
  Proof. unfold v_put. destruct (k =? KPend), (k =? KFly); cbn; auto 10. Qed.
  Definition bump (s : cr) (key : Z * Z * Z) (v : vault) (k w n c : Z) : cr := put_vault (con_put s (v_trie v) k w n) key (v_put v k c).
  Lemma cst_bump s key v k w n c : cst s -> c_vaults s !! key = Some v -> (k = KPend \/ k = KFly \/ k = KContr) ->
    0 <= n -> 0 <= c -> c - v_get v k = n - entry s v k w -> (n <> 0 -> w <> cc_acct C) -> cst (bump s key v k w n c).
  Proof.
    intros Hs Hk Hkk Hn Hc Hd Hw. destruct (v_put_id v k c) as (P1 & P2 & P3 & P4 & P5 & _).
    destruct (cs_vault _ Hs _ _ Hk) as [A1 A2 A3 A4 A5 A6 A7 A8 A9].
    unfold entry in *. assert (B1 : c_vaults (bump s key v k w n c) = <[key := v_put v k c]> (c_vaults s)) by reflexivity.
    assert (B2 : c_con (bump s key v k w n c) = cput (c_con s) (v_trie v) k w n) by reflexivity.
    assert (B3 : c_next (bump s key v k w n c) = c_next s) by reflexivity. assert (B4 : c_ctok (bump s key v k w n c) = c_ctok s) by reflexivity.
    assert (B5 : c_leases (bump s key v k w n c) = c_leases s) by reflexivity. assert (B6 : c_reqs (bump s key v k w n c) = c_reqs s) by reflexivity.
    assert (B7 : c_qid (bump s key v k w n c) = c_qid s) by reflexivity. assert (B8 : c_bonus (bump s key v k w n c) = c_bonus s) by reflexivity.
    revert B1 B2 B3 B4 B5 B6 B7 B8. generalize (bump s key v k w n c). intros s' B1 B2 B3 B4 B5 B6 B7 B8.
    destruct Hs. split; rewrite ?B1, ?B2, ?B5, ?B6, ?B7, ?B8; auto.
    - intros k0 v0 Hv. apply lookup_insert_Some in Hv as [[<- <-]|[Hne Hv]].
      + split; rewrite ?B2, ?B3, ?B4, ?B5, ?P1, ?P2, ?P3, ?P4, ?P5; auto; rewrite ?book_cput; clear P1 P2 P3 P4 P5.
        * destruct Hkk as [-> | [-> | ->]]; kbk; unfold v_put, v_get in *; cbn in Hd |- *; lia.
        * destruct Hkk as [-> | [-> | ->]]; kbk; unfold v_put, v_get in *; cbn in Hd |- *; lia.
        * unfold v_put, v_get in *. destruct Hkk as [-> | [-> | ->]]; cbn in *; lia.
      + destruct (cs_vault0 _ _ Hv) as [G1 G2 G3 G4 G5 G6 G7 G8 G9]. assert (v_trie v0 <> v_trie v) by (intros HH; apply Hne; symmetry; eauto).
        split; rewrite ?B2, ?B3, ?B4, ?B5; auto; rewrite ?book_cput; rewrite bool_decide_false by tauto; lia.
    - intros k1 k2 v1 v2 H1 H2 Ht. apply lookup_insert_Some in H1 as [[<- <-]|[N1 H1]], H2 as [[<- <-]|[N2 H2]]; auto; rewrite ?P2 in Ht; eauto.
    - intros t k0 w0 x Hx. apply cput_some in Hx as [(-> & -> & -> & -> & Hz)|[Hx Hne]].
      + repeat split; auto; [lia|]. exists key, (v_put v k c). rewrite lookup_insert. split; auto.
      + destruct (cs_con0 _ _ _ _ Hx) as (? & ? & ? & key' & v0 & Hv & Ht). repeat (split; [assumption|]).
        destruct (decide (key' = key)) as [->|Hne'].
        * exists key, (v_put v k c). rewrite lookup_insert. split; auto. congruence.
        * exists key', v0. rewrite lookup_insert_ne by auto. auto.
    - intros para a b Hl. destruct (decide ((para, a, b) = key)) as [<-|Hne]; [rewrite lookup_insert; eauto|rewrite lookup_insert_ne; auto].
  Qed.
  Lemma unclaimed_cput s key v k w n c : cst s -> c_vaults s !! key = Some v ->
    unclaimed (con_put s (v_trie v) k w n) c = unclaimed s c + (if bool_decide (v_ctoken v = c /\ k = KContr) then n - entry s v KContr w else 0).
  Proof.
    intros Hs Hk. unfold unclaimed. cbn [con_put c_vaults c_con set_c_con]. fold (cput (c_con s) (v_trie v) k w n).
    rewrite (msum_upd1 (fun _ v0 => if bool_decide (v_ctoken v0 = c) then book (c_con s) (v_trie v0) KContr else 0)
               (fun _ v0 => if bool_decide (v_ctoken v0 = c) then book (cput (c_con s) (v_trie v) k w n) (v_trie v0) KContr else 0) _ key v Hk).
    - cbv beta. rewrite book_cput. unfold entry. destruct (decide (v_ctoken v = c)) as [Hc|Hc]; [|rewrite !(bool_decide_false (v_ctoken v = c)), (bool_decide_false (_ /\ k = KContr)) by tauto; lia].
      rewrite !(bool_decide_true (v_ctoken v = c)) by auto. destruct (decide (k = KContr)) as [->|Hne].
      + rewrite !bool_decide_true by auto. lia.
      + rewrite !bool_decide_false by (intros [_ ?]; congruence). lia.
    - intros k0 v0 H0 Hne. rewrite book_cput. assert (v_trie v0 <> v_trie v) by (intros HH; apply Hne; eapply (cs_uniq _ Hs); eauto).
      case_bool_decide; auto. rewrite bool_decide_false by tauto. lia.
  Qed.
  Lemma sums_bump s key v k w n c : cst s -> c_vaults s !! key = Some v -> (k = KPend \/ k = KFly \/ k = KContr) ->
    c - v_get v k = n - entry s v k w ->
    held (bump s key v k w n c) = held s + (if k =? KContr then 0 else c - v_get v k) /\
    lent (bump s key v k w n c) = lent s + (if k =? KContr then c - v_get v k else 0) /\
    (forall t, lent_for (bump s key v k w n c) t = lent_for s t + (if bool_decide (v_ctoken v = t /\ k = KContr) then c - v_get v k else 0)) /\
    (forall t, unclaimed (bump s key v k w n c) t = unclaimed s t + (if bool_decide (v_ctoken v = t /\ k = KContr) then c - v_get v k else 0)).
  Proof.
    intros Hs Hk Hkk Hd. destruct (v_put_id v k c) as (P1 & P2 & _). unfold bump.
    destruct (sums_vault (con_put s (v_trie v) k w n) key v (v_put v k c) Hk P1 P2) as (S1 & S2 & S3 & S4).
    destruct (sums_same s (set_c_con s (c_con s)) eq_refl eq_refl) as (T1 & T2 & T3 & T4).
    change (held (con_put s (v_trie v) k w n)) with (held s) in S1. change (lent (con_put s (v_trie v) k w n)) with (lent s) in S2.
    repeat split.
    - rewrite S1. unfold v_put, v_get. destruct Hkk as [-> | [-> | ->]]; cbn; lia.
    - rewrite S2. unfold v_put, v_get. destruct Hkk as [-> | [-> | ->]]; cbn; lia.
    - intros t. rewrite S3. change (lent_for (con_put s (v_trie v) k w n) t) with (lent_for s t). unfold v_put, v_get.
      destruct Hkk as [-> | [-> | ->]]; cbn; repeat case_bool_decide; destruct_and?; try lia; try discriminate; exfalso; tauto.
    - intros t. rewrite S4, (unclaimed_cput _ _ _ _ _ _ _ Hs Hk). rewrite Hd. repeat case_bool_decide; destruct_and?; subst; lia.
  Qed.
End inv.
