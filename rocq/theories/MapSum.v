(** * MapSum: integer sums over finite maps (std++ [gmap]); used to state "sum over all accounts/streams/pools". *)
From Verif Require Import Base.

Section msum.
  Context {K : Type} `{Countable K} {V : Type}.
  Implicit Types (f g : K -> V -> Z) (m : gmap K V) (k : K).

  Definition msum (f : K -> V -> Z) (m : gmap K V) : Z := map_fold (fun k v s => f k v + s) 0 m.

  Lemma msum_empty f : msum f ∅ = 0.
  Proof. unfold msum. apply map_fold_empty. Qed.

  Lemma msum_insert_new f m k v : m !! k = None -> msum f (<[k:=v]> m) = f k v + msum f m.
  Proof.
    intros Hk. unfold msum. rewrite map_fold_insert_L; auto. intros; lia.
  Qed.

  Lemma msum_delete f m k v : m !! k = Some v -> msum f m = f k v + msum f (delete k m).
  Proof.
    intros Hk. rewrite <- (insert_delete m k v Hk) at 1. apply msum_insert_new. apply lookup_delete.
  Qed.

  Lemma msum_insert f m k v :
    msum f (<[k:=v]> m) = f k v + msum f m - match m !! k with Some v0 => f k v0 | None => 0 end.
  Proof.
    destruct (m !! k) as [v0|] eqn:E.
    - rewrite <- insert_delete_insert. rewrite msum_insert_new by apply lookup_delete.
      rewrite (msum_delete f m k v0 E). lia.
    - rewrite msum_insert_new by auto. lia.
  Qed.

  Lemma msum_ext f g m : (forall k v, m !! k = Some v -> f k v = g k v) -> msum f m = msum g m.
  Proof.
    induction m as [|k v m Hk IH] using map_ind; intros Hfg.
    - rewrite !msum_empty; auto.
    - rewrite !msum_insert_new by auto. rewrite IH, (Hfg k v); auto.
      + apply lookup_insert.
      + intros k' v' Hk'. apply Hfg. rewrite lookup_insert_ne; auto. congruence.
  Qed.

  Lemma msum_le f g m : (forall k v, m !! k = Some v -> f k v <= g k v) -> msum f m <= msum g m.
  Proof.
    induction m as [|k v m Hk IH] using map_ind; intros Hfg.
    - rewrite !msum_empty; lia.
    - rewrite !msum_insert_new by auto. assert (f k v <= g k v) by (apply Hfg; apply lookup_insert).
      assert (msum f m <= msum g m); [|lia].
      apply IH. intros k' v' Hk'. apply Hfg. rewrite lookup_insert_ne; auto. congruence.
  Qed.

  Lemma msum_nonneg f m : (forall k v, m !! k = Some v -> 0 <= f k v) -> 0 <= msum f m.
  Proof.
    intros Hf. transitivity (msum (fun _ _ => 0) m); [|apply msum_le; auto].
    clear Hf. induction m as [|k v m Hk IH] using map_ind.
    - rewrite msum_empty; lia.
    - rewrite msum_insert_new by auto. lia.
  Qed.

  Lemma msum_ge_elem f m k v :
    (forall k v, m !! k = Some v -> 0 <= f k v) -> m !! k = Some v -> f k v <= msum f m.
  Proof.
    intros Hf Hk. rewrite (msum_delete f m k v Hk).
    assert (0 <= msum f (delete k m)); [|lia].
    apply msum_nonneg. intros k' v' Hk'. apply lookup_delete_Some in Hk'. apply Hf. tauto.
  Qed.

  Lemma msum_ge_elem2 f m k1 v1 k2 v2 :
    (forall k v, m !! k = Some v -> 0 <= f k v) ->
    m !! k1 = Some v1 -> m !! k2 = Some v2 -> k1 <> k2 -> f k1 v1 + f k2 v2 <= msum f m.
  Proof.
    intros Hf H1 H2 Hne. rewrite (msum_delete f m k1 v1 H1).
    assert (f k2 v2 <= msum f (delete k1 m)); [|lia].
    apply msum_ge_elem.
    - intros k' v' Hk'. apply lookup_delete_Some in Hk'. apply Hf. tauto.
    - rewrite lookup_delete_ne; auto.
  Qed.

  Lemma msum_add f g m : msum (fun k v => f k v + g k v) m = msum f m + msum g m.
  Proof.
    induction m as [|k v m Hk IH] using map_ind.
    - rewrite !msum_empty; lia.
    - rewrite !msum_insert_new by auto. lia.
  Qed.

  Lemma msum_zero f m : (forall k v, m !! k = Some v -> f k v = 0) -> msum f m = 0.
  Proof.
    intros Hf. rewrite (msum_ext f (fun _ _ => 0)); auto.
    clear Hf. induction m as [|k v m Hk IH] using map_ind.
    - apply msum_empty.
    - rewrite msum_insert_new by auto. lia.
  Qed.

  Lemma msum_mul_const c f m : msum (fun k v => c * f k v) m = c * msum f m.
  Proof.
    induction m as [|k v m Hk IH] using map_ind.
    - rewrite !msum_empty; lia.
    - rewrite !msum_insert_new by auto. lia.
  Qed.
End msum.
