From Verif Require Import Base MapSum Ledger AmmModel AmmSpec AmmProofs RouterModel RouterSpec.
From Coq Require Import Sorting.Permutation Sorting.Sorted.

(** ** the route search *)
Section search.
  Context (ks : list (Z * Z)) (end_ : Z).

  Definition nodes : list Z := flat_map (fun k => [k.1; k.2]) ks.
  Let N : nat := length nodes.
  Lemma nodes_len : length nodes = (2 * length ks)%nat.
  Proof. unfold nodes. clear. induction ks as [|k l IH]; cbn [flat_map app length]; [auto|]. lia. Qed.

  Lemma adj_spec x n : x ∈ adj ks n <-> (n, x) ∈ ks \/ (x, n) ∈ ks.
  Proof.
    clear. induction ks as [|[a b] l IH]; cbn [adj].
    - split; [intros H; inversion H | intros [H|H]; inversion H].
    - rewrite !elem_of_app, IH, !elem_of_cons.
      destruct (Z.eqb_spec a n), (Z.eqb_spec b n); subst; rewrite ?elem_of_list_singleton, ?elem_of_nil;
        intuition (try congruence); try (right; auto; fail).
  Qed.
  Lemma adj_len n : (length (adj ks n) <= 2 * length ks)%nat.
  Proof.
    clear. induction ks as [|[a b] l IH]; cbn [adj length]; [lia|]. rewrite !app_length.
    destruct (a =? n), (b =? n); cbn; lia.
  Qed.
  Lemma adj_nodes x n : x ∈ adj ks n -> x ∈ nodes.
  Proof.
    rewrite adj_spec. unfold nodes. intros H. apply elem_of_list_In, in_flat_map.
    destruct H as [H|H]; apply elem_of_list_In in H; eexists; (split; [exact H|cbn; auto]).
  Qed.
  Lemma adj_NoDup n : NoDup ks -> (forall k, k ∈ ks -> k.2 < k.1) -> NoDup (adj ks n).
  Proof.
    intros Hnd Hord.
    assert (G : forall l, NoDup l -> (forall k, k ∈ l -> k.2 < k.1) -> NoDup (adj l n)).
    { induction l as [|[a b] l IH]; intros Hl Ho; cbn [adj]; [constructor|].
      apply NoDup_cons in Hl as [Hna Hl].
      assert (Hab : b < a) by (apply (Ho (a, b)); constructor).
      assert (IHl : NoDup (adj l n)) by (apply IH; auto; intros; apply Ho; constructor; auto).
      assert (Hsp : forall x, x ∈ adj l n -> (n, x) ∈ l \/ (x, n) ∈ l).
      { clear. intros x. induction l as [|[c d] l IH]; cbn [adj]; [intros H; inversion H|].
        rewrite !elem_of_app, !elem_of_cons. destruct (Z.eqb_spec c n), (Z.eqb_spec d n); subst;
        rewrite ?elem_of_list_singleton, ?elem_of_nil; intuition (subst; auto). }
      destruct (Z.eqb_spec a n), (Z.eqb_spec b n); cbn; subst; try lia; auto.
      - apply NoDup_cons. split; auto. intros H. destruct (Hsp _ H); auto.
        pose proof (Ho (b, n) ltac:(constructor; auto)). cbn in *. lia.
      - apply NoDup_cons. split; auto. intros H. destruct (Hsp _ H); auto.
        pose proof (Ho (n, a) ltac:(constructor; auto)). cbn in *. lia. }
    apply G; auto.
  Qed.

  Definition ext (path : list Z) (n : Z) : list Z := filter (fun m => m ∉ path ++ [n]) (adj ks n).

  Fixpoint paths_from (k : nat) (path : list Z) (n : Z) : list (list Z) :=
    match k with
    | O => []
    | S k' => (if n =? end_ then [path ++ [n]] else []) ++ flat_map (paths_from k' (path ++ [n])) (ext path n)
    end.

  Definition chain (l : list Z) : Prop := forall i a b, l !! i = Some a -> l !! S i = Some b -> b ∈ adj ks a.

  Lemma chain_cons a b l : chain (a :: b :: l) <-> b ∈ adj ks a /\ chain (b :: l).
  Proof.
    split.
    - intros H. split; [apply (H 0%nat); auto|]. intros i x y Hx Hy. apply (H (S i)); auto.
    - intros [H1 H2] [|i] x y Hx Hy; [cbn in Hx, Hy; congruence|]. apply (H2 i); auto.
  Qed.

  Lemma paths_from_sound k : forall path n r, NoDup (path ++ [n]) -> r ∈ paths_from k path n ->
    exists suf, r = path ++ n :: suf /\ last (n :: suf) = Some end_ /\ chain (n :: suf) /\ NoDup r.
  Proof.
    induction k as [|k IH]; intros path n r Hnd Hr; cbn [paths_from] in Hr; [inversion Hr|].
    apply elem_of_app in Hr as [Hr|Hr].
    - destruct (Z.eqb_spec n end_) as [->|]; [|inversion Hr]. apply elem_of_list_singleton in Hr as ->.
      exists []. repeat split; auto. intros [|i] a b Ha Hb; discriminate.
    - apply elem_of_list_In, in_flat_map in Hr as (m & Hm & Hr). apply elem_of_list_In in Hm, Hr.
      unfold ext in Hm. apply elem_of_list_filter in Hm as [Hm1 Hm2].
      apply IH in Hr as (suf & -> & Hl & Hc & Hn).
      + exists (m :: suf). split; [rewrite <- app_assoc; auto|]. split; [exact Hl|].
        split; [apply chain_cons; auto|]. auto.
      + apply NoDup_app. split; [auto|]. split; [|apply NoDup_singleton].
        intros x Hx Hx2. apply elem_of_list_singleton in Hx2 as ->. auto.
  Qed.

  Lemma paths_from_complete k : forall path n suf,
    NoDup (path ++ n :: suf) -> last (n :: suf) = Some end_ -> chain (n :: suf) -> (length suf < k)%nat ->
    path ++ n :: suf ∈ paths_from k path n.
  Proof.
    induction k as [|k IH]; intros path n suf Hnd Hl Hc Hk; [lia|]. cbn [paths_from]. apply elem_of_app.
    destruct suf as [|m suf].
    - left. cbn in Hl. injection Hl as ->. rewrite Z.eqb_refl. apply elem_of_list_singleton. auto.
    - right. apply elem_of_list_In, in_flat_map. exists m. apply chain_cons in Hc as [Hm Hc].
      assert (E : path ++ n :: m :: suf = (path ++ [n]) ++ m :: suf) by (rewrite <- app_assoc; auto).
      rewrite E in *. split.
      + apply elem_of_list_In. unfold ext. apply elem_of_list_filter. split; auto.
        intros Hin. apply NoDup_app in Hnd as (_ & Hd & _). apply (Hd m Hin). constructor.
      + apply elem_of_list_In. apply IH; auto. cbn in Hk. lia.
  Qed.

  Lemma NoDup_flat_map {A B} (f : A -> list B) (l : list A) :
    NoDup l -> (forall x, x ∈ l -> NoDup (f x)) ->
    (forall x y b, x ∈ l -> y ∈ l -> b ∈ f x -> b ∈ f y -> x = y) -> NoDup (flat_map f l).
  Proof.
    induction l as [|a l IH]; intros Hnd Hf Hd; cbn; [constructor|].
    apply NoDup_cons in Hnd as [Hna Hnd]. apply NoDup_app. split; [apply Hf; constructor|]. split.
    - intros b Hb Hb2. apply elem_of_list_In, in_flat_map in Hb2 as (y & Hy & Hb2). apply elem_of_list_In in Hy, Hb2.
      assert (a = y) by (apply (Hd a y b); auto; constructor; auto). subst; auto.
    - apply IH; auto.
      + intros; apply Hf; constructor; auto.
      + intros x y b Hx Hy. apply Hd; constructor; auto.
  Qed.

  Lemma paths_from_NoDup k : forall path n, NoDup ks -> (forall k, k ∈ ks -> k.2 < k.1) ->
    NoDup (path ++ [n]) -> NoDup (paths_from k path n).
  Proof.
    induction k as [|k IH]; intros path n Hks Hord Hnd; cbn [paths_from]; [constructor|].
    assert (Hext : forall m, m ∈ ext path n -> NoDup ((path ++ [n]) ++ [m])).
    { intros m Hm. unfold ext in Hm. apply elem_of_list_filter in Hm as [Hm1 Hm2].
      apply NoDup_app. split; [auto|]. split; [|apply NoDup_singleton].
      intros x Hx Hx2. apply elem_of_list_singleton in Hx2 as ->. auto. }
    apply NoDup_app. split; [destruct (n =? end_); [apply NoDup_singleton|constructor]|]. split.
    - intros r Hr Hr2. destruct (n =? end_); [|inversion Hr]. apply elem_of_list_singleton in Hr as ->.
      apply elem_of_list_In, in_flat_map in Hr2 as (m & Hm & Hr2). apply elem_of_list_In in Hm, Hr2.
      apply paths_from_sound in Hr2 as (suf & E & _); auto.
      apply (f_equal length) in E. rewrite !app_length in E. cbn in E. lia.
    - apply NoDup_flat_map.
      + unfold ext. apply NoDup_filter. apply adj_NoDup; auto.
      + intros m Hm. apply IH; auto.
      + intros x y r Hx Hy Hrx Hry.
        apply paths_from_sound in Hrx as (s1 & E1 & _); auto. apply paths_from_sound in Hry as (s2 & E2 & _); auto.
        subst r. apply app_inv_head in E2. congruence.
  Qed.

  (** *** the work list *)
  Definition item_ok (it : Z * list Z) : Prop := NoDup (it.2 ++ [it.1]) /\ (forall x, x ∈ it.2 ++ [it.1] -> x ∈ nodes).
  Definition item_paths (it : Z * list Z) : list (list Z) := paths_from (S N - length it.2) it.2 it.1.
  Definition pending (st : bfs_state) : list (list Z) := st.2 ++ flat_map item_paths st.1.

  Lemma NoDup_subset_len (l1 l2 : list Z) : NoDup l1 -> (forall x, x ∈ l1 -> x ∈ l2) -> (length l1 <= length l2)%nat.
  Proof.
    intros H1 H2. apply submseteq_length, NoDup_submseteq; auto.
  Qed.

  Lemma item_len it : item_ok it -> (length it.2 < N)%nat.
  Proof.
    intros [H1 H2]. pose proof (NoDup_subset_len _ _ H1 H2) as H. rewrite app_length in H. cbn in H. unfold N. lia.
  Qed.

  Lemma swap_remove0_perm {A} (l : list A) : swap_remove0 l ≡ₚ l.
  Proof.
    unfold swap_remove0. destruct (last l) as [x|] eqn:E.
    - apply last_Some in E as [l' ->]. rewrite removelast_last. apply Permutation_cons_append.
    - apply last_None in E as ->. reflexivity.
  Qed.

  Lemma ext_items_ok start path : item_ok (start, path) ->
    Forall item_ok (map (fun n => (n, path ++ [start])) (ext path start)).
  Proof.
    intros [H1 H2]. apply Forall_forall. intros it Hit. apply elem_of_list_In, in_map_iff in Hit as (m & <- & Hm).
    apply elem_of_list_In in Hm. unfold ext in Hm. apply elem_of_list_filter in Hm as [Hm1 Hm2]. cbn in *.
    split; cbn.
    - apply NoDup_app. split; [auto|]. split; [|apply NoDup_singleton].
      intros x Hx Hx2. apply elem_of_list_singleton in Hx2 as ->. auto.
    - intros x Hx. apply elem_of_app in Hx as [Hx|Hx]; auto. apply elem_of_list_singleton in Hx as ->.
      eapply adj_nodes; eauto.
  Qed.

  Lemma bfs_step_inv st : Forall item_ok st.1 ->
    Forall item_ok (bfs_step ks end_ st).1 /\ pending (bfs_step ks end_ st) ≡ₚ pending st.
  Proof.
    destruct st as [[|[start path] rest] acc]; [cbn; auto|]. cbn [fst snd]. intros H.
    inversion H as [|? ? Hit Hrest]; subst. cbn [bfs_step]. fold (ext path start). split; cbn [fst snd].
    - rewrite swap_remove0_perm. apply Forall_app. split; auto. apply ext_items_ok; auto.
    - unfold pending; cbn [fst snd].
      assert (P1 : flat_map item_paths (swap_remove0 rest ++ map (λ n : Z, (n, path ++ [start])) (ext path start))
        ≡ₚ flat_map item_paths rest ++ flat_map item_paths (map (λ n : Z, (n, path ++ [start])) (ext path start))).
      { rewrite flat_map_app. apply Permutation_app_tail. apply Permutation_flat_map. apply swap_remove0_perm. }
      rewrite P1. clear P1.
      assert (E2 : flat_map item_paths ((start, path) :: rest) =
         ((if start =? end_ then [path ++ [start]] else []) ++
          flat_map item_paths (map (λ n : Z, (n, path ++ [start])) (ext path start))) ++ flat_map item_paths rest).
      { cbn [flat_map]. f_equal. unfold item_paths at 1; cbn [fst snd].
        pose proof (item_len _ Hit) as Hl; cbn in Hl.
        replace (S N - length path)%nat with (S (N - length path)) by lia. cbn [paths_from]. f_equal.
        rewrite !flat_map_concat_map, map_map. f_equal. apply map_ext. intros m. unfold item_paths; cbn [fst snd].
        rewrite app_length; cbn [length]. f_equal. lia. }
      rewrite E2. destruct (start =? end_).
      + rewrite <- !app_assoc. apply Permutation_app_head. cbn [app]. apply perm_skip. apply Permutation_app_comm.
      + apply Permutation_app_head. cbn [app]. apply Permutation_app_comm.
  Qed.

  (** termination measure *)
  Definition mu (q : list (Z * list Z)) : nat := foldr (fun it m => (S N ^ (S N - length it.2) + m)%nat) 0%nat q.

  Lemma mu_perm q q' : q ≡ₚ q' -> mu q = mu q'.
  Proof. intros H. unfold mu. induction H; cbn; lia. Qed.
  Lemma mu_app q q' : mu (q ++ q') = (mu q + mu q')%nat.
  Proof. unfold mu. induction q; cbn; lia. Qed.
  Lemma mu_pos it q : (1 <= mu (it :: q))%nat.
  Proof. cbn [mu foldr]. pose proof (Nat.pow_nonzero (S N) (S N - length it.2) ltac:(lia)). lia. Qed.

  Lemma ext_len path start : (length (ext path start) <= N)%nat.
  Proof.
    unfold ext, N. rewrite nodes_len. etransitivity; [apply filter_length|]. apply adj_len.
  Qed.

  Lemma mu_ext path start (l : list Z) :
    mu (map (fun n => (n, path ++ [start])) l) = (length l * S N ^ (N - length path))%nat.
  Proof.
    induction l as [|a l IH]; [reflexivity|]. cbn [map]. change (mu (?x :: ?q)) with (S N ^ (S N - length x.2) + mu q)%nat.
    rewrite IH. cbn [snd]. rewrite app_length; cbn [length].
    replace (S N - (length path + 1))%nat with (N - length path)%nat by lia. lia.
  Qed.

  Lemma bfs_step_mu st : Forall item_ok st.1 -> st.1 <> [] -> (mu (bfs_step ks end_ st).1 < mu st.1)%nat.
  Proof.
    destruct st as [[|[start path] rest] acc]; [cbn; congruence|]. cbn [fst snd]. intros H _.
    inversion H as [|? ? Hit Hrest]; subst. cbn [bfs_step fst]. fold (ext path start).
    rewrite mu_app, (mu_perm _ _ (swap_remove0_perm rest)), mu_ext.
    change (mu ((start, path) :: rest)) with (S N ^ (S N - length path) + mu rest)%nat.
    pose proof (item_len _ Hit) as Hl; cbn in Hl.
    replace (S N - length path)%nat with (S (N - length path)) by lia. rewrite Nat.pow_succ_r'.
    pose proof (ext_len path start). pose proof (Nat.pow_nonzero (S N) (N - length path) ltac:(lia)). nia.
  Qed.

  Lemma bfs_loop_nil d st : st.1 = [] -> bfs_loop d ks end_ st = st.
  Proof. intros E. destruct d; cbn [bfs_loop]; rewrite E; auto. Qed.

  Lemma bfs_loop_inv d : forall st, Forall item_ok st.1 ->
    Forall item_ok (bfs_loop d ks end_ st).1 /\ pending (bfs_loop d ks end_ st) ≡ₚ pending st /\
    ((bfs_loop d ks end_ st).1 = [] \/ (mu (bfs_loop d ks end_ st).1 + 2 ^ d <= mu st.1)%nat).
  Proof.
    induction d as [|d IH]; intros st H.
    - assert (E : bfs_loop 0 ks end_ st = match st.1 with [] => st | _ => bfs_step ks end_ st end) by reflexivity.
      rewrite E. destruct (decide (st.1 = [])) as [E0|E0]; [rewrite E0; split; [rewrite E0; constructor|]; auto|].
      destruct (bfs_step_inv st H) as [H1 H2]. pose proof (bfs_step_mu st H E0).
      destruct st.1 eqn:E1; [congruence|]. repeat split; auto. right. cbn [Nat.pow]. lia.
    - assert (E : bfs_loop (S d) ks end_ st =
         match st.1 with [] => st | _ => bfs_loop d ks end_ (bfs_loop d ks end_ st) end) by reflexivity.
      rewrite E. destruct (decide (st.1 = [])) as [E0|E0]; [rewrite E0; split; [rewrite E0; constructor|]; auto|].
      destruct (IH st H) as (A1 & A2 & A3). destruct (IH (bfs_loop d ks end_ st) A1) as (B1 & B2 & B3).
      destruct st.1 eqn:E1; [congruence|].
      split; [auto|]. split; [etransitivity; eauto|].
      destruct B3 as [B3|B3]; [auto|]. destruct A3 as [A3|A3].
      + left. rewrite bfs_loop_nil by auto. auto.
      + right. cbn [Nat.pow]. lia.
  Qed.

  Lemma bfs_terminates start : start ∈ nodes ->
    let st := bfs_loop (bfs_depth ks) ks end_ ([(start, [])], []) in
    st.1 = [] /\ st.2 ≡ₚ paths_from (S N) [] start.
  Proof.
    intros Hs st.
    assert (Hok : Forall item_ok ([(start, [])], [] : list (list Z)).1).
    { constructor; [|constructor]. split; cbn; [apply NoDup_singleton|]. intros x Hx. apply elem_of_list_singleton in Hx as ->. auto. }
    destruct (bfs_loop_inv (bfs_depth ks) ([(start, [])], []) Hok) as (A1 & A2 & A3). fold st in A1, A2, A3.
    assert (Hempty : st.1 = []).
    { destruct A3 as [A3|A3]; auto. destruct st.1 as [|it q] eqn:E; [auto|]. pose proof (mu_pos it q).
      cbn [fst] in A3. change (mu [(start, [])]) with (S N ^ (S N - 0) + 0)%nat in A3. rewrite Nat.sub_0_r, Nat.add_0_r in A3.
      exfalso. unfold bfs_depth in A3. rewrite <- nodes_len in A3. fold N in A3.
      assert (Hpow : (S N ^ S N <= 2 ^ ((N + 1) * (N + 2)))%nat).
      { etransitivity; [apply (Nat.pow_le_mono_l _ (2 ^ S N))|].
        - apply Nat.lt_le_incl, Nat.pow_gt_lin_r. lia.
        - rewrite <- Nat.pow_mul_r. apply Nat.pow_le_mono_r; lia. }
      lia. }
    split; auto. unfold pending in A2. rewrite Hempty in A2. cbn [flat_map fst snd] in A2.
    rewrite app_nil_r in A2. cbn [app] in A2. rewrite app_nil_r in A2. rewrite A2. unfold item_paths; cbn [fst snd length].
    rewrite Nat.sub_0_r. reflexivity.
  Qed.
End search.

(** ** quotes and sorting *)
Section quotes.
  Context (R : router_cfg).
  Let C := r_amm R.

  Lemma output_routes_spec ps rev amount routes out :
    get_output_routes R ps rev amount routes = Ok out ->
    (forall r q, (r, q) ∈ out <-> r ∈ routes /\ route_quote R ps rev amount r = Ok q) /\
    (NoDup routes -> NoDup (map fst out)).
  Proof.
    revert out. induction routes as [|r routes IH]; intros out H; cbn [get_output_routes] in H.
    - injection H as <-. split; [intros r q; split; [intros H; inversion H|intros [H _]; inversion H]|]. constructor.
    - destruct (route_quote R ps rev amount r) as [q|e|] eqn:E; [| |discriminate].
      + bstep H o Eo. injection H as <-. destruct (IH o Eo) as [I1 I2]. split.
        * intros r' q'. rewrite elem_of_cons, I1, elem_of_cons. split.
          -- intros [[= -> ->]|[? ?]]; auto.
          -- intros [[->|?] ?]; [left; congruence|right; auto].
        * intros Hnd. apply NoDup_cons in Hnd as [Hna Hnd]. cbn. apply NoDup_cons. split; auto.
          intros Hin. apply elem_of_list_In, in_map_iff in Hin as ([r' q'] & E' & Hin). cbn in E'. subst r'.
          apply elem_of_list_In, I1 in Hin as [? _]. auto.
      + destruct (IH out H) as [I1 I2]. split.
        * intros r' q'. rewrite I1, elem_of_cons. split; [tauto|]. intros [[->|?] ?]; [congruence|auto].
        * intros Hnd. apply NoDup_cons in Hnd as [Hna Hnd]. auto.
  Qed.

  Definition desc (x y : list Z * Z) : Prop := y.2 <= x.2.
  Lemma insert_desc_perm x l : insert_desc x l ≡ₚ x :: l.
  Proof. induction l as [|y l IH]; cbn; [auto|]. destruct (y.2 <=? x.2); [auto|]. rewrite IH. apply perm_swap. Qed.
  Lemma sort_desc_perm l : sort_desc l ≡ₚ l.
  Proof. induction l as [|x l IH]; cbn; [auto|]. rewrite insert_desc_perm, IH. auto. Qed.
  Lemma insert_desc_sorted x l : StronglySorted desc l -> StronglySorted desc (insert_desc x l).
  Proof.
    induction l as [|y l IH]; intros H; cbn; [repeat constructor|].
    apply StronglySorted_inv in H as [H1 H2]. destruct (y.2 <=? x.2) eqn:E.
    - constructor; [constructor; auto|]. constructor; [unfold desc; lia|].
      eapply Forall_impl; [exact H2|]. intros z Hz. unfold desc in *. cbn in Hz. lia.
    - constructor; [auto|]. rewrite insert_desc_perm. constructor; auto. unfold desc. lia.
  Qed.
  Lemma sort_desc_sorted l : StronglySorted desc (sort_desc l).
  Proof. induction l; cbn; [constructor|]. apply insert_desc_sorted; auto. Qed.

  Lemma sorted_last l x : StronglySorted desc l -> last l = Some x -> Forall (fun y => x.2 <= y.2) l.
  Proof.
    induction l as [|y l IH]; intros H Hl; [constructor|].
    apply StronglySorted_inv in H as [H1 H2]. destruct l as [|z l].
    - injection Hl as ->. repeat constructor. lia.
    - specialize (IH H1 Hl). constructor; [|auto]. assert (x ∈ z :: l).
      { change (last (z :: l) = Some x) in Hl. apply last_Some in Hl as [l' ->]. apply elem_of_app. right. constructor. }
      rewrite Forall_forall in H2. apply (H2 x); auto.
  Qed.

  Lemma in_graph_spec ks n : in_graph ks n = true <-> n ∈ nodes ks.
  Proof.
    unfold in_graph, nodes. rewrite existsb_exists, elem_of_list_In, in_flat_map. split.
    - intros (k & Hk & E). exists k. split; auto. cbn. apply orb_prop in E. destruct E; [left|right; left]; lia.
    - intros (k & Hk & E). exists k. split; auto. cbn in E. apply orb_true_iff. destruct E as [E|[E|[]]]; [left|right]; lia.
  Qed.

  Definition keys_ordered (ps : gmap (Z * Z) pool) : Prop := forall k p, ps !! k = Some p -> k.2 < k.1.

  Lemma adj_pair ks ps a b : keys_ordered ps -> pool_listing ps ks -> a <> b ->
    b ∈ adj ks a <-> is_Some (ps !! pair_key a b).
  Proof.
    intros Ho [_ Hl] Hne. rewrite adj_spec, !Hl. unfold pair_key. split.
    - intros [[p H]|[p H]]; pose proof (Ho _ _ H); cbn in *.
      + rewrite Z.max_l, Z.min_r by lia. eauto.
      + rewrite Z.max_r, Z.min_l by lia. eauto.
    - intros H. destruct (decide (b < a)).
      + rewrite Z.max_l, Z.min_r in H by lia. auto.
      + rewrite Z.max_r, Z.min_l in H by lia. auto.
  Qed.

  Lemma chain_connected ks ps r : keys_ordered ps -> pool_listing ps ks -> NoDup r ->
    chain ks r <-> route_connected ps r.
  Proof.
    intros Ho Hl Hnd. unfold chain, route_connected.
    split; intros H i a b Ha Hb; specialize (H i a b Ha Hb).
    - apply (adj_pair ks ps a b); auto. intros ->. pose proof (NoDup_lookup _ _ _ _ Hnd Ha Hb). lia.
    - apply (adj_pair ks ps a b) in H; auto. intros ->. pose proof (NoDup_lookup _ _ _ _ Hnd Ha Hb). lia.
  Qed.

  Lemma simple_nodes ks ps tin r : keys_ordered ps -> pool_listing ps ks -> tin ∈ nodes ks -> head r = Some tin ->
    NoDup r -> route_connected ps r -> forall x, x ∈ r -> x ∈ nodes ks.
  Proof.
    intros Ho Hl Ht Hh Hnd Hc x Hx. apply elem_of_list_lookup in Hx as [i Hi].
    destruct i as [|i]; [destruct r; cbn in *; congruence|].
    destruct (r !! i) as [a|] eqn:Ha.
    - pose proof (chain_connected ks ps r Ho Hl Hnd) as [_ Hch]. specialize (Hch Hc i a x Ha Hi). eapply adj_nodes; eauto.
    - apply lookup_ge_None in Ha. apply lookup_lt_Some in Hi. lia.
  Qed.

  Lemma all_routes_spec ks ps amount tin tout rev rs :
    keys_ordered ps -> pool_listing ps ks ->
    get_all_routes R ks ps amount tin tout rev = Ok rs ->
    (forall r q, (r, q) ∈ rs <-> simple_route ps tin tout r /\ route_quote R ps rev amount r = Ok q) /\
    NoDup (map fst rs) /\ StronglySorted desc rs.
  Proof.
    intros Ho Hl H. unfold get_all_routes in H. bstep H u E1. bstep H u2 E2. bstep H out Eo. injection H as <-.
    apply in_graph_spec in E1, E2.
    destruct (bfs_terminates ks tout tin E1) as [_ Hp]. set (st := bfs_loop _ _ _ _) in *.
    assert (Hnd : NoDup st.2).
    { rewrite Hp. apply paths_from_NoDup; [apply Hl| |apply NoDup_singleton].
      intros k Hk. apply Hl in Hk as [p Hk]. eauto. }
    destruct (output_routes_spec _ _ _ _ _ Eo) as [I1 I2].
    split; [|split; [|apply sort_desc_sorted]].
    - intros r q. rewrite sort_desc_perm, I1, Hp. apply and_iff_compat_r. split.
      + intros Hr. apply paths_from_sound in Hr as (suf & -> & Hlast & Hch & Hn); [|apply NoDup_singleton].
        cbn [app] in *. repeat split; auto. apply (chain_connected ks); auto.
      + intros (Hh & Hlast & Hn & Hc). pose proof (simple_nodes ks ps tin r Ho Hl E1 Hh Hn Hc) as Hin.
        destruct r as [|x suf]; [discriminate|]. injection Hh as ->.
        pose proof (NoDup_subset_len _ _ Hn Hin) as Hlen. cbn in Hlen.
        apply (paths_from_complete ks tout (S (length (nodes ks))) [] tin suf); auto; try lia.
        apply (chain_connected ks ps); auto.
    - rewrite sort_desc_perm. auto.
  Qed.

  Lemma best_route_spec ks ps amount tin tout rev r q :
    keys_ordered ps -> pool_listing ps ks ->
    get_best_route R ks ps amount tin tout rev = Ok (r, q) ->
    simple_route ps tin tout r /\ route_quote R ps rev amount r = Ok q /\
    (forall r' q', simple_route ps tin tout r' -> route_quote R ps rev amount r' = Ok q' ->
       if rev then q <= q' else q' <= q).
  Proof.
    intros Ho Hl H. unfold get_best_route in H. bstep H all Ea. bstep H u Eu.
    destruct (all_routes_spec _ _ _ _ _ _ _ Ho Hl Ea) as (I1 & _ & Hs).
    destruct rev.
    - apply unwrap_ok in H. pose proof (sorted_last _ _ Hs H) as Hm.
      assert (Hin : (r, q) ∈ all) by (apply last_Some in H as [l' ->]; apply elem_of_app; right; constructor).
      apply I1 in Hin as [? ?]. split; [auto|]. split; [auto|].
      intros r' q' Hr Hq. rewrite Forall_forall in Hm. apply (Hm (r', q')). apply I1. auto.
    - apply unwrap_ok in H. destruct all as [|x all]; [discriminate|]. injection H as ->.
      assert (Hin : (r, q) ∈ (r, q) :: all) by constructor.
      apply I1 in Hin as [? ?]. split; [auto|]. split; [auto|].
      intros r' q' Hr Hq. assert (Hin' : (r', q') ∈ (r, q) :: all) by (apply I1; auto).
      apply elem_of_cons in Hin' as [[= -> ->]|Hin']; [lia|].
      apply StronglySorted_inv in Hs as [_ Hs]. rewrite Forall_forall in Hs. apply (Hs (r', q')). auto.
  Qed.

  (** success: whenever some simple route has a quote (and no quote panics), a best route is returned *)
  Lemma output_routes_ok ps rev amount routes :
    (forall r, r ∈ routes -> route_quote R ps rev amount r <> Panic) ->
    exists out, get_output_routes R ps rev amount routes = Ok out.
  Proof.
    induction routes as [|r routes IH]; intros H; cbn [get_output_routes]; [eauto|].
    destruct IH as [o Eo]; [intros; apply H; constructor; auto|].
    destruct (route_quote R ps rev amount r) eqn:E.
    - rewrite Eo. cbn. eauto.
    - eauto.
    - exfalso. apply (H r); auto. constructor.
  Qed.

  Lemma best_route_exists ks ps amount tin tout rev r q :
    keys_ordered ps -> pool_listing ps ks ->
    (forall r', simple_route ps tin tout r' -> route_quote R ps rev amount r' <> Panic) ->
    tin <> tout -> simple_route ps tin tout r -> route_quote R ps rev amount r = Ok q ->
    exists r' q', get_best_route R ks ps amount tin tout rev = Ok (r', q').
  Proof.
    intros Ho Hl Hnp Hne Hr Hq. pose proof Hr as (Hh & Hlast & Hn & Hc).
    pose proof (proj2 (chain_connected ks ps r Ho Hl Hn) Hc) as Hch.
    assert (Hnodes : tin ∈ nodes ks /\ tout ∈ nodes ks).
    { destruct r as [|x r]; [discriminate|]. injection Hh as ->. destruct r as [|y r]; [cbn in Hlast; congruence|].
      apply chain_cons in Hch as [Hy _].
      assert (tin ∈ nodes ks). { apply adj_spec in Hy. eapply (adj_nodes ks tin y). apply adj_spec. tauto. }
      split; auto. apply (simple_nodes ks ps tin (tin :: y :: r) Ho Hl); auto.
      apply last_Some in Hlast as [l' ->]. apply elem_of_app. right. constructor. }
    destruct Hnodes as [Hn1 Hn2].
    destruct (bfs_terminates ks tout tin Hn1) as [_ Hp].
    destruct (output_routes_ok ps rev amount (bfs_loop (bfs_depth ks) ks tout ([(tin, [])], [])).2) as [out Eo].
    { intros r' Hr'. apply Hnp. rewrite Hp in Hr'.
      apply paths_from_sound in Hr' as (suf & -> & Hl' & Hch' & Hnd'); [|apply NoDup_singleton].
      cbn [app] in *. repeat split; auto. apply (chain_connected ks); auto. }
    assert (Ea : get_all_routes R ks ps amount tin tout rev = Ok (sort_desc out)).
    { unfold get_all_routes. rewrite (proj2 (in_graph_spec ks tin) Hn1), (proj2 (in_graph_spec ks tout) Hn2).
      cbn [ensure rbind]. rewrite Eo. reflexivity. }
    destruct (all_routes_spec _ _ _ _ _ _ _ Ho Hl Ea) as (I1 & _ & _).
    assert (Hin : (r, q) ∈ sort_desc out) by (apply I1; auto).
    unfold get_best_route. rewrite Ea. cbn [rbind].
    destruct (sort_desc out) as [|[r0 q0] l] eqn:E; [inversion Hin|].
    rewrite bool_decide_false by discriminate. cbn [negb ensure rbind].
    destruct rev; [|cbn; eauto].
    destruct (last ((r0, q0) :: l)) as [[r1 q1]|] eqn:El; [cbn; eauto|]. apply last_None in El. discriminate.
  Qed.
End quotes.
