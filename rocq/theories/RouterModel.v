(** * RouterModel: pallets/router/src/lib.rs on top of the AMM model.
    Line numbers refer to pallets/router/src/lib.rs unless another file is named. *)
From Verif Require Import Base MapSum Ledger AmmModel.

(** [Config], lines 66-96: the route bound; the AMM is the pallet of AmmModel.v *)
Record router_cfg := mkRouterCfg { r_amm : amm_cfg; max_len : Z }.

(** [(1..route.len()).any(|i| route[i..].contains(&route[i - 1]))], line 151 *)
Fixpoint contains_duplicate (route : list Z) : bool :=
  match route with
  | [] => false
  | a :: rest => bool_decide (a ∈ rest) || contains_duplicate rest
  end.

Section router.
  Context (R : router_cfg) (P : policy).
  Let C := r_amm R.

  (** [route_checks], lines 139-157 *)
  Definition route_checks (route : list Z) : res unit :=
    let* _ := ensure (negb (bool_decide (route = []))) "EmptyRoute" in
    let* _ := ensure (Z.of_nat (length route) <=? max_len R) "ExceedMaxLengthRoute" in
    ensure (negb (contains_duplicate route)) "DuplicatedRoute".

  (** the loop [for i in 0..(route.len() - 1) { AMM::swap(&trader, (route[i], route[i+1]), amounts[i])? }],
      lines 333-337 and 395-399 ([AMM::swap] is [do_swap], pallets/amm/src/lib.rs:1166-1172) *)
  Fixpoint swap_route (now : Z) (s : amm) (who : account) (route amounts : list Z) : res amm :=
    match route with
    | a :: ((b :: _) as rest) =>
        match amounts with
        | x :: amts =>
            let*' (_, s1) := do_swap C P now s who (a, b) x in
            swap_route now s1 who rest amts
        | [] => Panic
        end
    | _ => Ok s
    end.

  (** [swap_exact_tokens_for_tokens], lines 299-348.  Returns the new state and the amounts reported by the
      [Traded] event (amounts[0], amounts[last]). *)
  Definition swap_exact_tokens_for_tokens (now : Z) (s : amm) (who : account) (route : list Z)
             (amount_in min_amount_out : Z) : res (amm * Z * Z) :=
    let* _ := route_checks route in
    let* _ := ensure ((0 <? amount_in) && (0 <=? min_amount_out)) "ZeroBalance" in
    let from := hd 0 route in
    let* _ := ensure (amount_in <=? reducible P (from =? native C) (led s) from who) "InsufficientBalance" in
    let* amounts := get_amounts_out C (pools s) amount_in route in
    let* last_ := unwrap (last amounts) in
    let* _ := ensure (min_amount_out <=? last_) "MinimumAmountOutViolated" in
    let* s' := swap_route now s who route amounts in
    Ok (s', hd 0 amounts, last_).

  (** [swap_tokens_for_exact_tokens], lines 359-410 *)
  Definition swap_tokens_for_exact_tokens (now : Z) (s : amm) (who : account) (route : list Z)
             (amount_out max_amount_in : Z) : res (amm * Z * Z) :=
    let* _ := route_checks route in
    let* _ := ensure ((0 <? amount_out) && (0 <=? max_amount_in)) "ZeroBalance" in
    let* amounts := get_amounts_in C (pools s) amount_out route in
    let from := hd 0 route in
    let* first_ := unwrap (head amounts) in
    let* _ := ensure (first_ <? reducible P (from =? native C) (led s) from who) "InsufficientBalance" in
    let* _ := ensure (first_ <=? max_amount_in) "MaximumAmountInViolated" in
    let* s' := swap_route now s who route amounts in
    let* last_ := unwrap (last amounts) in
    Ok (s', first_, last_).

  (** ** Route search.  [ks] is the list returned by [AMM::get_pools] ([Pools::iter_keys().collect()],
      pallets/amm/src/lib.rs:1175-1177), in storage (hash) order, which is arbitrary. *)

  (** adjacency list of node [n] in the graph built in lines 170-176 *)
  Fixpoint adj (ks : list (Z * Z)) (n : Z) : list Z :=
    match ks with
    | [] => []
    | (a, b) :: rest => (if a =? n then [b] else []) ++ (if b =? n then [a] else []) ++ adj rest n
    end.
  (** [graph.contains_key(&n)] *)
  Definition in_graph (ks : list (Z * Z)) (n : Z) : bool :=
    existsb (fun k => (k.1 =? n) || (k.2 =? n)) ks.

  (** [Vec::swap_remove(0)]: the last element takes the place of the removed head *)
  Definition swap_remove0 {A} (rest : list A) : list A :=
    match last rest with None => [] | Some x => x :: removelast rest end.

  (** search state: work list of (node, path so far) and the complete paths found.  The [end] component of the
      work items (line 187) is the constant [token_out]. *)
  Definition bfs_state : Type := list (Z * list Z) * list (list Z).

  (** one iteration of the [while] loop, lines 197-221 *)
  Definition bfs_step (ks : list (Z * Z)) (end_ : Z) (st : bfs_state) : bfs_state :=
    match st with
    | ([], acc) => st
    | ((start, path) :: rest, acc) =>
        let path' := path ++ [start] in
        let acc' := if start =? end_ then acc ++ [path'] else acc in
        let diff := filter (fun n => n ∉ path') (adj ks start) in
        (swap_remove0 rest ++ map (fun n => (n, path')) diff, acc')
    end.

  (** the [while !queue.is_empty()] loop: at most 2^d iterations, stopping when the queue is empty.
      [bfs_depth] is large enough that the queue is always empty at the end (proved: [bfs_terminates]). *)
  Fixpoint bfs_loop (d : nat) (ks : list (Z * Z)) (end_ : Z) (st : bfs_state) : bfs_state :=
    match st.1 with
    | [] => st
    | _ => match d with
           | O => bfs_step ks end_ st
           | S d' => bfs_loop d' ks end_ (bfs_loop d' ks end_ st)
           end
    end.
  Definition bfs_depth (ks : list (Z * Z)) : nat :=
    let n := (2 * length ks)%nat in ((n + 1) * (n + 2))%nat.

  (** quote of one route as used in [get_output_routes] *)
  Definition route_quote (ps : gmap (Z * Z) pool) (reversed : bool) (amount : Z) (route : list Z) : res Z :=
    if reversed then
      let* amounts := get_amounts_in C ps amount route in unwrap (head amounts)
    else
      let* amounts := get_amounts_out C ps amount route in unwrap (last amounts).

  (** [get_output_routes], lines 261-285: routes without quote are skipped *)
  Fixpoint get_output_routes (ps : gmap (Z * Z) pool) (reversed : bool) (amount : Z) (routes : list (list Z))
    : res (list (list Z * Z)) :=
    match routes with
    | [] => Ok []
    | r :: rest =>
        match route_quote ps reversed amount r with
        | Ok q => let* out := get_output_routes ps reversed amount rest in Ok ((r, q) :: out)
        | Err _ => get_output_routes ps reversed amount rest
        | Panic => Panic
        end
    end.

  (** [output_routes.sort_by_key(|k| Reverse(k.1))], line 227: stable sort, greatest first *)
  Fixpoint insert_desc (x : list Z * Z) (l : list (list Z * Z)) : list (list Z * Z) :=
    match l with
    | [] => [x]
    | y :: rest => if y.2 <=? x.2 then x :: y :: rest else y :: insert_desc x rest
    end.
  Fixpoint sort_desc (l : list (list Z * Z)) : list (list Z * Z) :=
    match l with [] => [] | x :: rest => insert_desc x (sort_desc rest) end.

  (** [get_all_routes], lines 161-230 *)
  Definition get_all_routes (ks : list (Z * Z)) (ps : gmap (Z * Z) pool) (amount token_in token_out : Z)
             (reversed : bool) : res (list (list Z * Z)) :=
    let* _ := ensure (in_graph ks token_in) "TokenDoesNotExists" in
    let* _ := ensure (in_graph ks token_out) "TokenDoesNotExists" in
    let st := bfs_loop (bfs_depth ks) ks token_out ([(token_in, [])], []) in
    let* out := get_output_routes ps reversed amount st.2 in
    Ok (sort_desc out).

  (** [get_best_route], lines 233-258 *)
  Definition get_best_route (ks : list (Z * Z)) (ps : gmap (Z * Z) pool) (amount token_in token_out : Z)
             (reversed : bool) : res (list Z * Z) :=
    let* all := get_all_routes ks ps amount token_in token_out reversed in
    let* _ := ensure (negb (bool_decide (all = []))) "NoPossibleRoute" in
    if reversed then unwrap (last all) else unwrap (head all).
End router.
