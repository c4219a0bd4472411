(** * MigModel: the storage upgrades of the crowdloans pallet (pallets/crowdloans/src/migrations.rs).

    Line numbers without a file are pallets/crowdloans/src/migrations.rs.  The storage version and the pallet's storage are a
    pair; weights and logs are not modelled.  [pre_migrate] is only called by the try-runtime tool (runtime/parallel/src/lib.rs:
    2143-2146), so it is a separate predicate and not part of [migrate].  The only upgrade wired into a runtime of this commit is
    v4, in runtime/parallel/src/lib.rs:2070-2077, 2137-2141. *)
From Verif Require Import Base MapSum Ledger AmmModel StreamModel CrowdModel.

(** one row of the [batch] vectors: paraId, ctoken, contributed, cap, end_block, trie_index, lease_start, lease_end *)
Record mig_row := mkRow { g_para : Z; g_ctoken : Z; g_raised : Z; g_cap : Z; g_end : Z; g_trie : Z; g_ls : Z; g_le : Z }.
(** [Releases], types.rs:136-141: V0_0_0 .. V3_0_0 as 0 .. 3 *)
Definition release := Z.

(** the vault inserted for a row, 61-73, 189-201, 339-351 *)
Definition row_vault (p : phase) (g : mig_row) : vault :=
  mkVault (g_ctoken g) p (g_raised g) 0 0 false (g_cap g) (g_end g) (g_trie g) (g_ls g) (g_le g).
Definition row_key (g : mig_row) : Z * Z * Z := (g_para g, g_ls g, g_le g).
(** the three insertions of one row, 75-77, 203-205, 353-355 *)
Definition put_row (p : phase) (s : cr) (g : mig_row) : cr :=
  let s1 := put_vault s (row_key g) (row_vault p g) in
  let s2 := set_c_ctok s1 (<[(g_ls g, g_le g) := g_ctoken g]> (c_ctok s1)) in
  set_c_leases s2 (<[g_para g := (g_ls g, g_le g)]> (c_leases s2)).
Definition put_rows (p : phase) (s : cr) (l : list mig_row) : cr := fold_left (put_row p) l s.

(** v1, 44-57: the trie index is the next free one *)
Definition batch1 (next : Z) : list mig_row := [mkRow 2085 100150022 57307000000000000 400000000000000000 9676800 next 15 22].
(** v2, 128-184 *)
Definition batch2 : list mig_row :=
  [mkRow 2026 200070014 17574741856000000 250000000000000000 9388800 9 7 14;
   mkRow 2032 200070014 4898587497400000 500000000000000000 9388800 10 7 14;
   mkRow 2011 200070014 4898587497400000 30000000000000000 9671800 11 7 14;
   mkRow 2035 200070014 3071389985000000 30000000000000000 9671800 12 7 14;
   mkRow 2037 200080015 2769629790000000 150000000000000000 10881401 13 8 15].
(** v3, 260-334 *)
Definition batch3 : list mig_row :=
  [mkRow 2040 200080015 5058525762400000 150000000000000000 10881401 25 8 15;
   mkRow 2013 200080015 1891535952620463 150000000000000000 10881401 26 8 15;
   mkRow 2030 200080015 222383369000000 150000000000000000 10881401 27 8 15;
   mkRow 2027 200080015 574831000000000 150000000000000000 10881401 28 8 15;
   mkRow 2043 200080015 2599910262000000 150000000000000000 10881401 29 8 15;
   mkRow 2007 200080015 320506980000000 150000000000000000 10881401 30 8 15].
(** v4, 409-421 *)
Definition batch4 : list mig_row := [mkRow 2040 200080015 3000000000000000 150000000000000000 10881401 25 8 15].

(** v1 [migrate], 36-90 ([next_trie_index + 1] is checked: overflow-checks) *)
Definition migrate1 (x : release * cr) : res (release * cr) :=
  let '(v, s) := x in
  if v =? 0 then
    if c_next s + 1 <=? U32MAX then Ok (1, set_c_next (put_rows Succeeded s (batch1 (c_next s))) (c_next s + 1)) else Panic
  else Ok x.
(** v2 [migrate], 121-222 *)
Definition migrate2 (x : release * cr) : res (release * cr) :=
  let '(v, s) := x in if v =? 1 then Ok (2, set_c_next (put_rows Succeeded s batch2) 14) else Ok x.
(** v3 [migrate], 253-372 *)
Definition migrate3 (x : release * cr) : res (release * cr) :=
  let '(v, s) := x in if v =? 2 then Ok (3, set_c_next (put_rows Expired s batch3) 31) else Ok x.
(** the body of the loop of v4, 423-444 *)
Definition fix_row (s : cr) (g : mig_row) : cr :=
  match c_vaults s !! row_key g with
  | Some v => if bool_decide (v_phase v = Expired) then put_vault s (row_key g) (v_set_contr v (g_raised g)) else s
  | None => s
  end.
(** v4 [migrate], 402-455: the storage version is not written *)
Definition migrate4 (x : release * cr) : res (release * cr) :=
  let '(v, s) := x in if v =? 3 then Ok (v, fold_left fix_row batch4 s) else Ok x.

Inductive upgrade := V1 | V2 | V3 | V4.
Definition migrate (u : upgrade) : release * cr -> res (release * cr) :=
  match u with V1 => migrate1 | V2 => migrate2 | V3 => migrate3 | V4 => migrate4 end.
(** [pre_migrate], 26-33, 112-119, 244-251, 393-400 *)
Definition pre_migrate (u : upgrade) (x : release * cr) : bool :=
  match u with
  | V1 => (x.1 =? 0) && (c_next x.2 =? 10) | V2 => (x.1 =? 1) && (c_next x.2 =? 9)
  | V3 => (x.1 =? 2) && (c_next x.2 =? 24) | V4 => (x.1 =? 3) && (c_next x.2 =? 31)
  end.
(** [on_runtime_upgrade] of the Parallel runtime, runtime/parallel/src/lib.rs:2137-2141: run by every upgrade of the runtime that
    contains this code *)
Definition on_runtime_upgrade : release * cr -> res (release * cr) := migrate V4.
