(** KV.v -- the key-value store contract: kv-store-contract/src/lib.rs (whole file).

    The map is modelled at the level of its storage records (UMap.v). Strings are byte strings.
    Not modelled: gas, storage staking, and JSON (de)serialisation of arguments and results. *)

From Verif Require Export UMap.
From RecordUpdate Require Import RecordUpdate.

(** lib.rs:15-19; [k_cell]/[k_len] are the records and the length of associated_user_data *)
Record kvstate := mkKV {
  k_owner : string;
  k_operator : string;
  k_cell : cell string;
  k_len : nat;
}.
Global Instance eta_kv : Settable _ := settable! mkKV <k_owner; k_operator; k_cell; k_len>.

(** lib.rs:28-36, on an account without state *)
Definition kv_new (owner operator : string) : kvstate := mkKV owner operator (mkCell ∅ ∅ ∅) 0.

(** lib.rs:57-62 *)
Definition kv_assert_owner (c : ctx) (s : kvstate) : res unit :=
  require (bool_decide (k_owner s = c_pred c)) "Only the owner can call this function.".
(** lib.rs:63-68 *)
Definition kv_assert_operator (c : ctx) (s : kvstate) : res unit :=
  require (bool_decide (k_operator s = c_pred c)) "Only the operator can call this function.".

(** lib.rs:41-46 (payable) *)
Definition kv_set_operator_id (c : ctx) (s : kvstate) (a : string) : res kvstate :=
  _ ← assert_one_yocto c;
  _ ← kv_assert_owner c s;
  Ok (s <| k_operator := a |>).
(** lib.rs:47-52 (payable) *)
Definition kv_set_owner_id (c : ctx) (s : kvstate) (a : string) : res kvstate :=
  _ ← assert_one_yocto c;
  _ ← kv_assert_owner c s;
  Ok (s <| k_owner := a |>).

(** associated_user_data.insert *)
Definition kv_insert (s : kvstate) (kv : string * string) : res kvstate :=
  '(ce, len) ← cinsert (k_cell s) (k_len s) kv.1 kv.2;
  Ok (s <| k_cell := ce |> <| k_len := len |>).

(** lib.rs:75-78 *)
Definition kv_set_value (c : ctx) (s : kvstate) (k v : string) : res kvstate :=
  _ ← non_payable c;
  _ ← kv_assert_operator c s;
  kv_insert s (k, v).
(** lib.rs:80-86 *)
Definition kv_set_values (c : ctx) (s : kvstate) (l : list (string * string)) : res kvstate :=
  _ ← non_payable c;
  _ ← kv_assert_operator c s;
  foldM kv_insert l s.
(** lib.rs:87-90; UnorderedMap::remove returns the removed value *)
Definition kv_remove_value (c : ctx) (s : kvstate) (k : string) : res (kvstate * option string) :=
  _ ← non_payable c;
  _ ← kv_assert_operator c s;
  old ← cget (k_cell s) (k_len s) k;
  '(ce, len) ← cremove (k_cell s) (k_len s) k;
  Ok (s <| k_cell := ce |> <| k_len := len |>, old).

Inductive kvop :=
| KNew (owner operator : string)
| KSetOperator (a : string)
| KSetOwner (a : string)
| KSet (k v : string)
| KSetAll (l : list (string * string))
| KRemove (k : string).

(** the method calls; the result is the JSON return value of remove_value *)
Definition kv_exec (c : ctx) (s : kvstate) (o : kvop) : res (kvstate * option string) :=
  match o with
  | KNew _ _ => Panic "The contract is already initialized"
  | KSetOperator a => s' ← kv_set_operator_id c s a; Ok (s', None)
  | KSetOwner a => s' ← kv_set_owner_id c s a; Ok (s', None)
  | KSet k v => s' ← kv_set_value c s k v; Ok (s', None)
  | KSetAll l => s' ← kv_set_values c s l; Ok (s', None)
  | KRemove k => kv_remove_value c s k
  end.

Definition kvcall : Type := ctx * kvop.
(** a panicking call leaves the state as it was *)
Definition kv_step (s : kvstate) (x : kvcall) : kvstate :=
  match kv_exec x.1 s x.2 with Ok (s', _) => s' | Panic _ => s end.
Definition kv_run (s : kvstate) (tr : list kvcall) : kvstate := fold_left kv_step tr s.

(** ** Views *)
(** lib.rs:97-99 *)
Definition kv_get_value (s : kvstate) (k : string) : res (option string) := cget (k_cell s) (k_len s) k.
(** lib.rs:102-114; start + limit is computed in u64 from two u32, it cannot overflow *)
Definition kv_get_values (s : kvstate) (from limit : nat) : res (list (string * string)) :=
  mapMr (fun i =>
    ok ← vec_get (ce_keys (k_cell s)) (k_len s) i;
    k ← expect ok "unwrap on None";
    ov ← cget (k_cell s) (k_len s) k;
    v ← expect ov "unwrap on None";
    Ok (k, v)) (seq from (min (from + limit) (k_len s) - from)).
(** lib.rs:120-128 *)
Definition kv_get_owner_id (s : kvstate) : string := k_owner s.
Definition kv_get_operator_id (s : kvstate) : string := k_operator s.
Definition kv_get_kv_count (s : kvstate) : nat := k_len s.
