(** TokBytes.v -- the token contract from the text of a call to the bytes in storage: test-meta-token/src/lib.rs with the code
    that #[near_bindgen] generates around its methods, Borsh, and near_sdk collections::{LookupMap, LazyOption}.

    near-sdk 5, near-contract-standards 5.0.0 and Borsh are not in /repo; they are written from the published libraries.
    Simplified: Borsh's check that a decoded string is UTF-8 is left out.  Not modelled: gas, events and log lines (TokenLog.v has
    them), [new] with metadata given by the caller. *)

From Verif Require Export KVBytes TokenNear.

(** ** Storage *)

(** lib.rs:40-45; near-contract-standards core.rs FungibleToken { accounts, total_supply, account_storage_usage } *)
Record tbroot := mkTB { b_accounts : string; b_supply : N; b_usage : N; b_meta : string; b_owner : string; b_minters : list string }.
Definition enc_ids (l : list string) : string := enc_uint 4 (N.of_nat (length l)) +:+ fold_right (fun s b => enc_str s +:+ b) "" l.
Fixpoint dec_many (n : nat) (b : string) : option (list string * string) :=
  match n with O => Some ([], b) | S n => '(s, b) ← dec_id b; '(l, b) ← dec_many n b; Some (s :: l, b) end.
Definition dec_ids (b : string) : option (list string * string) := '(n, b) ← dec_uint 4 b; dec_many (N.to_nat n) b.
Definition enc_tb (r : tbroot) : string :=
  enc_str (b_accounts r) +:+ enc_uint 16 (b_supply r) +:+ enc_uint 8 (b_usage r) +:+ enc_str (b_meta r) +:+ enc_str (b_owner r) +:+ enc_ids (b_minters r).
Definition dec_tb (b : string) : option (tbroot * string) :=
  '(p, b) ← dec_str b; '(s, b) ← dec_uint 16 b; '(u, b) ← dec_uint 8 b; '(k, b) ← dec_str b; '(o, b) ← dec_id b; '(l, b) ← dec_ids b;
  Some (mkTB p s u k o l, b).
(** env::state_read().unwrap_or_default() with PanicOnDefault; env::state_write *)
Definition tb_load (st : flat) : res tbroot :=
  b ← expect (st !! "STATE") "The contract is not initialized";
  expect (try_from_slice dec_tb b) "Cannot deserialize the contract state.".
Definition tb_save (st : flat) (r : tbroot) : flat := <["STATE" := enc_tb r]> st.

(** LookupMap<AccountId, Balance>: get, insert, remove (with the value that was there) *)
Definition l_key (r : tbroot) (a : string) : string := b_accounts r +:+ enc_str a.
Definition l_get (st : flat) (r : tbroot) (a : string) : res (option N) :=
  match st !! l_key r a with
  | None => Ok None
  | Some b => n ← expect (try_from_slice (dec_uint 16) b) "Cannot deserialize value with Borsh"; Ok (Some n)
  end.
Definition l_set (st : flat) (r : tbroot) (a : string) (n : N) : res (flat * option N) :=
  o ← l_get st r a; Ok (<[l_key r a := enc_uint 16 n]> st, o).
Definition l_del (st : flat) (r : tbroot) (a : string) : res (flat * option N) :=
  o ← l_get st r a; Ok (delete (l_key r a) st, o).

(** what records cost: their bytes and 40 more; env::storage_usage without what is always there *)
Definition usage (st : flat) : N := map_fold (fun k v n => N.of_nat (String.length k) + N.of_nat (String.length v) + 40 + n) 0 st.
Definition BYTE_COST : N := 10 ^ 19.

(** ** FungibleToken *)
Definition with_supply (r : tbroot) (n : N) : tbroot := mkTB (b_accounts r) n (b_usage r) (b_meta r) (b_owner r) (b_minters r).
(** core_impl.rs measure_account_storage_usage: with an account id of 64 bytes *)
Definition tmp_id : string := "aaaaaaaaaaaaaaaaaaaaaaaaaaaaaaaaaaaaaaaaaaaaaaaaaaaaaaaaaaaaaaaa".
Definition tb_measure (st : flat) (r : tbroot) : res (flat * tbroot) :=
  '(st1, _) ← l_set st r tmp_id 0;
  n ← sub128 (usage st1) (usage st);
  '(st2, _) ← l_del st1 r tmp_id;
  Ok (st2, mkTB (b_accounts r) (b_supply r) n (b_meta r) (b_owner r) (b_minters r)).
(** core_impl.rs internal_unwrap_balance_of, internal_deposit, internal_withdraw, internal_transfer, internal_register_account *)
Definition tb_balance (st : flat) (r : tbroot) (a : string) : res N := o ← l_get st r a; expect o "The account is not registered".
Definition tb_deposit (st : flat) (r : tbroot) (a : string) (n : N) : res (flat * tbroot) :=
  b ← tb_balance st r a;
  _ ← require (b + n <? U128_SIZE) "Balance overflow";
  '(st', _) ← l_set st r a (b + n);
  _ ← require (b_supply r + n <? U128_SIZE) "Total supply overflow";
  Ok (st', with_supply r (b_supply r + n)).
Definition tb_withdraw (st : flat) (r : tbroot) (a : string) (n : N) : res (flat * tbroot) :=
  b ← tb_balance st r a;
  _ ← require (n <=? b) "The account doesn't have enough balance";
  '(st', _) ← l_set st r a (b - n);
  _ ← require (n <=? b_supply r) "Total supply overflow";
  Ok (st', with_supply r (b_supply r - n)).
Definition tb_transfer (st : flat) (r : tbroot) (sender receiver : string) (n : N) : res (flat * tbroot) :=
  _ ← require (negb (bool_decide (sender = receiver))) "Sender and receiver should be different";
  _ ← require (0 <? n) "The amount should be a positive number";
  '(st1, r1) ← tb_withdraw st r sender n;
  tb_deposit st1 r1 receiver n.
Definition tb_register (st : flat) (r : tbroot) (a : string) : res flat :=
  '(st', o) ← l_set st r a 0;
  match o with None => Ok st' | Some _ => Panic "The account is already registered" end.
(** core_impl.rs internal_ft_resolve_transfer; [result]: env::promise_result(0), None if it failed *)
Definition tb_resolve (st : flat) (r : tbroot) (sender receiver : string) (amount : N) (result : option string) : res (flat * tbroot * N) :=
  let unused := match result ≫= read_u128 with Some u => N.min amount u | None => amount end in
  if 0 <? unused then
    ob ← l_get st r receiver;
    let rb := default 0 ob in
    if 0 <? rb then
      let refund := N.min rb unused in
      '(st1, _) ← l_set st r receiver (rb - refund);
      os ← l_get st1 r sender;
      match os with
      | Some sb =>
          _ ← require (sb + refund <? U128_SIZE) "Sender balance overflow";
          '(st2, _) ← l_set st1 r sender (sb + refund);
          Ok (st2, r, amount - refund)
      | None =>
          _ ← require (refund <=? b_supply r) "Total supply underflow";
          Ok (st1, with_supply r (b_supply r - refund), amount)
      end
    else Ok (st, r, amount)
  else Ok (st, r, amount).
(** storage_impl.rs storage_balance_bounds, internal_storage_balance_of *)
Definition tb_min (r : tbroot) : res N := mul128 BYTE_COST (b_usage r).
Definition balance_val (min : N) : val := VRec [("total", VBig min); ("available", VBig 0)].
Definition tb_storage_of (st : flat) (r : tbroot) (a : string) : res (option val) :=
  if bool_decide (is_Some (st !! l_key r a)) then m ← tb_min r; Ok (Some (balance_val m)) else Ok None.
(** storage_impl.rs storage_deposit: with the transfers of NEAR *)
Definition tb_storage_deposit (c : ctx) (st : flat) (r : tbroot) (oa : option string) : res (flat * string * list (string * N)) :=
  let a := default (c_pred c) oa in
  '(st', out) ←
    (if bool_decide (is_Some (st !! l_key r a)) then Ok (st, if 0 <? c_deposit c then [(c_pred c, c_deposit c)] else [])
     else
       m ← tb_min r;
       _ ← require (m <=? c_deposit c) "The attached deposit is less than the minimum storage balance";
       st' ← tb_register st r a;
       Ok (st', if 0 <? c_deposit c - m then [(c_pred c, c_deposit c - m)] else []));
  o ← tb_storage_of st' r a;
  v ← expect o "unwrap on None";
  Ok (st', write v, out).
(** storage_impl.rs storage_withdraw *)
Definition tb_storage_withdraw (c : ctx) (st : flat) (r : tbroot) (amount : option N) : res string :=
  _ ← assert_one_yocto c;
  o ← tb_storage_of st r (c_pred c);
  v ← expect o "The account is not registered";
  _ ← require (match amount with Some n => negb (0 <? n) | None => true end) "The amount is greater than the available storage balance";
  Ok (write v).
(** storage_impl.rs internal_storage_unregister, lib.rs:240-249 *)
Definition tb_unregister (c : ctx) (st : flat) (r : tbroot) (force : bool) : res (flat * tbroot * string * list (string * N)) :=
  _ ← assert_one_yocto c;
  o ← l_get st r (c_pred c);
  match o with
  | Some b =>
      _ ← require ((b =? 0) || force) "Can't unregister the account with the positive balance without force";
      '(st', _) ← l_del st r (c_pred c);
      n ← sub128 (b_supply r) b;
      m ← tb_min r;
      m1 ← add128 m 1;
      Ok (st', with_supply r n, write (VBool true), [(c_pred c, m1)])
  | None => Ok (st, r, write (VBool false), [])
  end.

(** ** The contract *)

(** FungibleTokenMetadata { spec, name, symbol, icon, reference, reference_hash, decimals } as in lib.rs:62-76 and lib.rs:47 *)
Definition ICON : string := "data:image/svg+xml,%3csvg width='96' height='96' viewBox='0 0 96 96' fill='none' xmlns='http://www.w3.org/2000/svg'%3e%3crect width='96' height='96' rx='48' fill='white'/%3e%3cpath d='M29.2241 28.7456C28.396 27.9423 27.0094 28.5289 27.0091 29.6825L27 66.6773C26.9997 67.8501 28.4257 68.4286 29.2426 67.5872L48.6529 47.5943L29.2241 28.7456Z' fill='%23231B51'/%3e%3cpath d='M66.7759 28.7456C67.604 27.9423 68.9906 28.5289 68.9909 29.6825L69 66.6773C69.0003 67.8501 67.5743 68.4286 66.7574 67.5872L47.3471 47.5943L66.7759 28.7456Z' fill='%23231B51'/%3e%3c/svg%3e".
Record tmeta := mkMeta { md_spec : string; md_name : string; md_symbol : string; md_icon : option string; md_decimals : N }.
(** reference and reference_hash are None *)
Definition enc_meta (m : tmeta) : string :=
  enc_str (md_spec m) +:+ enc_str (md_name m) +:+ enc_str (md_symbol m) +:+ enc_opt (md_icon m) +:+ enc_opt None +:+ enc_opt None +:+ enc_uint 1 (md_decimals m).
Definition dec_meta (b : string) : option (tmeta * string) :=
  '(s, b) ← dec_str b; '(n, b) ← dec_str b; '(y, b) ← dec_str b; '(i, b) ← dec_opt b; '(r1, b) ← dec_opt b; '(r2, b) ← dec_opt b; '(d, b) ← dec_uint 1 b;
  match r1, r2 with None, None => Some (mkMeta s n y i d, b) | _, _ => None end.
Definition meta_val (m : tmeta) : val :=
  VRec [("spec", VStr (md_spec m)); ("name", VStr (md_name m)); ("symbol", VStr (md_symbol m)); ("icon", opt VStr (md_icon m));
        ("reference", VNone); ("reference_hash", VNone); ("decimals", VNum (md_decimals m))].
Definition DEFAULT_META : tmeta := mkMeta "ft-1.0.0" "metapool.app DAO Governance Token" "mpDAO" (Some ICON) 6.
(** lib.rs:61-77, 82-98; FungibleToken::new, LazyOption::new *)
Definition tb_new (st : flat) (owner : string) (supply : N) : res flat :=
  _ ← require (negb (bool_decide (is_Some (st !! "STATE")))) "The contract is already initialized";
  '(st1, r1) ← tb_measure st (mkTB (sk0 0) 0 0 "" "" []);
  let st2 := <[sk0 1 := enc_meta DEFAULT_META]> st1 in
  let r := mkTB (b_accounts r1) (b_supply r1) (b_usage r1) (sk0 1) owner [] in
  st3 ← tb_register st2 r owner;
  '(st4, r4) ← tb_deposit st3 r owner supply;
  Ok (tb_save st4 r4).
(** lib.rs:100-105 *)
Definition tb_assert_owner (c : ctx) (r : tbroot) : res unit := require (bool_decide (c_pred c = b_owner r)) "can only be called by the owner".

(** A call returns a text; it may issue the promises of ft_transfer_call (whose result is then the promise's) and transfers of NEAR. *)
Definition tout : Type := string * list teff * list (string * N).
Definition tb_exec (c : ctx) (st : flat) (r : tbroot) (o : top) : res (flat * tbroot * tout) :=
  let own a l := mkTB (b_accounts r) (b_supply r) (b_usage r) (b_meta r) a l in
  match o with
  (* lib.rs:111-115 *)
  | TSetOwner a => _ ← tb_assert_owner c r; _ ← require (valid_id a) "assertion failed"; Ok (st, own a (b_minters r), ("", [], []))
  (* lib.rs:119-127 *)
  | TAddMinter a =>
      _ ← assert_one_yocto c; _ ← tb_assert_owner c r;
      _ ← require (negb (bool_decide (a ∈ b_minters r))) "already in the list";
      Ok (st, own (b_owner r) (b_minters r ++ [a]), ("", [], []))
  (* lib.rs:130-139 *)
  | TRemoveMinter a =>
      _ ← assert_one_yocto c; _ ← tb_assert_owner c r;
      match list_find (eq a) (b_minters r) with
      | Some (i, _) => Ok (st, own (b_owner r) (swap_remove i (b_minters r)), ("", [], []))
      | None => Panic "not a minter"
      end
  (* lib.rs:151-162 *)
  | TMint n =>
      _ ← assert_one_yocto c; _ ← require (bool_decide (c_pred c ∈ b_minters r)) "not a minter";
      '(st', r') ← tb_deposit st r (c_pred c) n; Ok (st', r', ("", [], []))
  (* lib.rs:166-176 *)
  | TBurn n => _ ← assert_one_yocto c; '(st', r') ← tb_withdraw st r (c_pred c) n; Ok (st', r', ("", [], []))
  (* lib.rs:182-184 *)
  | TTransfer a n => _ ← assert_one_yocto c; '(st', r') ← tb_transfer st r (c_pred c) a n; Ok (st', r', ("", [], []))
  (* lib.rs:187-195 *)
  | TTransferCall a n m =>
      _ ← assert_one_yocto c; '(st', r') ← tb_transfer st r (c_pred c) a n; Ok (st', r', ("", [OnTransfer (c_pred c) a n m], []))
  | TResolve _ _ _ _ => Panic "not among the calls from outside"
  (* lib.rs:228-234 *)
  | TStorageDeposit a => '(st', t, out) ← tb_storage_deposit c st r a; Ok (st', r, (t, [], out))
  (* lib.rs:237-239 *)
  | TStorageWithdraw n => t ← tb_storage_withdraw c st r n; Ok (st, r, (t, [], []))
  (* lib.rs:242-249 *)
  | TUnregister f => '(st', r', t, out) ← tb_unregister c st r f; Ok (st', r', (t, [], out))
  end.
(** lib.rs:107-109, 141-143, 197-203, 251-257 *)
Definition tb_answer (st : flat) (r : tbroot) (q : tokq) : res string :=
  match q with
  | TQOwner => Ok (write (VStr (b_owner r)))
  | TQMinters => Ok (write (items VStr (b_minters r)))
  | TQSupply => Ok (write (VBig (b_supply r)))
  | TQBalance a => o ← l_get st r a; Ok (write (VBig (default 0 o)))
  | TQBounds => m ← tb_min r; Ok (write (VRec [("min", VBig m); ("max", VSome (VBig m))]))
  | TQStorage a => o ← tb_storage_of st r a; Ok (write (match o with Some v => VSome v | None => VNone end))
  end.

(** A call as it arrives at the account [self]: the method's name, the text of its arguments and, for a callback, the result of the
    promise before it (None: it failed). *)
Definition tb_call (self : string) (st : flat) (c : ctx) (pr : option (option string)) (m a : string) : res (flat * tout) :=
  if bool_decide (m = "new_default_meta") then
    match read_args [("owner_id", TAcc); ("total_supply", U128)] a with
    | Some [VStr owner; VBig n] => _ ← non_payable c; st' ← tb_new st owner n; Ok (st', ("", [], []))
    | _ => Panic "Failed to deserialize input from JSON."
    end
  else if bool_decide (m = "ft_resolve_transfer") then
    (* lib.rs:208-222 *)
    match read_args [("sender_id", TAcc); ("receiver_id", TAcc); ("amount", U128)] a with
    | Some [VStr s; VStr v; VBig n] =>
        _ ← non_payable c; _ ← assert_private c self;
        r ← tb_load st;
        p ← expect pr "one promise result is expected";
        '(st', r', used) ← tb_resolve st r s v n p;
        Ok (tb_save st' r', (write (VBig used), [], []))
    | _ => Panic "Failed to deserialize input from JSON."
    end
  else if bool_decide (m = "assert_minter") then
    (* lib.rs:145-147 *)
    match read_args [("account_id", TAcc)] a with
    | Some [VStr x] => r ← tb_load st; _ ← require (bool_decide (x ∈ b_minters r)) "not a minter"; Ok (st, ("", [], []))
    | _ => Panic "Failed to deserialize input from JSON."
    end
  else if bool_decide (m = "ft_metadata") then
    (* lib.rs:260-264 *)
    r ← tb_load st;
    b ← expect (st !! b_meta r) "unwrap on None";
    md ← expect (try_from_slice dec_meta b) "Cannot deserialize value with Borsh";
    Ok (st, (write (meta_val md), [], []))
  else
    match tok_entry m a with
    | Some o => r ← tb_load st; '(st', r', out) ← tb_exec c st r o; Ok (tb_save st' r', out)
    | None =>
        match enter tok_views m a with
        | Some q => r ← tb_load st; t ← tb_answer st r q; Ok (st, (t, [], []))
        | None => Panic "MethodNotFound, or failed to deserialize input from JSON."
        end
    end.
Definition tbcall : Type := ctx * option (option string) * string * string.
Definition tb_step (self : string) (st : flat) (x : tbcall) : flat :=
  match tb_call self st x.1.1.1 x.1.1.2 x.1.2 x.2 with Ok (st', _) => st' | Panic _ => st end.
Definition tb_run (self : string) (tr : list tbcall) : flat := fold_left (tb_step self) tr ∅.
