(** KVBytes.v -- the key-value store contract from the text of a call to the bytes in storage:
    kv-store-contract/src/lib.rs with the code that #[near_bindgen] generates around its methods,
    Borsh, and near_sdk collections::UnorderedMap on the account's storage.

    near-sdk 4.1 and Borsh are not in /repo; they are written from the published libraries.
    Simplified: Borsh's check that a decoded string is UTF-8 is left out. *)

From Verif Require Export Flat Ask.

(** ** near_sdk collections::UnorderedMap, with the prefixes and lengths of its handle *)

(** UnorderedMap::len *)
Definition b_len (h : umh) : res N :=
  _ ← require (um_klen h =? um_vlen h) "inconsistent state"; Ok (um_klen h).
(** UnorderedMap::get_raw *)
Definition b_get (st : flat) (h : umh) (kraw : string) : res (option string) :=
  match st !! (um_pre h +:+ kraw) with
  | None => Ok None
  | Some b =>
      i ← fidx b;
      o ← fvec_get st (um_vpre h) (N.to_nat (um_vlen h)) i;
      match o with Some v => Ok (Some v) | None => Panic "inconsistent state" end
  end.
(** UnorderedMap::insert_raw: Vector::replace_raw, or Vector::push_raw twice; with the value that was there *)
Definition b_insert (st : flat) (h : umh) (kraw vraw : string) : res (flat * umh * option string) :=
  match st !! (um_pre h +:+ kraw) with
  | Some b =>
      i ← fidx b;
      _ ← require (i <? N.to_nat (um_vlen h))%nat "index out of bounds";
      match st !! vec_key (um_vpre h) i with
      | Some old => Ok (<[vec_key (um_vpre h) i := vraw]> st, h, Some old)
      | None => Panic "inconsistent state"
      end
  | None =>
      n ← b_len h;
      let st1 := <[um_pre h +:+ kraw := enc_uint 8 n]> st in
      kl ← add64 (um_klen h) 1;
      let st2 := <[vec_key (um_kpre h) (N.to_nat (um_klen h)) := kraw]> st1 in
      vl ← add64 (um_vlen h) 1;
      let st3 := <[vec_key (um_vpre h) (N.to_nat (um_vlen h)) := vraw]> st2 in
      Ok (st3, mkUmh (um_pre h) kl (um_kpre h) vl (um_vpre h), None)
  end.
(** UnorderedMap::remove_raw; with the value Vector::swap_remove_raw takes out *)
Definition b_remove (st : flat) (h : umh) (kraw : string) : res (flat * umh * option string) :=
  match st !! (um_pre h +:+ kraw) with
  | None => Ok (st, h, None)
  | Some b =>
      n ← b_len h;
      st1 ← (if n =? 1 then Ok (delete (um_pre h +:+ kraw) st)
             else if n =? 0 then Panic "attempt to subtract with overflow"
             else
               ol ← fvec_get st (um_kpre h) (N.to_nat (um_klen h)) (N.to_nat (n - 1));
               match ol with
               | None => Panic "inconsistent state"
               | Some lk =>
                   let d := delete (um_pre h +:+ kraw) st in
                   Ok (if bool_decide (lk = kraw) then d else <[um_pre h +:+ lk := b]> d)
               end);
      i ← fidx b;
      st2 ← fvec_swap_remove st1 (um_kpre h) (N.to_nat (um_klen h)) i;
      old ← fvec_get st2 (um_vpre h) (N.to_nat (um_vlen h)) i;
      st3 ← fvec_swap_remove st2 (um_vpre h) (N.to_nat (um_vlen h)) i;
      Ok (st3, mkUmh (um_pre h) (um_klen h - 1) (um_kpre h) (um_vlen h - 1) (um_vpre h), old)
  end.
(** deserialize_value, deserialize_element of a String *)
Definition de_str (b : string) : res string :=
  expect (try_from_slice dec_str b) "Cannot deserialize value with Borsh".
Definition de_opt (o : option string) : res (option string) :=
  match o with None => Ok None | Some b => s ← de_str b; Ok (Some s) end.
(** UnorderedMap<String, String>: get, insert, remove; Vector<String>::get *)
Definition s_get (st : flat) (h : umh) (k : string) : res (option string) := o ← b_get st h (enc_str k); de_opt o.
Definition s_insert (st : flat) (h : umh) (k v : string) : res (flat * umh) :=
  '(st', h', old) ← b_insert st h (enc_str k) (enc_str v); _ ← de_opt old; Ok (st', h').
Definition s_remove (st : flat) (h : umh) (k : string) : res (flat * umh * option string) :=
  '(st', h', old) ← b_remove st h (enc_str k); o ← de_opt old; Ok (st', h', o).
Definition s_key_at (st : flat) (h : umh) (i : nat) : res (option string) :=
  o ← fvec_get st (um_kpre h) (N.to_nat (um_klen h)) i; de_opt o.

(** ** The contract *)

(** lib.rs:15-19, in the order of the fields *)
Record kvroot := mkKVRoot { r_owner : string; r_operator : string; r_data : umh }.
Definition enc_root (r : kvroot) : string := enc_str (r_owner r) +:+ enc_str (r_operator r) +:+ enc_umh (r_data r).
(** AccountId, read with the check that it is one *)
Definition dec_id (b : string) : option (string * string) :=
  '(s, b) ← dec_str b; if valid_id s then Some (s, b) else None.
Definition dec_root (b : string) : option (kvroot * string) :=
  '(a, b) ← dec_id b; '(o, b) ← dec_id b; '(h, b) ← dec_umh b; Some (mkKVRoot a o h, b).

(** env::state_read().unwrap_or_default() with PanicOnDefault *)
Definition kb_load (st : flat) : res kvroot :=
  b ← expect (st !! "STATE") "The contract is not initialized";
  expect (try_from_slice dec_root b) "Cannot deserialize the contract state.".
(** env::state_write *)
Definition kb_save (st : flat) (r : kvroot) : flat := <["STATE" := enc_root r]> st.

(** UnorderedMap::new *)
Definition umh_new (p : string) : umh := mkUmh (p +:+ "i") 0 (p +:+ "k") 0 (p +:+ "v").
(** lib.rs:28-36; StorageKey, lib.rs:21-24 *)
Definition kb_new (st : flat) (owner operator : string) : res flat :=
  _ ← require (negb (bool_decide (is_Some (st !! "STATE")))) "The contract is already initialized";
  Ok (kb_save st (mkKVRoot owner operator (umh_new (sk0 0)))).

(** lib.rs:57-62 and 63-68 *)
Definition kb_owner (c : ctx) (r : kvroot) : res unit :=
  require (bool_decide (r_owner r = c_pred c)) "Only the owner can call this function.".
Definition kb_operator (c : ctx) (r : kvroot) : res unit :=
  require (bool_decide (r_operator r = c_pred c)) "Only the operator can call this function.".

(** The methods that change state: storage, root and the text they return (none, or the JSON of
    remove_value's result). *)
Definition kb_exec (c : ctx) (st : flat) (r : kvroot) (o : kvop) : res (flat * kvroot * string) :=
  let keep h := mkKVRoot (r_owner r) (r_operator r) h in
  match o with
  | KNew _ _ => Panic "not a method"
  (* lib.rs:41-46 (payable) *)
  | KSetOperator a => _ ← assert_one_yocto c; _ ← kb_owner c r; Ok (st, mkKVRoot (r_owner r) a (r_data r), "")
  (* lib.rs:47-52 (payable) *)
  | KSetOwner a => _ ← assert_one_yocto c; _ ← kb_owner c r; Ok (st, mkKVRoot a (r_operator r) (r_data r), "")
  (* lib.rs:75-78 *)
  | KSet k v => _ ← non_payable c; _ ← kb_operator c r; '(st, h) ← s_insert st (r_data r) k v; Ok (st, keep h, "")
  (* lib.rs:80-86 *)
  | KSetAll l =>
      _ ← non_payable c; _ ← kb_operator c r;
      '(st, h) ← foldM (fun x kv => s_insert x.1 x.2 kv.1 kv.2) l (st, r_data r); Ok (st, keep h, "")
  (* lib.rs:87-90 *)
  | KRemove k => _ ← non_payable c; _ ← kb_operator c r; '(st, h, old) ← s_remove st (r_data r) k; Ok (st, keep h, write (opt VStr old))
  end.
(** the views, lib.rs:97-114, 120-128, with the JSON they return *)
Definition kb_answer (st : flat) (r : kvroot) (q : kvq) : res string :=
  match q with
  | KQGet k => o ← s_get st (r_data r) k; Ok (write (opt VStr o))
  | KQPage from limit =>
      let start := N.to_nat from in
      l ← mapMr (fun i =>
            ok ← s_key_at st (r_data r) i;
            k ← expect ok "unwrap on None";
            ov ← s_get st (r_data r) k;
            v ← expect ov "unwrap on None";
            Ok (k, v)) (seq start (min (start + N.to_nat limit) (N.to_nat (um_klen (r_data r))) - start));
      Ok (write (texts l))
  | KQOwner => Ok (write (VStr (r_owner r)))
  | KQOperator => Ok (write (VStr (r_operator r)))
  | KQCount => n ← b_len (r_data r); Ok (write (VBig n))
  end.

(** A call as it arrives: the method's name and the text of its arguments.  The result is the new storage and the text returned. *)
Definition kb_call (st : flat) (c : ctx) (m a : string) : res (flat * string) :=
  if bool_decide (m = "new") then
    match read_args [("owner_id", TAcc); ("operator_id", TAcc)] a with
    | Some [VStr owner; VStr operator] => _ ← non_payable c; st' ← kb_new st owner operator; Ok (st', "")
    | _ => Panic "Failed to deserialize input from JSON."
    end
  else
    match kv_entry m a with
    | Some o => r ← kb_load st; '(st', r', t) ← kb_exec c st r o; Ok (kb_save st' r', t)
    | None =>
        match enter kv_views m a with
        | Some q => r ← kb_load st; t ← kb_answer st r q; Ok (st, t)
        | None => Panic "MethodNotFound, or failed to deserialize input from JSON."
        end
    end.
(** a panicking call leaves the storage as it was *)
Definition bcall : Type := ctx * string * string.
Definition kb_step (st : flat) (x : bcall) : flat :=
  match kb_call st x.1.1 x.1.2 x.2 with Ok (st', _) => st' | Panic _ => st end.
(** on an account without storage *)
Definition kb_run (tr : list bcall) : flat := fold_left kb_step tr ∅.
