(** Flat.v -- the records of a contract's storage, byte by byte: keys of all collections, and the
    operations of near_sdk collections::UnorderedMap on one flat key-value store.

    near-sdk 4.1 (collections/unordered_map/mod.rs, collections/vector.rs, store/lookup_map) is not
    in /repo; its layout is written from the published library.  store::LookupMap is taken with its
    default hasher (Identity: prefix, then the Borsh bytes of the key). *)

From Verif Require Export Migrate.

Notation flat := (gmap string string) (only parsing).

(** Vector::index_to_lookup_key: the prefix and the index as u64 *)
Definition vec_key (p : string) (i : nat) : string := p +:+ enc_uint 8 (N.of_nat i).
(** UnorderedMap::new: the prefix and "i", "k" or "v"; the key of an index record goes on with the
    Borsh bytes of the map key *)
Definition idx_key_raw (p kraw : string) : string := p +:+ "i" +:+ kraw.
Definition keys_pref (p : string) : string := p +:+ "k".
Definition vals_pref (p : string) : string := p +:+ "v".

(** Vector::get_raw *)
Definition fvec_get (st : flat) (q : string) (len i : nat) : res (option string) :=
  if (i <? len)%nat then
    match st !! vec_key q i with Some b => Ok (Some b) | None => Panic "inconsistent state" end
  else Ok None.

(** Vector::pop_raw on a non-empty vector *)
Definition fvec_pop (st : flat) (q : string) (len : nat) : res (flat * string) :=
  let k := vec_key q (len - 1) in
  match st !! k with Some b => Ok (delete k st, b) | None => Panic "inconsistent state" end.

(** Vector::swap_remove_raw *)
Definition fvec_swap_remove (st : flat) (q : string) (len i : nat) : res flat :=
  if (i <? len)%nat then
    '(st1, b) ← fvec_pop st q len;
    if (i =? len - 1)%nat then Ok st1
    else match st1 !! vec_key q i with
         | Some _ => Ok (<[vec_key q i := b]> st1)
         | None => Panic "inconsistent state"
         end
  else Panic "index out of bounds".

(** UnorderedMap::deserialize_index *)
Definition fidx (b : string) : res nat :=
  match dec_uint 8 b with
  | Some (n, EmptyString) => Ok (N.to_nat n)
  | _ => Panic "inconsistent state"
  end.

(** UnorderedMap::get_raw, with the Borsh bytes of the key *)
Definition fget (st : flat) (h : hmap) (kraw : string) : res (option string) :=
  match st !! idx_key_raw (h_pref h) kraw with
  | None => Ok None
  | Some b =>
      i ← fidx b;
      o ← fvec_get st (vals_pref (h_pref h)) (h_len h) i;
      match o with Some v => Ok (Some v) | None => Panic "inconsistent state" end
  end.

(** UnorderedMap::insert_raw; Vector::replace_raw and push_raw *)
Definition finsert (st : flat) (h : hmap) (kraw vraw : string) : res (flat * hmap) :=
  let p := h_pref h in let len := h_len h in
  match st !! idx_key_raw p kraw with
  | Some b =>
      i ← fidx b;
      if (i <? len)%nat then
        match st !! vec_key (vals_pref p) i with
        | Some _ => Ok (<[vec_key (vals_pref p) i := vraw]> st, h)
        | None => Panic "inconsistent state"
        end
      else Panic "index out of bounds"
  | None =>
      let st1 := <[idx_key_raw p kraw := enc_uint 8 (N.of_nat len)]> st in
      let st2 := <[vec_key (keys_pref p) len := kraw]> st1 in
      Ok (<[vec_key (vals_pref p) len := vraw]> st2, mkH p (S len))
  end.

(** the index records in UnorderedMap::remove_raw: the removed key's goes, the last key takes over
    its position *)
Definition fmove_index (st : flat) (p : string) (len : nat) (kraw b : string) : res flat :=
  if (len =? 1)%nat then Ok (delete (idx_key_raw p kraw) st)
  else if (len =? 0)%nat then Panic "attempt to subtract with overflow"
  else
    ol ← fvec_get st (keys_pref p) len (len - 1);
    match ol with
    | None => Panic "inconsistent state"
    | Some lk =>
        let d := delete (idx_key_raw p kraw) st in
        Ok (if bool_decide (lk = kraw) then d else <[idx_key_raw p lk := b]> d)
    end.

(** UnorderedMap::remove_raw *)
Definition fremove (st : flat) (h : hmap) (kraw : string) : res (flat * hmap) :=
  let p := h_pref h in let len := h_len h in
  match st !! idx_key_raw p kraw with
  | None => Ok (st, h)
  | Some b =>
      st1 ← fmove_index st p len kraw b;
      i ← fidx b;
      st2 ← fvec_swap_remove st1 (keys_pref p) len i;
      st3 ← fvec_swap_remove st2 (vals_pref p) len i;
      Ok (st3, mkH p (len - 1)%nat)
  end.

(** ** Keys of all records of the four contracts *)

(** a record of an UnorderedMap with string keys; indexes are u64 *)
Inductive urec := UIdx (key : string) | UKey (i : N) | UVal (i : N).
Definition urec_key (p : string) (r : urec) : string :=
  match r with
  | UIdx k => p +:+ "i" +:+ enc_str k
  | UKey i => p +:+ "k" +:+ enc_uint 8 i
  | UVal i => p +:+ "v" +:+ enc_uint 8 i
  end.

(** BorshStorageKey of an enum: the number of the variant, then its fields; a CryptoHash is 32
    bytes *)
Definition sk0 (variant : N) : string := enc_uint 1 variant.
Definition sk1 (H : string -> string) (variant : N) (id : string) : string := enc_uint 1 variant +:+ H id.

(** meta-vote-contract/src/constants.rs:12-26 with the ids of voter.rs:23-34 and 101-112,
    internal.rs:38-47, lib.rs:92-113; near_bindgen keeps the root under "STATE" *)
Inductive mv_item :=
| MState
| MLockingPosition (voter : string) (i : N)
| MVotePosition (voter : string) (r : urec)
| MVoters (r : urec)
| MVotes (r : urec)
| MContractVotes (address : string) (r : urec)
| MVoterVotes (voter address : string) (r : urec)
| MClaimable (r : urec)
| MClaimableStNear (r : urec)
| MAirdropData (r : urec)
| MEvmDelegates (r : urec)
| MEvmDelegationSignatures (evm : string)
| MEvmPreDelegation (evm : string).
Definition mv_key (H : string -> string) (x : mv_item) : string :=
  match x with
  | MState => "STATE"
  | MLockingPosition v i => sk1 H 0 v +:+ enc_uint 8 i
  | MVotePosition v r => urec_key (sk1 H 1 v) r
  | MVoters r => urec_key (sk0 2) r
  | MVotes r => urec_key (sk0 3) r
  | MContractVotes a r => urec_key (sk1 H 4 a) r
  | MVoterVotes v a r => urec_key (sk1 H 5 (vkey v a)) r
  | MClaimable r => urec_key (sk0 6) r
  | MClaimableStNear r => urec_key (sk0 7) r
  | MAirdropData r => urec_key (sk0 8) r
  | MEvmDelegates r => urec_key (sk0 9) r
  | MEvmDelegationSignatures e => sk0 10 +:+ enc_str e
  | MEvmPreDelegation e => sk0 11 +:+ enc_str e
  end.

(** mpip-contract/src/constants.rs:12-20 with vote_counting.rs:27-35, voter.rs:17-24; proposal ids
    are u32, so index records of maps keyed by them go on with four bytes *)
Inductive nrec := NIdx (id : N) | NKey (i : N) | NVal (i : N).
Definition nrec_key (p : string) (r : nrec) : string :=
  match r with
  | NIdx k => p +:+ "i" +:+ enc_uint 4 k
  | NKey i => p +:+ "k" +:+ enc_uint 8 i
  | NVal i => p +:+ "v" +:+ enc_uint 8 i
  end.
Inductive mp_item :=
| PState
| PMpips (r : nrec)
| PHasVoted (id : N) (r : urec)
| PMpipVotes (r : nrec)
| PVoters (r : urec)
| PProposers (r : urec)
| PVotes (voter : string) (r : nrec).
Definition mp_key (H : string -> string) (x : mp_item) : string :=
  match x with
  | PState => "STATE"
  | PMpips r => nrec_key (sk0 0) r
  | PHasVoted id r => urec_key (sk1 H 1 (pretty id)) r
  | PMpipVotes r => nrec_key (sk0 2) r
  | PVoters r => urec_key (sk0 3) r
  | PProposers r => urec_key (sk0 4) r
  | PVotes v r => nrec_key (sk1 H 5 v) r
  end.

(** kv-store-contract/src/lib.rs:21-34 *)
Inductive kv_item := KState | KData (r : urec).
Definition kv_key (x : kv_item) : string :=
  match x with KState => "STATE" | KData r => urec_key (sk0 0) r end.

(** test-meta-token/src/lib.rs:49-54, 84-85: FungibleToken.accounts is a LookupMap, metadata a
    LazyOption (its key is the prefix itself) *)
Inductive tok_item := TState | TAccount (a : string) | TMetadata.
Definition tok_key (x : tok_item) : string :=
  match x with TState => "STATE" | TAccount a => sk0 0 +:+ enc_str a | TMetadata => sk0 1 end.

(** ** Sequences of operations on any number of collections in one store *)

(** UnorderedMap (FIns, FRem, FNew), Vector (VPush, VReplace, VSwapRemove, VNew), LookupMap (LSet,
    LRemove); keys and values are Borsh bytes.  The lengths are in the handles, which live in other
    records or in the root; here in [fs_len]. *)
Inductive fop :=
| FIns (p k v : string)
| FRem (p k : string)
| FNew (p : string)
| VPush (p b : string)
| VReplace (p : string) (i : nat) (b : string)
| VSwapRemove (p : string) (i : nat)
| VNew (p : string)
| LSet (p k v : string)
| LRemove (p k : string).

Record fstate := mkF { fs_st : flat; fs_len : gmap string nat }.
Definition flen (s : fstate) (p : string) : nat := default 0%nat (fs_len s !! p).
Definition fhandle (s : fstate) (p : string) : hmap := mkH p (flen s p).

Definition fstep (s : fstate) (o : fop) : res fstate :=
  match o with
  | FIns p k v => '(st, h) ← finsert (fs_st s) (fhandle s p) k v; Ok (mkF st (<[p := h_len h]> (fs_len s)))
  | FRem p k => '(st, h) ← fremove (fs_st s) (fhandle s p) k; Ok (mkF st (<[p := h_len h]> (fs_len s)))
  | FNew p | VNew p => Ok (mkF (fs_st s) (<[p := 0%nat]> (fs_len s)))
  | VPush p b => Ok (mkF (<[vec_key p (flen s p) := b]> (fs_st s)) (<[p := S (flen s p)]> (fs_len s)))
  | VReplace p i b =>
      (* Vector::replace_raw *)
      if (i <? flen s p)%nat then
        match fs_st s !! vec_key p i with
        | Some _ => Ok (mkF (<[vec_key p i := b]> (fs_st s)) (fs_len s))
        | None => Panic "inconsistent state"
        end
      else Panic "index out of bounds"
  | VSwapRemove p i =>
      st ← fvec_swap_remove (fs_st s) p (flen s p) i; Ok (mkF st (<[p := (flen s p - 1)%nat]> (fs_len s)))
  | LSet p k v => Ok (mkF (<[p +:+ k := v]> (fs_st s)) (fs_len s))
  | LRemove p k => Ok (mkF (delete (p +:+ k) (fs_st s)) (fs_len s))
  end.
Definition frun (s : fstate) (tr : list fop) : res fstate := foldM fstep tr s.
Definition fempty : fstate := mkF ∅ ∅.

(** UnorderedMap::iter, Vector::iter *)
Definition fvec_elems (st : flat) (q : string) (len : nat) : res (list string) :=
  mapMr (fun i => match st !! vec_key q i with Some a => Ok a | None => Panic "inconsistent state" end) (seq 0 len).
Definition fentries (st : flat) (h : hmap) : res (list (string * string)) :=
  ks ← fvec_elems st (keys_pref (h_pref h)) (h_len h);
  vs ← fvec_elems st (vals_pref (h_pref h)) (h_len h); Ok (zip ks vs).

(** ** The collections of meta-vote-contract and their kinds (constants.rs:12-26) *)
Inductive mv_prefix (H : string -> string) : string -> Prop :=
| pre_plain t : In t [2; 3; 6; 7; 8; 9; 10; 11] -> mv_prefix H (sk0 t)
| pre_hashed t id : In t [0; 1; 4; 5] -> mv_prefix H (sk1 H t id).
