(** MVBytesSpec.v -- what the bytes in the storage of the voting contract should be, and the calls for which they are: without the
    readers and writers of MVBytes.v. *)

From Verif Require Export BoardBytesSpec MVSpecSized MVBytes.
Import MetaVote MVSpecSized.

(** ** The calls that are made *)
(** the names whose hash is part of a key: the account that calls or is credited, the contract voted for, and "account-contract" *)
Definition ballot_names (who addr : string) : list string := [addr; who +:+ "-" +:+ addr].
Definition evm_name (e : string) : string := e +:+ ".evmp.near".
Definition listed {A} (o : option A) : list A := match o with Some a => [a] | None => [] end.
(** the claims in the text of a deposit by ft_transfer_call, "for-claims:[...]" *)
Definition claims_in (c : ctx) (msg : string) : list (string * N) := concat (listed (c_json_claims c (String.substring 11 (String.length msg - 11) msg))).
Definition named (x : call) : list string :=
  let '(c, o) := x in
  c_pred c ::
  match o with
  | Vote _ a _ | Rebalance _ a _ | Unvote a _ => ballot_names (c_pred c) a
  | VoteDelegated e _ a _ | UnvoteDelegated e a _ => ballot_names (evm_name e) a
  | MirrorLps e _ => [evm_name e]
  | MigrationCreateLps v _ _ | AfterMp v _ _ => [v]
  | FtOnTransfer s _ m => s :: map fst (listed (c_json_pair c m))
  | _ => []
  end.
(** the texts that are stored *)
Definition texts (x : call) : list string :=
  let '(c, o) := x in
  c_pred c ::
  match o with
  | SetStnear a | SetOperator a | SetOwner a | SetPrevGov a | UpdateAirdrop a | OpConfirm a | PreDelegate _ a | AfterMp a _ _ | AfterSt a _ _ => [a]
  | OpMultiSetAirdrop l => map fst l ++ map snd l
  | Vote _ a b | Rebalance _ a b | Unvote a b => [a; b]
  | VoteDelegated e _ a b | UnvoteDelegated e a b => [evm_name e; a; b]
  | SetLockIn _ _ a => listed a
  | MigrationCreateLps v _ d => v :: listed d
  | MirrorLps e _ | DelegatedClaim e _ => [evm_name e]
  | FtOnTransfer s _ m => s :: map fst (claims_in c m) ++ map fst (listed (c_json_pair c m))
  | _ => []
  end.
(** how many entries a call can add to one map *)
Definition weight_of (x : call) : nat :=
  let '(c, o) := x in
  3 + match o with
      | OpMultiSetAirdrop l => length l
      | MigrationCreateLps _ l _ => 2 * length l
      | MirrorLps _ l => length l
      | FtOnTransfer _ _ m => length (claims_in c m)
      | _ => 0
      end.
Definition short (s : string) : Prop := N.of_nat (String.length s) < 2 ^ 32.
Definition adds (tr : list call) : nat := fold_right (fun x n => weight_of x + n)%nat 0%nat tr.
Definition hashed_in (tr : list call) (x : string) : Prop := exists y, In y tr /\ In x (named y).
(** numbers have the types of the arguments, texts are not longer than u32::MAX, the maps stay below 2^32 entries, and the hash
    (keccak256 in the code) has 32 bytes and does not collide on the names used *)
Definition usual_calls (H : string -> string) (tr : list call) : Prop :=
  Forall sized_call tr /\ Forall (fun y => Forall short (texts y)) tr /\ N.of_nat (adds tr) < 2 ^ 32 /\
  (forall x, String.length (H x) = 32%nat) /\ forall x y, hashed_in tr x -> hashed_in tr y -> H x = H y -> x = y.
Definition usual_init (a : init_args) : Prop := Forall short [i_owner a; i_operator a; i_mpdao a; i_stnear a; i_prev_gov a].

(** ** What the calls give: [None] for a panic, else the payments and transfers issued *)
Fixpoint mv_gives (s : state) (tr : list call) : list (option (list eff)) :=
  match tr with [] => [] | x :: tr => match exec x.1 s x.2 with Ok (_, out) => Some out | Panic _ => None end :: mv_gives (step s x) tr end.
Fixpoint xb_gives (H : string -> string) (self : string) (st : gmap string string) (tr : list call) : list (option (list eff)) :=
  match tr with [] => [] | x :: tr => match xb_call H self st x.1 x.2 with Ok (_, out) => Some out | Panic _ => None end :: xb_gives H self (xb_step H self st x) tr end.

(** ** The bytes of the records *)
Definition positions_of (H : string -> string) (who : string) : string := enc_uint 1 0 +:+ H who.
Definition ballot_of (H : string -> string) (who : string) : string := enc_uint 1 1 +:+ H who.
Definition tally_of (H : string -> string) (addr : string) : string := enc_uint 1 4 +:+ H addr.
Definition objects_of (H : string -> string) (name : string) : string := enc_uint 1 5 +:+ H name.
Definition position_bytes (p : lpos) : string := enc_uint 16 (lp_amount p) +:+ enc_uint 2 (lp_days p) +:+ enc_uint 16 (lp_vp p) +:+ BoardBytesSpec.maybe 8 (lp_unl p).
(** a Vector with [n] elements *)
Definition vector_bytes (p : string) (n : nat) : string := enc_uint 8 (N.of_nat n) +:+ enc_str p.
Definition voter_bytes (H : string -> string) (who : string) (v : voter) : string :=
  enc_uint 16 (v_bal v) +:+ vector_bytes (positions_of H who) (length (v_lps v)) +:+ enc_uint 16 (v_avail v) +:+ map_bytes (ballot_of H who) (h_len (v_vp v)).
Definition strings_bytes (l : list string) : string := enc_uint 4 (N.of_nat (length l)) +:+ fold_right (fun x b => enc_str x +:+ b) "" l.
Definition signed_bytes (x : string * string) : string := enc_str x.1 +:+ enc_str x.2.
Definition maybe_text (o : option string) : string := match o with Some x => enc_uint 1 1 +:+ enc_str x | None => enc_uint 1 0 end.
Definition vote_bytes (s : state) : string :=
  enc_str (owner_id s) +:+ enc_str (operator_id s) +:+ map_bytes (enc_uint 1 2) (length (voters s)) +:+ map_bytes (enc_uint 1 3) (length (votes s)) +:+
  enc_uint 2 (min_unbond s) +:+ enc_uint 2 (max_unbond s) +:+ enc_uint 16 (min_deposit s) +:+ enc_uint 1 (max_lps s) +:+ enc_uint 1 (max_vps s) +:+
  enc_str (mpdao_addr s) +:+ enc_uint 16 (total_vp s) +:+ map_bytes (enc_uint 1 6) (length (claim_mp s)) +:+ enc_uint 16 (accum_mp s) +:+
  enc_uint 16 (uncl_mp s) +:+ enc_str (stnear_addr s) +:+ map_bytes (enc_uint 1 7) (length (claim_st s)) +:+ enc_uint 16 (accum_st s) +:+
  enc_uint 16 (uncl_st s) +:+ enc_uint 16 (reg_cost s) +:+ map_bytes (enc_uint 1 8) (length (user_data s)) +:+ enc_str (prev_gov s) +:+
  map_bytes (enc_uint 1 9) (length (evm_delegates s)) +:+ enc_str (enc_uint 1 11) +:+ enc_str (enc_uint 1 10) +:+
  enc_uint 8 (lock_end s) +:+ maybe_text (lock_addr s) +:+ enc_uint 2 (lock_id s).
(** an entry of a map with prefix [p] and [n] entries *)
Definition entry_at (st : gmap string string) (p : string) (n : nat) (k v : string) : Prop :=
  exists i, (i < n)%nat /\ st !! (p +:+ "i" +:+ k) = Some (enc_uint 8 (N.of_nat i)) /\ st !! (p +:+ "v" +:+ enc_uint 8 (N.of_nat i)) = Some v.
