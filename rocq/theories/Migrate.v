(** Migrate.v -- meta-vote-contract/src/migrate.rs: the state upgrade, down to the bytes of the
    contract's STATE record.

    The STATE record holds the Borsh encoding of the root struct: the plain fields, and for every
    collection only its handle (prefixes and length).  The entries of the collections live in
    other storage records, which migrate() neither reads nor writes; [reader] below stands for an
    arbitrary content of those records.
    Simplified: Borsh's checks that a decoded string is UTF-8 and that a decoded account id is
    valid are left out (the model accepts more byte strings than the code). *)

From Verif Require Export MVView MVSpecVote.

(** ** Borsh *)
Notation bytes := string (only parsing).
Notation decoder A := (bytes -> option (A * bytes)) (only parsing).

(** little-endian unsigned integers of [n] bytes *)
Fixpoint enc_uint (n : nat) (x : N) : bytes :=
  match n with
  | O => ""
  | S n' => String (ascii_of_N (x mod 256)) (enc_uint n' (x / 256))
  end.
Fixpoint dec_uint (n : nat) (b : bytes) : option (N * bytes) :=
  match n with
  | O => Some (0, b)
  | S n' =>
      match b with
      | EmptyString => None
      | String a b' => '(y, r) ← dec_uint n' b'; Some (N_of_ascii a + 256 * y, r)
      end
  end.
Fixpoint split_str (n : nat) (b : bytes) : option (string * bytes) :=
  match n, b with
  | O, _ => Some (""%string, b)
  | S _, EmptyString => None
  | S n', String a b' => '(y, r) ← split_str n' b'; Some (String a y, r)
  end.
(** String, AccountId, Vec<u8>, Box<[u8]>: u32 length, then the bytes *)
Definition enc_str (s : string) : bytes := enc_uint 4 (N.of_nat (String.length s)) +:+ s.
Definition dec_str (b : bytes) : option (string * bytes) :=
  '(n, b) ← dec_uint 4 b; split_str (N.to_nat n) b.
(** Option<String>: a tag byte *)
Definition enc_opt (o : option string) : bytes :=
  match o with None => enc_uint 1 0 | Some s => enc_uint 1 1 +:+ enc_str s end.
Definition dec_opt (b : bytes) : option (option string * bytes) :=
  '(t, b) ← dec_uint 1 b;
  if t =? 0 then Some (None, b)
  else if t =? 1 then '(s, b) ← dec_str b; Some (Some s, b)
  else None.

(** near_sdk collections::UnorderedMap { key_index_prefix, keys: Vector { len, prefix },
    values: Vector { len, prefix } } *)
Record umh := mkUmh { um_pre : string; um_klen : N; um_kpre : string; um_vlen : N; um_vpre : string }.
Definition enc_umh (h : umh) : bytes :=
  enc_str (um_pre h) +:+ enc_uint 8 (um_klen h) +:+ enc_str (um_kpre h) +:+ enc_uint 8 (um_vlen h) +:+ enc_str (um_vpre h).
Definition dec_umh (b : bytes) : option (umh * bytes) :=
  '(p, b) ← dec_str b; '(kl, b) ← dec_uint 8 b; '(kp, b) ← dec_str b; '(vl, b) ← dec_uint 8 b; '(vp, b) ← dec_str b;
  Some (mkUmh p kl kp vl vp, b).
(** near_sdk store::LookupMap { prefix, #[borsh_skip] cache } is just its prefix: [enc_str]. *)

(** migrate.rs:4-37 *)
Record oldroot := mkOldRoot {
  o_owner_id : string; o_operator_id : string; o_voters : umh; o_votes : umh;
  o_min_unbond_period : N; o_max_unbond_period : N; o_min_deposit_amount : N;
  o_max_locking_positions : N; o_max_voting_positions : N;
  o_mpdao_token_contract_address : string; o_total_voting_power : N;
  o_claimable_mpdao : umh; o_accumulated_mpdao_distributed_for_claims : N; o_total_unclaimed_mpdao : N;
  o_stnear_token_contract_address : string; o_claimable_stnear : umh;
  o_accum_distributed_stnear_for_claims : N; o_total_unclaimed_stnear : N;
  o_registration_cost : N; o_associated_user_data : umh; o_prev_governance_contract : string;
  o_evm_delegates : umh; o_evm_pre_delegation : string; o_evm_delegation_signatures : string;
}.
(** lib.rs:26-66 *)
Record newroot := mkNewRoot {
  n_owner_id : string; n_operator_id : string; n_voters : umh; n_votes : umh;
  n_min_unbond_period : N; n_max_unbond_period : N; n_min_deposit_amount : N;
  n_max_locking_positions : N; n_max_voting_positions : N;
  n_mpdao_token_contract_address : string; n_total_voting_power : N;
  n_claimable_mpdao : umh; n_accumulated_mpdao_distributed_for_claims : N; n_total_unclaimed_mpdao : N;
  n_stnear_token_contract_address : string; n_claimable_stnear : umh;
  n_accum_distributed_stnear_for_claims : N; n_total_unclaimed_stnear : N;
  n_registration_cost : N; n_associated_user_data : umh; n_prev_governance_contract : string;
  n_evm_delegates : umh; n_evm_pre_delegation : string; n_evm_delegation_signatures : string;
  n_lock_votes_in_end_timestamp_ms : N; n_lock_votes_in_address : option string; n_lock_votes_in_numeric_id : N;
}.

Definition enc_old (o : oldroot) : bytes :=
  enc_str (o_owner_id o) +:+ enc_str (o_operator_id o) +:+ enc_umh (o_voters o) +:+ enc_umh (o_votes o) +:+
  enc_uint 2 (o_min_unbond_period o) +:+ enc_uint 2 (o_max_unbond_period o) +:+ enc_uint 16 (o_min_deposit_amount o) +:+
  enc_uint 1 (o_max_locking_positions o) +:+ enc_uint 1 (o_max_voting_positions o) +:+
  enc_str (o_mpdao_token_contract_address o) +:+ enc_uint 16 (o_total_voting_power o) +:+
  enc_umh (o_claimable_mpdao o) +:+ enc_uint 16 (o_accumulated_mpdao_distributed_for_claims o) +:+
  enc_uint 16 (o_total_unclaimed_mpdao o) +:+
  enc_str (o_stnear_token_contract_address o) +:+ enc_umh (o_claimable_stnear o) +:+
  enc_uint 16 (o_accum_distributed_stnear_for_claims o) +:+ enc_uint 16 (o_total_unclaimed_stnear o) +:+
  enc_uint 16 (o_registration_cost o) +:+ enc_umh (o_associated_user_data o) +:+ enc_str (o_prev_governance_contract o) +:+
  enc_umh (o_evm_delegates o) +:+ enc_str (o_evm_pre_delegation o) +:+ enc_str (o_evm_delegation_signatures o).
Definition dec_old : decoder oldroot := fun b =>
  '(f1, b) ← dec_str b; '(f2, b) ← dec_str b; '(f3, b) ← dec_umh b; '(f4, b) ← dec_umh b;
  '(f5, b) ← dec_uint 2 b; '(f6, b) ← dec_uint 2 b; '(f7, b) ← dec_uint 16 b;
  '(f8, b) ← dec_uint 1 b; '(f9, b) ← dec_uint 1 b;
  '(f10, b) ← dec_str b; '(f11, b) ← dec_uint 16 b;
  '(f12, b) ← dec_umh b; '(f13, b) ← dec_uint 16 b; '(f14, b) ← dec_uint 16 b;
  '(f15, b) ← dec_str b; '(f16, b) ← dec_umh b; '(f17, b) ← dec_uint 16 b; '(f18, b) ← dec_uint 16 b;
  '(f19, b) ← dec_uint 16 b; '(f20, b) ← dec_umh b; '(f21, b) ← dec_str b;
  '(f22, b) ← dec_umh b; '(f23, b) ← dec_str b; '(f24, b) ← dec_str b;
  Some (mkOldRoot f1 f2 f3 f4 f5 f6 f7 f8 f9 f10 f11 f12 f13 f14 f15 f16 f17 f18 f19 f20 f21 f22 f23 f24, b).

Definition enc_new (n : newroot) : bytes :=
  enc_str (n_owner_id n) +:+ enc_str (n_operator_id n) +:+ enc_umh (n_voters n) +:+ enc_umh (n_votes n) +:+
  enc_uint 2 (n_min_unbond_period n) +:+ enc_uint 2 (n_max_unbond_period n) +:+ enc_uint 16 (n_min_deposit_amount n) +:+
  enc_uint 1 (n_max_locking_positions n) +:+ enc_uint 1 (n_max_voting_positions n) +:+
  enc_str (n_mpdao_token_contract_address n) +:+ enc_uint 16 (n_total_voting_power n) +:+
  enc_umh (n_claimable_mpdao n) +:+ enc_uint 16 (n_accumulated_mpdao_distributed_for_claims n) +:+
  enc_uint 16 (n_total_unclaimed_mpdao n) +:+
  enc_str (n_stnear_token_contract_address n) +:+ enc_umh (n_claimable_stnear n) +:+
  enc_uint 16 (n_accum_distributed_stnear_for_claims n) +:+ enc_uint 16 (n_total_unclaimed_stnear n) +:+
  enc_uint 16 (n_registration_cost n) +:+ enc_umh (n_associated_user_data n) +:+ enc_str (n_prev_governance_contract n) +:+
  enc_umh (n_evm_delegates n) +:+ enc_str (n_evm_pre_delegation n) +:+ enc_str (n_evm_delegation_signatures n) +:+
  enc_uint 8 (n_lock_votes_in_end_timestamp_ms n) +:+ enc_opt (n_lock_votes_in_address n) +:+
  enc_uint 2 (n_lock_votes_in_numeric_id n).
Definition dec_new : decoder newroot := fun b =>
  '(f1, b) ← dec_str b; '(f2, b) ← dec_str b; '(f3, b) ← dec_umh b; '(f4, b) ← dec_umh b;
  '(f5, b) ← dec_uint 2 b; '(f6, b) ← dec_uint 2 b; '(f7, b) ← dec_uint 16 b;
  '(f8, b) ← dec_uint 1 b; '(f9, b) ← dec_uint 1 b;
  '(f10, b) ← dec_str b; '(f11, b) ← dec_uint 16 b;
  '(f12, b) ← dec_umh b; '(f13, b) ← dec_uint 16 b; '(f14, b) ← dec_uint 16 b;
  '(f15, b) ← dec_str b; '(f16, b) ← dec_umh b; '(f17, b) ← dec_uint 16 b; '(f18, b) ← dec_uint 16 b;
  '(f19, b) ← dec_uint 16 b; '(f20, b) ← dec_umh b; '(f21, b) ← dec_str b;
  '(f22, b) ← dec_umh b; '(f23, b) ← dec_str b; '(f24, b) ← dec_str b;
  '(f25, b) ← dec_uint 8 b; '(f26, b) ← dec_opt b; '(f27, b) ← dec_uint 2 b;
  Some (mkNewRoot f1 f2 f3 f4 f5 f6 f7 f8 f9 f10 f11 f12 f13 f14 f15 f16 f17 f18 f19 f20 f21 f22 f23 f24 f25 f26 f27, b).

(** T::try_from_slice: all bytes must be consumed *)
Definition try_from_slice {A} (d : decoder A) (b : bytes) : option A :=
  match d b with Some (a, EmptyString) => Some a | _ => None end.
(** env::state_read *)
Definition state_read {A} (d : decoder A) (st : option bytes) : res (option A) :=
  match st with
  | None => Ok None
  | Some b => a ← expect (try_from_slice d b) "Cannot deserialize the contract state."; Ok (Some a)
  end.

(** migrate.rs:47-84 *)
Definition migrate_root (o : oldroot) : newroot := {|
  n_owner_id := o_owner_id o;
  n_operator_id := o_operator_id o;
  n_voters := o_voters o;
  n_votes := o_votes o;
  n_min_unbond_period := o_min_unbond_period o;
  n_max_unbond_period := o_max_unbond_period o;
  n_min_deposit_amount := o_min_deposit_amount o;
  n_max_locking_positions := o_max_locking_positions o;
  n_max_voting_positions := o_max_voting_positions o;
  n_mpdao_token_contract_address := o_mpdao_token_contract_address o;
  n_total_voting_power := o_total_voting_power o;
  n_claimable_mpdao := o_claimable_mpdao o;
  n_accumulated_mpdao_distributed_for_claims := o_accumulated_mpdao_distributed_for_claims o;
  n_total_unclaimed_mpdao := o_total_unclaimed_mpdao o;
  n_stnear_token_contract_address := o_stnear_token_contract_address o;
  n_claimable_stnear := o_claimable_stnear o;
  n_accum_distributed_stnear_for_claims := o_accum_distributed_stnear_for_claims o;
  n_total_unclaimed_stnear := o_total_unclaimed_stnear o;
  n_registration_cost := o_registration_cost o;
  n_associated_user_data := o_associated_user_data o;
  n_prev_governance_contract := o_prev_governance_contract o;
  n_evm_delegates := o_evm_delegates o;
  n_evm_delegation_signatures := o_evm_delegation_signatures o;
  n_evm_pre_delegation := o_evm_pre_delegation o;
  n_lock_votes_in_end_timestamp_ms := 0;
  n_lock_votes_in_address := None;
  n_lock_votes_in_numeric_id := 0;
|}.
(** migrate.rs:41-86: the call; the result is the new STATE record.
    near_bindgen: non-payable, #[private], the state is not deserialised first, the returned
    struct is written. *)
Definition migrate (c : ctx) (self : string) (st : option bytes) : res bytes :=
  _ ← non_payable c;
  _ ← assert_private c self;
  oo ← state_read dec_old st;
  o ← expect oo "failed";
  Ok (enc_new (migrate_root o)).

(** ** The contract state of MetaVote.v as read from the root and the other storage records *)
Record reader := mkReader {
  r_voters : umh -> omap_t string voter;
  r_votes : umh -> omap_t string (omap_t string N);
  r_nums : umh -> omap_t string N;
  r_strs : umh -> omap_t string string;
  r_lists : umh -> omap_t string (list string);
  r_lookup : string -> gmap string (string * string);
  r_hp_vp : heap hmap;
  r_hp_vv : heap N;
}.
Definition state_of (rd : reader) (self : string) (n : newroot) : state := {|
  self_id := self; owner_id := n_owner_id n; operator_id := n_operator_id n;
  voters := r_voters rd (n_voters n); votes := r_votes rd (n_votes n);
  min_unbond := n_min_unbond_period n; max_unbond := n_max_unbond_period n; min_deposit := n_min_deposit_amount n;
  max_lps := n_max_locking_positions n; max_vps := n_max_voting_positions n;
  mpdao_addr := n_mpdao_token_contract_address n; total_vp := n_total_voting_power n;
  claim_mp := r_nums rd (n_claimable_mpdao n); accum_mp := n_accumulated_mpdao_distributed_for_claims n;
  uncl_mp := n_total_unclaimed_mpdao n;
  stnear_addr := n_stnear_token_contract_address n; claim_st := r_nums rd (n_claimable_stnear n);
  accum_st := n_accum_distributed_stnear_for_claims n; uncl_st := n_total_unclaimed_stnear n;
  reg_cost := n_registration_cost n; user_data := r_strs rd (n_associated_user_data n);
  prev_gov := n_prev_governance_contract n; evm_delegates := r_lists rd (n_evm_delegates n);
  evm_pre := r_lookup rd (n_evm_pre_delegation n); evm_sigs := r_lookup rd (n_evm_delegation_signatures n);
  lock_end := n_lock_votes_in_end_timestamp_ms n; lock_addr := n_lock_votes_in_address n;
  lock_id := n_lock_votes_in_numeric_id n; hp_vp := r_hp_vp rd; hp_vv := r_hp_vv rd;
|}.
