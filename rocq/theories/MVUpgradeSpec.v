(** MVUpgradeSpec.v -- what the storage was before the upgrade and what the contract knows after it: without Migrate.v. *)

From Verif Require Export MVUpgrade MVAskSpec.
From RecordUpdate Require Import RecordUpdate.
Import MetaVote.

(** the record of the contract as the version before wrote it: the fields of migrate.rs:6-36 *)
Definition old_bytes (s : state) : string :=
  enc_str (owner_id s) +:+ enc_str (operator_id s) +:+ map_bytes (enc_uint 1 2) (length (voters s)) +:+ map_bytes (enc_uint 1 3) (length (votes s)) +:+
  enc_uint 2 (min_unbond s) +:+ enc_uint 2 (max_unbond s) +:+ enc_uint 16 (min_deposit s) +:+ enc_uint 1 (max_lps s) +:+ enc_uint 1 (max_vps s) +:+
  enc_str (mpdao_addr s) +:+ enc_uint 16 (total_vp s) +:+ map_bytes (enc_uint 1 6) (length (claim_mp s)) +:+ enc_uint 16 (accum_mp s) +:+
  enc_uint 16 (uncl_mp s) +:+ enc_str (stnear_addr s) +:+ map_bytes (enc_uint 1 7) (length (claim_st s)) +:+ enc_uint 16 (accum_st s) +:+
  enc_uint 16 (uncl_st s) +:+ enc_uint 16 (reg_cost s) +:+ map_bytes (enc_uint 1 8) (length (user_data s)) +:+ enc_str (prev_gov s) +:+
  map_bytes (enc_uint 1 9) (length (evm_delegates s)) +:+ enc_str (enc_uint 1 11) +:+ enc_str (enc_uint 1 10).
(** the storage [st] with that record *)
Definition outdated (s : state) (st : gmap string string) : gmap string string := <["STATE" := old_bytes s]> st.
(** no filters set *)
Definition unlocked (s : state) : state := s <| lock_end := 0 |> <| lock_addr := None |> <| lock_id := 0 |>.
(** a call that leaves the filters alone *)
Definition no_filter (x : call) : Prop := match x.2 with SetLockIn _ _ _ => False | _ => True end.
