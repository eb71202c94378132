(** Props_Ledger.v -- C74: what every view of the voting contract answers. *)

From Verif Require Import MVViews MVWitness MVRefuted.

(** C74: MVSpecViews.v says what each view answers, given the ledger that C72 follows through every call:
    the views of one account, at every time *)
Theorem C74_accounts :
  forall a s0 tr now w, mv_new a = Ok s0 -> collision_free tr -> no_zero_votes tr ->
  let s := run s0 tr in account_views now s w (l_acct (observe s) w).
Proof. exact c74_account. Qed.
Print Assumptions C74_accounts.

(** the listings, every page of them *)
Theorem C74_lists :
  forall a s0 tr now, mv_new a = Ok s0 -> collision_free tr -> let s := run s0 tr in list_views now s (observe s).
Proof. exact c74_lists. Qed.
Print Assumptions C74_lists.

(** tallies, airdrop data, delegations and settings *)
Theorem C74_others :
  forall a s0 tr, mv_new a = Ok s0 -> no_zero_votes tr -> let s := run s0 tr in other_views s (observe s).
Proof. exact c74_others. Qed.
Print Assumptions C74_others.

(** ** Examples *)
Definition tr_shown : list call := tr_demo ++
  [ usr "d.near" (301 * DAY) (UpdateAirdrop "") ;
    (cx "d.near" 7 (301 * DAY), UpdateAirdrop "data");
    usr1 "a.near" (301 * DAY) (PreDelegate "0xabc" "sig"); usr1 "opr.near" (301 * DAY) (OpConfirm "0xabc");
    usr "a.near" (302 * DAY) (Unlock 0) ].
Ltac nz_tac := unfold no_zero_votes; repeat constructor; cbn; vm_compute; discriminate.
Example C74_example_hyps : collision_free tr_shown /\ no_zero_votes tr_shown.
Proof. split; [cf_tac|nz_tac]. Qed.
Definition s_shown : state := run s0 tr_shown.
Example C74_example_lists :
  let now := 302 * DAY in
  (l ← get_voters now s_shown 0 9; Ok (map vj_id l)) = Ok ["a.near"; evm_account "0xabc"] /\
  get_voters now s_shown 2 9 = Ok [] /\ get_voters_count s_shown = 2%nat /\
  get_claims s_shown 0 9 = Ok [("c.near", M 20)] /\ get_stnear_claims s_shown 0 9 = Ok [("b.near", 2 * st_unit)] /\
  get_airdrop_accounts s_shown 0 9 = Ok [("d.near", "data")] /\ get_delegates s_shown 0 9 = Ok [("a.near", ["0xabc"])] /\
  panics (get_delegates s_shown 1 9) = true.
Proof. conj; vmr. Qed.
Example C74_example_account :
  let now := 302 * DAY in
  get_voter_info now s_shown "nobody" = Ok (mkVoterJson "nobody" 0 [] 0 []) /\
  get_locking_position now s_shown 0 "a.near" =
    Some (mkLpJson 0 (M 110) 90 (V 165) (Some now) false true false) /\
  get_locking_position (392 * DAY + 1) s_shown 0 "a.near" =
    Some (mkLpJson 0 (M 110) 90 (V 165) (Some now) true false false) /\
  get_locked_balance s_shown "a.near" = Ok (M 35) /\ get_unlocking_balance now s_shown "a.near" = Ok (M 110) /\
  get_balance now s_shown "a.near" = Ok (M 11) /\ get_balance (392 * DAY + 1) s_shown "a.near" = Ok (M 121).
Proof. conj; vmr. Qed.
Example C74_example_others :
  check_if_registered s_shown "d.near" = true /\ get_delegate s_shown "0xabc" = Some "a.near" /\
  get_votes_by_contract s_shown "meta-apps" = [("meta-apps", "app1", V 40)] /\
  get_owner_id s_shown = "own.near" /\ get_operator_id s_shown = "opr.near" /\ get_locking_period s_shown = (30, 300).
Proof. conj; vmr. Qed.
