(** Props_Votes.v -- C03, C13, C21, C29, C30, C31: votes, tallies and mirrored accounts. *)

From Verif Require Import MVMirror MVRefuted.

Ltac nz_tac := unfold no_zero_votes; repeat constructor; cbn; vm_compute; discriminate.

(** C03 *)
Theorem C03_tallies_match :
  forall a s0 tr, mv_new a = Ok s0 -> collision_free tr -> no_zero_votes tr ->
    tallies_match (run s0 tr).
Proof. intros a s0 tr H0 Hc Hz. exact (tallies_of_sinv _ _ (sinv_run a s0 tr H0 Hc Hz)). Qed.
Print Assumptions C03_tallies_match.

(** A zero-power vote is enough to break the tallies, without any name collision ... *)
Theorem C03_zero_vote_refuted :
  ~ (forall a s tr, mv_new a = Ok s -> timed tr -> collision_free tr -> tallies_match (run s tr)).
Proof. exact r_c03. Qed.
Print Assumptions C03_zero_vote_refuted.

(** ... and so are colliding names, without zero-power votes. *)
Theorem C03_collision_refuted :
  ~ (forall a s tr, mv_new a = Ok s -> timed tr -> no_zero_votes tr -> tallies_match (run s tr)).
Proof. exact r_c03_collision. Qed.
Print Assumptions C03_collision_refuted.

Definition tr_tally : list call := firstn 8 tr_demo.
Example C03_example :
  all_ok s0 tr_tally = true /\ collision_free tr_tally /\ no_zero_votes tr_tally /\
  get_total_votes (run s0 tr_tally) "meta-apps" "app1" = V 70 /\
  get_votes_for_object (run s0 tr_tally) "a.near" "meta-apps" "app1" = Ok (V 40) /\
  get_votes_for_object (run s0 tr_tally) "b.near" "meta-apps" "app1" = Ok (V 30).
Proof. conj; [vmr|cf_tac|nz_tac|vmr|vmr|vmr]. Qed.

(** C13: one more address than the configured maximum, for every history. *)
Theorem C13_addresses_bounded :
  forall a s0 tr, mv_new a = Ok s0 -> addresses_bounded 1 (run s0 tr).
Proof. exact c13_addresses. Qed.
Print Assumptions C13_addresses_bounded.

Theorem C13_refuted :
  ~ (forall a s tr, mv_new a = Ok s -> timed tr -> collision_free tr -> no_zero_votes tr ->
       addresses_bounded 0 (run s tr)).
Proof. exact r_c13. Qed.
Print Assumptions C13_refuted.

(** the limit is reached: a fifth address is refused with max_voting_positions = 3 *)
Example C13_example :
  all_ok s0 tr_vps = true /\ max_vps (run s0 tr_vps) = 3 /\
  panics (exec (cx "a.near" 0 3) (run s0 tr_vps) (Vote (V 1) "E" "o")) = true.
Proof. conj; vmr. Qed.

(** C21 *)
Theorem C21_other_voters_untouched :
  forall a s0 tr x s' e now w, mv_new a = Ok s0 -> collision_free (tr ++ [x]) ->
    exec x.1 (run s0 tr) x.2 = Ok (s', e) -> w <> call_target x ->
    get_voter_info now s' w = get_voter_info now (run s0 tr) w.
Proof. exact c21_isolation. Qed.
Print Assumptions C21_other_voters_untouched.

Theorem C21_refuted :
  ~ (forall a s tr x s' e now w, mv_new a = Ok s -> timed (tr ++ [x]) ->
       exec x.1 (run s tr) x.2 = Ok (s', e) -> w <> call_target x ->
       get_voter_info now s' w = get_voter_info now (run s tr) w).
Proof. exact r_c21. Qed.
Print Assumptions C21_refuted.

Definition x_unvote : call := usr "a.near" 9 (Unvote "meta-apps" "app1").
Example C21_example :
  collision_free (tr_tally ++ [x_unvote]) /\
  panics (exec x_unvote.1 (run s0 tr_tally) x_unvote.2) = false /\
  "b.near" <> call_target x_unvote /\
  (forall j, get_voter_info 0 (run s0 tr_tally) "b.near" = Ok j ->
     vj_votes j = [("meta-apps", "app1", V 30)] /\ length (vj_lps j) = 1%nat).
Proof.
  conj; [cf_tac|vmr|discriminate|]. intros j H. vm_compute in H. injection H as <-. conj; reflexivity.
Qed.

(** C29 *)
Theorem C29_unvote_succeeds :
  forall a s0 tr c addr obj x,
  mv_new a = Ok s0 -> collision_free tr -> no_zero_votes tr ->
  let s := run s0 tr in let vid := c_pred c in
  get_votes_for_object s vid addr obj = Ok x -> 0 < x ->
  ~ lock_in_applies s (now_ms c) addr obj -> c_deposit c = 0 ->
  exists s', exec c s (Unvote addr obj) = Ok (s', []) /\ vote_change s s' vid addr obj x 0.
Proof. exact c29_unvote. Qed.
Print Assumptions C29_unvote_succeeds.

Theorem C29_delegated_unvote_succeeds :
  forall a s0 tr c evm addr obj x,
  mv_new a = Ok s0 -> collision_free tr -> no_zero_votes tr ->
  let s := run s0 tr in let vid := pseudo_near_address evm in
  evm ∈ get_delegating_evm_addresses s (c_pred c) ->
  get_votes_for_object s vid addr obj = Ok x -> 0 < x ->
  ~ lock_in_applies s (now_ms c) addr obj -> c_deposit c = 0 ->
  exists s', exec c s (UnvoteDelegated evm addr obj) = Ok (s', []) /\ vote_change s s' vid addr obj x 0.
Proof. exact c29_delegated. Qed.
Print Assumptions C29_delegated_unvote_succeeds.

Theorem C29_refuted :
  ~ (forall a s tr c addr obj x, mv_new a = Ok s -> timed tr -> collision_free tr ->
       get_votes_for_object (run s tr) (c_pred c) addr obj = Ok x -> 0 < x ->
       ~ lock_in_applies (run s tr) (now_ms c) addr obj -> c_deposit c = 0 ->
       exists s', exec c (run s tr) (Unvote addr obj) = Ok (s', [])).
Proof. exact r_c29. Qed.
Print Assumptions C29_refuted.

(** a lock-in on another object does not matter; on this one it holds the votes back *)
Definition tr_lockin : list call :=
  tr_tally ++ [usr "a.near" 8 (Vote (V 3) "gov" "grant #7 x");
               usr "opr.near" 8 (SetLockIn 5000 7 (Some "gov"))].
Example C29_example :
  all_ok s0 tr_lockin = true /\ collision_free tr_lockin /\ no_zero_votes tr_lockin /\
  get_votes_for_object (run s0 tr_lockin) "a.near" "meta-apps" "app1" = Ok (V 40) /\
  ~ lock_in_applies (run s0 tr_lockin) (now_ms (cx "a.near" 0 9)) "meta-apps" "app1" /\
  lock_in_applies (run s0 tr_lockin) (now_ms (cx "a.near" 0 9)) "gov" "grant #7 x" /\
  panics (exec (cx "a.near" 0 9) (run s0 tr_lockin) (Unvote "gov" "grant #7 x")) = true.
Proof.
  assert (E : get_lock_in_vote_filters (run s0 tr_lockin) = (5000, Some "gov", 7)) by vmr.
  conj; [vmr|cf_tac|nz_tac|vmr| | |vmr]; unfold lock_in_applies; rewrite E.
  - intros (_ & H & _). discriminate.
  - conj; [reflexivity|reflexivity|]. exists "grant", "x". reflexivity.
Qed.

(** C30 *)
Theorem C30_vote :
  forall a s0 tr c vp addr obj s' e, mv_new a = Ok s0 ->
  let x := (c, Vote vp addr obj) in collision_free (tr ++ [x]) -> no_zero_votes (tr ++ [x]) ->
  exec c (run s0 tr) (Vote vp addr obj) = Ok (s', e) ->
  exists old, vote_change (run s0 tr) s' (c_pred c) addr obj old (old + vp).
Proof. exact c30_vote. Qed.
Print Assumptions C30_vote.

Theorem C30_vote_delegated :
  forall a s0 tr c evm vp addr obj s' e, mv_new a = Ok s0 ->
  let x := (c, VoteDelegated evm vp addr obj) in collision_free (tr ++ [x]) -> no_zero_votes (tr ++ [x]) ->
  exec c (run s0 tr) (VoteDelegated evm vp addr obj) = Ok (s', e) ->
  exists old, vote_change (run s0 tr) s' (pseudo_near_address evm) addr obj old (old + vp).
Proof. exact c30_vote_delegated. Qed.
Print Assumptions C30_vote_delegated.

Theorem C30_unvote :
  forall a s0 tr c addr obj s' e, mv_new a = Ok s0 -> collision_free tr -> no_zero_votes tr ->
  exec c (run s0 tr) (Unvote addr obj) = Ok (s', e) ->
  exists old, 0 < old /\ vote_change (run s0 tr) s' (c_pred c) addr obj old 0.
Proof. exact c30_unvote. Qed.
Print Assumptions C30_unvote.

Theorem C30_unvote_delegated :
  forall a s0 tr c evm addr obj s' e, mv_new a = Ok s0 -> collision_free tr -> no_zero_votes tr ->
  exec c (run s0 tr) (UnvoteDelegated evm addr obj) = Ok (s', e) ->
  exists old, 0 < old /\ vote_change (run s0 tr) s' (pseudo_near_address evm) addr obj old 0.
Proof. exact c30_unvote_delegated. Qed.
Print Assumptions C30_unvote_delegated.

Theorem C30_rebalance :
  forall a s0 tr c vp addr obj s' e, mv_new a = Ok s0 -> collision_free tr -> no_zero_votes tr ->
  exec c (run s0 tr) (Rebalance vp addr obj) = Ok (s', e) ->
  exists old, 0 < old /\ old <> vp /\ vote_change (run s0 tr) s' (c_pred c) addr obj old vp.
Proof. exact c30_rebalance. Qed.
Print Assumptions C30_rebalance.

Example C30_example :
  let s := run s0 tr_tally in
  let x := usr "a.near" 9 (Rebalance (V 7) "meta-apps" "app1") in
  collision_free (tr_tally ++ [x]) /\ no_zero_votes (tr_tally ++ [x]) /\
  panics (exec x.1 s x.2) = false /\
  get_votes_for_object (step s x) "a.near" "meta-apps" "app1" = Ok (V 7) /\
  get_total_votes (step s x) "meta-apps" "app1" = V 37 /\
  get_available_voting_power (step s x) "a.near" = get_available_voting_power s "a.near" + V 33.
Proof. conj; [cf_tac|nz_tac|vmr|vmr|vmr|vmr]. Qed.

(** C31 *)
Theorem C31_mirror_effect :
  forall a s0 tr c ext l s' e, mv_new a = Ok s0 -> collision_free tr -> no_zero_votes tr ->
  exec c (run s0 tr) (MirrorLps ext l) = Ok (s', e) ->
  mirrored (run s0 tr) s' (pseudo_near_address ext) l.
Proof. exact c31_mirror. Qed.
Print Assumptions C31_mirror_effect.

(** The operator can always mirror well-formed positions: the removal loop ends within the number
    of vote entries and nothing underflows. *)
Theorem C31_mirror_total :
  forall a s0 tr c ext l, mv_new a = Ok s0 -> collision_free tr -> no_zero_votes tr ->
  operator_id (run s0 tr) = c_pred c -> c_deposit c = 0 -> mirrorable (run s0 tr) l ->
  exists s', exec c (run s0 tr) (MirrorLps ext l) = Ok (s', []).
Proof. exact c31_total. Qed.
Print Assumptions C31_mirror_total.

(** 0xabc has 8+9 mpDAO mirrored (13 power), delegated to a.near who votes on three objects;
    mirroring only 5 for 60 days drops the first votes. *)
Definition tr_mirror : list call :=
  [ usr "opr.near" 1 (MirrorLps "0xabc" [(30, M 8); (60, M 9)]);
    usr1 "a.near" 2 (PreDelegate "0xabc" "sig"); usr1 "opr.near" 3 (OpConfirm "0xabc");
    usr "a.near" 4 (VoteDelegated "0xabc" (V 4) "A" "o1");
    usr "a.near" 4 (VoteDelegated "0xabc" (V 3) "A" "o2");
    usr "a.near" 4 (VoteDelegated "0xabc" (V 5) "B" "o3") ].
Definition x_mirror : call := usr "opr.near" 5 (MirrorLps "0xabc" [(60, M 5)]).
Example C31_example :
  let s := run s0 tr_mirror in
  all_ok s0 (tr_mirror ++ [x_mirror]) = true /\ collision_free tr_mirror /\ no_zero_votes tr_mirror /\
  mirrorable s [(60, M 5)] /\
  (forall j, get_voter_info 0 s "0xabc.evmp.near" = Ok j ->
     vj_votes j = [("A", "o1", V 4); ("A", "o2", V 3); ("B", "o3", V 5)]) /\
  (forall j, get_voter_info 0 (step s x_mirror) "0xabc.evmp.near" = Ok j ->
     vj_votes j = [("B", "o3", V 5)] /\ vj_avail j = 0) /\
  get_total_votes (step s x_mirror) "A" "o1" = 0.
Proof.
  conj; [vmr|cf_tac|nz_tac| | | |vmr].
  - unfold mirrorable. conj.
    + apply NoDup_singleton.
    + vm_compute. discriminate.
    + repeat constructor; vmr.
    + vmr.
  - intros j H. vm_compute in H. injection H as <-. reflexivity.
  - intros j H. vm_compute in H. injection H as <-. conj; reflexivity.
Qed.
