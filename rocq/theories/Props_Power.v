(** Props_Power.v -- C01, C02, C04 and C20: voting power is backed by locked tokens; configuration. *)

From Verif Require Import MVAuth MVRefuted.

(** C01. For every history whose (voter, address) names do not collide. *)
Theorem C01_votes_backed :
  forall a s0 tr, mv_new a = Ok s0 -> collision_free tr -> votes_backed (run s0 tr).
Proof.
  intros a s0 tr H0 Hc vid. pose proof (inv_run a s0 tr H0 Hc) as HI.
  destruct (inv_used _ _ _ vid HI) as (u & Hu & _ & Hb). exists u. cbn in Hb. rewrite N.add_0_r in Hb. exact (conj Hu Hb).
Qed.
Print Assumptions C01_votes_backed.

(** The proviso holds whenever no voted address contains a hyphen, and whenever no voter
    account contains one. *)
Theorem C01_collision_free_addresses :
  forall tr, (forall p, In p (vote_targets tr) -> has_hyphen p.2 = false) -> collision_free tr.
Proof. exact collision_free_addr. Qed.
Print Assumptions C01_collision_free_addresses.
Theorem C01_collision_free_voters :
  forall tr, (forall p, In p (vote_targets tr) -> has_hyphen p.1 = false) -> collision_free tr.
Proof. exact collision_free_voter. Qed.
Print Assumptions C01_collision_free_voters.

(** Without the proviso the claim is false. *)
Theorem C01_refuted :
  ~ (forall a s tr, mv_new a = Ok s -> timed tr -> votes_backed (run s tr)).
Proof. exact r_c01. Qed.
Print Assumptions C01_refuted.

Example C01_example :
  mv_new ia = Ok s0 /\ collision_free tr_demo /\ all_ok s0 tr_demo = true /\
  get_used_voting_power (run s0 tr_demo) "a.near" = Ok (V 50) /\
  get_available_voting_power (run s0 tr_demo) "a.near" = V 290.
Proof.
  split; [reflexivity|]. split; [cf_tac|]. split; [apply tr_demo_ok|]. vm_compute. split; reflexivity.
Qed.

(** C02 *)
Theorem C02_total_is_sum :
  forall a s0 tr, mv_new a = Ok s0 -> collision_free tr -> total_is_sum (run s0 tr).
Proof.
  intros a s0 tr H0 Hc. pose proof (inv_run a s0 tr H0 Hc) as HI. split.
  - intros vid. destruct (inv_used _ _ _ vid HI) as (u & Hu & _). exists u. exact Hu.
  - exact (inv_total _ _ _ HI).
Qed.
Print Assumptions C02_total_is_sum.

(** The saturating subtraction of unlock never saturates: no voter holds more than the total. *)
Theorem C02_no_saturation :
  forall a s0 tr vid, mv_new a = Ok s0 -> collision_free tr ->
    get_available_voting_power (run s0 tr) vid + used_or0 (run s0 tr) vid
    <= get_total_voting_power (run s0 tr).
Proof.
  intros a s0 tr vid H0 Hc. pose proof (inv_run a s0 tr H0 Hc) as HI.
  destruct (inv_used _ _ _ vid HI) as (u & Hu & Eu & _). unfold used_or0. rewrite Hu.
  destruct (inv_get _ _ _ vid HI) as (L & Hr & _ & _ & Hpw & Hpt).
  unfold get_total_voting_power, get_available_voting_power. unfold pw in *. rewrite Eu. exact Hpt.
Qed.
Print Assumptions C02_no_saturation.

Theorem C02_refuted :
  ~ (forall a s tr, mv_new a = Ok s -> timed tr -> total_is_sum (run s tr)).
Proof. exact r_c02. Qed.
Print Assumptions C02_refuted.

Example C02_example :
  mv_new ia = Ok s0 /\ collision_free tr_demo /\
  voter_ids (run s0 tr_demo) = ["a.near"; "0xabc.evmp.near"] /\
  get_total_voting_power (run s0 tr_demo) = V 353.
Proof. split; [reflexivity|]. split; [cf_tac|]. vm_compute. split; reflexivity. Qed.

(** C04: exact if no position is unlocked twice. *)
Theorem C04_power_accounted :
  forall a s0 tr, mv_new a = Ok s0 -> collision_free tr -> along unlocks_locked s0 tr ->
    power_accounted (run s0 tr).
Proof.
  intros a s0 tr H0 Hc Hu vid. pose proof (inv_run_eq a s0 tr H0 Hc Hu) as HI.
  destruct (inv_used _ _ _ vid HI) as (u & Hus & _ & Hb). exists u. exact (conj Hus Hb).
Qed.
Print Assumptions C04_power_accounted.

Theorem C04_refuted :
  ~ (forall a s tr, mv_new a = Ok s -> timed tr -> collision_free tr -> power_accounted (run s tr)).
Proof. exact r_c04. Qed.
Print Assumptions C04_refuted.

Example C04_example :
  mv_new ia = Ok s0 /\ collision_free tr_demo /\ along unlocks_locked s0 tr_demo /\
  locked_power (run s0 tr_demo) "a.near" = V 340.
Proof.
  split; [reflexivity|]. split; [cf_tac|]. split; [|vm_compute; reflexivity].
  unfold tr_demo. cbn [along]. repeat split; try exact I;
    intros _; eexists; (split; [vm_compute; reflexivity|reflexivity]).
Qed.

(** C20 *)
Theorem C20_owner_config :
  forall c s o s' e, exec c s o = Ok (s', e) ->
  let i := get_contract_info s in let i' := get_contract_info s' in
  (ci_owner i', ci_operator i', ci_stnear i', ci_min_unbond i', ci_max_unbond i', ci_reg_cost i',
   ci_prev_gov i')
    <> (ci_owner i, ci_operator i, ci_stnear i, ci_min_unbond i, ci_max_unbond i, ci_reg_cost i,
        ci_prev_gov i) ->
  c_pred c = ci_owner i.
Proof. exact config_auth. Qed.
Print Assumptions C20_owner_config.

Theorem C20_operator_lock_filters :
  forall c s o s' e, exec c s o = Ok (s', e) ->
    get_lock_in_vote_filters s' <> get_lock_in_vote_filters s ->
    c_pred c = ci_operator (get_contract_info s).
Proof. exact lock_filters_auth. Qed.
Print Assumptions C20_operator_lock_filters.

Theorem C20_constants :
  forall s tr, let i := get_contract_info s in let i' := get_contract_info (run s tr) in
  (ci_mpdao i', ci_min_deposit i', ci_max_lps i', ci_max_vps i')
  = (ci_mpdao i, ci_min_deposit i, ci_max_lps i, ci_max_vps i).
Proof. exact constants_fixed. Qed.
Print Assumptions C20_constants.

(** The setters set exactly the requested field. *)
Theorem C20_setters_exact :
  forall c s o s' e, exec c s o = Ok (s', e) ->
  match o with
  | SetOwner a => s' = s <| owner_id := a |>
  | SetOperator a => s' = s <| operator_id := a |>
  | SetStnear a => s' = s <| stnear_addr := a |>
  | UpdateRegCost n => s' = s <| reg_cost := n |>
  | UpdateMinUnbond n => s' = s <| min_unbond := n |>
  | UpdateMaxUnbond n => s' = s <| max_unbond := n |>
  | SetPrevGov a => s' = s <| prev_gov := a |>
  | SetLockIn t i a =>
      get_lock_in_vote_filters s' = (t, a, i) /\
      s' = s <| lock_end := t |> <| lock_addr := a |> <| lock_id := i |>
  | _ => True
  end.
Proof. exact setters_exact. Qed.
Print Assumptions C20_setters_exact.

Theorem C20_setters_available :
  forall c s o,
  match o with
  | SetOwner _ | SetOperator _ | SetStnear _ | UpdateMinUnbond _ | UpdateMaxUnbond _ | SetPrevGov _ =>
      c_pred c = owner_id s /\ c_deposit c = 1
  | UpdateRegCost _ => c_pred c = owner_id s /\ c_deposit c = 0
  | SetLockIn _ _ _ => c_pred c = operator_id s /\ c_deposit c = 0
  | _ => False
  end -> exists s', exec c s o = Ok (s', []).
Proof. exact setters_available. Qed.
Print Assumptions C20_setters_available.

Example C20_example :
  exists s', exec (cx "own.near" 1 5) s0 (SetOperator "x.near") = Ok (s', []) /\
    ci_operator (get_contract_info s') = "x.near" /\
    (exists m, exec (cx "mallory.near" 1 5) s0 (SetOperator "x.near") = Panic m).
Proof. eexists. split; [vm_compute; reflexivity|]. split; [reflexivity|]. eexists. vm_compute. reflexivity. Qed.
