(** Props_Cover.v -- C83: all votes are covered by voting power, and all voting power by tokens. *)

From Verif Require Import MVBooks WorldCover MVWitness MVRefuted Props_Step Props_Fits Props_Small Props_World.

(** The votes on any objects, together with the power nobody uses, are at most the total voting power, and are all of it
    when no object with votes is left out.  Such a list exists. *)
Theorem C83_votes_covered :
  forall a s0 tr, mv_new a = Ok s0 -> collision_free tr -> no_zero_votes tr ->
  let s := run s0 tr in
  (forall ps, List.NoDup ps -> votes_on s ps + unused_power s <= get_total_voting_power s) /\
  (forall ps, List.NoDup ps -> covers s ps -> votes_on s ps + unused_power s = get_total_voting_power s) /\
  (exists ps, List.NoDup ps /\ covers s ps).
Proof. exact c83_votes. Qed.
Print Assumptions C83_votes_covered.

(** The first part needs no proviso: whatever names are used and whatever is voted, the votes counted on all objects and the
    power reported as free never exceed the total voting power together. *)
Theorem C83_never_exceeded :
  forall a s0 tr ps, mv_new a = Ok s0 -> List.NoDup ps ->
  votes_on (run s0 tr) ps + unused_power (run s0 tr) <= get_total_voting_power (run s0 tr).
Proof. exact c83_never. Qed.
Print Assumptions C83_never_exceeded.

(** Without calls that go past the configured bounds (extend, mirror) or change them, the power is at most
    (max days + 1) / 60 times the mpDAO in locked positions (the 1 pays for rounding). *)
Theorem C83_power_covered :
  forall a s0 tr, mv_new a = Ok s0 -> collision_free tr -> N.of_nat (length tr) < 2 ^ 64 ->
  let s := run s0 tr in
  get_total_voting_power s <= 60 * 10 ^ 18 * locked_mpdao s /\
  (Forall quiet_bounds tr -> 60 * get_total_voting_power s <= (max_unbond s0 + 1) * 10 ^ 18 * locked_mpdao s).
Proof. intros a s0 tr H0 Hc Hn. split; [exact (c83_power a s0 tr H0 Hc Hn)|exact (c83_power_quiet a s0 tr H0 Hc Hn)]. Qed.
Print Assumptions C83_power_covered.

(** In the world with tokens: by the mpDAO that the contract holds in the token's ledger, at every moment. *)
Theorem C83_tokens_held :
  forall w0 evs, wstart w0 -> Forall (calm Mp w0) evs -> N.of_nat (length evs) < 2 ^ 64 -> collision_free (heard w0 evs) ->
  let w := wrun w0 evs in
  get_total_voting_power (w_mv w) <= 60 * 10 ^ 18 * ft_balance_of (w_mp w) (self_id (w_mv w)) /\
  (Forall quiet_bounds (heard w0 evs) ->
   60 * get_total_voting_power (w_mv w) <= (max_unbond (w_mv w0) + 1) * 10 ^ 18 * ft_balance_of (w_mp w) (self_id (w_mv w))).
Proof. exact c83_world. Qed.
Print Assumptions C83_tokens_held.

(** With extend the configured maximum does not bound the power: 100 mpDAO have the power of more than 1100 locked for the
    300 days that are the longest period allowed. *)
Theorem C83_extend_refuted :
  ~ (forall a s0 tr, mv_new a = Ok s0 -> collision_free tr -> N.of_nat (length tr) < 2 ^ 64 ->
       Forall (fun x => match x.2 with UpdateMaxUnbond _ | UpdateMinUnbond _ | MirrorLps _ _ => False | _ => True end) tr ->
       60 * get_total_voting_power (run s0 tr) <= (max_unbond s0 + 1) * 10 ^ 18 * locked_mpdao (run s0 tr)).
Proof.
  intros H. assert (E : (60 * get_total_voting_power (run s0 tr_extmax) <=? (max_unbond s0 + 1) * 10 ^ 18 * locked_mpdao (run s0 tr_extmax)) = false) by vmr.
  apply N.leb_gt in E. specialize (H ia s0 tr_extmax s0_ok ltac:(apply cf_of; vmr) ltac:(vm_compute; reflexivity) ltac:(repeat constructor)). lia.
Qed.
Print Assumptions C83_extend_refuted.

(** ** Examples *)
Example C83_never_example :
  (* colliding names: a.near ends with 190 unused of a power of 100, yet the sums stay below the total *)
  (let s := run s0 tr_coll in
   get_available_voting_power s "a.near" = V 190 /\ votes_on s [("x.near-foo", "o1"); ("foo", "o2")] + unused_power s = V 1200 /\ get_total_voting_power s = V 1200).
Proof. conj; vmr. Qed.
Example C83_example :
  collision_free tr_demo /\ no_zero_votes tr_demo /\ Forall quiet_bounds (firstn 16 tr_demo) /\
  (let s := run s0 (firstn 8 tr_demo) in
   votes_on s [("meta-apps", "app1")] = V 70 /\
   votes_on s [("meta-apps", "app1"); ("launches", "l1"); ("meta-apps", "app2")] = V 85 /\
   unused_power s = V 370 /\ get_total_voting_power s = V 455 /\ locked_mpdao s = M 220) /\
  (let s := run s0 (firstn 16 tr_demo) in
   get_total_voting_power s = V 285 /\ locked_mpdao s = M 145).
Proof. split; [apply cf_of; vmr|]. split; [apply nz_of; vmr|]. split; [repeat constructor|]. conj; vmr. Qed.
Example C83_world_example :
  Forall (calm Mp w0) evs_out /\ collision_free (heard w0 evs_setup) /\ Forall quiet_bounds (heard w0 evs_setup) /\
  (let w := wrun w0 evs_setup in
   get_total_voting_power (w_mv w) = V 105 /\ ft_balance_of (w_mp w) "mv.near" = M 110 /\ length (heard w0 evs_setup) = 4%nat).
Proof. split; [unfold evs_out, evs_setup; repeat constructor|]. split; [apply cf_of; vmr|]. split; [|conj; vmr].
  assert (E : forallb (fun x => match x.2 with UpdateMaxUnbond _ | UpdateMinUnbond _ | MirrorLps _ _ | ExtendDays _ _ => false | _ => true end) (heard w0 evs_setup) = true) by vmr.
  apply List.Forall_forall. intros x Hx. rewrite forallb_forall in E. specialize (E x Hx). destruct x as [c o]. destruct o; try exact I; discriminate E.
Qed.
