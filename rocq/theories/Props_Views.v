(** Props_Views.v -- C67: the views that list votes agree with each other. *)

From Coq Require Import Sorting.Sorted.
From Verif Require Import MVVoteViews MVRefuted.

(** C67: the votes of one account *)
Theorem C67_votes_by_voter :
  forall a s0 tr vid, mv_new a = Ok s0 -> collision_free tr ->
  let s := run s0 tr in
  exists l, get_votes_by_voter s vid = Ok l /\ Sorted N.le (map snd l) /\ NoDup (map fst l) /\
    get_used_voting_power s vid = Ok (sum_by snd l) /\
    (forall now, exists j, get_voter_info now s vid = Ok j /\ Permutation l (vj_votes j)) /\
    (no_zero_votes tr -> forall ad ob x,
       In (ad, ob, x) l <-> get_votes_for_object s vid ad ob = Ok x /\ 0 < x).
Proof. exact c67_voter. Qed.
Print Assumptions C67_votes_by_voter.

(** the votes of one address, for every history *)
Theorem C67_votes_by_address :
  forall a s0 tr addr, mv_new a = Ok s0 ->
  let s := run s0 tr in
  let l := get_votes_by_app s addr in
  NoDup l.*1 /\
  (forall o x, In (o, x) l -> get_total_votes s addr o = x) /\
  (forall o, 0 < get_total_votes s addr o -> In (o, get_total_votes s addr o) l) /\
  (no_zero_votes tr -> forall o x, In (o, x) l -> 0 < x) /\
  Permutation (get_votes_by_contract s addr) (map (fun ox => (addr, ox.1, ox.2)) l) /\
  Sorted N.le (map snd (get_votes_by_contract s addr)).
Proof. exact c67_app. Qed.
Print Assumptions C67_votes_by_address.

(** After a vote of zero power the two views of an account can disagree: an account that voted only
    on "B" is reported to have votes on "A". *)
Theorem C67_zero_vote_refuted :
  ~ (forall a s tr vid l ad ob x, mv_new a = Ok s -> timed tr -> collision_free tr ->
       get_votes_by_voter (run s tr) vid = Ok l ->
       get_votes_for_object (run s tr) vid ad ob = Ok x -> 0 < x -> In (ad, ob, x) l).
Proof.
  intros H.
  assert (Ht : timed (firstn 8 tr_stale)) by (unfold tr_stale; cbn [firstn]; timed_tac).
  assert (Hc : collision_free (firstn 8 tr_stale)) by (unfold tr_stale; cbn [firstn]; cf_tac).
  assert (E1 : get_votes_by_voter (run s0 (firstn 8 tr_stale)) "a.near" = Ok [("B", "o", V 1)]) by vmr.
  assert (E2 : get_votes_for_object (run s0 (firstn 8 tr_stale)) "a.near" "A" "o" = Ok (V 1)) by vmr.
  specialize (H ia s0 (firstn 8 tr_stale) "a.near" _ "A" "o" (V 1) s0_ok Ht Hc E1 E2 ltac:(vmr)).
  destruct H as [H|[]]. injection H. discriminate.
Qed.
Print Assumptions C67_zero_vote_refuted.

Example C67_example :
  let tr := firstn 8 tr_demo in
  collision_free tr /\ no_zero_votes tr /\ all_ok s0 tr = true /\
  get_votes_by_voter (run s0 tr) "a.near"
    = Ok [("meta-apps", "app2", V 5); ("launches", "l1", V 10); ("meta-apps", "app1", V 40)] /\
  get_used_voting_power (run s0 tr) "a.near" = Ok (V 55) /\
  get_votes_by_app (run s0 tr) "meta-apps" = [("app1", V 70); ("app2", V 5)] /\
  get_votes_by_contract (run s0 tr) "meta-apps" = [("meta-apps", "app2", V 5); ("meta-apps", "app1", V 70)].
Proof.
  conj; [unfold tr_demo; cbn [firstn]; cf_tac| |vmr|vmr|vmr|vmr|vmr].
  unfold tr_demo; cbn [firstn]. unfold no_zero_votes.
  repeat (apply List.Forall_cons; [cbn; first [exact I | vm_compute; discriminate]|]). apply List.Forall_nil.
Qed.
