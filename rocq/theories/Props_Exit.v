(** Props_Exit.v -- C57: leaving the contract. *)

From Verif Require Import MVExit MVRefuted.

(** As long as the account itself has not unlocked a position twice it can leave: some calls of its own
    at time [t] (withdrawing votes, unlocking positions) all succeed, and after them -- whatever other
    accounts do meanwhile -- [withdraw_all] 3600 days later pays everything and removes the account. *)
Theorem C57_exit :
  forall a s0 tr vid t,
  mv_new a = Ok s0 -> collision_free tr -> no_zero_votes tr -> along (own_unlocks_locked vid) s0 tr ->
  Forall (fun x : call => c_ts x.1 <= t) tr ->
  let s := run s0 tr in
  (forall ad ob, ~ lock_in_applies s (t / 1000000) ad ob) ->
  let owned := raw_balance s vid + positions_amount s vid in 0 < owned < 2 ^ 128 ->
  exists l, Forall (exit_call vid t) l /\ along succeeds s l /\
    forall mid c, Forall (fun x => call_target x <> vid) mid ->
      c_pred c = vid -> c_deposit c = 1 -> t + days_3600 <= c_ts c ->
      exists s', exec c (run s (l ++ mid)) WithdrawAll = Ok (s', [PayMp vid owned]) /\ vid ∉ voter_ids s'.
Proof. exact exit_possible. Qed.
Print Assumptions C57_exit.

(** The account's power is exactly that of its locked positions, whatever other accounts do. *)
Theorem C57_power_accounted_per_account :
  forall a s0 tr vid,
  mv_new a = Ok s0 -> collision_free tr -> along (own_unlocks_locked vid) s0 tr ->
  exists u, get_used_voting_power (run s0 tr) vid = Ok u /\
    get_available_voting_power (run s0 tr) vid + u = locked_power (run s0 tr) vid.
Proof. exact accounted_one. Qed.
Print Assumptions C57_power_accounted_per_account.

(** A shortfall of power against the locked positions never shrinks, unless the operator mirrors
    the account. *)
Theorem C57_shortfall_permanent :
  forall a s0 tr tr2 vid d u,
  mv_new a = Ok s0 -> collision_free (tr ++ tr2) ->
  get_used_voting_power (run s0 tr) vid = Ok u ->
  get_available_voting_power (run s0 tr) vid + u + d <= locked_power (run s0 tr) vid ->
  Forall (fun x => match x.2 with MirrorLps ext _ => ext +:+ ".evmp.near" <> vid | _ => True end) tr2 ->
  exists u', get_used_voting_power (run s0 (tr ++ tr2)) vid = Ok u' /\
    get_available_voting_power (run s0 (tr ++ tr2)) vid + u' + d <= locked_power (run s0 (tr ++ tr2)) vid.
Proof. exact shortfall_permanent. Qed.
Print Assumptions C57_shortfall_permanent.

(** Unlocking a position that is already unlocking freezes locked positions of the same power for good. *)
Theorem C57_double_unlock_freezes :
  forall a s0 tr c i j tr2,
  mv_new a = Ok s0 -> let x := (c, Unlock i) in collision_free (tr ++ x :: tr2) ->
  succeeds (run s0 tr) x ->
  get_locking_position (now_ms c) (run s0 tr) i (c_pred c) = Some j -> j_is_locked j = false ->
  Forall (fun x => match x.2 with MirrorLps ext _ => ext +:+ ".evmp.near" <> c_pred c | _ => True end) tr2 ->
  j_vp j <= locked_power (run s0 (tr ++ x :: tr2)) (c_pred c).
Proof. exact double_unlock_permanent. Qed.
Print Assumptions C57_double_unlock_freezes.

(** So not every account can leave: this one keeps locked positions in every future. *)
Theorem C57_refuted :
  exists a s0 tr vid, mv_new a = Ok s0 /\ timed tr /\ collision_free tr /\ along succeeds s0 tr /\
    forall tr2, collision_free (tr ++ tr2) ->
      Forall (fun x => match x.2 with MirrorLps ext _ => ext +:+ ".evmp.near" <> vid | _ => True end) tr2 ->
      0 < locked_power (run s0 (tr ++ tr2)) vid.
Proof.
  exists ia, s0, tr_reunlock, "a.near". split; [exact s0_ok|]. split; [timed_tac|].
  split; [intros p q []|]. split.
  { apply all_ok_along. vm_compute. reflexivity. }
  intros tr2 Hc Hm.
  destruct (C57_shortfall_permanent ia s0 tr_reunlock tr2 "a.near" 1 0 s0_ok Hc) as (u & _ & H).
  - vm_compute. reflexivity.
  - vm_compute. discriminate.
  - exact Hm.
  - lia.
Qed.
Print Assumptions C57_refuted.

(** decides [along (own_unlocks_locked vid)] for a concrete history *)
Fixpoint own_ok (vid : string) (s : state) (tr : list call) : bool :=
  match tr with
  | [] => true
  | x :: tr' =>
      match x.2 with
      | Unlock i | UnlockPartial i _ =>
          if decide (c_pred x.1 = vid) then
            match get_locking_position (now_ms x.1) s i (c_pred x.1) with Some j => j_is_locked j | None => false end
          else true
      | _ => true
      end && own_ok vid (step s x) tr'
  end.
Lemma own_ok_along vid tr : forall s, own_ok vid s tr = true -> along (own_unlocks_locked vid) s tr.
Proof.
  induction tr as [|x tr IH]; intros s H; [exact I|]. cbn [own_ok along] in *. apply andb_true_iff in H as [H1 H2].
  split; [|apply IH; exact H2]. intros Hp. unfold unlocks_locked. destruct (x.2); try exact I; intros _;
    rewrite decide_True in H1 by exact Hp;
    (destruct (get_locking_position _ _ _ _) as [j|]; [exists j; auto|discriminate]).
Qed.

(** a.near has 145 mpDAO in two locked positions, 11 in the balance and 50 units of votes in two places;
    it can leave with 156. *)
Definition exit_a : list call :=
  map (fun o => (exit_ctx "a.near" (400 * DAY * 1000000), o))
    [Unvote "launches" "l1"; Unvote "meta-apps" "app1"; Unlock 0; Unlock 1].

Example C57_example :
  all_ok s0 tr_demo = true /\ collision_free tr_demo /\ no_zero_votes tr_demo /\
  along (own_unlocks_locked "a.near") s0 tr_demo /\
  Forall (fun x : call => c_ts x.1 <= 400 * DAY * 1000000) tr_demo /\
  (forall ad ob, ~ lock_in_applies (run s0 tr_demo) (400 * DAY * 1000000 / 1000000) ad ob) /\
  used_or0 (run s0 tr_demo) "a.near" = V 50 /\
  raw_balance (run s0 tr_demo) "a.near" = M 11 /\ positions_amount (run s0 tr_demo) "a.near" = M 145 /\
  Forall (exit_call "a.near" (400 * DAY * 1000000)) exit_a /\
  all_ok (run s0 tr_demo) exit_a = true /\
  effs (exec (cx "a.near" 1 (4000 * DAY)) (run (run s0 tr_demo) exit_a) WithdrawAll) = Some [PayMp "a.near" (M 156)].
Proof.
  assert (E : get_lock_in_vote_filters (run s0 tr_demo) = (0, None, 0)) by vmr.
  conj; [vmr|cf_tac| | | | |vmr|vmr|vmr| |vmr|vmr].
  - unfold no_zero_votes, tr_demo. repeat (apply List.Forall_cons; [first [exact I|vm_compute; discriminate]|]). apply List.Forall_nil.
  - apply own_ok_along. vmr.
  - unfold tr_demo. repeat (apply List.Forall_cons; [vm_compute; discriminate|]). apply List.Forall_nil.
  - intros ad ob. unfold lock_in_applies. rewrite E. intros (_ & H & _). discriminate.
  - unfold exit_a. cbn [map]. repeat (apply List.Forall_cons; [split; [reflexivity|cbn [snd]; first [left; eexists _, _; reflexivity|right; eexists; reflexivity]]|]). apply List.Forall_nil.
Qed.
