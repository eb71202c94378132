(** Props_Log.v -- C80: what the lines written to the log tell. *)

From Verif Require Import MVLog3 MVLogText Props_Step Props_Fits Props_Small.

(** C80: reading the lines of all accepted calls in order, adding for "gave", setting for "increased to" and "decreased
    to", and clearing for "unvoted", gives every account's votes for every object. *)
Theorem C80_replay :
  forall a s0 tr, mv_new a = Ok s0 -> collision_free tr -> no_zero_votes tr ->
    forall w addr obj, votes_or0 (run s0 tr) w addr obj = told_all (log_of s0 tr) nothing_told w addr obj.
Proof. exact c80_replay. Qed.
Print Assumptions C80_replay.

(** The text is enough: if names of accounts and addresses hold no spaces, two histories, of whatever contracts, that
    wrote the same texts left the same votes. *)
Theorem C80_text :
  forall a1 s1 tr1 a2 s2 tr2,
    mv_new a1 = Ok s1 -> mv_new a2 = Ok s2 -> collision_free tr1 -> no_zero_votes tr1 -> collision_free tr2 -> no_zero_votes tr2 ->
    Forall clean (log_of s1 tr1) -> Forall clean (log_of s2 tr2) -> map render (log_of s1 tr1) = map render (log_of s2 tr2) ->
    log_of s1 tr1 = log_of s2 tr2 /\
    forall w addr obj, votes_or0 (run s1 tr1) w addr obj = votes_or0 (run s2 tr2) w addr obj.
Proof.
  intros a1 s1 tr1 a2 s2 tr2 H1 H2 Hc1 Hz1 Hc2 Hz2 C1 C2 E.
  assert (El : log_of s1 tr1 = log_of s2 tr2).
  { revert C1 C2 E. generalize (log_of s1 tr1) (log_of s2 tr2). intros l. induction l as [|x l IH]; intros [|y l'] C1 C2 E; try discriminate; [reflexivity|].
    cbn [map] in E. injection E as Ex E. inversion C1; inversion C2; subst. f_equal; [apply render_inj; assumption|apply IH; assumption]. }
  split; [exact El|]. intros w addr obj. rewrite (c80_replay a1 s1 tr1), (c80_replay a2 s2 tr2) by assumption. rewrite El. reflexivity.
Qed.
Print Assumptions C80_text.

(** Different lines have different texts. *)
Theorem C80_render : forall l l', clean l -> clean l' -> render l = render l' -> l = l'.
Proof. exact render_inj. Qed.
Print Assumptions C80_render.

(** Without the proviso on spaces the text does not tell which object got the votes: an address is any string. *)
Definition tr_text1 : list call :=
  [ dep "a.near" 100 "60" 1; usr "a.near" 2 (Vote (V 7) "B" "o at address A") ].
Definition tr_text2 : list call :=
  [ dep "a.near" 100 "60" 1; usr "a.near" 2 (Vote (V 7) "A at address B" "o") ].
Theorem C80_text_refuted :
  exists tr1 tr2, collision_free tr1 /\ no_zero_votes tr1 /\ collision_free tr2 /\ no_zero_votes tr2 /\
    map render (log_of s0 tr1) = map render (log_of s0 tr2) /\
    votes_or0 (run s0 tr1) "a.near" "B" "o at address A" = V 7 /\ votes_or0 (run s0 tr2) "a.near" "B" "o at address A" = 0.
Proof.
  exists tr_text1, tr_text2. split; [apply cf_of; vmr|]. split; [apply nz_of; vmr|]. split; [apply cf_of; vmr|]. split; [apply nz_of; vmr|].
  split; [vmr|]. split; vmr.
Qed.
Print Assumptions C80_text_refuted.

(** The line "is no longer part of Meta Vote!" is written exactly when the named account leaves the list of voters. *)
Theorem C80_godspeed :
  forall a s0 tr x w, mv_new a = Ok s0 ->
    LGodspeed w ∈ logs_of (run s0 tr) x <-> w ∈ voter_ids (run s0 tr) /\ w ∉ voter_ids (step (run s0 tr) x).
Proof. exact c80_godspeed. Qed.
Print Assumptions C80_godspeed.

(** An accepted transfer either distributes rewards, writing nothing and leaving all positions alone, or writes one line
    with its amount, naming the account in whose positions just this amount was added. *)
Theorem C80_deposit :
  forall s c sender amount msg s' e, exec c s (FtOnTransfer sender amount msg) = Ok (s', e) ->
  (exists r, after_prefix "for-claims:" msg = Some r /\ logs c s (FtOnTransfer sender amount msg) = [] /\
     forall v, in_positions s' v = in_positions s v) \/
  (exists w days, after_prefix "for-claims:" msg = None /\ lock_target c sender msg = Some (w, days) /\
     logs c s (FtOnTransfer sender amount msg) = [LDeposit amount w] /\
     in_positions s' w = in_positions s w + amount /\ forall v, v <> w -> in_positions s' v = in_positions s v).
Proof. intros s c sender amount msg s' e. exact (c80_deposit s c sender amount msg s' e). Qed.
Print Assumptions C80_deposit.

(** The line reads "deposited from", but it does not always name the account the tokens came from: the owner may lock
    for others, and then the account locked for is named. *)
Definition for_other : call :=
  (mkCtx "mpdao.near" "mpdao.near" 0 1000000 (fun _ => Some ("b.near", 60)) (fun _ => None), FtOnTransfer "own.near" (M 5) "[""b.near"",60]").
Definition from_of (ls : list line) : option string := match ls with [LDeposit _ w] => Some w | _ => None end.
Theorem C80_deposit_from_refuted :
  ~ (forall s c sender amount msg s' e, exec c s (FtOnTransfer sender amount msg) = Ok (s', e) ->
       forall w, from_of (logs c s (FtOnTransfer sender amount msg)) = Some w -> w = sender).
Proof.
  intros H.
  assert (K : forall x : call, negb (panics (exec x.1 s0 x.2)) = true -> forall sender amount msg, x.2 = FtOnTransfer sender amount msg ->
    forall w, from_of (logs x.1 s0 x.2) = Some w -> w = sender).
  { intros x Hx sender amount msg E w. rewrite E in *. destruct (exec x.1 s0 (FtOnTransfer sender amount msg)) as [[s' e]|] eqn:Ex; [|discriminate Hx].
    eapply H. exact Ex. }
  specialize (K for_other ltac:(vmr) "own.near" (M 5) "[""b.near"",60]" eq_refl "b.near" ltac:(vmr)). discriminate K.
Qed.
Print Assumptions C80_deposit_from_refuted.

(** What mirroring writes: one line with the power before, the new power and the power in use, then one line for each
    vote that is dropped. *)
Theorem C80_mirror :
  forall a s0 tr c ext l s' e,
    mv_new a = Ok s0 -> collision_free (tr ++ [(c, MirrorLps ext l)]) -> no_zero_votes (tr ++ [(c, MirrorLps ext l)]) ->
    let s := run s0 tr in let w := evm_account ext in
    exec c s (MirrorLps ext l) = Ok (s', e) ->
    exists gone, logs c s (MirrorLps ext l) =
        LMirror (get_available_voting_power s w + used_or0 s w) (sum_by (fun lp => power lp.1 lp.2) l) (used_or0 s w)
        :: map (fun x => LUnvote w x.2 x.1) gone /\
      NoDup gone /\ (forall x, x ∈ gone -> 0 < votes_or0 s w x.1 x.2) /\
      (forall v x y, votes_or0 s' v x y = if decide (v = w /\ (x, y) ∈ gone) then 0 else votes_or0 s v x y).
Proof.
  intros a s0 tr c ext l s' e H0 Hc Hz s w E.
  destruct (mirror_lines _ _ (good_run a s0 tr _ H0 Hc Hz) c _ _ _ _ (sinv_last _ _ _ _ _ _ _ H0 Hc Hz E) E)
    as (gone & H1 & H2 & H3 & H4 & _). exists gone. auto.
Qed.
Print Assumptions C80_mirror.

(** A rebalancing says "increased" or "decreased" according to the votes before it, and the new number is the votes after. *)
Theorem C80_direction :
  forall a s0 tr c vp addr obj s' e,
    mv_new a = Ok s0 -> collision_free (tr ++ [(c, Rebalance vp addr obj)]) -> no_zero_votes (tr ++ [(c, Rebalance vp addr obj)]) ->
    let s := run s0 tr in let old := votes_or0 s (c_pred c) addr obj in
    exec c s (Rebalance vp addr obj) = Ok (s', e) ->
    0 < old /\ votes_or0 s' (c_pred c) addr obj = vp /\
    logs c s (Rebalance vp addr obj) =
      [if vp =? 0 then LUnvote (c_pred c) obj addr else if old <? vp then LUp (c_pred c) vp obj addr else LDown (c_pred c) vp obj addr] /\
    old <> vp.
Proof. exact c80_direction. Qed.
Print Assumptions C80_direction.

(** A line about a position names a position the account had, and tells what happened to it: unlocked whole, split in two,
    given more days, or locked again (with what was taken from the balance). *)
Theorem C80_positions :
  forall a s0 tr c o s' e l, mv_new a = Ok s0 -> collision_free (tr ++ [(c, o)]) -> no_zero_votes (tr ++ [(c, o)]) ->
    let s := run s0 tr in exec c s o = Ok (s', e) -> l ∈ logs c s o -> line_holds (now_ms c) (observe s) (observe s') l.
Proof. exact c80_positions. Qed.
Print Assumptions C80_positions.

(** Every other call writes at most one line, but mirroring may write any number: one mpDAO is enough for an account to
    be spread over n objects, and cutting it then writes more than n lines.  (NEAR aborts a call that writes more than
    100 lines, so beyond 99 objects the operator could not cut the account in one call; the model has no such limit.) *)
Theorem C80_one_line : forall c s o, (forall ext l, o <> MirrorLps ext l) -> (length (logs c s o) <= 1)%nat.
Proof.
  intros c s o Ho. destruct o; cbn [logs length]; try lia.
  - unfold unlock_partial_log. destruct (_ !! _); [destruct (_ =? _)|]; cbn; lia.
  - unfold rebalance_log. destruct (_ =? _); [cbn; lia|]. destruct (mbind _ _) as [[x|]|]; [destruct (_ <? _)|..]; cbn; lia.
  - contradiction (Ho ext l eq_refl).
  - unfold withdraw_log. destruct (match l with [] => _ | _ => _ end); [|cbn; lia]. destruct (voter_is_empty _); cbn; lia.
  - unfold withdraw_log. destruct (match unlocked_indexes _ _ with [] => _ | _ => _ end); [|cbn; lia]. destruct (voter_is_empty _); cbn; lia.
  - unfold deposit_log. destruct (msg_is_for_claims msg) as [[]|]; [cbn; lia|..];
      (destruct (msg_is_pair msg) as [[]|]; [destruct (c_json_pair c msg)|..]; cbn; lia).
Qed.
Print Assumptions C80_one_line.
Theorem C80_many_lines :
  forall n, N.of_nat n <= 10 ^ 24 ->
    exists s' e, exec cut.1 (run s0 (tr_many n)) cut.2 = Ok (s', e) /\ (n < length (logs cut.1 (run s0 (tr_many n)) cut.2))%nat.
Proof. exact c80_many. Qed.
Print Assumptions C80_many_lines.

(** ** Examples *)
(** a vote, more, less, a mirrored account cut back, a departure *)
Definition tr_told : list call :=
  [ dep "a.near" 100 "60" 1; usr "a.near" 2 (Vote (V 30) "A" "o 1"); usr "a.near" 3 (Vote (V 10) "A" "o 1");
    usr "a.near" 4 (Vote (V 1000) "A" "o2"); usr "a.near" 5 (Rebalance (V 15) "A" "o 1");
    usr "opr.near" 6 (MirrorLps EV [(60, M 9)]); usr (evm_account EV) 7 (Vote (V 5) "A" "o 1"); usr (evm_account EV) 8 (Vote (V 2) "B" "o3");
    usr "opr.near" 9 (MirrorLps EV [(60, M 3)]); dep "b.near" 70 "30" 10; usr "b.near" 11 (Unlock 0); usr1 "b.near" (31 * DAY) WithdrawAll ].
Lemma told_ok tr : collision_free tr -> no_zero_votes tr -> forall w x y, votes_or0 (run s0 tr) w x y = told_all (log_of s0 tr) nothing_told w x y.
Proof. exact (C80_replay ia s0 tr s0_ok). Qed.
Example C80_example :
  map render (log_of s0 tr_told) =
    [ "DEPOSIT: 100000000 mpDAO deposited from a.near";
      "VOTE: a.near gave 30000000000000000000000000 votes for object o 1 at address A.";
      "VOTE: a.near gave 10000000000000000000000000 votes for object o 1 at address A.";
      "VOTE: a.near decreased to 15000000000000000000000000 votes for object o 1 at address A.";
      "MIRROR: prev_vp 0 new_vp 9000000000000000000000000 used_vp 0.";
      "VOTE: 0xabc.evmp.near gave 5000000000000000000000000 votes for object o 1 at address A.";
      "VOTE: 0xabc.evmp.near gave 2000000000000000000000000 votes for object o3 at address B.";
      "MIRROR: prev_vp 9000000000000000000000000 new_vp 3000000000000000000000000 used_vp 7000000000000000000000000.";
      "UNVOTE: 0xabc.evmp.near unvoted object o 1 at address A.";
      "DEPOSIT: 70000000 mpDAO deposited from b.near"; "UNLOCK: b.near unlocked position 0.";
      "GODSPEED: b.near is no longer part of Meta Vote!" ] /\
  (forall w x y, votes_or0 (run s0 tr_told) w x y = told_all (log_of s0 tr_told) nothing_told w x y) /\
  told_all (log_of s0 tr_told) nothing_told "a.near" "A" "o 1" = V 15 /\
  told_all (log_of s0 tr_told) nothing_told (evm_account EV) "B" "o3" = V 2.
Proof.
  split; [vmr|]. split; [|split; vmr]. apply told_ok; [apply cf_of; vmr|apply nz_of; vmr].
Qed.
(** 200 objects, 201 lines *)
Example C80_example_many : length (logs cut.1 (run s0 (tr_many 200)) cut.2) = 201%nat.
Proof. vmr. Qed.

(** a position split, extended, and locked again *)
Definition tr_split : list call := [ dep "a.near" 100 "60" 1; usr "a.near" 2 (UnlockPartial 0 (M 40)); usr "a.near" 3 (ExtendDays 0 90) ].
Example C80_example_positions :
  map render (log_of s0 (tr_split ++ [usr "a.near" 4 (Relock 1 120 0)])) =
    [ "DEPOSIT: 100000000 mpDAO deposited from a.near"; "UNLOCK: a.near partially unlocked position 0.";
      "EXTEND-TIME: a.near position #0 90 days"; "RELOCK: a.near relocked position 1." ] /\
  logs (usr "a.near" 4 (Relock 1 120 0)).1 (run s0 tr_split) (Relock 1 120 0) = [LRelock "a.near" 1] /\
  in_lock (l_acct (observe (run s0 tr_split)) "a.near") = M 60 /\
  in_lock (l_acct (observe (run s0 (tr_split ++ [usr "a.near" 4 (Relock 1 120 0)]))) "a.near") = M 100.
Proof. split; [vmr|]. split; [vmr|]. split; vmr. Qed.
