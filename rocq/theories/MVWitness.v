(** MVWitness.v -- concrete histories used as witnesses and examples. *)

From Verif Require Export MVSpec.

(** caller, attached deposit, time in milliseconds *)
Definition cx (p : string) (dep ms : N) : ctx :=
  mkCtx p p dep (ms * 1000000) (fun _ => None) (fun _ => None).
Definition ia : init_args :=
  mkInit "mv.near" "own.near" "opr.near" 30 300 1000000 20 3 "mpdao.near" "stnear.near" 7 "old.near".
Definition dummy_state : state :=
  mkState "" "" "" [] [] 0 0 0 0 0 "" 0 [] 0 0 "" [] 0 0 0 [] "" [] ∅ ∅ 0 None 0 ∅ ∅.
Definition s0 : state := match mv_new ia with Ok s => s | Panic _ => dummy_state end.

Lemma s0_ok : mv_new ia = Ok s0.
Proof. reflexivity. Qed.

(** bond [a] whole mpDAO of [v] for a period given in days (string) *)
Definition M (n : N) : N := n * 1000000.
Definition V (n : N) : N := n * 1000000000000000000000000.
Definition dep (v : string) (a : N) (d : string) (t : N) : call :=
  (cx "mpdao.near" 0 t, FtOnTransfer v (M a) d).
Definition usr (v : string) (t : N) (o : op) : call := (cx v 0 t, o).
Definition usr1 (v : string) (t : N) (o : op) : call := (cx v 1 t, o).
(** a transfer with a for-claims message decoded as [l] *)
Definition claims (tok : string) (amount : N) (l : list (string * N)) (t : N) : call :=
  (mkCtx tok tok 0 (t * 1000000) (fun _ => None) (fun _ => Some l),
   FtOnTransfer "own.near" amount "for-claims:x").

(** every call of the history succeeds *)
Fixpoint all_ok (s : state) (tr : list call) : bool :=
  match tr with
  | [] => true
  | x :: tr' => match exec x.1 s x.2 with Ok (s', _) => all_ok s' tr' | Panic _ => false end
  end.

(** splits conjunctions only ([repeat split] would also try to close equations lazily) *)
Ltac conj := cbv zeta; repeat match goal with |- _ /\ _ => split end.
(** for examples: the call panics *)
Definition panics {A} (r : res A) : bool := match r with Ok _ => false | Panic _ => true end.
(** for examples: the effects of a successful call *)
Definition effs (r : res (state * list eff)) : option (list eff) := match r with Ok (_, e) => Some e | Panic _ => None end.
Ltac vmr := vm_compute; reflexivity.

Ltac timed_tac := unfold timed; cbn [map]; repeat constructor; vm_compute; discriminate.

(** A long ordinary history: several voters, votes, unlocks, splits, relocks, rewards,
    withdrawals, mirrored positions and delegation. *)
Definition DAY : N := 86400000.
Definition tr_demo : list call :=
  [ dep "a.near" 100 "60" 1; dep "a.near" 50 "300" 2; dep "b.near" 70 "90" 3;
    usr "a.near" 4 (Vote (V 60) "meta-apps" "app1"); usr "a.near" 4 (Vote (V 10) "launches" "l1");
    usr "b.near" 5 (Vote (V 30) "meta-apps" "app1");
    usr "a.near" 6 (Rebalance (V 40) "meta-apps" "app1");
    usr "a.near" 7 (Vote (V 5) "meta-apps" "app2");
    usr "a.near" 8 (UnlockPartial 1 (M 20));
    usr "b.near" 9 (Unvote "meta-apps" "app1"); usr "b.near" 9 (Unlock 0);
    claims "mpdao.near" (M 30) [("a.near", 10); ("c.near", 20)] 10;
    usr "a.near" 11 (ClaimAndLock (M 10) 60);
    claims "stnear.near" (3 * 100000000000000000000) [("a.near", 1); ("b.near", 2)] 12;
    usr "a.near" 13 (ClaimStnear 100000000000000000000);
    usr "a.near" 14 (RelockPartial 2 (M 5) 300 0);
    usr "a.near" 15 (ExtendDays 0 90);
    usr "opr.near" 16 (MirrorLps "0xabc" [(30, M 8); (60, M 9)]);
    usr "a.near" 17 (Unvote "meta-apps" "app2");
    usr1 "b.near" (90 * DAY + 10) WithdrawAll;
    usr "a.near" (300 * DAY + 100) (ClearPositions [2%nat]);
    usr1 "a.near" (300 * DAY + 101) (Withdraw [] (M 4)) ].

Lemma tr_demo_ok : all_ok s0 tr_demo = true /\ timed tr_demo.
Proof. split; [vm_compute; reflexivity|timed_tac]. Qed.
Lemma all_ok_along s tr : all_ok s tr = true -> along succeeds s tr.
Proof.
  revert s. induction tr as [|x tr IH]; intros s H; [exact I|]. cbn [all_ok along] in *.
  destruct (exec x.1 s x.2) as [[s' e]|] eqn:E; [|discriminate]. split; [exists (s', e); exact E|].
  unfold step. rewrite E. apply IH. exact H.
Qed.
