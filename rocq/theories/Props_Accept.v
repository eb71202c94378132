(** Props_Accept.v -- C71: calls of the voting contract succeed exactly when they should. *)

From Verif Require Import MVAccept4 MVWitness MVRefuted.

(** C71: [allowed] (MVSpecAccept.v) says over the views, for each of the 36 calls, when it must be accepted.
    A call that succeeds was allowed; an allowed call succeeds unless a sum or product does not fit in 128 bits. *)
Theorem C71_accepted :
  forall a s0 tr c o,
    mv_new a = Ok s0 -> collision_free (tr ++ [(c, o)]) -> no_zero_votes (tr ++ [(c, o)]) -> named_once o ->
    (forall s' e, exec c (run s0 tr) o = Ok (s', e) -> allowed c (run s0 tr) o) /\
    (allowed c (run s0 tr) o ->
     (exists s' e, exec c (run s0 tr) o = Ok (s', e)) \/ exists m, exec c (run s0 tr) o = Panic m /\ too_big m).
Proof. exact c71. Qed.
Print Assumptions C71_accepted.

(** Votes, unlocking, claims of stNEAR, delegation and the setters: exactly the allowed ones succeed. *)
Theorem C71_no_tokens :
  forall a s0 tr c o,
    mv_new a = Ok s0 -> collision_free (tr ++ [(c, o)]) -> no_zero_votes (tr ++ [(c, o)]) -> adds_no_tokens o = true ->
    (exists s' e, exec c (run s0 tr) o = Ok (s', e)) <-> allowed c (run s0 tr) o.
Proof. exact c71_no_tokens. Qed.
Print Assumptions C71_no_tokens.

Ltac nz_tac := unfold no_zero_votes; repeat constructor; cbn; vm_compute; discriminate.

(** Calls after a history with two voters: each accepted call with a neighbour that is refused. *)
Definition T : N := 300 * DAY + 200.
Definition yes_no : list (call * call) :=
  [ (usr "a.near" T (Vote (V 1) "launches" "l2"), usr "c.near" T (Vote (V 1) "launches" "l2"));
    (usr "a.near" T (Rebalance (V 41) "meta-apps" "app1"), usr "a.near" T (Rebalance (V 40) "meta-apps" "app1"));
    (usr "a.near" T (Unvote "launches" "l1"), usr "a.near" T (Unvote "launches" "l2"));
    (usr "a.near" T (Unlock 0), usr "a.near" T (Unlock 7));
    (usr "a.near" T (ExtendDays 0 91), usr "a.near" T (ExtendDays 0 90));
    (usr "a.near" T (UnlockPartial 0 (M 7)), usr "a.near" T (UnlockPartial 0 (M 1000)));
    (usr "a.near" T (RelockFromBalance 60 (M 1)), usr "a.near" T (RelockFromBalance 29 (M 1)));
    (usr "c.near" T (ClaimStnear 0), usr "c.near" T (ClaimStnear 1));
    (usr "b.near" T (ClaimStnear 200000000000000000000), usr "b.near" T (ClaimStnear 200000000000000000001));
    (usr1 "a.near" T (Withdraw [] (M 11)), usr1 "a.near" T (Withdraw [] (M 12)));
    (usr1 "a.near" T WithdrawAll, usr1 "b.near" T WithdrawAll);
    (usr1 "own.near" T (SetOwner "x.near"), usr "own.near" T (SetOwner "x.near"));
    (usr1 "a.near" T (PreDelegate "0xabc" "sig"), usr1 "a.near" T (PreDelegate "a.near" "sig")) ].
Definition ok_at (s : state) (x : call) : bool := negb (panics (exec x.1 s x.2)).
Example C71_example_pairs :
  all_ok s0 tr_demo = true /\
  forallb (fun p => ok_at (run s0 tr_demo) p.1 && negb (ok_at (run s0 tr_demo) p.2)) yes_no = true.
Proof. conj; vmr. Qed.

Lemma ok_at_true s x : ok_at s x = true -> exists s' e, exec x.1 s x.2 = Ok (s', e).
Proof. unfold ok_at. destruct (exec x.1 s x.2) as [[s' e]|]; [eauto|discriminate]. Qed.
Lemma ok_at_false s x : ok_at s x = false -> ~ exists s' e, exec x.1 s x.2 = Ok (s', e).
Proof. unfold ok_at. intros H (s' & e & E). rewrite E in H. discriminate. Qed.

(** the hypotheses hold after this history, for the first pair and for a withdrawal *)
Definition v_yes : call := usr "a.near" T (Vote (V 1) "launches" "l2").
Definition v_no : call := usr "c.near" T (Vote (V 1) "launches" "l2").
Definition w_yes : call := usr1 "a.near" T (Withdraw [] (M 11)).

Lemma ex_yes x : ok_at (run s0 tr_demo) x = true -> collision_free (tr_demo ++ [(x.1, x.2)]) ->
  no_zero_votes (tr_demo ++ [(x.1, x.2)]) -> named_once x.2 -> allowed x.1 (run s0 tr_demo) x.2.
Proof.
  intros H Hc Hz Hn. apply ok_at_true in H as (s' & e & E).
  exact (proj1 (C71_accepted ia s0 tr_demo x.1 x.2 s0_ok Hc Hz Hn) s' e E).
Qed.
Lemma ex_no x : ok_at (run s0 tr_demo) x = false -> collision_free (tr_demo ++ [(x.1, x.2)]) ->
  no_zero_votes (tr_demo ++ [(x.1, x.2)]) -> adds_no_tokens x.2 = true -> ~ allowed x.1 (run s0 tr_demo) x.2.
Proof.
  intros H Hc Hz Hn Ha. apply ok_at_false in H. apply H.
  exact (proj2 (C71_no_tokens ia s0 tr_demo x.1 x.2 s0_ok Hc Hz Hn) Ha).
Qed.

Example C71_example :
  allowed v_yes.1 (run s0 tr_demo) v_yes.2 /\ ~ allowed v_no.1 (run s0 tr_demo) v_no.2 /\
  allowed w_yes.1 (run s0 tr_demo) w_yes.2.
Proof.
  split; [|split].
  - apply ex_yes; [vmr|cf_tac|nz_tac|exact I].
  - apply ex_no; [vmr|cf_tac|nz_tac|reflexivity].
  - apply ex_yes; [vmr|cf_tac|nz_tac|apply NoDup_nil_2].
Qed.
