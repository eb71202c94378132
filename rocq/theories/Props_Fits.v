(** Props_Fits.v -- C76: just which calls of the voting contract are accepted, and whole histories of calls. *)

From Verif Require Import MVFits4 MVStep8 MVWitness MVRefuted Props_Step.

(** C76: a call is accepted exactly when it is enabled (MVSpecStep.v) and the numbers it computes, as listed by
    [fits] in MVSpecFits.v, are below 2^128: nothing else is left to chance, no other sum or product can overflow. *)
Theorem C76_accepted :
  forall a s0 tr c o,
    mv_new a = Ok s0 -> collision_free (tr ++ [(c, o)]) -> no_zero_votes (tr ++ [(c, o)]) -> named_once o ->
    let s := run s0 tr in
    (exists s' e, exec c s o = Ok (s', e)) <-> enabled c (observe s) o /\ fits c (observe s) o.
Proof. exact c76. Qed.
Print Assumptions C76_accepted.

(** A whole history, starting from the constructor's arguments: the ledger shown at the end and all the token
    transfers ordered on the way, in order, are those the specification leads to. *)
Theorem C76_history :
  forall a s0 tr,
    mv_new a = Ok s0 -> collision_free tr -> no_zero_votes tr -> Forall (fun x : call => named_once x.2) tr ->
    leads (new_ledger a) tr (observe (run s0 tr)) (ordered s0 tr).
Proof. exact c76_history. Qed.
Print Assumptions C76_history.

(** And the specification leads to one ledger and one list of transfers only (mirroring apart, where the order in
    which votes were cast decides which are dropped). *)
Theorem C76_determined :
  forall tr, Forall (fun x : call => match x.2 with MirrorLps _ _ => False | _ => True end) tr ->
  forall L M, same L M -> forall L' M' e f, leads L tr L' e -> leads M tr M' f -> same L' M' /\ e = f.
Proof. exact c76_determined. Qed.
Print Assumptions C76_determined.

(** Two contracts showing the same ledger, of whatever histories, accept the same calls, without exception. *)
Theorem C76_no_hidden_state :
  forall a1 s1 tr1 a2 s2 tr2 c o,
    mv_new a1 = Ok s1 -> mv_new a2 = Ok s2 ->
    collision_free (tr1 ++ [(c, o)]) -> no_zero_votes (tr1 ++ [(c, o)]) ->
    collision_free (tr2 ++ [(c, o)]) -> no_zero_votes (tr2 ++ [(c, o)]) -> named_once o ->
    same (observe (run s1 tr1)) (observe (run s2 tr2)) ->
    forall s1' e1, exec c (run s1 tr1) o = Ok (s1', e1) ->
      exists s2' e2, exec c (run s2 tr2) o = Ok (s2', e2) /\ e2 = e1 /\
        ((forall ext l, o <> MirrorLps ext l) -> same (observe s2') (observe s1')).
Proof. exact c76_views. Qed.
Print Assumptions C76_no_hidden_state.

(** ** Examples *)
Definition ok_on (tr : list call) (x : call) : bool := negb (panics (exec x.1 (run s0 tr) x.2)).
Lemma ex_accepted tr x : ok_on tr x = true -> collision_free (tr ++ [(x.1, x.2)]) ->
  no_zero_votes (tr ++ [(x.1, x.2)]) -> named_once x.2 -> accepted x.1 (observe (run s0 tr)) x.2.
Proof.
  intros H Hc Hz Hn. apply (C76_accepted ia s0 tr x.1 x.2 s0_ok Hc Hz Hn).
  unfold ok_on in H. destruct (exec x.1 (run s0 tr) x.2) as [[s' e]|]; [eauto|discriminate].
Qed.
Lemma ex_not tr x : ok_on tr x = false -> collision_free (tr ++ [(x.1, x.2)]) ->
  no_zero_votes (tr ++ [(x.1, x.2)]) -> named_once x.2 -> ~ accepted x.1 (observe (run s0 tr)) x.2.
Proof.
  intros H Hc Hz Hn Ha. apply (C76_accepted ia s0 tr x.1 x.2 s0_ok Hc Hz Hn) in Ha as (s' & e & E).
  unfold ok_on in H. rewrite E in H. discriminate.
Qed.

(** 340282366920938463463 is the largest amount whose product with 10^18 fits in 128 bits.  Mirroring it for 60 days
    is accepted; one more, or the same for 300 days (five times the power), or the same when anyone else holds
    power, is enabled but refused. *)
Definition top : N := 340282366920938463463.
Definition mir (days amount : N) : call := usr "opr.near" 5 (MirrorLps "0xabc" [(days, amount)]).
Definition tr_1 : list call := [ dep "a.near" 100 "60" 1 ].
Lemma mir_enabled tr days amount :
  l_operator (observe (run s0 tr)) = "opr.near" -> l_max_pos (observe (run s0 tr)) = 20 -> days < 3600 ->
  enabled (mir days amount).1 (observe (run s0 tr)) (mir days amount).2.
Proof.
  intros H1 H2 H3. split; [reflexivity|]. split; [symmetry; exact H1|].
  split; [apply NoDup_singleton|]. split; [rewrite H2; cbn; lia|]. constructor; [exact H3|constructor].
Qed.
Example C76_example_fits :
  (let x := mir 60 top in accepted x.1 (observe (run s0 [])) x.2) /\
  (let x := mir 60 (top + 1) in enabled x.1 (observe (run s0 [])) x.2 /\ ~ accepted x.1 (observe (run s0 [])) x.2) /\
  (let x := mir 300 top in enabled x.1 (observe (run s0 [])) x.2 /\ ~ accepted x.1 (observe (run s0 [])) x.2) /\
  (let x := mir 60 top in enabled x.1 (observe (run s0 tr_1)) x.2 /\ ~ accepted x.1 (observe (run s0 tr_1)) x.2).
Proof.
  cbv zeta. split; [|split; [split|split; split]].
  - apply ex_accepted; [vmr|cf_tac|nz_tac|exact I].
  - apply mir_enabled; [vmr|vmr|lia].
  - apply ex_not; [vmr|cf_tac|nz_tac|exact I].
  - apply mir_enabled; [vmr|vmr|lia].
  - apply ex_not; [vmr|cf_tac|nz_tac|exact I].
  - apply mir_enabled; [vmr|vmr|lia].
  - apply ex_not; [vmr|cf_tac|nz_tac|exact I].
Qed.

(** a history with deposits, votes, unlocks, a refused call and a withdrawal: what it orders *)
Definition tr_h : list call :=
  [ dep "a.near" 100 "60" 1; usr "a.near" 2 (Vote (V 5) "A" "o1"); usr "a.near" 3 (Unlock 0);
    usr "a.near" 4 (Unvote "A" "o1"); usr "a.near" 5 (Unlock 0); usr1 "a.near" (61 * DAY) WithdrawAll ].
Lemma named_h : Forall (fun x : call => named_once x.2) tr_h.
Proof. unfold tr_h. repeat (apply Forall_cons; split; [exact I|]). apply Forall_nil. exact I. Qed.
Example C76_example_history :
  leads (new_ledger ia) tr_h (observe (run s0 tr_h)) [PayMp "a.near" (M 100)] /\ ok_on (firstn 2 tr_h) (usr "a.near" 3 (Unlock 0)) = false.
Proof.
  split; [|vmr]. assert (E : ordered s0 tr_h = [PayMp "a.near" (M 100)]) by vmr. rewrite <- E.
  apply (C76_history ia s0 tr_h s0_ok); [cf_tac|nz_tac|exact named_h].
Qed.

(** the two histories of C72_example_same (voting 6 at once; voting 4 and raising it to 6): taking the votes back is
    accepted by both and leaves the same ledger *)
Lemma ex_both tr1 tr2 x : ok_at (run s0 tr1) x = true ->
  collision_free (tr1 ++ [(x.1, x.2)]) -> no_zero_votes (tr1 ++ [(x.1, x.2)]) ->
  collision_free (tr2 ++ [(x.1, x.2)]) -> no_zero_votes (tr2 ++ [(x.1, x.2)]) -> named_once x.2 ->
  same (observe (run s0 tr1)) (observe (run s0 tr2)) -> ok_at (run s0 tr2) x = true.
Proof.
  intros H C1 Z1 C2 Z2 Hn Hs. apply ok_at_true in H as (s' & e & E).
  destruct (C76_no_hidden_state ia s0 tr1 ia s0 tr2 x.1 x.2 s0_ok s0_ok C1 Z1 C2 Z2 Hn Hs s' e E) as (s2 & e2 & E2 & _).
  unfold ok_at. rewrite E2. reflexivity.
Qed.
Example C76_example_same :
  ok_at (run s0 (tr_p ++ [x_6])) (usr "a.near" 5 (Unvote "B" "o2")) = true.
Proof.
  apply (ex_both (tr_p ++ [x_4] ++ [x_46])); [vmr|cf_tac|nz_tac|cf_tac|nz_tac|exact I|exact (proj1 C72_example_same)].
Qed.
