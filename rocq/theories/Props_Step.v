(** Props_Step.v -- C72: every call of the voting contract changes what the views show exactly as specified. *)

From Verif Require Import MVStep8 MVWitness MVRefuted.

(** C72: MVSpecStep.v specifies the contract as a ledger: [enabled] says when a call is accepted, [becomes] what
    the ledger is afterwards (all of it), [pays] which tokens are sent.  Every accepted call was enabled and does
    just that; every enabled call is accepted, unless a sum or product does not fit in 128 bits. *)
Theorem C72_step :
  forall a s0 tr c o,
    mv_new a = Ok s0 -> collision_free (tr ++ [(c, o)]) -> no_zero_votes (tr ++ [(c, o)]) -> named_once o ->
    let s := run s0 tr in
    (forall s' e, exec c s o = Ok (s', e) ->
       enabled c (observe s) o /\ becomes c (observe s) o (observe s') /\ e = pays c (observe s) o) /\
    (enabled c (observe s) o -> (exists s' e, exec c s o = Ok (s', e)) \/ exists m, exec c s o = Panic m /\ too_big m).
Proof. exact c72. Qed.
Print Assumptions C72_step.

(** The constructor accepts just the arguments that fit their types with the shortest unbonding period below the
    longest, and the new ledger holds nothing. *)
Theorem C72_init :
  forall a,
    ((exists s, mv_new a = Ok s) <-> fits_types a /\ i_min_unbond a < i_max_unbond a) /\
    forall s, mv_new a = Ok s -> same (observe s) (new_ledger a).
Proof. exact c72_init. Qed.
Print Assumptions C72_init.

(** The views show all there is: two contracts, of whatever histories, showing the same ledger accept the same
    calls, send the same tokens and show the same ledger again (mirroring apart, where the order in which the votes
    were cast decides which are dropped). *)
Theorem C72_no_hidden_state :
  forall a1 s1 tr1 a2 s2 tr2 c o,
    mv_new a1 = Ok s1 -> mv_new a2 = Ok s2 ->
    collision_free (tr1 ++ [(c, o)]) -> no_zero_votes (tr1 ++ [(c, o)]) ->
    collision_free (tr2 ++ [(c, o)]) -> no_zero_votes (tr2 ++ [(c, o)]) -> named_once o ->
    same (observe (run s1 tr1)) (observe (run s2 tr2)) ->
    forall s1' e1, exec c (run s1 tr1) o = Ok (s1', e1) ->
      (exists s2' e2, exec c (run s2 tr2) o = Ok (s2', e2) /\ e2 = e1 /\
         ((forall ext l, o <> MirrorLps ext l) -> same (observe s2') (observe s1'))) \/
      exists m, exec c (run s2 tr2) o = Panic m /\ too_big m.
Proof. exact c72_views. Qed.
Print Assumptions C72_no_hidden_state.

Ltac nz_tac := unfold no_zero_votes; repeat constructor; cbn; vm_compute; discriminate.

(** ** Examples *)
Definition ok_at (s : state) (x : call) : bool := negb (panics (exec x.1 s x.2)).
Lemma ok_at_true s x : ok_at s x = true -> exists s' e, exec x.1 s x.2 = Ok (s', e).
Proof. unfold ok_at. destruct (exec x.1 s x.2) as [[s' e]|]; [eauto|discriminate]. Qed.
Definition does (tr : list call) (x : call) : Prop :=
  let s := run s0 tr in
  exists s' e, exec x.1 s x.2 = Ok (s', e) /\ enabled x.1 (observe s) x.2 /\ becomes x.1 (observe s) x.2 (observe s') /\
               e = pays x.1 (observe s) x.2.
Lemma ex_step tr x : ok_at (run s0 tr) x = true -> collision_free (tr ++ [(x.1, x.2)]) ->
  no_zero_votes (tr ++ [(x.1, x.2)]) -> named_once x.2 -> does tr x.
Proof.
  intros H Hc Hz Hn. apply ok_at_true in H as (s' & e & E). exists s', e. split; [exact E|].
  exact (proj1 (C72_step ia s0 tr x.1 x.2 s0_ok Hc Hz Hn) s' e E).
Qed.

Definition T : N := 300 * DAY + 200.
Definition x_vote : call := usr "a.near" T (Vote (V 1) "launches" "l2").
Definition x_part : call := usr "a.near" T (UnlockPartial 0 (M 7)).
Definition x_take : call := usr1 "a.near" T (Withdraw [] (M 11)).
Definition tr_m : list call :=
  [ usr "opr.near" 1 (MirrorLps "0xabc" [(30, M 8); (60, M 9)]);
    usr1 "a.near" 2 (PreDelegate "0xabc" "sig"); usr1 "opr.near" 3 (OpConfirm "0xabc");
    usr "a.near" 4 (VoteDelegated "0xabc" (V 4) "A" "o1");
    usr "a.near" 4 (VoteDelegated "0xabc" (V 5) "B" "o3") ].
Definition x_mir : call := usr "opr.near" 5 (MirrorLps "0xabc" [(60, M 3)]).
Example C72_example_step :
  does tr_demo x_vote /\ does tr_demo x_part /\ does tr_demo x_take /\ does tr_m x_mir.
Proof.
  split; [|split; [|split]].
  - apply ex_step; [vmr|cf_tac|nz_tac|exact I].
  - apply ex_step; [vmr|cf_tac|nz_tac|exact I].
  - apply ex_step; [vmr|cf_tac|nz_tac|apply NoDup_nil_2].
  - apply ex_step; [vmr|cf_tac|nz_tac|exact I].
Qed.

(** what the specification says for them: the position is split and the remaining one keeps its days; the balance of
    11 is sent *)
Definition L_demo : ledger := observe (run s0 tr_demo).
Definition after (x : call) : ledger := next x.1 L_demo x.2.
Example C72_example_ledger :
  a_pos (l_acct L_demo "a.near") = [mkPos (M 110) 90 (V 165) None; mkPos (M 35) 300 (V 175) None] /\
  a_bal (l_acct (after x_take) "a.near") = 0 /\ pays x_take.1 L_demo x_take.2 = [PayMp "a.near" (M 11)] /\
  a_votes (l_acct (after x_vote) "a.near") "launches" "l2" = V 1 /\
  l_tally (after x_vote) "launches" "l2" = V 1.
Proof. conj; vmr. Qed.

(** arguments that are refused: periods the wrong way round, and a number that does not fit in 8 bits *)
Definition ia_days : init_args := mkInit "mv.near" "own.near" "opr.near" 300 300 1000000 20 3 "mpdao.near" "stnear.near" 7 "old.near".
Definition ia_big : init_args := mkInit "mv.near" "own.near" "opr.near" 30 300 1000000 20 256 "mpdao.near" "stnear.near" 7 "old.near".
Example C72_example_init :
  same (observe s0) (new_ledger ia) /\
  (~ exists s, mv_new ia_days = Ok s) /\ (~ exists s, mv_new ia_big = Ok s).
Proof.
  split; [|split].
  - exact (proj2 (C72_init ia) s0 s0_ok).
  - intros H. apply C72_init in H. destruct H as [_ H]. vm_compute in H. discriminate.
  - intros H. apply C72_init in H. destruct H as [(_ & _ & _ & _ & H & _) _]. vm_compute in H. discriminate.
Qed.

(** two histories that show the same: voting 6 at once, or voting 4 and raising it to 6 *)
Lemma set_votes_twice w x y m n L :
  a_votes (l_acct L w) x y = 0 -> m <= a_free (l_acct L w) -> same (set_votes w x y n (set_votes w x y m L)) (set_votes w x y n L).
Proof.
  intros H0 Hm. unfold same. split; [reflexivity|]. split.
  { intros z. unfold set_votes, on. cbn [l_acct set]. destruct (decide (z = w)) as [->|Hz]; [|rewrite !put_ne by exact Hz; apply same_acct_refl].
    rewrite !put_eq. unfold same_acct. cbn [a_voter a_bal a_pos a_free a_used a_votes set]. rewrite !H0.
    assert (Hp : put2 x y m (a_votes (l_acct L w)) x y = m) by (unfold put2; rewrite decide_True by auto; reflexivity).
    rewrite Hp. split; [reflexivity|]. split; [reflexivity|]. split; [reflexivity|]. split; [lia|]. split; [lia|].
    intros u v. unfold put2. destruct (decide _); reflexivity. }
  split; [reflexivity|]. split.
  { intros u v. unfold set_votes, on. cbn [l_tally l_acct set]. rewrite put_eq. cbn [a_votes set]. rewrite !H0.
    unfold put2. destruct (decide (u = x /\ v = y)) as [_|_]; [|reflexivity]. rewrite !decide_True by auto. lia. }
  repeat (split; [reflexivity|]). reflexivity.
Qed.

Definition tr_p : list call := [ dep "a.near" 100 "60" 1; usr "a.near" 2 (Vote (V 5) "A" "o1") ].
Definition x_4 : call := usr "a.near" 3 (Vote (V 4) "B" "o2").
Definition x_46 : call := usr "a.near" 4 (Rebalance (V 6) "B" "o2").
Definition x_6 : call := usr "a.near" 4 (Vote (V 6) "B" "o2").
Lemma step_same tr x : ok_at (run s0 tr) x = true -> collision_free (tr ++ [(x.1, x.2)]) -> no_zero_votes (tr ++ [(x.1, x.2)]) ->
  named_once x.2 -> (forall ext l, x.2 <> MirrorLps ext l) -> same (observe (run s0 (tr ++ [x]))) (next x.1 (observe (run s0 tr)) x.2).
Proof.
  intros H Hc Hz Hn Hm. destruct (ex_step tr x H Hc Hz Hn) as (s' & e & E & _ & Hb & _).
  rewrite run_app. cbn [run fold_left]. unfold step. rewrite E. cbn [fst].
  destruct x as [c o]. cbn [fst snd] in *. destruct o; try exact Hb. exfalso. eapply Hm. reflexivity.
Qed.
Example C72_example_same :
  let tr1 := tr_p ++ [x_4] ++ [x_46] in
  let tr2 := tr_p ++ [x_6] in
  let x := usr "a.near" 5 (Unvote "B" "o2") in
  same (observe (run s0 tr1)) (observe (run s0 tr2)) /\
  collision_free (tr1 ++ [x]) /\ no_zero_votes (tr1 ++ [x]) /\ collision_free (tr2 ++ [x]) /\ no_zero_votes (tr2 ++ [x]) /\ ok_at (run s0 tr1) x = true.
Proof.
  cbv zeta. split; [|split; [cf_tac|split; [nz_tac|split; [cf_tac|split; [nz_tac|vmr]]]]].
  rewrite app_assoc. eapply same_trans; [apply step_same; [vmr|cf_tac|nz_tac|exact I|discriminate]|].
  apply same_sym. eapply same_trans; [apply step_same; [vmr|cf_tac|nz_tac|exact I|discriminate]|]. apply same_sym.
  assert (H4 : same (observe (run s0 (tr_p ++ [x_4]))) (set_votes "a.near" "B" "o2" (V 4) (observe (run s0 tr_p)))).
  { eapply same_trans; [apply step_same; [vmr|cf_tac|nz_tac|exact I|discriminate]|]. apply set_votes_same; [apply same_refl|vmr]. }
  apply same_trans with (set_votes "a.near" "B" "o2" (V 6) (set_votes "a.near" "B" "o2" (V 4) (observe (run s0 tr_p)))).
  { apply set_votes_same; [exact H4|reflexivity]. }
  eapply same_trans; [apply set_votes_twice; [vmr|]|apply set_votes_same; [apply same_refl|vmr]].
  apply N.leb_le. vmr.
Qed.
