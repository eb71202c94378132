(** Props_Batch.v -- C78: a call taking a list is the sequence of the calls naming one item each. *)

From Verif Require Import MVBatch3 MVWitness MVRefuted Props_Step.

(** C78: collecting a list of positions, whatever it names and however often, is collecting them one by one from the
    highest index to the lowest: the one is accepted when all the others are, with the same final state. *)
Theorem C78_collect :
  forall c s l m s' e, l <> [] -> descending l m ->
    exec c s (ClearPositions l) = Ok (s', e) <-> all_accepted s (map (one_collect c) m) s' e.
Proof. exact c78_collect. Qed.
Print Assumptions C78_collect.

(** withdrawing with a list of positions is collecting these first *)
Theorem C78_withdraw :
  forall c s l m n s' e, descending l m ->
    exec c s (Withdraw l n) = Ok (s', e) <->
    all_accepted s (map (one_collect (unpaid c)) m ++ [(c, Withdraw [] n)]) s' e.
Proof. exact c78_withdraw. Qed.
Print Assumptions C78_withdraw.

Theorem C78_airdrop :
  forall c l, l <> [] -> forall s s' e,
    exec c s (OpMultiSetAirdrop l) = Ok (s', e) <-> all_accepted s (map (one_airdrop c) l) s' e.
Proof. exact c78_airdrop. Qed.
Print Assumptions C78_airdrop.

Theorem C78_migrate :
  forall c s w l data s' e,
    exec c s (MigrationCreateLps w l data) = Ok (s', e) <->
    all_accepted s (map (one_migrate c w) l ++ [(c, MigrationCreateLps w [] data)]) s' e.
Proof. exact c78_migrate. Qed.
Print Assumptions C78_migrate.

(** distributing rewards to a list of accounts is distributing to one at a time, and the amount sent is the sum *)
Theorem C78_reward :
  forall c s sender amount msg rest l u s' e,
    after_prefix "for-claims:" msg = Some rest -> c_json_claims c rest = Some l -> l <> [] ->
    u = (if decide (c_pred c = mpdao_addr s) then mp_unit else st_unit) ->
    exec c s (FtOnTransfer sender amount msg) = Ok (s', e) <->
    amount = u * sum_by snd l /\ all_accepted s (map (one_reward c sender msg u) l) s' e.
Proof. exact c78_reward. Qed.
Print Assumptions C78_reward.

(** Hence C76's refinement needs no condition on lists of positions: every history ends in the same state, with the
    same transfers, as one in which no list names a position twice, and there the specification leads. *)
Theorem C78_history :
  forall a s0 tr, mv_new a = Ok s0 -> collision_free tr -> no_zero_votes tr ->
    exists tr', Forall (fun y : call => named_once y.2) tr' /\ run s0 tr' = run s0 tr /\
      leads (new_ledger a) tr' (observe (run s0 tr)) (ordered s0 tr).
Proof. exact c78_history. Qed.
Print Assumptions C78_history.

(** ** Examples *)
Definition orders (r : res (state * list eff)) : list eff := match r with Ok (_, e) => e | Panic _ => [] end.
Lemma ex_exec tr x : negb (panics (exec x.1 (run s0 tr) x.2)) = true ->
  exec x.1 (run s0 tr) x.2 = Ok (step (run s0 tr) x, orders (exec x.1 (run s0 tr) x.2)).
Proof. unfold step. destruct (exec x.1 (run s0 tr) x.2) as [[s' e]|]; [reflexivity|discriminate]. Qed.

(** three positions, the first and the last ended: naming the first twice also collects the last, which has taken
    its place *)
Definition tr_pos : list call :=
  [ dep "a.near" 100 "30" 1; dep "a.near" 70 "60" 1; dep "a.near" 50 "31" 1; usr "a.near" 2 (Unlock 0); usr "a.near" 2 (Unlock 2) ].
Definition x_twice : call := usr "a.near" (40 * DAY) (ClearPositions [0; 0]%nat).
Lemma desc_00 : descending [0; 0]%nat [0; 0]%nat.
Proof. split; [reflexivity|]. repeat (apply SSorted_cons; [|repeat constructor]). apply SSorted_nil. Qed.
Lemma ex_twice tr x l : x.2 = ClearPositions l -> l <> [] -> descending l l -> negb (panics (exec x.1 (run s0 tr) x.2)) = true ->
  all_accepted (run s0 tr) (map (one_collect x.1) l) (step (run s0 tr) x) (orders (exec x.1 (run s0 tr) x.2)).
Proof.
  intros El Hl Hd H. apply (C78_collect x.1 (run s0 tr) l l); [exact Hl|exact Hd|]. rewrite <- El. exact (ex_exec tr x H).
Qed.
Example C78_example_twice :
  all_accepted (run s0 tr_pos) (map (one_collect x_twice.1) [0; 0]%nat) (step (run s0 tr_pos) x_twice) [] /\
  map lp_amount (v_lps (get_voter (run s0 tr_pos) "a.near")) = [M 100; M 70; M 50] /\
  map lp_amount (v_lps (get_voter (step (run s0 tr_pos) x_twice) "a.near")) = [M 70] /\
  raw_balance (step (run s0 tr_pos) x_twice) "a.near" = M 150.
Proof.
  split; [|split; [vmr|split; vmr]]. assert (E : orders (exec x_twice.1 (run s0 tr_pos) x_twice.2) = []) by vmr. rewrite <- E.
  apply ex_twice; [reflexivity|discriminate|exact desc_00|vmr].
Qed.

(** the same list given to withdraw *)
Definition x_out : call := usr1 "a.near" (40 * DAY) (Withdraw [0; 0]%nat (M 120)).
Lemma ex_out tr x l n : x.2 = Withdraw l n -> descending l l -> negb (panics (exec x.1 (run s0 tr) x.2)) = true ->
  all_accepted (run s0 tr) (map (one_collect (unpaid x.1)) l ++ [(x.1, Withdraw [] n)]) (step (run s0 tr) x) (orders (exec x.1 (run s0 tr) x.2)).
Proof.
  intros El Hd H. apply (C78_withdraw x.1 (run s0 tr) l l n); [exact Hd|]. rewrite <- El. exact (ex_exec tr x H).
Qed.
Example C78_example_withdraw :
  all_accepted (run s0 tr_pos) (map (one_collect (unpaid x_out.1)) [0; 0]%nat ++ [(x_out.1, Withdraw [] (M 120))])
    (step (run s0 tr_pos) x_out) [PayMp "a.near" (M 120)].
Proof.
  assert (E : orders (exec x_out.1 (run s0 tr_pos) x_out.2) = [PayMp "a.near" (M 120)]) by vmr. rewrite <- E.
  apply (ex_out tr_pos x_out [0; 0]%nat (M 120)); [reflexivity|exact desc_00|vmr].
Qed.

(** rewards to two accounts, one of them twice *)
Definition l_rew : list (string * N) := [("a.near", 3); ("b.near", 4); ("a.near", 5)].
Definition x_rew : call := claims "mpdao.near" (M 12) l_rew 3.
Lemma ex_rew tr x sender amount msg rest l u : x.2 = FtOnTransfer sender amount msg -> after_prefix "for-claims:" msg = Some rest ->
  c_json_claims x.1 rest = Some l -> l <> [] -> u = (if decide (c_pred x.1 = mpdao_addr (run s0 tr)) then mp_unit else st_unit) ->
  negb (panics (exec x.1 (run s0 tr) x.2)) = true ->
  all_accepted (run s0 tr) (map (one_reward x.1 sender msg u) l) (step (run s0 tr) x) (orders (exec x.1 (run s0 tr) x.2)).
Proof.
  intros Eo Ha Hj Hl Hu H. apply (C78_reward x.1 (run s0 tr) sender amount msg rest l u _ _ Ha Hj Hl Hu). rewrite <- Eo. exact (ex_exec tr x H).
Qed.
Example C78_example_reward :
  all_accepted (run s0 tr_pos) (map (one_reward x_rew.1 "own.near" "for-claims:x" 1000000) l_rew) (step (run s0 tr_pos) x_rew) [] /\
  get_claimable_mpdao (step (run s0 tr_pos) x_rew) "a.near" = M 8.
Proof.
  split; [|vmr]. assert (E : orders (exec x_rew.1 (run s0 tr_pos) x_rew.2) = []) by vmr. rewrite <- E.
  apply (ex_rew tr_pos x_rew "own.near" (M 12) "for-claims:x" "x" l_rew); [reflexivity|reflexivity|reflexivity|discriminate|vmr|vmr].
Qed.

(** two positions migrated with data; airdrop data of two users, the first set twice *)
Definition x_mig : call := usr "old.near" 3 (MigrationCreateLps "d.near" [(V 5, 60); (V 6, 60)] (Some "x")).
Definition x_air : call := usr "opr.near" 3 (OpMultiSetAirdrop [("a.near", "1"); ("b.near", "2"); ("a.near", "3")]).
Lemma ex_mig tr x w l data : x.2 = MigrationCreateLps w l data -> negb (panics (exec x.1 (run s0 tr) x.2)) = true ->
  all_accepted (run s0 tr) (map (one_migrate x.1 w) l ++ [(x.1, MigrationCreateLps w [] data)]) (step (run s0 tr) x) (orders (exec x.1 (run s0 tr) x.2)).
Proof. intros Eo H. apply (C78_migrate x.1 (run s0 tr)). rewrite <- Eo. exact (ex_exec tr x H). Qed.
Lemma ex_air tr x l : x.2 = OpMultiSetAirdrop l -> l <> [] -> negb (panics (exec x.1 (run s0 tr) x.2)) = true ->
  all_accepted (run s0 tr) (map (one_airdrop x.1) l) (step (run s0 tr) x) (orders (exec x.1 (run s0 tr) x.2)).
Proof. intros Eo Hl H. apply (C78_airdrop x.1 l Hl (run s0 tr)). rewrite <- Eo. exact (ex_exec tr x H). Qed.
Example C78_example_lists :
  all_accepted (run s0 tr_pos) (map (one_migrate x_mig.1 "d.near") [(V 5, 60); (V 6, 60)] ++ [(x_mig.1, MigrationCreateLps "d.near" [] (Some "x"))])
    (step (run s0 tr_pos) x_mig) [] /\
  all_accepted (run s0 tr_pos) (map (one_airdrop x_air.1) [("a.near", "1"); ("b.near", "2"); ("a.near", "3")]) (step (run s0 tr_pos) x_air) [] /\
  map lp_amount (v_lps (get_voter (step (run s0 tr_pos) x_mig) "d.near")) = [M 11].
Proof.
  split; [|split; [|vmr]].
  - assert (E : orders (exec x_mig.1 (run s0 tr_pos) x_mig.2) = []) by vmr. rewrite <- E. apply (ex_mig tr_pos x_mig); [reflexivity|vmr].
  - assert (E : orders (exec x_air.1 (run s0 tr_pos) x_air.2) = []) by vmr. rewrite <- E. apply (ex_air tr_pos x_air); [reflexivity|discriminate|vmr].
Qed.

(** a history with a list naming a position twice *)
Example C78_example_history :
  exists tr', Forall (fun y : call => named_once y.2) tr' /\ run s0 tr' = run s0 (tr_pos ++ [x_out]) /\
    leads (new_ledger ia) tr' (observe (run s0 (tr_pos ++ [x_out]))) (ordered s0 (tr_pos ++ [x_out])).
Proof. apply C78_history; [exact s0_ok|cf_tac|nz_tac]. Qed.
