(** MVLog3.v -- C80: a mirroring call can write any number of lines. *)

From Verif Require Export MVLog2 MVWitness.

(** the holder of "0xabc" takes over its voting, then gives one unit of power to each of many objects *)
Definition EV : string := "0xabc".
Definition tr_start : list call :=
  [ usr "opr.near" 1 (MirrorLps EV [(60, M 1)]); usr1 "h.near" 2 (PreDelegate EV "sig"); usr1 "opr.near" 3 (OpConfirm EV) ].
Definition one_vote (k : nat) : call := usr "h.near" 4 (VoteDelegated EV 1 "A" (pretty (N.of_nat k))).
Definition tr_many (n : nat) : list call := tr_start ++ map one_vote (seq 0 n).
Definition cut : call := usr "opr.near" 5 (MirrorLps EV []).

Lemma tr_many_S n : tr_many (S n) = tr_many n ++ [one_vote n].
Proof. unfold tr_many. rewrite seq_S, map_app, <- app_assoc. reflexivity. Qed.

Lemma many_targets n l : Forall (fun x => vote_target x = None \/ vote_target x = Some (evm_account EV, "A")) l ->
  Forall (fun p => p = (evm_account EV, "A")) (vote_targets (tr_many n ++ l)).
Proof.
  intros Hl. unfold vote_targets, tr_many. rewrite !omap_app, !Forall_app. split; [split|].
  - constructor.
  - generalize 0%nat as k. induction n as [|n IH]; intros k; [constructor|]. cbn [seq map].
    change (omap vote_target (one_vote k :: map one_vote (seq (S k) n))) with ((evm_account EV, "A") :: omap vote_target (map one_vote (seq (S k) n))).
    constructor; [reflexivity|apply IH].
  - induction Hl as [|x l H Hl IH]; [constructor|]. cbn [omap list_omap]. destruct H as [->| ->]; [exact IH|]. constructor; [reflexivity|exact IH].
Qed.

Lemma many_cf n l : Forall (fun x => vote_target x = None \/ vote_target x = Some (evm_account EV, "A")) l -> collision_free (tr_many n ++ l).
Proof.
  intros Hl p q Hp Hq _. pose proof (proj1 (List.Forall_forall _ _) (many_targets n l Hl)) as H. rewrite (H p Hp), (H q Hq). reflexivity.
Qed.
Lemma many_nz n l : no_zero_votes l -> no_zero_votes (tr_many n ++ l).
Proof.
  intros Hl. unfold no_zero_votes, tr_many. rewrite !Forall_app. split; [split|exact Hl].
  - repeat constructor.
  - generalize 0%nat as k. induction n as [|n IH]; intros k; [constructor|]. cbn [seq map]. constructor; [discriminate|apply IH].
Qed.

Definition names (n : nat) : list string := map (fun k => pretty (N.of_nat k)) (seq 0 n).
Definition at_stage (n : nat) (L : ledger) : Prop :=
  let a := l_acct L (evm_account EV) in
  a_voter a = true /\ a_free a + N.of_nat n = V 1 /\ a_used a = N.of_nat n /\
  (forall x y, a_votes a x y = if decide (x = "A" /\ y ∈ names n) then 1 else 0) /\
  l_max_addr L = 3 /\ l_deleg L EV = Some ("h.near", "sig") /\ l_operator L = "opr.near" /\ l_max_pos L = 20 /\ l_power L = V 1.

Lemma names_in n k : pretty (N.of_nat k) ∈ names n <-> (k < n)%nat.
Proof.
  unfold names. rewrite elem_of_list_In, in_map_iff. split.
  - intros (j & E & Hj). apply (inj pretty) in E. apply in_seq in Hj. lia.
  - intros H. exists k. split; [reflexivity|]. apply in_seq. lia.
Qed.
Lemma names_S n y : y ∈ names (S n) <-> y ∈ names n \/ y = pretty (N.of_nat n).
Proof. unfold names. rewrite seq_S, map_app, elem_of_app. cbn [map plus]. rewrite elem_of_list_singleton. reflexivity. Qed.

Lemma start_acct : at_stage 0 (observe (run s0 tr_start)).
Proof.
  assert (Hv : forall x y, a_votes (l_acct (observe (run s0 tr_start)) (evm_account EV)) x y = 0).
  { intros x y. change (votes_or0 (run s0 tr_start) (evm_account EV) x y = 0).
    rewrite (c80_replay ia s0 tr_start s0_ok).
    - vm_compute. reflexivity.
    - intros p q Hp. vm_compute in Hp. destruct Hp.
    - repeat constructor. }
  unfold at_stage. cbv zeta. split; [vm_compute; reflexivity|]. split; [vm_compute; reflexivity|]. split; [vm_compute; reflexivity|].
  split; [intros x y; rewrite Hv, decide_False; [reflexivity|intros [_ H]; inversion H]|].
  split; [vm_compute; reflexivity|]. split; [vm_compute; reflexivity|]. split; [vm_compute; reflexivity|].
  split; vm_compute; reflexivity.
Qed.

(** carrying a stage over to a ledger that shows the same *)
Lemma stage_same n L M : same L M -> at_stage n M -> at_stage n L.
Proof.
  intros (Es & Ea & Ep & _ & _ & _ & _ & _ & _ & _ & _ & _ & Ed & _) (A1 & A2 & A3 & A4 & A7 & A8 & A9 & A10 & A11).
  unfold at_stage. destruct (Ea (evm_account EV)) as (-> & _ & _ & -> & -> & E). unfold settings in Es.
  pose proof (f_equal (fun x => x.1.1.1.1.1.1.1.1.1.1.2) Es) as Eo. pose proof (f_equal (fun x => x.1.1.2) Es) as Em2.
  pose proof (f_equal (fun x => x.1.1.1.2) Es) as Em1. cbn [fst snd] in Eo, Em2, Em1.
  rewrite Ep, Ed, Eo, Em2, Em1.
  split; [exact A1|]. split; [exact A2|]. split; [exact A3|]. split; [intros x y; rewrite E; apply A4|]. auto.
Qed.

Lemma stage_next n L : at_stage n L -> N.of_nat (S n) <= V 1 ->
  at_stage (S n) (set_votes (evm_account EV) "A" (pretty (N.of_nat n)) (a_votes (l_acct L (evm_account EV)) "A" (pretty (N.of_nat n)) + 1) L).
Proof.
  intros (A1 & A2 & A3 & A4 & A7 & A8 & A9 & A10 & A11) Hn.
  assert (A6n : a_votes (l_acct L (evm_account EV)) "A" (pretty (N.of_nat n)) = 0).
  { rewrite A4, decide_False; [reflexivity|]. intros [_ H]. apply names_in in H. lia. }
  rewrite Nat2N.inj_succ in Hn.
  unfold at_stage, set_votes, on. cbn [l_acct l_max_addr l_deleg l_operator l_max_pos l_power set]. rewrite put_eq.
  cbn [a_voter a_free a_used a_votes set]. rewrite A6n, Nat2N.inj_succ, A3.
  split; [exact A1|]. split; [lia|]. split; [lia|].
  split; [|auto]. intros x y. unfold put2. destruct (decide (x = "A" /\ y = pretty (N.of_nat n))) as [[-> ->]|Hne].
  - rewrite decide_True; [reflexivity|]. split; [reflexivity|]. apply names_S. auto.
  - rewrite A4. destruct (decide (x = "A" /\ y ∈ names n)) as [[-> Hy]|Hni].
    + rewrite decide_True; [reflexivity|]. split; [reflexivity|]. apply names_S. auto.
    + rewrite decide_False; [reflexivity|]. intros [-> Hy]. apply names_S in Hy as [Hy| ->]; [apply Hni|apply Hne]; auto.
Qed.

Lemma stage_enabled n L : at_stage n L -> N.of_nat (S n) <= V 1 -> enabled (one_vote n).1 L (one_vote n).2.
Proof.
  intros (A1 & A2 & A3 & A4 & A7 & A8 & A9 & A10 & A11) Hn. rewrite Nat2N.inj_succ in Hn.
  cbn [one_vote usr snd fst enabled]. split; [reflexivity|]. split; [exists "sig"; exact A8|].
  split; [exact A1|]. split; [lia|]. rewrite A7. exists (if decide (n = 0%nat) then [] else ["A"]).
  split; [destruct (decide _); repeat constructor; intros H; inversion H|]. split.
  2:{ destruct (decide _); vm_compute; discriminate. }
  intros x. destruct (decide (n = 0%nat)) as [->|Hn0].
  - split; [intros []|]. intros (y & Hy). rewrite A4, decide_False in Hy; [exfalso; exact (N.lt_irrefl _ Hy)|]. intros [_ H]. inversion H.
  - split.
    + intros [<-|[]]. exists (pretty (N.of_nat 0)). rewrite A4, decide_True; [reflexivity|]. split; [reflexivity|]. apply names_in. lia.
    + intros (y & Hy). rewrite A4 in Hy. destruct (decide _) as [[-> _]|]; [left; reflexivity|exfalso; exact (N.lt_irrefl _ Hy)].
Qed.

Lemma one_ok n l : Forall (fun x => vote_target x = None \/ vote_target x = Some (evm_account EV, "A")) l -> no_zero_votes l ->
  collision_free (tr_many n ++ l) /\ no_zero_votes (tr_many n ++ l).
Proof. intros H1 H2. split; [apply many_cf; exact H1|apply many_nz; exact H2]. Qed.

Lemma many_stage n : N.of_nat n <= V 1 -> at_stage n (observe (run s0 (tr_many n))).
Proof.
  induction n as [|n IH]; intros Hn.
  - unfold tr_many. cbn [seq map]. rewrite app_nil_r. exact start_acct.
  - assert (Hn' : N.of_nat n <= V 1) by lia. specialize (IH Hn'). rewrite tr_many_S, run_app.
    assert (H1 : Forall (fun x => vote_target x = None \/ vote_target x = Some (evm_account EV, "A")) [one_vote n]).
    { constructor; [right; reflexivity|constructor]. }
    assert (H2 : no_zero_votes [one_vote n]) by (constructor; [discriminate|constructor]).
    destruct (one_ok n _ H1 H2) as [Hc Hz].
    destruct (proj2 (c76 ia s0 (tr_many n) (one_vote n).1 (one_vote n).2 s0_ok Hc Hz I)) as (s' & e & E).
    { split; [apply stage_enabled; assumption|exact I]. }
    pose proof (proj1 (c72 ia s0 (tr_many n) (one_vote n).1 (one_vote n).2 s0_ok Hc Hz I) _ _ E) as (_ & Hb & _).
    cbn [run fold_left]. unfold step. change (fold_left _ (tr_many n) s0) with (run s0 (tr_many n)). rewrite E.
    eapply stage_same; [exact Hb|]. apply stage_next; assumption.
Qed.

Lemma c80_many n : N.of_nat n <= 10 ^ 24 ->
  exists s' e, exec cut.1 (run s0 (tr_many n)) cut.2 = Ok (s', e) /\ (n < length (logs cut.1 (run s0 (tr_many n)) cut.2))%nat.
Proof.
  intros Hn. assert (HnV : N.of_nat n <= V 1) by (etransitivity; [exact Hn|vm_compute; discriminate]).
  pose proof (many_stage n HnV) as A. pose proof A as (A1 & A2 & A3 & A4 & A7 & A8 & A9 & A10 & A11).
  assert (H1 : Forall (fun x => vote_target x = None \/ vote_target x = Some (evm_account EV, "A")) [cut]).
  { constructor; [left; reflexivity|constructor]. }
  assert (H2 : no_zero_votes [cut]) by (constructor; [exact I|constructor]).
  destruct (one_ok n _ H1 H2) as [Hc Hz].
  destruct (proj2 (c76 ia s0 (tr_many n) cut.1 cut.2 s0_ok Hc Hz I)) as (s' & e & E).
  { split.
    - cbn [cut usr fst snd enabled]. rewrite A9, A10. split; [reflexivity|]. split; [reflexivity|]. split; [constructor|]. split; [cbn; lia|constructor].
    - cbn [cut usr fst snd fits]. split; [constructor|]. rewrite A11, sum_by_nil. vm_compute. reflexivity. }
  exists s', e. split; [exact E|].
  destruct (mirror_lines _ _ (good_run ia s0 (tr_many n) [cut] s0_ok Hc Hz) cut.1 _ _ _ _ (sinv_last _ _ _ _ _ _ _ s0_ok Hc Hz E) E)
    as (gone & El & _ & _ & _ & Hs).
  cbn [cut usr fst snd] in El |- *. rewrite El. cbn [length]. rewrite map_length.
  rewrite sum_by_nil, N.add_0_l in Hs. change (used_or0 (run s0 (tr_many n)) (evm_account EV)) with (a_used (l_acct (observe (run s0 (tr_many n))) (evm_account EV))) in Hs.
  rewrite A3 in Hs.
  assert (Hl : sum_by (fun x => votes_or0 (run s0 (tr_many n)) (evm_account EV) x.1 x.2) gone <= N.of_nat (length gone)).
  { clear -A4. induction gone as [|x gone IH]; [rewrite sum_by_nil; lia|]. rewrite sum_by_cons. cbn [length]. rewrite Nat2N.inj_succ.
    assert (votes_or0 (run s0 (tr_many n)) (evm_account EV) x.1 x.2 <= 1); [|lia].
    change (votes_or0 (run s0 (tr_many n)) (evm_account EV) x.1 x.2) with (a_votes (l_acct (observe (run s0 (tr_many n))) (evm_account EV)) x.1 x.2).
    rewrite A4. destruct (decide _); lia. }
  lia.
Qed.
