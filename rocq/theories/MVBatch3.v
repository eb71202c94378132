(** MVBatch3.v -- C78: every history is one in which no list names a position twice. *)

From Verif Require Export MVBatch2 MVFits4.

Lemma aa_run tr : forall s s' e, all_accepted s tr s' e -> run s tr = s' /\ ordered s tr = e.
Proof.
  induction tr as [|x tr IH]; intros s s' e H.
  - apply aa_nil_inv in H as [-> ->]. auto.
  - apply aa_cons_inv in H as (s1 & e1 & f & H1 & H2 & ->). apply IH in H2 as [<- <-].
    assert (E : step s x = s1) by (unfold step; rewrite H1; reflexivity).
    cbn [run fold_left ordered]. rewrite E, H1. auto.
Qed.
Lemma ordered_app tr1 tr2 : forall s, ordered s (tr1 ++ tr2) = ordered s tr1 ++ ordered (run s tr1) tr2.
Proof. induction tr1 as [|x tr IH]; intros s; [reflexivity|]. cbn [app ordered run fold_left]. rewrite IH, app_assoc. reflexivity. Qed.

Definition unpacks (x : call) (tr : list call) : Prop :=
  Forall (fun y : call => named_once y.2) tr /\ (forall p, In p (vote_targets tr) -> In p (vote_targets [x])) /\
  (no_zero_votes [x] -> no_zero_votes tr).
Lemma collects_unpack c x m tail : Forall (fun y : call => named_once y.2 /\ vote_target y = None /\ no_zero_votes [y]) tail ->
  unpacks x (map (one_collect c) m ++ tail).
Proof.
  intros Ht. assert (H : Forall (fun y : call => named_once y.2 /\ vote_target y = None /\ no_zero_votes [y]) (map (one_collect c) m ++ tail)).
  { apply Forall_app. split; [|exact Ht]. apply List.Forall_forall. intros y Hy. apply in_map_iff in Hy as (k & <- & _).
    split; [apply NoDup_singleton|]. split; [reflexivity|]. apply List.Forall_cons; [exact I|apply List.Forall_nil]. }
  split; [eapply List.Forall_impl; [|exact H]; intros y Hy; apply Hy|]. split.
  - intros p Hp. exfalso. unfold vote_targets in Hp. apply elem_of_list_In, elem_of_list_omap in Hp as (y & Hy & E).
    apply elem_of_list_In in Hy. pose proof (proj1 (List.Forall_forall _ _) H y Hy) as (_ & E2 & _). congruence.
  - intros _. apply List.Forall_forall. intros y Hy. pose proof (proj1 (List.Forall_forall _ _) H y Hy) as (_ & _ & Hz).
    apply (proj1 (List.Forall_forall _ _) Hz y). left. reflexivity.
Qed.
Lemma unpack1 s x : exists tr, unpacks x tr /\ run s tr = step s x /\ ordered s tr = ordered s [x].
Proof.
  destruct x as [c o].
  assert (Hself : named_once o -> exists tr, unpacks (c, o) tr /\ run s tr = step s (c, o) /\ ordered s tr = ordered s [(c, o)]).
  { intros Hn. exists [(c, o)]. split; [|split; reflexivity]. split; [apply List.Forall_cons; [exact Hn|apply List.Forall_nil]|]. split; auto. }
  destruct (exec c s o) as [[s' e]|m] eqn:Ex.
  2:{ exists []. split; [split; [apply List.Forall_nil|split; [intros p []|intros _; apply List.Forall_nil]]|].
      unfold step. cbn [ordered fst snd]. rewrite Ex. split; reflexivity. }
  assert (Es : step s (c, o) = s') by (unfold step; cbn [fst snd]; rewrite Ex; reflexivity).
  assert (Eo : ordered s [(c, o)] = e) by (cbn [ordered fst snd]; rewrite Ex; apply app_nil_r).
  destruct o; try (apply Hself; exact I).
  - destruct l as [|k l]; [apply Hself; apply NoDup_nil_2|].
    assert (Hd : descending (k :: l) (sort_desc (k :: l))) by (split; [apply sort_desc_perm|apply sort_desc_ge]).
    apply (c78_collect c s (k :: l) _ s' e ltac:(discriminate) Hd) in Ex. apply aa_run in Ex as [E1 E2].
    exists (map (one_collect c) (sort_desc (k :: l))). split; [|split; [rewrite E1; symmetry; exact Es|rewrite E2; symmetry; exact Eo]].
    pose proof (collects_unpack c (c, ClearPositions (k :: l)) (sort_desc (k :: l)) [] (List.Forall_nil _)) as Hu. rewrite app_nil_r in Hu. exact Hu.
  - assert (Hd : descending l (sort_desc l)) by (split; [apply sort_desc_perm|apply sort_desc_ge]).
    apply (c78_withdraw c s l _ amount s' e Hd) in Ex. apply aa_run in Ex as [E1 E2].
    eexists. split; [apply (collects_unpack (unpaid c) _ (sort_desc l) [(c, Withdraw [] amount)])|split; [rewrite E1; symmetry; exact Es|rewrite E2; symmetry; exact Eo]].
    apply List.Forall_cons; [|apply List.Forall_nil]. split; [apply NoDup_nil_2|]. split; [reflexivity|]. apply List.Forall_cons; [exact I|apply List.Forall_nil].
Qed.
Lemma targets_cons x tr : vote_targets (x :: tr) = vote_targets [x] ++ vote_targets tr.
Proof. unfold vote_targets. cbn [omap list_omap]. destruct (vote_target x); reflexivity. Qed.
Lemma c78_unpack tr : forall s, exists tr', Forall (fun y : call => named_once y.2) tr' /\ run s tr' = run s tr /\ ordered s tr' = ordered s tr /\
  (collision_free tr -> collision_free tr') /\ (no_zero_votes tr -> no_zero_votes tr').
Proof.
  assert (H : forall s, exists tr', Forall (fun y : call => named_once y.2) tr' /\ run s tr' = run s tr /\ ordered s tr' = ordered s tr /\
    (forall p, In p (vote_targets tr') -> In p (vote_targets tr)) /\ (no_zero_votes tr -> no_zero_votes tr')).
  { induction tr as [|x tr IH]; intros s.
    - exists []. split; [apply List.Forall_nil|]. auto.
    - destruct (unpack1 s x) as (t1 & (N1 & T1 & Z1) & E1 & O1). destruct (IH (step s x)) as (t2 & N2 & E2 & O2 & T2 & Z2).
      exists (t1 ++ t2). split; [apply Forall_app; auto|]. rewrite run_app, E1. split; [exact E2|].
      rewrite ordered_app, E1, O1, O2. split; [cbn [ordered]; rewrite app_nil_r; reflexivity|]. split.
      + intros p Hp. rewrite targets_cons. unfold vote_targets in Hp. rewrite omap_app in Hp. apply in_app_iff in Hp as [Hp|Hp]; apply in_app_iff; auto.
      + intros Hz. apply List.Forall_cons_iff in Hz as [Hz1 Hz2]. apply Forall_app. split; [apply Z1, List.Forall_cons; [exact Hz1|apply List.Forall_nil]|apply Z2; exact Hz2]. }
  intros s. destruct (H s) as (tr' & H1 & H2 & H3 & H4 & H5). exists tr'. split; [exact H1|]. split; [exact H2|]. split; [exact H3|]. split; [|exact H5].
  intros Hc p q Hp Hq. apply Hc; auto.
Qed.
Lemma c78_history a s0 tr : mv_new a = Ok s0 -> collision_free tr -> no_zero_votes tr ->
  exists tr', Forall (fun y : call => named_once y.2) tr' /\ run s0 tr' = run s0 tr /\ leads (new_ledger a) tr' (observe (run s0 tr)) (ordered s0 tr).
Proof.
  intros H0 Hc Hz. destruct (c78_unpack tr s0) as (tr' & H1 & H2 & H3 & H4 & H5). exists tr'. split; [exact H1|]. split; [exact H2|].
  rewrite <- H2, <- H3. apply c76_history; auto.
Qed.
