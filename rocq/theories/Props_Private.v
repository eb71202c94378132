(** Props_Private.v -- C79: calls that act on one account do not influence any other account, and calls of different
    accounts can be rearranged. *)

From Verif Require Import MVPrivate2 MVWitness MVRefuted Props_Step Props_Fits Props_Small.

(** C79: take any sequence of calls each of which acts on one account.  What is shown about an account afterwards, and
    the answers to its own calls (refused, or accepted with which transfers), are those of its own calls alone: the
    calls of all other accounts could have been left out. *)
Theorem C79_private :
  forall a s0 tr l w,
    mv_new a = Ok s0 -> collision_free (tr ++ l) -> no_zero_votes (tr ++ l) -> Forall (fun x => named_once x.2) l ->
    N.of_nat (length tr) + N.of_nat (length l) < 2 ^ 64 -> Forall (fun x => acts_on x <> None) l ->
    60 * 10 ^ 18 * (mp_owed (run s0 tr) + sum_by mp_brought l) < 2 ^ 128 ->
    ci_uncl_st (get_contract_info (run s0 tr)) + sum_by st_brought l < 2 ^ 128 ->
    let s := run s0 tr in
    same_account w (observe (run s l)) (observe (run s (mine w l))) /\ replies w s l = replies w s (mine w l).
Proof. exact c79_private. Qed.
Print Assumptions C79_private.

(** Two sequences that hold the same calls of every account in the same order, however they are interleaved, lead to
    contracts that show the same in every view, and every call gets the same answer. *)
Theorem C79_reorder :
  forall a s0 tr l l',
    mv_new a = Ok s0 -> collision_free (tr ++ l) -> no_zero_votes (tr ++ l) -> Forall (fun x => named_once x.2) l ->
    N.of_nat (length tr) + N.of_nat (length l) < 2 ^ 64 ->
    Forall (fun x => acts_on x <> None) l -> Forall (fun x => acts_on x <> None) l' ->
    60 * 10 ^ 18 * (mp_owed (run s0 tr) + sum_by mp_brought l) < 2 ^ 128 ->
    ci_uncl_st (get_contract_info (run s0 tr)) + sum_by st_brought l < 2 ^ 128 ->
    (forall w, mine w l = mine w l') ->
    let s := run s0 tr in
    same (observe (run s l)) (observe (run s l')) /\ forall w, replies w s l = replies w s l'.
Proof. exact c79_reorder. Qed.
Print Assumptions C79_reorder.

(** Two calls acting on different accounts: the order does not matter. *)
Lemma mine_swap w x y v1 v2 : acts_on x = Some v1 -> acts_on y = Some v2 -> v1 <> v2 -> mine w [x; y] = mine w [y; x].
Proof.
  intros Hx Hy Hne. unfold mine. cbn [List.filter]. rewrite Hx, Hy.
  destruct (decide (v1 = w)) as [->|N1]; destruct (decide (v2 = w)) as [->|N2]; try congruence;
    repeat first [rewrite bool_decide_true by congruence|rewrite bool_decide_false by congruence]; reflexivity.
Qed.
Theorem C79_commute :
  forall a s0 tr x y v1 v2,
    mv_new a = Ok s0 -> collision_free (tr ++ [x; y]) -> no_zero_votes (tr ++ [x; y]) -> named_once x.2 -> named_once y.2 ->
    N.of_nat (length tr) + 2 < 2 ^ 64 -> acts_on x = Some v1 -> acts_on y = Some v2 -> v1 <> v2 ->
    60 * 10 ^ 18 * (mp_owed (run s0 tr) + (mp_brought x + mp_brought y)) < 2 ^ 128 ->
    ci_uncl_st (get_contract_info (run s0 tr)) + (st_brought x + st_brought y) < 2 ^ 128 ->
    let s := run s0 tr in
    same (observe (run s [x; y])) (observe (run s [y; x])) /\
    forall w, replies w s [x; y] = replies w s [y; x].
Proof.
  intros a s0 tr x y v1 v2 H0 Hc Hz Hn1 Hn2 Hl Hx Hy Hne Hm Hs. apply (c79_reorder a s0 tr); try assumption.
  - repeat constructor; assumption.
  - repeat constructor; congruence.
  - repeat constructor; congruence.
  - rewrite !sum_by_cons, sum_by_nil, N.add_0_r. exact Hm.
  - rewrite !sum_by_cons, sum_by_nil, N.add_0_r. exact Hs.
  - intros w. eapply mine_swap; eauto.
Qed.
Print Assumptions C79_commute.

(** The proviso on names is needed: "a.near" voting on "x.near-foo" and "a.near-x.near" voting on "foo" share storage, so
    the second account's vote changes what the first one gets back. *)
Lemma free_differs w l : get_available_voting_power (run s0 l) w <> get_available_voting_power (run s0 (mine w l)) w ->
  ~ same_account w (observe (run s0 l)) (observe (run s0 (mine w l))).
Proof. intros H [(_ & _ & _ & E & _) _]. apply H. exact E. Qed.
Theorem C79_collision_refuted :
  ~ (forall a s0 tr l w,
       mv_new a = Ok s0 -> no_zero_votes (tr ++ l) -> Forall (fun x => named_once x.2) l ->
       N.of_nat (length tr) + N.of_nat (length l) < 2 ^ 64 -> Forall (fun x => acts_on x <> None) l ->
       60 * 10 ^ 18 * (mp_owed (run s0 tr) + sum_by mp_brought l) < 2 ^ 128 ->
       ci_uncl_st (get_contract_info (run s0 tr)) + sum_by st_brought l < 2 ^ 128 ->
       same_account w (observe (run (run s0 tr) l)) (observe (run (run s0 tr) (mine w l)))).
Proof.
  intros H. apply (free_differs "a.near" tr_coll); [vm_compute; discriminate|]. apply (H ia s0 [] tr_coll "a.near" s0_ok).
  - apply nz_of. vmr.
  - repeat constructor.
  - vmr.
  - repeat constructor; discriminate.
  - vmr.
  - vmr.
Qed.
Print Assumptions C79_collision_refuted.

(** ** Examples *)
(** "a.near" and "b.near" interleaved: votes for the same object, a refused vote, unlocking, a refund, a withdrawal *)
Definition tr_two : list call :=
  [ dep "a.near" 100 "60" 1; dep "b.near" 70 "30" 1; usr "b.near" 2 (Unlock 0) ].
Definition l_two : list call :=
  [ usr "a.near" 3 (Vote (V 60) "A" "o1"); dep "b.near" 5 "90" 3; usr "b.near" 4 (Vote (V 7) "A" "o1");
    usr "a.near" 5 (Vote (V 50) "A" "o2"); usr1 "b.near" (31 * DAY) WithdrawAll; usr "a.near" 6 (UnlockPartial 0 (M 40));
    (cx "mv.near" 0 (32 * DAY), AfterMp "b.near" (M 70) false) ].
(** all of "b.near" first *)
Definition l_two' : list call := mine "b.near" l_two ++ mine "a.near" l_two.

Lemma filter_none {A} (p : A -> bool) l : forallb (fun x => negb (p x)) l = true -> List.filter p l = [].
Proof.
  induction l as [|x l IH]; [reflexivity|]. cbn [forallb List.filter]. intros H. apply andb_true_iff in H as [H1 H2].
  apply negb_true_iff in H1. rewrite H1. auto.
Qed.
Lemma two_mine w : mine w l_two = mine w l_two'.
Proof.
  destruct (decide (w = "a.near")) as [->|Na]; [vmr|]. destruct (decide (w = "b.near")) as [->|Nb]; [vmr|].
  unfold mine. rewrite !filter_none; [reflexivity| |];
    (apply forallb_forall; intros x Hx; apply negb_true_iff, bool_decide_eq_false; intros E; vm_compute in Hx;
     repeat (destruct Hx as [<-|Hx]; [vm_compute in E; congruence|]); destruct Hx).
Qed.
Lemma ex_reorder tr l l' : collision_free (tr ++ l) -> no_zero_votes (tr ++ l) -> Forall (fun x => named_once x.2) l ->
  N.of_nat (length tr) + N.of_nat (length l) < 2 ^ 64 ->
  Forall (fun x => acts_on x <> None) l -> Forall (fun x => acts_on x <> None) l' ->
  60 * 10 ^ 18 * (mp_owed (run s0 tr) + sum_by mp_brought l) < 2 ^ 128 ->
  ci_uncl_st (get_contract_info (run s0 tr)) + sum_by st_brought l < 2 ^ 128 ->
  (forall w, mine w l = mine w l') -> same (observe (run (run s0 tr) l)) (observe (run (run s0 tr) l')).
Proof. intros. eapply (C79_reorder ia s0 tr); eauto using s0_ok. Qed.
Definition one_b (x : call) : bool := match acts_on x with Some _ => true | None => false end.
Lemma acts_of l : forallb one_b l = true -> Forall (fun x => acts_on x <> None) l.
Proof.
  intros H. apply List.Forall_forall. intros x Hx. pose proof (proj1 (forallb_forall _ _) H x Hx) as Hb. unfold one_b in Hb.
  destruct (acts_on x); congruence.
Qed.
Example C79_example :
  same (observe (run (run s0 tr_two) l_two)) (observe (run (run s0 tr_two) l_two')) /\
  replies "a.near" (run s0 tr_two) l_two = [Some []; None; Some []] /\
  replies "b.near" (run s0 tr_two) l_two = [Some []; Some []; Some [PayMp "b.near" (M 70)]; Some []] /\
  get_total_votes (run (run s0 tr_two) l_two) "A" "o1" = V 67 /\
  raw_balance (run (run s0 tr_two) l_two) "b.near" = M 70.
Proof.
  split; [|split; [vmr|split; [vmr|split; vmr]]].
  apply ex_reorder; [apply cf_of; vmr|apply nz_of; vmr|unfold l_two; repeat constructor|vmr|apply acts_of; vmr|apply acts_of; vmr|vmr|vmr|exact two_mine].
Qed.
