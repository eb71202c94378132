(** MVStep.v -- C72: the ledger shown by the views, through the functions that act on one account. *)

From Verif Require Export MVAccept4 MVSpecStep.

Definition lpp (p : lpos) : pos := mkPos (lp_amount p) (lp_days p) (lp_vp p) (lp_unl p).

Lemma pos_of_lp now s w : map pos_of (get_all_locking_positions now s w) = map lpp (v_lps (get_voter s w)).
Proof.
  unfold get_all_locking_positions. generalize (v_lps (get_voter s w)) as l. intros l.
  enough (forall k : nat, map pos_of (imap (fun i p => lp_to_json now (k + i)%nat p) l) = map lpp l) as H by exact (H O).
  induction l as [|p l IH]; intros k; [reflexivity|]. rewrite imap_cons. cbn [map]. f_equal.
  rewrite <- (IH (S k)). f_equal. apply imap_ext. intros i x _. cbn. f_equal. lia.
Qed.

Lemma power_calc amount days vp : calculate_voting_power amount days = Ok vp -> vp = power days amount.
Proof. intros H. apply calc_power in H. exact H. Qed.

Lemma is_unlocked_ended now p : is_unlocked now p = ended now (lpp p).
Proof. reflexivity. Qed.

(** ** Locking *)
Lemma join_find l amount days vp i :
  match find_locked_from i l days with
  | Some k => exists p, l !! (k - i)%nat = Some p /\ (i <= k)%nat /\
      add_to (mkPos amount days vp None) (map lpp l)
      = map lpp (<[(k - i)%nat := mkLpos (lp_amount p + amount) (lp_days p) (lp_vp p + vp) (lp_unl p)]> l)
  | None => add_to (mkPos amount days vp None) (map lpp l) = map lpp (l ++ [mkLpos amount days vp None])
  end.
Proof.
  revert i. induction l as [|p l IH]; intros i; [reflexivity|].
  cbn [find_locked_from map add_to].
  assert (Hb : locked (lpp p) && (p_days (lpp p) =? p_days (mkPos amount days vp None))
    = (lp_days p =? days) && is_locked p) by (apply andb_comm).
  rewrite Hb. destruct ((lp_days p =? days) && is_locked p) eqn:E.
  - exists p. rewrite Nat.sub_diag. split; [reflexivity|]. split; [lia|]. cbn.
    apply andb_prop in E as [_ E]. unfold is_locked in E. unfold lpp; cbn. destruct (lp_unl p); [discriminate|reflexivity].
  - specialize (IH (S i)). destruct (find_locked_from (S i) l days) as [k|].
    + destruct IH as (q & Hq & Hle & E2). exists q. replace (k - i)%nat with (S (k - S i)) by lia.
      split; [exact Hq|]. split; [lia|]. rewrite E2. reflexivity.
    + cbn. rewrite IH. reflexivity.
Qed.

Lemma deposit_step s amount days vid v s' v' :
  deposit_locking_position s amount days vid v = Ok (s', v') ->
  v_vp v' = v_vp v /\ v_bal v' = v_bal v /\
  map lpp (v_lps v') = add_to (mkPos amount days (power days amount) None) (map lpp (v_lps v)) /\
  v_avail v' = v_avail v + power days amount /\ s' = upd s vid v' (total_vp s + power days amount).
Proof.
  intros H. unfold deposit_locking_position in H. apply bind_Ok in H as (? & _ & H).
  apply bind_Ok in H as ([s1 v1] & H1 & H). injection H as <- <-.
  pose proof (join_find (v_lps v) amount days (power days amount) 0) as J.
  unfold find_locked_position in H1. destruct (find_locked_from 0 (v_lps v) days) as [i|].
  - destruct J as (p & Hp & _ & J). rewrite Nat.sub_0_r in *.
    unfold increase_locking_position, get_position in H1.
    apply bind_Ok in H1 as (vp & Hvp & H1). apply power_calc in Hvp as ->.
    apply bind_Ok in H1 as (q & Hq & H1). apply expect_Ok in Hq. rewrite Hp in Hq. injection Hq as <-.
    apply bind_Ok in H1 as (a' & Ha & H1). apply add128_Ok in Ha as [-> _].
    apply bind_Ok in H1 as (b' & Hb & H1). apply add128_Ok in Hb as [-> _].
    apply bind_Ok in H1 as (av & Hav & H1). apply add128_Ok in Hav as [-> _].
    apply bind_Ok in H1 as (t & Ht & H1). apply add128_Ok in Ht as [-> _]. injection H1 as <- <-.
    split; [reflexivity|]. split; [reflexivity|]. split; [|split; reflexivity]. rewrite J. destruct p; reflexivity.
  - apply create_lp_inv in H1 as (vp & Hvp & _ & _ & _ & _ & -> & ->). apply power_calc in Hvp as ->.
    split; [reflexivity|]. split; [reflexivity|]. split; [symmetry; exact J|]. split; reflexivity.
Qed.

(** ** Removing *)
Lemma take_out_map i l : (i < length l)%nat -> take_out i (map lpp l) = map lpp (swap_remove i l).
Proof.
  intros Hi. change (map lpp) with (fmap (M := list) lpp). rewrite fmap_swap_remove. unfold take_out, swap_remove.
  destruct (last (lpp <$> l)) eqn:E; [reflexivity|]. apply last_None in E. destruct l; [cbn in Hi; lia|discriminate].
Qed.

Lemma take_out_lt i l j : (j < i)%nat -> (i < length l)%nat -> take_out i l !! j = l !! j.
Proof.
  intros Hj Hi. unfold take_out. destruct (last l) eqn:E; [|apply last_None in E; subst; cbn in Hi; lia].
  rewrite lookup_take by lia. apply list_lookup_insert_ne. lia.
Qed.
Lemma take_out_length i l : (i < length l)%nat -> length (take_out i l) = (length l - 1)%nat.
Proof.
  intros Hi. unfold take_out. destruct (last l) eqn:E; [|apply last_None in E; subst; cbn in Hi; lia].
  rewrite take_length, insert_length. lia.
Qed.

(** ** Collecting *)
Lemma collect_ext now ks ks' n : forall b l,
  (forall k p, (k < n)%nat -> l !! k = Some p -> ks k && ended now p = ks' k && ended now p) ->
  collect now ks n b l = collect now ks' n b l.
Proof.
  induction n as [|n IH]; intros b l H; [reflexivity|]. cbn [collect].
  destruct (l !! n) as [p|] eqn:E.
  - rewrite <- (H n p ltac:(lia) E). pose proof (lookup_lt_Some _ _ _ E) as Hlt.
    destruct (ks n && ended now p); apply IH; intros k q Hk Hq; apply H; try lia; try assumption.
    rewrite take_out_lt in Hq by assumption. exact Hq.
  - apply IH. intros k q Hk Hq. apply H; [lia|exact Hq].
Qed.

Lemma clear_collect now l : StronglySorted gt l -> forall n v v',
  Forall (fun k => (k < n)%nat) l -> foldM (clear_one now) l v = Ok v' ->
  collect now (in_list l) n (v_bal v) (map lpp (v_lps v)) = (v_bal v', map lpp (v_lps v')) /\
  v_avail v' = v_avail v /\ v_vp v' = v_vp v.
Proof.
  intros Hs n. revert l Hs. induction n as [|n IH]; intros l Hs v v' Hf H.
  - destruct l as [|k l]; [|inversion Hf; lia]. cbn in H. injection H as <-. auto.
  - assert (Hskip : ~ n ∈ l -> Forall (fun k => (k < n)%nat) l).
    { intros Hn. rewrite Forall_forall in Hf |- *. intros k Hk. specialize (Hf k Hk). destruct (decide (k = n)) as [->|]; [contradiction|lia]. }
    cbn [collect]. destruct (decide (n ∈ l)) as [Hin|Hni].
    + destruct l as [|k l]; [inversion Hin|]. apply StronglySorted_inv in Hs as [Hs Hg].
      assert (k = n) as ->.
      { apply elem_of_cons in Hin as [->|Hin]; [reflexivity|]. rewrite Forall_forall in Hg. specialize (Hg n Hin).
        apply Forall_cons in Hf as [Hk _]. lia. }
      cbn [foldM] in H. apply bind_Ok in H as (v1 & H1 & H).
      assert (Hf1 : Forall (fun k => (k < n)%nat) l).
      { rewrite Forall_forall in Hg |- *. intros k Hk. specialize (Hg k Hk). lia. }
      assert (Hext : forall b l0, collect now (in_list (n :: l)) n b l0 = collect now (in_list l) n b l0).
      { intros b l0. apply collect_ext. intros k p Hk _. f_equal. unfold in_list. apply bool_decide_ext.
        rewrite elem_of_cons. split; [intros [->|]; [lia|assumption]|auto]. }
      destruct (IH l Hs v1 v' Hf1 H) as (E1 & E2 & E3).
      assert (Hb : in_list (n :: l) n = true) by (unfold in_list; apply bool_decide_eq_true; left).
      apply clear_one_inv in H1 as (p & Hp & Hcase).
      change (map lpp (v_lps v) !! n) with ((lpp <$> v_lps v) !! n). rewrite list_lookup_fmap, Hp. cbn [fmap option_fmap option_map].
      rewrite Hb, <- is_unlocked_ended. destruct Hcase as [[Hu ->]|(Hu & _ & ->)]; rewrite Hu; cbn [andb].
      * rewrite Hext. auto.
      * rewrite Hext. cbn [v_bal v_lps v_avail v_vp] in *. rewrite take_out_map by (eapply lookup_lt_Some; exact Hp). auto.
    + assert (Hb : in_list l n = false) by (unfold in_list; apply bool_decide_eq_false; exact Hni).
      rewrite Hb. destruct (IH l Hs v v' (Hskip Hni) H) as (E1 & E2 & E3). split; [|auto].
      destruct (map lpp (v_lps v) !! n); exact E1.
Qed.

(** the balance collected *)
Lemma collect_bal now ks n : forall b l, (collect now ks n b l).1 =
  b + sum_by (fun k => match l !! k with Some p => if ks k && ended now p then p_amount p else 0 | None => 0 end) (seq 0 n).
Proof.
  induction n as [|n IH]; intros b l; [cbn; rewrite sum_by_nil; lia|].
  rewrite seq_S, sum_by_app, sum_by_cons, sum_by_nil. cbn [plus collect].
  destruct (l !! n) as [p|] eqn:E; [|rewrite IH; lia].
  destruct (ks n && ended now p); rewrite IH; [|lia].
  rewrite (sum_by_ext _ (fun k => match l !! k with Some p => if ks k && ended now p then p_amount p else 0 | None => 0 end) (seq 0 n)); [lia|].
  intros k Hk. apply in_seq in Hk. rewrite take_out_lt; [reflexivity|lia|eapply lookup_lt_Some; exact E].
Qed.
