(** MVClear.v -- clearing unlocked positions and withdrawing (C26, C27, C28). *)

From Verif Require Export MVPos.

(** ** Sorting the index list *)
Lemma insert_desc_perm x l : insert_desc x l ≡ₚ x :: l.
Proof.
  induction l as [|y l IH]; simpl; [reflexivity|]. destruct (y <=? x)%nat; [reflexivity|].
  rewrite IH. apply Permutation_swap.
Qed.
Lemma sort_desc_perm l : sort_desc l ≡ₚ l.
Proof. induction l as [|x l IH]; simpl; [reflexivity|]. rewrite insert_desc_perm, IH. reflexivity. Qed.

Lemma insert_desc_sorted x l : StronglySorted ge l -> StronglySorted ge (insert_desc x l).
Proof.
  induction l as [|y l IH]; simpl; intros H; [repeat constructor|].
  inversion H as [|? ? Hs Hf]; subst. destruct (Nat.leb_spec y x).
  - constructor; [exact H|]. constructor; [lia|]. eapply Forall_impl; [exact Hf|]. intros z Hz; lia.
  - constructor; [auto|]. rewrite insert_desc_perm. constructor; [lia|exact Hf].
Qed.
Lemma sort_desc_ge l : StronglySorted ge (sort_desc l).
Proof. induction l; simpl; [constructor|]. apply insert_desc_sorted. assumption. Qed.
Lemma sort_desc_gt l : NoDup l -> StronglySorted gt (sort_desc l).
Proof.
  intros Hnd. assert (H : NoDup (sort_desc l)) by (rewrite sort_desc_perm; exact Hnd).
  pose proof (sort_desc_ge l) as Hs. revert H. induction Hs as [|x r Hs IH Hf]; intros Hn; [constructor|].
  apply NoDup_cons in Hn as [Hx Hn]. constructor; [auto|].
  rewrite Forall_forall in *. intros y Hy. specialize (Hf y Hy).
  assert (x <> y) by (intros ->; contradiction). lia.
Qed.

(** ** Which positions are kept *)
Section Clear.
Context (now : N).

Fixpoint kept (r : list nat) (k : nat) (l : list lpos) : list lpos :=
  match l with
  | [] => []
  | p :: l' => (if is_unlocked now p && bool_decide (k ∈ r) then [] else [p]) ++ kept r (S k) l'
  end.
Fixpoint clr (r : list nat) (k : nat) (l : list lpos) : N :=
  match l with
  | [] => 0
  | p :: l' => (if is_unlocked now p && bool_decide (k ∈ r) then lp_amount p else 0) + clr r (S k) l'
  end.

Lemma kept_app r l1 : forall k l2, kept r k (l1 ++ l2) = kept r k l1 ++ kept r (k + length l1) l2.
Proof.
  induction l1 as [|p l1 IH]; intros k l2; simpl; [rewrite Nat.add_0_r; reflexivity|].
  rewrite IH, <- app_assoc. do 3 f_equal. lia.
Qed.
Lemma clr_app r l1 : forall k l2, clr r k (l1 ++ l2) = clr r k l1 + clr r (k + length l1) l2.
Proof.
  induction l1 as [|p l1 IH]; intros k l2; [cbn [app length clr]; rewrite Nat.add_0_r; lia|].
  cbn [app length clr]. rewrite IH. replace (k + S (length l1))%nat with (S k + length l1)%nat by lia. lia.
Qed.
Lemma kept_ext r r' l : forall k,
  (forall j, (k <= j < k + length l)%nat -> j ∈ r <-> j ∈ r') ->
  kept r k l = kept r' k l /\ clr r k l = clr r' k l.
Proof.
  induction l as [|p l IH]; intros k H; [split; reflexivity|]. cbn [kept clr length] in *.
  destruct (IH (S k)) as [-> ->]; [intros j Hj; apply H; lia|].
  assert (bool_decide (k ∈ r) = bool_decide (k ∈ r')) as ->; [|split; reflexivity].
  apply bool_decide_ext. apply H. lia.
Qed.
Lemma kept_nil l : forall k, kept [] k l = l /\ clr [] k l = 0.
Proof.
  induction l as [|p l IH]; intros k; [split; reflexivity|]. cbn [kept clr].
  destruct (IH (S k)) as [-> ->]. rewrite bool_decide_false by (intros H; inversion H).
  rewrite andb_false_r. split; reflexivity.
Qed.
Lemma kept_out r k l : (forall i, i ∈ r -> (i < k)%nat) -> kept r k l = l /\ clr r k l = 0.
Proof.
  intros H. destruct (kept_ext r [] l k) as [-> ->]; [|apply kept_nil].
  intros j Hj. split; intros Hin; [specialize (H _ Hin); lia|inversion Hin].
Qed.

Lemma kept_clr_sum r l : forall k, sum_by lp_amount (kept r k l) + clr r k l = sum_by lp_amount l.
Proof.
  induction l as [|p l IH]; intros k; [reflexivity|]. cbn [kept clr].
  rewrite sum_by_cons, sum_by_app. specialize (IH (S k)).
  destruct (is_unlocked now p && bool_decide (k ∈ r)).
  - change (sum_by lp_amount []) with 0. lia.
  - rewrite sum_by_cons. change (sum_by lp_amount []) with 0. lia.
Qed.

Lemma swap_remove_split {A} (l1 l2 : list A) p :
  exists t, t ≡ₚ l2 /\ swap_remove (length l1) (l1 ++ p :: l2) = l1 ++ t.
Proof.
  unfold swap_remove. rewrite last_lookup.
  destruct l2 as [|x l _] using rev_ind.
  - exists []. split; [reflexivity|]. rewrite app_length. simpl.
    replace (Nat.pred (length l1 + 1)) with (length l1) by lia.
    rewrite lookup_app_r by lia. rewrite Nat.sub_diag. simpl.
    replace (length l1 + 1 - 1)%nat with (length l1) by lia.
    rewrite insert_app_r_alt by lia. rewrite Nat.sub_diag. simpl.
    rewrite take_app, app_nil_r. reflexivity.
  - exists (x :: l). split; [apply Permutation_cons_append|].
    rewrite !app_length. simpl. rewrite app_length. simpl.
    replace (Nat.pred (length l1 + S (length l + 1))) with (length l1 + S (length l))%nat by lia.
    rewrite lookup_app_r by lia. replace (length l1 + S (length l) - length l1)%nat with (S (length l)) by lia.
    simpl. rewrite lookup_app_r by lia. rewrite Nat.sub_diag. simpl.
    rewrite insert_app_r_alt by lia. rewrite Nat.sub_diag. simpl.
    replace (length l1 + S (length l + 1) - 1)%nat with (length l1 + S (length l))%nat by lia.
    rewrite take_add_app by reflexivity. f_equal. simpl. f_equal.
    rewrite take_app. reflexivity.
Qed.

Lemma kept_below r l1 l2 :
  (forall i, i ∈ r -> (i < length l1)%nat) ->
  kept r 0 (l1 ++ l2) = kept r 0 l1 ++ l2 /\ clr r 0 (l1 ++ l2) = clr r 0 l1.
Proof.
  intros H. rewrite kept_app, clr_app. destruct (kept_out r (0 + length l1) l2 H) as [-> ->].
  split; [reflexivity|lia].
Qed.

Lemma clear_spec r : forall v,
  StronglySorted gt r -> Forall (fun i => (i < length (v_lps v))%nat) r ->
  v_bal v + clr r 0 (v_lps v) < U128_SIZE ->
  exists v', foldM (clear_one now) r v = Ok v' /\ v_lps v' ≡ₚ kept r 0 (v_lps v) /\
    v_bal v' = v_bal v + clr r 0 (v_lps v) /\ v_avail v' = v_avail v /\ v_vp v' = v_vp v.
Proof.
  induction r as [|i r IH]; intros v Hs Hf Hb; cbn [foldM].
  { exists v. destruct (kept_nil (v_lps v) 0) as [-> ->]. repeat split; try reflexivity. lia. }
  inversion Hs as [|? ? Hs' Hgt]; subst. inversion Hf as [|? ? Hi Hf']; subst.
  destruct (lookup_lt_is_Some_2 _ _ Hi) as [p Hp].
  apply elem_of_list_split_length in Hp as (l1 & l2 & El & Ei).
  rewrite Forall_forall in Hgt, Hf'.
  assert (Hr : forall j, j ∈ r -> (j < length l1)%nat) by (intros j Hj; specialize (Hgt j Hj); lia).
  assert (HE : kept (i :: r) 0 l1 = kept r 0 l1 /\ clr (i :: r) 0 l1 = clr r 0 l1).
  { apply kept_ext. intros j Hj. rewrite elem_of_cons. split; [intros [->|?]; [lia|assumption]|auto]. }
  destruct HE as [HE1 HE2].
  assert (HO : kept (i :: r) (S (length l1)) l2 = l2 /\ clr (i :: r) (S (length l1)) l2 = 0).
  { apply kept_out. intros j Hj. apply elem_of_cons in Hj as [->|Hj]; [lia|]. specialize (Hr j Hj). lia. }
  destruct HO as [HO1 HO2].
  rewrite El in Hb |- *. rewrite kept_app, clr_app in *. cbn [kept clr Nat.add] in *.
  rewrite HE1, HE2, HO1, HO2 in *.
  assert (Hbd : bool_decide (length l1 ∈ i :: r) = true).
  { apply bool_decide_eq_true. rewrite Ei. left. }
  rewrite Hbd, andb_true_r in Hb |- *.
  assert (Hc1 : clear_one now v i =
    if is_unlocked now p then
      Ok (mkVoter (v_bal v + lp_amount p) (swap_remove i (v_lps v)) (v_avail v) (v_vp v)) else Ok v).
  { unfold clear_one, get_position. rewrite El. rewrite lookup_app_r by lia.
    replace (i - length l1)%nat with 0%nat by lia. cbn [lookup list_lookup expect mbind res_bind].
    destruct (is_unlocked now p); [|reflexivity].
    unfold add128. destruct (N.ltb_spec (v_bal v + lp_amount p) U128_SIZE); [|lia]. cbn [mbind res_bind].
    unfold remove_position. change (v_lps (v <| v_bal := v_bal v + lp_amount p |>)) with (v_lps v).
    rewrite (proj2 (Nat.ltb_lt _ _) Hi). cbn [require mbind res_bind]. destruct v; cbn. cbn in El. rewrite El. reflexivity. }
  rewrite Hc1. destruct (is_unlocked now p) eqn:Eu; cbn [mbind res_bind].
  - set (v1 := mkVoter _ _ _ _).
    destruct (swap_remove_split l1 l2 p) as (t & Ht & Esw).
    assert (E1 : v_lps v1 = l1 ++ t) by (subst v1; cbn; rewrite El, Ei; exact Esw).
    destruct (IH v1) as (v' & Hf1 & Hp1 & Hb1 & Ha1 & Hv1).
    + exact Hs'.
    + apply Forall_forall. intros j Hj. rewrite E1, app_length. specialize (Hr j Hj). lia.
    + rewrite E1. destruct (kept_below r l1 t Hr) as [_ ->]. subst v1; cbn [v_bal]. lia.
    + exists v'. split; [exact Hf1|]. rewrite E1 in Hp1, Hb1.
      destruct (kept_below r l1 t Hr) as [Ek Ec]. rewrite Ek in Hp1. rewrite Ec in Hb1.
      split; [rewrite Hp1, Ht; reflexivity|]. subst v1. cbn [v_bal v_avail v_vp] in *.
      repeat split; try assumption. lia.
  - destruct (IH v) as (v' & Hf1 & Hp1 & Hb1 & Ha1 & Hv1).
    + exact Hs'.
    + apply Forall_forall. exact Hf'.
    + rewrite El. destruct (kept_below r l1 (p :: l2) Hr) as [_ ->]. lia.
    + exists v'. split; [exact Hf1|]. rewrite El in Hp1, Hb1.
      destruct (kept_below r l1 (p :: l2) Hr) as [Ek Ec]. rewrite Ek in Hp1. rewrite Ec in Hb1.
      split; [rewrite Hp1; reflexivity|]. repeat split; try assumption. lia.
Qed.

(** the converse: a successful clearing had valid indexes and did not overflow *)
Lemma clears_sum v v' : clears now v v' ->
  v_bal v' + sum_by lp_amount (v_lps v') = v_bal v + sum_by lp_amount (v_lps v) /\
  (v_bal v' < U128_SIZE \/ v' = v).
Proof.
  induction 1 as [v|v v1 i p _ [IH _] Hl Hu Hb]; [auto|]. cbn [v_bal v_lps].
  pose proof (sum_by_swap_remove lp_amount _ _ _ Hl). split; [lia|left; exact Hb].
Qed.

Lemma clear_one_len v i v' : clear_one now v i = Ok v' ->
  (i < length (v_lps v))%nat.
Proof.
  intros H. unfold clear_one, get_position in H. apply bind_Ok in H as (p & Hp & _).
  apply expect_Ok in Hp. eapply lookup_lt_Some; eauto.
Qed.

Lemma clear_fold_head r v v' : foldM (clear_one now) r v = Ok v' ->
  StronglySorted ge r -> Forall (fun i => (i < length (v_lps v))%nat) r.
Proof.
  destruct r as [|i r]; [constructor|]. intros H Hs. cbn [foldM] in H.
  apply bind_Ok in H as (v1 & H & _). apply clear_one_len in H.
  inversion Hs as [|? ? _ Hf]; subst. constructor; [exact H|].
  eapply Forall_impl; [exact Hf|]. intros j Hj. cbn in Hj. lia.
Qed.

(** clearing either succeeds with exactly the right result or one of the two reasons applies *)
Lemma clear_exact v l : NoDup l ->
  v_bal v + clr l 0 (v_lps v) < U128_SIZE ->
  (forall i, i ∈ l -> (i < length (v_lps v))%nat) ->
  exists v', clear_fully_unlocked_positions now v l = Ok v' /\ v_lps v' ≡ₚ kept l 0 (v_lps v) /\
    v_bal v' = v_bal v + clr l 0 (v_lps v) /\ v_avail v' = v_avail v /\ v_vp v' = v_vp v.
Proof.
  intros Hnd Hb Hl. unfold clear_fully_unlocked_positions.
  destruct (kept_ext (sort_desc l) l (v_lps v) 0) as [<- E]; [intros j _; rewrite sort_desc_perm; reflexivity|].
  rewrite <- E in *. apply clear_spec.
  - apply sort_desc_gt. exact Hnd.
  - rewrite sort_desc_perm. apply Forall_forall. exact Hl.
  - exact Hb.
Qed.

Lemma clear_exact_inv v l v' : NoDup l -> v_bal v < U128_SIZE ->
  clear_fully_unlocked_positions now v l = Ok v' ->
  (forall i, i ∈ l -> (i < length (v_lps v))%nat) /\ v_lps v' ≡ₚ kept l 0 (v_lps v) /\
    v_bal v' = v_bal v + clr l 0 (v_lps v) /\ v_avail v' = v_avail v /\ v_vp v' = v_vp v.
Proof.
  intros Hnd Hbv H. pose proof (clear_clears _ _ _ _ H) as Hc.
  assert (Hin : forall i, i ∈ l -> (i < length (v_lps v))%nat).
  { pose proof H as H'. unfold clear_fully_unlocked_positions in H'.
    apply clear_fold_head in H'; [|apply sort_desc_ge]. rewrite sort_desc_perm in H'.
    rewrite Forall_forall in H'. exact H'. }
  split; [exact Hin|].
  destruct (N.lt_ge_cases (v_bal v + clr l 0 (v_lps v)) U128_SIZE) as [Hlt|Hge].
  - destruct (clear_exact v l Hnd Hlt Hin) as (v2 & E & R). rewrite H in E. injection E as <-. exact R.
  - exfalso. (* the sum of what was cleared overflowed, but the call succeeded *)
    revert Hge. apply N.lt_nge.
    unfold clear_fully_unlocked_positions in H.
    destruct (kept_ext (sort_desc l) l (v_lps v) 0) as [_ <-]; [intros j _; rewrite sort_desc_perm; reflexivity|].
    pose proof (sort_desc_gt l Hnd) as Hs.
    assert (Hf : Forall (fun i => (i < length (v_lps v))%nat) (sort_desc l))
      by (rewrite sort_desc_perm; apply Forall_forall; exact Hin).
    revert Hs Hf H Hbv. clear. revert v. generalize (sort_desc l) as r.
    induction r as [|i r IH]; intros v Hs Hf H Hbv.
    { destruct (kept_nil (v_lps v) 0) as [_ ->]. lia. }
    cbn [foldM] in H. apply bind_Ok in H as (v1 & H1 & H).
    inversion Hs as [|? ? Hs' Hgt]; subst. inversion Hf as [|? ? Hi Hf']; subst.
    destruct (lookup_lt_is_Some_2 _ _ Hi) as [p Hp].
    pose proof Hp as Hp'. apply elem_of_list_split_length in Hp' as (l1 & l2 & El & Ei).
    rewrite Forall_forall in Hgt, Hf'.
    assert (Hr : forall j, j ∈ r -> (j < length l1)%nat) by (intros j Hj; specialize (Hgt j Hj); lia).
    assert (HE : kept (i :: r) 0 l1 = kept r 0 l1 /\ clr (i :: r) 0 l1 = clr r 0 l1).
    { apply kept_ext. intros j Hj. rewrite elem_of_cons. split; [intros [->|?]; [lia|assumption]|auto]. }
    destruct HE as [_ HE2].
    assert (HO : kept (i :: r) (S (length l1)) l2 = l2 /\ clr (i :: r) (S (length l1)) l2 = 0).
    { apply kept_out. intros j Hj. apply elem_of_cons in Hj as [->|Hj]; [lia|]. specialize (Hr j Hj). lia. }
    destruct HO as [_ HO2].
    rewrite El. rewrite clr_app. cbn [clr Nat.add]. rewrite HE2, HO2.
    assert (Hbd : bool_decide (length l1 ∈ i :: r) = true).
    { apply bool_decide_eq_true. rewrite Ei. left. }
    rewrite Hbd, andb_true_r.
    apply clear_one_inv in H1 as (q & Hq & H1). rewrite Hp in Hq. injection Hq as <-.
    destruct H1 as [[Eu ->]|(Eu & Hb & ->)]; rewrite Eu.
    + assert (v_bal v + clr r 0 (v_lps v) < U128_SIZE) as Hx.
      { apply IH; auto. apply Forall_forall. exact Hf'. }
      rewrite El in Hx. destruct (kept_below r l1 (p :: l2) Hr) as [_ E]. rewrite E in Hx. lia.
    + destruct (swap_remove_split l1 l2 p) as (t & Ht & Esw).
      match type of H with foldM _ _ ?w = _ => set (v1 := w) in * end.
      assert (E1 : v_lps v1 = l1 ++ t) by (subst v1; cbn; rewrite El, Ei; exact Esw).
      assert (v_bal v1 + clr r 0 (v_lps v1) < U128_SIZE) as Hx.
      { apply IH; auto. apply Forall_forall. intros j Hj. rewrite E1, app_length. specialize (Hr j Hj). lia. }
      rewrite E1 in Hx. destruct (kept_below r l1 t Hr) as [_ E]. rewrite E in Hx.
      subst v1. cbn [v_bal] in Hx. lia.
Qed.

Lemma clear_out_of_range v l i : i ∈ l -> (length (v_lps v) <= i)%nat ->
  exists m, clear_fully_unlocked_positions now v l = Panic m.
Proof.
  intros Hi Hlen. destruct (clear_fully_unlocked_positions now v l) as [v'|m] eqn:E; [|eauto].
  exfalso. unfold clear_fully_unlocked_positions in E. apply clear_fold_head in E; [|apply sort_desc_ge].
  rewrite Forall_forall in E. assert (i ∈ sort_desc l) by (rewrite sort_desc_perm; exact Hi).
  specialize (E _ H). cbn in E. lia.
Qed.

(** ** The indexes used by withdraw_all *)
Lemma unlocked_indexes_NoDup l : NoDup (unlocked_indexes now l).
Proof.
  unfold unlocked_indexes. apply NoDup_ListNoDup. apply List.NoDup_filter. apply NoDup_ListNoDup. apply NoDup_seq.
Qed.
Lemma unlocked_indexes_in l i : i ∈ unlocked_indexes now l <->
  exists p, l !! i = Some p /\ is_unlocked now p = true.
Proof.
  unfold unlocked_indexes. rewrite elem_of_list_In, filter_In, in_seq. split.
  - intros [_ H]. destruct (l !! i) as [p|]; [eauto|discriminate].
  - intros (p & E & H). rewrite E. split; [|exact H]. apply lookup_lt_Some in E. lia.
Qed.

Lemma kept_unlocked l1 l2 k :
  length l1 = k ->
  kept (unlocked_indexes now (l1 ++ l2)) k l2 = List.filter (fun p => negb (is_unlocked now p)) l2 /\
  clr (unlocked_indexes now (l1 ++ l2)) k l2 = sumN (map lp_amount (List.filter (is_unlocked now) l2)).
Proof.
  revert l1 k. induction l2 as [|p l2 IH]; intros l1 k Hk; [split; reflexivity|].
  cbn [kept clr List.filter map].
  replace (l1 ++ p :: l2) with ((l1 ++ [p]) ++ l2) by (rewrite <- app_assoc; reflexivity).
  destruct (IH (l1 ++ [p]) (S k)) as [-> ->]; [rewrite app_length; simpl; lia|].
  destruct (is_unlocked now p) eqn:Eu.
  - rewrite bool_decide_true; [split; [reflexivity|]|].
    + cbn [andb List.filter map]. reflexivity.
    + apply unlocked_indexes_in. exists p. split; [|exact Eu].
      rewrite <- app_assoc, lookup_app_r by lia. rewrite Hk, Nat.sub_diag. reflexivity.
  - split; reflexivity.
Qed.
End Clear.

(** ** Balances fit in u128 *)
Lemma dep1_bal s v amount days v' : dep1 s v amount days v' -> v_bal v' = v_bal v.
Proof. intros (vp & l' & _ & _ & _ & _ & ->). reflexivity. Qed.
Lemma deps_bal s v l v' : deps s v l v' -> v_bal v' = v_bal v.
Proof. induction 1; [reflexivity|]. apply dep1_bal in H. congruence. Qed.

Lemma vchg_bal c s o s' e vid v v' :
  vchg c s o s' e vid v v' -> v_bal v < U128_SIZE -> v_bal v' < U128_SIZE.
Proof.
  destruct 1; intros Hb; cbn [v_bal] in *;
    repeat match goal with
    | H : dep1 _ _ _ _ _ |- _ => apply dep1_bal in H; cbn [v_bal] in H
    | H : deps _ _ _ _ |- _ => apply deps_bal in H
    | H : clears _ _ _ |- _ => apply clears_sum in H as [_ [H|H]]
    | H : same_lps _ _ |- _ => destruct H as [H _]
    end; subst; try lia.
Qed.

Lemma bal_bound a s0 tr vid : mv_new a = Ok s0 -> raw_balance (run s0 tr) vid < U128_SIZE.
Proof.
  intros H0. destruct (allv_run (fun v => v_bal v < U128_SIZE) a s0 tr) as [_ H]; auto.
  - intros w. reflexivity.
  - intros. eapply vchg_bal; eauto.
  - apply H.
Qed.

(** ** C28 in terms of the views *)
Definition listed_unlocked (l : list nat) (j : lp_json) : bool :=
  j_is_unlocked j && bool_decide (j_index j ∈ l).

Lemma kept_view now l ps : forall k,
  map pos_data (imap (fun i p => lp_to_json now i p) (kept now l k ps))
  = map (fun p => (lp_amount p, lp_days p, lp_vp p, lp_unl p)) (kept now l k ps).
Proof.
  intros k. generalize (kept now l k ps) as q. clear.
  intros q. rewrite <- (map_id (map _ _)).
  enough (forall m, map pos_data (imap (fun i p => lp_to_json now (i + m) p) q)
     = map (fun p => (lp_amount p, lp_days p, lp_vp p, lp_unl p)) q) as H.
  { rewrite map_id. rewrite <- (H 0%nat). f_equal. apply imap_ext. intros i x _. rewrite Nat.add_0_r. reflexivity. }
  induction q as [|p q IH]; intros m; [reflexivity|]. rewrite imap_cons. cbn [map]. f_equal.
  rewrite <- (IH (S m)). f_equal. apply imap_ext. intros i x _. unfold compose. f_equal. lia.
Qed.

Lemma view_data now q :
  map pos_data (imap (fun i p => lp_to_json now i p) q)
  = map (fun p => (lp_amount p, lp_days p, lp_vp p, lp_unl p)) q.
Proof. pose proof (kept_view now [] q 0) as H. destruct (kept_nil now q 0) as [E _]. rewrite E in H. exact H. Qed.

Lemma kept_filter now l ps : forall k,
  map (fun p => (lp_amount p, lp_days p, lp_vp p, lp_unl p)) (kept now l k ps)
  = map pos_data (List.filter (fun j => negb (listed_unlocked l j)) (imap (fun i p => lp_to_json now (k + i) p) ps)) /\
  clr now l k ps = sum_by (fun j => if listed_unlocked l j then j_amount j else 0)
                     (imap (fun i p => lp_to_json now (k + i) p) ps).
Proof.
  induction ps as [|p ps IH]; intros k; [split; reflexivity|].
  rewrite imap_cons. cbn [kept clr List.filter]. rewrite sum_by_cons.
  assert (E : listed_unlocked l (lp_to_json now (k + 0) p) = is_unlocked now p && bool_decide (k ∈ l)).
  { unfold listed_unlocked. cbn. rewrite Nat.add_0_r. reflexivity. }
  rewrite E. destruct (IH (S k)) as [IH1 IH2].
  assert (E2 : imap ((fun i p0 => lp_to_json now (k + i) p0) ∘ S) ps = imap (fun i p0 => lp_to_json now (S k + i) p0) ps).
  { apply imap_ext. intros i x _. unfold compose. f_equal. lia. }
  rewrite E2. rewrite IH2. split; [|reflexivity].
  destruct (is_unlocked now p && bool_decide (k ∈ l)); cbn [negb app map]; rewrite IH1; reflexivity.
Qed.

Lemma clear_views a s0 tr c l s' e :
  mv_new a = Ok s0 -> NoDup l -> let s := run s0 tr in
  exec c s (ClearPositions l) = Ok (s', e) ->
  let vid := c_pred c in let now := now_ms c in
  (forall i, i ∈ l -> is_Some (get_locking_position now s i vid)) /\
  map pos_data (get_all_locking_positions now s' vid)
    ≡ₚ map pos_data (List.filter (fun j => negb (listed_unlocked l j)) (get_all_locking_positions now s vid)) /\
  raw_balance s' vid = raw_balance s vid
    + sum_by (fun j => if listed_unlocked l j then j_amount j else 0) (get_all_locking_positions now s vid) /\
  get_available_voting_power s' vid = get_available_voting_power s vid /\ e = [].
Proof.
  intros H0 Hnd s H vid now. cbn [exec] in H. apply noeff_Ok in H as [H ->].
  apply clear_positions_inv in H as (v & v1 & Hv & _ & Hc & ->).
  pose proof (bal_bound a s0 tr vid H0) as Hb. fold s in Hb.
  pose proof (get_voter_Some _ _ _ Hv) as Eg. unfold raw_balance in *. fold vid in Hv, Eg.
  assert (Eg' : get_voter (save_voter s vid v1) vid = v1).
  { unfold get_voter, save_voter. cbn. rewrite om_get_set_eq. reflexivity. }
  unfold get_all_locking_positions, get_locking_position, get_available_voting_power.
  fold vid. rewrite Eg' , Eg in *.
  apply clear_exact_inv in Hc as (Hin & Hp & Hbal & Hav & _); [|exact Hnd|exact Hb].
  destruct (kept_filter now l (v_lps v) 0) as [K1 K2]. cbn [Nat.add] in K1, K2.
  split; [|split; [|split; [|split; [exact Hav|reflexivity]]]].
  - intros i Hi. destruct (lookup_lt_is_Some_2 _ _ (Hin i Hi)) as [p Hp']. rewrite Hp'. eexists; reflexivity.
  - rewrite <- K1, view_data. apply Permutation_map. exact Hp.
  - rewrite Hbal. f_equal. exact K2.
Qed.

Lemma clear_panics c s l i :
  i ∈ l -> get_locking_position (now_ms c) s i (c_pred c) = None ->
  exists m, exec c s (ClearPositions l) = Panic m.
Proof.
  intros Hi Hn. destruct (exec c s (ClearPositions l)) as [[s' e]|m] eqn:H; [|eauto]. exfalso.
  cbn [exec] in H. apply noeff_Ok in H as [H ->].
  apply clear_positions_inv in H as (v & v1 & Hv & _ & Hc & ->).
  unfold get_locking_position in Hn. rewrite (get_voter_Some _ _ _ Hv) in Hn.
  apply fmap_None in Hn. apply lookup_ge_None in Hn.
  destruct (clear_out_of_range (now_ms c) v l i Hi Hn) as [m E]. congruence.
Qed.

(** ** C27 *)
Lemma flags_exclusive now p :
  (is_locked p = true /\ is_unlocking now p = false /\ is_unlocked now p = false) \/
  (is_locked p = false /\ is_unlocking now p = true /\ is_unlocked now p = false) \/
  (is_locked p = false /\ is_unlocking now p = false /\ is_unlocked now p = true).
Proof.
  unfold is_locked, is_unlocking, is_unlocked. destruct (lp_unl p) as [d|]; [|auto].
  destruct (N.leb_spec now (d + days_to_millis (lp_days p)));
    destruct (N.ltb_spec (d + days_to_millis (lp_days p)) now); auto; lia.
Qed.

Lemma sum_partition now l :
  sumN (map lp_amount (List.filter is_locked l)) + sumN (map lp_amount (List.filter (is_unlocking now) l))
  + sumN (map lp_amount (List.filter (is_unlocked now) l)) = sum_by lp_amount l.
Proof.
  induction l as [|p l IH]; [reflexivity|]. cbn [List.filter]. rewrite sum_by_cons.
  destruct (flags_exclusive now p) as [(-> & -> & ->)|[(-> & -> & ->)|(-> & -> & ->)]]; cbn [map];
    match goal with |- context [sumN (lp_amount p :: ?r)] =>
      change (sumN (lp_amount p :: r)) with (lp_amount p + sumN r) end; lia.
Qed.

Lemma positions_amount_eq s vid : positions_amount s vid = sum_by lp_amount (v_lps (get_voter s vid)).
Proof. unfold positions_amount, get_all_locking_positions. apply sum_by_imap. reflexivity. Qed.

Lemma partition_views now s vid a b g :
  get_locked_balance s vid = Ok a -> get_unlocking_balance now s vid = Ok b -> get_balance now s vid = Ok g ->
  a + b + g = raw_balance s vid + positions_amount s vid.
Proof.
  unfold get_locked_balance, get_unlocking_balance, get_balance, sum_locked, sum_unlocking, sum_unlocked.
  intros Ha Hb Hg. apply sum128_Ok in Ha as [-> _]. apply sum128_Ok in Hb as [-> _].
  apply bind_Ok in Hg as (u & Hu & Hg). apply sum128_Ok in Hu as [-> _]. apply add128_Ok in Hg as [-> _].
  rewrite positions_amount_eq. pose proof (sum_partition now (v_lps (get_voter s vid))). unfold raw_balance. lia.
Qed.

Lemma partition_total now s vid :
  raw_balance s vid + positions_amount s vid < U128_SIZE ->
  (exists a, get_locked_balance s vid = Ok a) /\ (exists b, get_unlocking_balance now s vid = Ok b) /\
  (exists g, get_balance now s vid = Ok g).
Proof.
  rewrite positions_amount_eq. pose proof (sum_partition now (v_lps (get_voter s vid))) as H.
  unfold get_locked_balance, get_unlocking_balance, get_balance, sum_locked, sum_unlocking, sum_unlocked, raw_balance.
  intros Hb. repeat split.
  - eexists. apply sum128_Ok. split; [reflexivity|]. lia.
  - eexists. apply sum128_Ok. split; [reflexivity|]. lia.
  - match goal with |- context [sum128 ?l] => destruct (sum128 l) as [u|] eqn:E end.
    + apply sum128_Ok in E as [-> _]. cbn [mbind res_bind]. eexists. apply add128_Ok. split; [reflexivity|]. lia.
    + exfalso. assert (sum128 (map lp_amount (List.filter (is_unlocked now) (v_lps (get_voter s vid)))) =
        Ok (sumN (map lp_amount (List.filter (is_unlocked now) (v_lps (get_voter s vid)))))) as E2.
      { apply sum128_Ok. split; [reflexivity|lia]. } congruence.
Qed.

Lemma flags_view now s vid j :
  In j (get_all_locking_positions now s vid) ->
  (j_is_locked j = true /\ j_is_unlocking j = false /\ j_is_unlocked j = false) \/
  (j_is_locked j = false /\ j_is_unlocking j = true /\ j_is_unlocked j = false) \/
  (j_is_locked j = false /\ j_is_unlocking j = false /\ j_is_unlocked j = true).
Proof.
  unfold get_all_locking_positions. intros H. apply elem_of_list_In, elem_of_lookup_imap in H as (i & p & -> & _).
  apply flags_exclusive.
Qed.

(** ** C26 *)
Lemma filter_idem_none now ps :
  List.filter (is_unlocked now) (List.filter (fun p => negb (is_unlocked now p)) ps) = [].
Proof.
  induction ps as [|p ps IH]; [reflexivity|]. simpl. destruct (is_unlocked now p) eqn:E; simpl; [exact IH|].
  rewrite E. exact IH.
Qed.

Lemma withdraw_all_pays a s0 tr c b :
  mv_new a = Ok s0 -> let s := run s0 tr in let vid := c_pred c in let now := now_ms c in
  c_deposit c = 1 -> get_balance now s vid = Ok b -> 0 < b ->
  exists s', exec c s WithdrawAll = Ok (s', [PayMp vid b]) /\
    raw_balance s' vid = 0 /\ get_balance now s' vid = Ok 0 /\
    (forall j, In j (get_all_locking_positions now s' vid) -> j_is_unlocked j = false) /\
    positions_amount s' vid + b = raw_balance s vid + positions_amount s vid.
Proof.
  intros H0 s vid now Hy Hg Hpos.
  pose proof (nodup_run a s0 tr H0) as Hnd. fold s in Hnd.
  unfold get_balance in Hg. apply bind_Ok in Hg as (u & Hu & Hg). unfold sum_unlocked in Hu.
  apply sum128_Ok in Hu as [-> Hu]. apply add128_Ok in Hg as [-> Hlt].
  destruct (om_get (voters s) vid) as [v|] eqn:Ev.
  2:{ exfalso. unfold get_voter in Hpos. rewrite Ev in Hpos. exact (N.lt_irrefl 0 Hpos). }
  pose proof (get_voter_Some _ _ _ Ev) as Eg. rewrite Eg in *.
  destruct (kept_unlocked now [] (v_lps v) 0 eq_refl) as [K1 K2]. cbn [app] in K1, K2.
  set (r := unlocked_indexes now (v_lps v)) in *.
  assert (Hcl : exists v1, (match r with [] => Ok v | _ => clear_fully_unlocked_positions now v r end) = Ok v1 /\
     v_lps v1 ≡ₚ kept now r 0 (v_lps v) /\ v_bal v1 = v_bal v + clr now r 0 (v_lps v)).
  { destruct r as [|x r'] eqn:Er.
    - exists v. destruct (kept_nil now (v_lps v) 0) as [-> ->]. repeat split; [reflexivity|lia].
    - rewrite <- Er in *. destruct (clear_exact now v r) as (v1 & E1 & E2 & E3 & _).
      + subst r. apply unlocked_indexes_NoDup.
      + rewrite K2. exact Hlt.
      + intros i Hi. subst r. apply unlocked_indexes_in in Hi as (p & Hp & _). eapply lookup_lt_Some; eauto.
      + exists v1. auto. }
  destruct Hcl as (v1 & Hc1 & Hp1 & Hb1). rewrite K1 in Hp1. rewrite K2 in Hb1.
  set (bb := v_bal v + sumN (map lp_amount (List.filter (is_unlocked now) (v_lps v)))) in *.
  set (v2 := mkVoter 0 (v_lps v1) (v_avail v1) (v_vp v1)).
  set (s' := if voter_is_empty v2 then s <| voters := om_remove (voters s) vid |> else save_voter s vid v2).
  exists s'.
  assert (Hx : exec c s WithdrawAll = Ok (s', [PayMp vid bb])).
  { cbn [exec]. unfold withdraw_all, get_voter_or_panic. fold vid. rewrite Ev. cbn [expect mbind res_bind].
    unfold internal_withdraw, assert_one_yocto, get_voter_or_panic.
    rewrite Hy. cbn [N.eqb Pos.eqb require mbind res_bind]. rewrite Ev. cbn [expect mbind res_bind].
    fold now. fold r. rewrite Hc1. cbn [mbind res_bind default].
    rewrite Hb1. rewrite (proj2 (N.ltb_lt _ _) Hpos). cbn [require mbind res_bind].
    rewrite N.leb_refl. cbn [require mbind res_bind]. unfold sub128. rewrite N.leb_refl. cbn [mbind res_bind].
    rewrite N.sub_diag. unfold s', v2. destruct v1; reflexivity. }
  split; [exact Hx|].
  assert (Hl2 : v_bal (get_voter s' vid) = 0 /\ v_lps (get_voter s' vid) = v_lps v1).
  { subst s'. destruct (voter_is_empty v2) eqn:Ee.
    - unfold get_voter. cbn. rewrite om_get_remove_eq by exact Hnd. cbn.
      unfold voter_is_empty, v2 in Ee. cbn in Ee. destruct (v_lps v1); [auto|discriminate].
    - unfold get_voter, save_voter. cbn. rewrite om_get_set_eq. cbn. auto. }
  destruct Hl2 as [Hl2 Hl3].
  assert (Hnone : Forall (fun p => is_unlocked now p = false) (v_lps v1)).
  { rewrite Hp1. apply Forall_forall. intros p Hp. apply elem_of_list_In, filter_In in Hp as [_ Hp].
    destruct (is_unlocked now p); [discriminate|reflexivity]. }
  split; [exact Hl2|]. split.
  { unfold get_balance, sum_unlocked. rewrite Hl2, Hl3.
    assert (List.filter (is_unlocked now) (v_lps v1) = []) as ->; [|reflexivity].
    clear -Hnone. induction Hnone as [|p l Hp _ IH]; [reflexivity|]. simpl. rewrite Hp. exact IH. }
  split.
  - unfold get_all_locking_positions. rewrite Hl3. intros j Hj.
    apply elem_of_list_In, elem_of_lookup_imap in Hj as (i & p & -> & Hp). cbn.
    exact (Forall_lookup_1 _ _ _ _ Hnone Hp).
  - rewrite !positions_amount_eq, Hl3. unfold raw_balance. rewrite Eg.
    rewrite (sum_by_perm lp_amount _ _ Hp1). pose proof (kept_clr_sum now r (v_lps v) 0) as Hks.
    rewrite K1, K2 in Hks. subst bb. lia.
Qed.

Lemma withdraw_all_zero c s :
  get_balance (now_ms c) s (c_pred c) = Ok 0 -> exists m, exec c s WithdrawAll = Panic m.
Proof.
  intros Hg. destruct (exec c s WithdrawAll) as [[s' e]|m] eqn:H; [|eauto]. exfalso.
  cbn [exec] in H. unfold withdraw_all in H. apply bind_Ok in H as (v0 & Hv0 & H).
  unfold get_voter_or_panic in Hv0. apply expect_Ok in Hv0.
  unfold get_balance in Hg. apply bind_Ok in Hg as (u & Hu & Hg). unfold sum_unlocked in Hu.
  apply sum128_Ok in Hu as [-> Hu]. apply add128_Ok in Hg as [Hg Hlt].
  rewrite (get_voter_Some _ _ _ Hv0) in *.
  apply withdraw_inv in H as (v & v1 & t & Hv & Hc & _ & Hm & -> & Hpos & _).
  rewrite Hv0 in Hv. injection Hv as <-. cbn [default] in Hpos.
  destruct (kept_unlocked (now_ms c) [] (v_lps v0) 0 eq_refl) as [_ K2]. cbn [app] in K2.
  destruct (unlocked_indexes (now_ms c) (v_lps v0)) as [|x r] eqn:Er.
  - subst v1. lia.
  - apply clear_exact_inv in Hm as (_ & _ & Hb & _); [|rewrite <- Er; apply unlocked_indexes_NoDup|lia].
    rewrite K2 in Hb. lia.
Qed.
