(** MVCover.v -- C83: all votes together, the voting power behind them, and the tokens behind that. *)

From Coq Require Import Sorting.Sorted.
From Verif Require Export MVSmall MVVoteViews MVVoteEff MVPos.

(** *** Specification *)
(** all objects anybody votes for are among [ps] *)
Definition covers (s : state) (ps : list (string * string)) : Prop :=
  forall addr obj, 0 < get_total_votes s addr obj -> In (addr, obj) ps.
(** the votes for all objects of a list *)
Definition votes_on (s : state) (ps : list (string * string)) : N := sum_by (fun p => get_total_votes s p.1 p.2) ps.
(** the power that nobody has put on an object *)
Definition unused_power (s : state) : N := sum_by (get_available_voting_power s) (voter_ids s).
(** the mpDAO in positions reported as locked *)
Definition locked_mpdao (s : state) : N :=
  sum_by (fun vid => sum_by (fun j => if j_is_locked j then j_amount j else 0) (get_all_locking_positions 0 s vid)) (voter_ids s).

(** *** Sums over keys *)
Lemma sum_by_flip {A B} (f : A -> B -> N) l k : sum_by (fun x => sum_by (f x) k) l = sum_by (fun y => sum_by (fun x => f x y) l) k.
Proof.
  induction l as [|x l IH]; [rewrite sum_by_nil; induction k as [|y k IHk]; [reflexivity|rewrite sum_by_cons, <- IHk; reflexivity]|].
  rewrite sum_by_cons, IH, <- sum_by_add. apply sum_by_ext. intros y _. rewrite sum_by_cons. reflexivity.
Qed.
Lemma sum_by_zero {A} (f : A -> N) l : (forall x, In x l -> f x = 0) -> sum_by f l = 0.
Proof.
  induction l as [|x l IH]; intros H; [reflexivity|]. rewrite sum_by_cons, IH by (intros y Hy; apply H; right; exact Hy). rewrite (H x); [reflexivity|left; reflexivity].
Qed.
Lemma sum_on_keys {K} `{EqDecision K} (l : list (K * N)) (f : K -> N) ps :
  List.NoDup (map fst l) -> List.NoDup ps -> (forall k x, In (k, x) l -> f k = x) -> (forall k, ~ In k (map fst l) -> f k = 0) ->
  (forall k, In k (map fst l) -> In k ps) -> sum_by f ps = sum_by snd l.
Proof.
  intros Hl Hp H1 H2 H3.
  assert (Hs : map fst l ⊆+ ps).
  { apply NoDup_submseteq; [apply NoDup_ListNoDup; exact Hl|]. intros k Hk. apply elem_of_list_In, H3, elem_of_list_In. exact Hk. }
  apply submseteq_Permutation in Hs as (r & Hr). rewrite (sum_by_perm f _ _ Hr), sum_by_app.
  assert (Hz : sum_by f r = 0).
  { apply sum_by_zero. intros k Hk. apply H2. intros Hin. pose proof (Permutation_NoDup Hr Hp) as Hnd.
    apply NoDup_ListNoDup, NoDup_app in Hnd as (_ & Hd & _). apply (Hd k); apply elem_of_list_In; assumption. }
  rewrite Hz, N.add_0_r. clear -H1. revert H1. induction l as [|[k x] l IH]; intros H1; [reflexivity|].
  cbn [map fst]. rewrite !sum_by_cons. cbn [snd]. rewrite (H1 k x) by (left; reflexivity). f_equal. apply IH. intros k2 x2 H. apply H1. right. exact H.
Qed.
Lemma sum_submseteq {A} (f : A -> N) l k : l ⊆+ k -> sum_by f l <= sum_by f k.
Proof. intros H. apply submseteq_Permutation in H as (r & Hr). rewrite (sum_by_perm f _ _ Hr), sum_by_app. lia. Qed.

(** *** All votes *)
Section Cover.
Context (a : init_args) (s0 : state) (tr : list call) (H0 : mv_new a = Ok s0) (Hcf : collision_free tr) (Hnz : no_zero_votes tr).
Notation s := (run s0 tr).

Definition keys_of (vid : string) : list (string * string) :=
  match get_votes_by_voter s vid with Ok l => map fst l | Panic _ => [] end.
Definition all_keys : list (string * string) := remove_dups (flat_map keys_of (voter_ids s)).

Lemma keys_in vid k : In vid (voter_ids s) -> In k (keys_of vid) -> In k all_keys.
Proof. intros H1 H2. apply elem_of_list_In, elem_of_remove_dups, elem_of_list_In, in_flat_map. eauto. Qed.

Lemma used_on vid ps : List.NoDup ps -> (forall k, In k (keys_of vid) -> In k ps) ->
  sum_by (fun p => votes_or0 s vid p.1 p.2) ps = used_or0 s vid.
Proof.
  intros Hp Hk. destruct (c67_voter a s0 tr vid H0 Hcf) as (l & El & _ & Hnd & Hu & _ & Hin). specialize (Hin Hnz).
  unfold used_or0. rewrite Hu. unfold keys_of in Hk. rewrite El in Hk. apply sum_on_keys; [apply NoDup_ListNoDup; exact Hnd|exact Hp| | |exact Hk].
  - intros [ad ob] x Hx. apply Hin in Hx as [Hx _]. cbn [fst snd]. unfold votes_or0. rewrite Hx. reflexivity.
  - intros [ad ob] Hn. cbn [fst snd]. unfold votes_or0. destruct (get_votes_for_object s vid ad ob) as [x|] eqn:Ex; [|reflexivity].
    destruct (N.eq_0_gt_0_cases x) as [->|Hx]; [reflexivity|]. exfalso. apply Hn. apply in_map_iff. exists (ad, ob, x). split; [reflexivity|]. apply Hin. auto.
Qed.

Lemma votes_sum ps : votes_on s ps = sum_by (fun vid => sum_by (fun p => votes_or0 s vid p.1 p.2) ps) (voter_ids s).
Proof.
  pose proof (tallies_of_sinv _ _ (sinv_run a s0 tr H0 Hcf Hnz)) as HT. unfold votes_on. rewrite sum_by_flip. apply sum_by_ext.
  intros [ad ob] _. cbn [fst snd]. apply (proj2 (HT ad ob)).
Qed.

Lemma all_covered ps : List.NoDup ps -> (forall k, In k all_keys -> In k ps) ->
  votes_on s ps + unused_power s = get_total_voting_power s.
Proof.
  intros Hp Hk. rewrite votes_sum. pose proof (inv_total _ _ _ (inv_run a s0 tr H0 Hcf)) as Ht. rewrite Ht. unfold unused_power.
  rewrite <- sum_by_add. apply sum_by_ext. intros vid Hv. rewrite used_on; [lia|exact Hp|]. intros k H. apply Hk. eapply keys_in; eassumption.
Qed.

Lemma all_keys_cover : covers s all_keys.
Proof.
  intros addr obj H. pose proof (tallies_of_sinv _ _ (sinv_run a s0 tr H0 Hcf Hnz)) as HT. destruct (HT addr obj) as [_ E]. rewrite E in H.
  assert (Hx : exists vid, In vid (voter_ids s) /\ 0 < votes_or0 s vid addr obj).
  { clear E. induction (voter_ids s) as [|v l IH]; [rewrite sum_by_nil in H; lia|]. rewrite sum_by_cons in H.
    destruct (N.eq_0_gt_0_cases (votes_or0 s v addr obj)) as [E|E]; [|exists v; split; [left; reflexivity|exact E]].
    destruct IH as (w & Hw & Hp); [lia|]. exists w. split; [right; exact Hw|exact Hp]. }
  destruct Hx as (vid & Hv & Hx). eapply keys_in; [exact Hv|].
  destruct (c67_voter a s0 tr vid H0 Hcf) as (l & El & _ & _ & _ & _ & Hin). specialize (Hin Hnz). unfold keys_of. rewrite El.
  unfold votes_or0 in Hx. destruct (get_votes_for_object s vid addr obj) as [x|] eqn:Ex; [|lia].
  apply in_map_iff. exists (addr, obj, x). split; [reflexivity|]. apply Hin. auto.
Qed.
Lemma key_positive k : In k all_keys -> 0 < get_total_votes s k.1 k.2.
Proof.
  intros H. apply elem_of_list_In, elem_of_remove_dups, elem_of_list_In, in_flat_map in H as (vid & Hv & H).
  destruct (c67_voter a s0 tr vid H0 Hcf) as (l & El & _ & _ & _ & _ & Hin). specialize (Hin Hnz). unfold keys_of in H. rewrite El in H.
  apply in_map_iff in H as ([[ad ob] x] & <- & H). apply Hin in H as [Hx Hp]. cbn [fst snd].
  pose proof (tallies_of_sinv _ _ (sinv_run a s0 tr H0 Hcf Hnz)) as HT. destruct (HT ad ob) as [_ E]. rewrite E.
  pose proof (sum_by_ge_elem (fun v => votes_or0 s v ad ob) _ _ Hv) as Hle. unfold votes_or0 at 1 in Hle. rewrite Hx in Hle. lia.
Qed.

(** the objects with votes, whatever the list, take at most the whole power; together with what is unused they are the whole *)
Lemma c83_votes :
  (forall ps, List.NoDup ps -> votes_on s ps + unused_power s <= get_total_voting_power s) /\
  (forall ps, List.NoDup ps -> covers s ps -> votes_on s ps + unused_power s = get_total_voting_power s) /\
  (exists ps, List.NoDup ps /\ covers s ps).
Proof.
  assert (Hn : List.NoDup all_keys) by (apply NoDup_ListNoDup, NoDup_remove_dups).
  split; [|split].
  - intros ps Hp. set (rs := remove_dups (ps ++ all_keys)).
    assert (E : votes_on s rs + unused_power s = get_total_voting_power s).
    { apply all_covered; [apply NoDup_ListNoDup, NoDup_remove_dups|]. intros k Hk. apply elem_of_list_In, elem_of_remove_dups, elem_of_app. right. apply elem_of_list_In. exact Hk. }
    assert (votes_on s ps <= votes_on s rs); [|lia]. apply sum_submseteq. apply NoDup_submseteq; [apply NoDup_ListNoDup; exact Hp|].
    intros k Hk. apply elem_of_remove_dups, elem_of_app. left. exact Hk.
  - intros ps Hp Hc. apply all_covered; [exact Hp|]. intros [ad ob] Hk. apply Hc. exact (key_positive _ Hk).
  - exists all_keys. split; [exact Hn|exact all_keys_cover].
Qed.
End Cover.

(** *** Tokens *)
Lemma locked_eq s : locked_mpdao s = LA s.
Proof.
  apply sum_by_ext. intros vid _. unfold get_all_locking_positions, MVSmall.lamt. apply sum_by_imap. intros i p. unfold isl. cbn. unfold is_locked.
  destruct (lp_unl p); reflexivity.
Qed.
Lemma c83_power a s0 tr : mv_new a = Ok s0 -> collision_free tr -> N.of_nat (length tr) < 2 ^ 64 ->
  get_total_voting_power (run s0 tr) <= 60 * 10 ^ 18 * locked_mpdao (run s0 tr).
Proof. intros H0 Hc Hn. rewrite locked_eq. exact (total_lean a s0 tr H0 Hc Hn). Qed.

Lemma drift_tight n D p : n < 2 ^ 64 -> drift n p -> lp_days p <= D -> 60 * lp_vp p <= (D + 1) * 10 ^ 18 * lp_amount p.
Proof.
  intros Hn [_ H] HD. assert (E : E18 = 10 ^ 18) by reflexivity. rewrite E in *.
  assert (H3 : lp_amount p * 10 ^ 18 * lp_days p <= lp_amount p * 10 ^ 18 * D) by (apply N.mul_le_mono_l; lia).
  assert (Hn' : 60 * n <= 1000000 * 10 ^ 18).
  { change (2 ^ 64) with 18446744073709551616 in Hn. change (1000000 * 10 ^ 18) with 1000000000000000000000000. lia. }
  assert (H5 : (D + 1) * 10 ^ 18 * lp_amount p = lp_amount p * 10 ^ 18 * D + lp_amount p * 10 ^ 18) by lia. rewrite H5.
  destruct (1000000 <=? lp_amount p) eqn:E1; [|lia]. nb.
  assert (H4 : 1000000 * 10 ^ 18 <= lp_amount p * 10 ^ 18) by (apply N.mul_le_mono_r; exact E1). lia.
Qed.
Lemma c83_power_quiet a s0 tr : mv_new a = Ok s0 -> collision_free tr -> N.of_nat (length tr) < 2 ^ 64 -> Forall quiet_bounds tr ->
  60 * get_total_voting_power (run s0 tr) <= (max_unbond s0 + 1) * 10 ^ 18 * locked_mpdao (run s0 tr).
Proof.
  intros H0 Hc Hn Hq. rewrite locked_eq. pose proof (total_le a s0 tr H0 Hc) as Ht. unfold get_total_voting_power. unfold LA.
  transitivity (60 * sum_by (fun vid => lvp (v_lps (get_voter (run s0 tr) vid))) (voter_ids (run s0 tr))); [lia|].
  rewrite <- !sum_by_mul_l. apply sum_by_le. intros vid _.
  assert (HF : Forall (fun p => 60 * lp_vp p <= (max_unbond s0 + 1) * 10 ^ 18 * lp_amount p) (v_lps (get_voter (run s0 tr) vid))).
  { apply Forall_lookup_2. intros i p Hp. eapply drift_tight; [exact Hn| |].
    - exact (Forall_lookup_1 _ _ _ _ (proj2 (drift_run a s0 tr H0) vid) Hp).
    - assert (Hg : get_locking_position 0 (run s0 tr) i vid = Some (lp_to_json 0 i p)).
      { unfold get_locking_position. rewrite Hp. reflexivity. }
      pose proof (quiet_periods a s0 tr vid i _ H0 Hq Hg) as [_ HB]. exact HB. }
  revert HF. generalize ((max_unbond s0 + 1) * 10 ^ 18) as K. intros K HF.
  unfold lvp, MVSmall.lamt. induction HF as [|p l Hp _ IH]; [rewrite !sum_by_nil; lia|]. rewrite !sum_by_cons, !N.mul_add_distr_l. destruct (isl p); lia.
Qed.
