(** MVBatch.v -- C78: a call taking a list does what the calls naming one item each do one after the other. *)

From stdpp Require Import sorting.
From Verif Require Export MVSpecBatch MVClear MVFrame.

Lemma aa_nil_inv s s' e : all_accepted s [] s' e <-> s' = s /\ e = [].
Proof. split; [intros H; inversion H; auto|intros [-> ->]; constructor]. Qed.
Lemma aa_cons_inv s x tr s' e : all_accepted s (x :: tr) s' e <->
  exists s1 e1 f, exec x.1 s x.2 = Ok (s1, e1) /\ all_accepted s1 tr s' f /\ e = e1 ++ f.
Proof. split; [intros H; inversion H; subst; eauto 10|intros (s1 & e1 & f & H1 & H2 & ->); econstructor; eassumption]. Qed.
Lemma aa_app tr1 tr2 : forall s s' e, all_accepted s (tr1 ++ tr2) s' e <->
  exists s1 e1 f, all_accepted s tr1 s1 e1 /\ all_accepted s1 tr2 s' f /\ e = e1 ++ f.
Proof.
  induction tr1 as [|x tr1 IH]; intros s s' e; cbn [app].
  - split; [intros H; exists s, [], e; split; [constructor|auto]|]. intros (s1 & e1 & f & H1 & H2 & ->). apply aa_nil_inv in H1 as [-> ->]. exact H2.
  - rewrite aa_cons_inv. split.
    + intros (s1 & e1 & f & H1 & H2 & ->). apply IH in H2 as (s2 & e2 & f2 & H2 & H3 & ->).
      exists s2, (e1 ++ e2), f2. split; [apply aa_cons_inv; eauto 10|]. split; [exact H3|apply app_assoc].
    + intros (s1 & e1 & f & H1 & H2 & ->). apply aa_cons_inv in H1 as (s2 & e2 & f2 & H1 & H3 & ->).
      exists s2, e2, (f2 ++ f). split; [exact H1|]. split; [apply IH; eauto 10|symmetry; apply app_assoc].
Qed.
Lemma noeff_inv (r : res state) s' e : noeff r = Ok (s', e) <-> r = Ok s' /\ e = [].
Proof. split; [apply noeff_Ok|intros [-> ->]; reflexivity]. Qed.

Lemma descending_sort l m : descending l m -> m = sort_desc l.
Proof.
  intros [H1 H2]. assert (AntiSymm eq ge) by (intros x y; lia). apply (StronglySorted_unique ge); [exact H2|apply sort_desc_ge|]. rewrite H1. symmetry. apply sort_desc_perm.
Qed.

(** saving a voter twice, removing a voter just saved *)
Lemma om_set_twice {V} (m : omap_t string V) k x y : om_set (om_set m k x) k y = om_set m k y.
Proof.
  induction m as [|[k' v'] m IH]; cbn [om_set]; [rewrite decide_True by reflexivity; reflexivity|].
  destruct (decide (k = k')) as [->|]; cbn [om_set]; [rewrite decide_True by reflexivity; reflexivity|].
  rewrite decide_False by assumption. rewrite IH. reflexivity.
Qed.
Lemma om_index_set {V} (m : omap_t string V) k x i : om_index m k = Some i -> om_index (om_set m k x) k = Some i /\ om_set m k x = <[i:=(k, x)]> m.
Proof.
  revert i. induction m as [|[k' v'] m IH]; intros i; cbn [om_index om_set]; [discriminate|].
  destruct (decide (k = k')) as [->|Hne]; cbn [om_index].
  - intros [= <-]. rewrite decide_True by reflexivity. split; reflexivity.
  - rewrite decide_False by assumption. destruct (om_index m k) as [j|]; [|discriminate]. intros [= <-].
    destruct (IH j eq_refl) as [E1 E2]. rewrite E1, E2. split; reflexivity.
Qed.
Lemma swap_remove_insert {A} i (x : A) l : swap_remove i (<[i:=x]> l) = swap_remove i l.
Proof.
  unfold swap_remove. rewrite !last_lookup, insert_length. destruct (decide (i < length l)%nat) as [Hi|Hi].
  - destruct (decide (i = Init.Nat.pred (length l))) as [E|E].
    + rewrite <- E, list_lookup_insert by exact Hi. destruct (lookup_lt_is_Some_2 l i Hi) as [y Hy]. rewrite Hy.
      rewrite list_insert_insert. rewrite !take_insert by lia. reflexivity.
    + rewrite list_lookup_insert_ne by congruence. destruct (l !! Init.Nat.pred (length l)) as [y|] eqn:Ey.
      * rewrite list_insert_insert. reflexivity.
      * apply lookup_ge_None in Ey. lia.
  - rewrite list_insert_ge by lia. reflexivity.
Qed.
Lemma om_remove_set {V} (m : omap_t string V) k x v : om_get m k = Some v -> om_remove (om_set m k x) k = om_remove m k.
Proof.
  intros H. unfold om_remove. destruct (om_index m k) as [i|] eqn:E.
  - destruct (om_index_set m k x i E) as [E1 E2]. rewrite E1, E2. apply swap_remove_insert.
  - apply om_index_None in E. congruence.
Qed.
Lemma save_twice s w v v' : save_voter (save_voter s w v) w v' = save_voter s w v'.
Proof.
  unfold save_voter. transitivity (s <| voters := om_set (om_set (voters s) w v) w v' |>); [reflexivity|]. rewrite om_set_twice. reflexivity.
Qed.
Lemma remove_saved s w v x : om_get (voters s) w = Some x ->
  (save_voter s w v) <| voters := om_remove (voters (save_voter s w v)) w |> = s <| voters := om_remove (voters s) w |>.
Proof.
  intros H. unfold save_voter. transitivity (s <| voters := om_remove (om_set (voters s) w v) w |>); [reflexivity|].
  rewrite (om_remove_set _ _ _ x H). reflexivity.
Qed.
Lemma voter_saved s w v : get_voter_or_panic (save_voter s w v) w = Ok v.
Proof. unfold get_voter_or_panic, save_voter. cbn [voters set]. rewrite om_get_set_eq. reflexivity. Qed.

Lemma go {A B} (x : A) (k : A -> res B) : (y ← Ok x; k y) = k x.
Proof. reflexivity. Qed.
Lemma np_Ok c u : non_payable c = Ok u <-> c_deposit c = 0.
Proof. unfold non_payable, require. destruct (c_deposit c =? 0) eqn:E; destruct u; split; intros H; try reflexivity; try discriminate; [apply N.eqb_eq; exact E|apply N.eqb_neq in E; contradiction]. Qed.
Lemma np_go {A} c (k : res A) : c_deposit c = 0 -> (_ ← non_payable c; k) = k.
Proof. intros H. rewrite (proj2 (np_Ok c tt) H). reflexivity. Qed.

(** ** Collecting positions *)
Lemma one_clear c s k s' e : exec c s (ClearPositions [k]) = Ok (s', e) <->
  c_deposit c = 0 /\ e = [] /\ exists v v1, om_get (voters s) (c_pred c) = Some v /\ clear_one (now_ms c) v k = Ok v1 /\ s' = save_voter s (c_pred c) v1.
Proof.
  cbn [exec]. rewrite noeff_inv. unfold clear_locking_position, clear_fully_unlocked_positions. cbn [sort_desc fold_right insert_desc]. split.
  - intros [H ->]. apply bind_Ok in H as (? & Hd & H). apply np_Ok in Hd. apply bind_Ok in H as (? & _ & H).
    apply bind_Ok in H as (v & Hv & H). apply expect_Ok in Hv. apply bind_Ok in H as (v1 & H1 & H). cbn [foldM] in H1.
    apply bind_Ok in H1 as (v2 & H1 & H2). injection H2 as <-. injection H as <-. eauto 10.
  - intros (Hd & -> & v & v1 & Hv & H1 & ->). split; [|reflexivity].
    rewrite np_go by exact Hd. change (require true _) with (Ok tt). rewrite go. unfold get_voter_or_panic. rewrite Hv. cbn [expect foldM].
    rewrite go, H1. reflexivity.
Qed.
Lemma clear_chain c m : c_deposit c = 0 -> m <> [] -> forall s v s' e, om_get (voters s) (c_pred c) = Some v ->
  all_accepted s (map (one_collect c) m) s' e <-> e = [] /\ exists v1, foldM (clear_one (now_ms c)) m v = Ok v1 /\ s' = save_voter s (c_pred c) v1.
Proof.
  intros Hd Hm. destruct m as [|k m]; [contradiction|]. clear Hm. revert k. induction m as [|k2 m IH]; intros k s v s' e Hv.
  - cbn [map]. rewrite aa_cons_inv. cbn [one_collect fst snd]. split.
    + intros (s1 & e1 & f & H1 & H2 & ->). apply aa_nil_inv in H2 as [-> ->]. apply one_clear in H1 as (_ & -> & v' & v1 & Hv' & H1 & ->).
      split; [reflexivity|]. exists v1. rewrite Hv in Hv'. injection Hv' as <-. cbn [foldM]. rewrite H1. auto.
    + intros (-> & v1 & H1 & ->). cbn [foldM] in H1. apply bind_Ok in H1 as (v2 & H1 & H2). injection H2 as ->.
      exists (save_voter s (c_pred c) v1), [], []. split; [apply one_clear; eauto 10|]. split; [constructor|reflexivity].
  - cbn [map]. rewrite aa_cons_inv. cbn [one_collect fst snd]. fold (one_collect c k2). change (one_collect c k2 :: map (one_collect c) m) with (map (one_collect c) (k2 :: m)). split.
    + intros (s1 & e1 & f & H1 & H2 & ->). apply one_clear in H1 as (_ & -> & v' & v1 & Hv' & H1 & ->).
      rewrite Hv in Hv'. injection Hv' as <-.
      apply (IH k2 _ v1) in H2 as (-> & v2 & H2 & ->); [|unfold save_voter; apply om_get_set_eq].
      split; [reflexivity|]. exists v2. split; [|apply save_twice]. change (foldM (clear_one (now_ms c)) (k :: k2 :: m) v) with
        (v1 ← clear_one (now_ms c) v k; foldM (clear_one (now_ms c)) (k2 :: m) v1). rewrite H1. exact H2.
    + intros (-> & v2 & H1 & ->). change (foldM (clear_one (now_ms c)) (k :: k2 :: m) v) with
        (v1 ← clear_one (now_ms c) v k; foldM (clear_one (now_ms c)) (k2 :: m) v1) in H1. apply bind_Ok in H1 as (v1 & H1 & H2).
      exists (save_voter s (c_pred c) v1), [], []. split; [apply one_clear; eauto 10|]. split; [|reflexivity].
      apply (IH k2 _ v1); [unfold save_voter; apply om_get_set_eq|]. split; [reflexivity|]. exists v2. split; [exact H2|symmetry; apply save_twice].
Qed.
Lemma clear_accepted_voter c m s s' e : m <> [] -> all_accepted s (map (one_collect c) m) s' e ->
  c_deposit c = 0 /\ exists v, om_get (voters s) (c_pred c) = Some v.
Proof.
  intros Hm H. destruct m as [|k m]; [contradiction|]. cbn [map] in H. apply aa_cons_inv in H as (s1 & e1 & f & H & _).
  apply one_clear in H as (Hd & _ & v & _ & Hv & _). eauto.
Qed.
Lemma desc_nil l m : descending l m -> l <> [] -> m <> [].
Proof. intros [Hp _] Hl ->. apply Permutation_nil in Hp. contradiction. Qed.

Lemma c78_collect c s l m s' e : l <> [] -> descending l m ->
  exec c s (ClearPositions l) = Ok (s', e) <-> all_accepted s (map (one_collect c) m) s' e.
Proof.
  intros Hl Hm. pose proof (desc_nil _ _ Hm Hl) as Hm0. cbn [exec]. rewrite noeff_inv. unfold clear_locking_position, clear_fully_unlocked_positions.
  rewrite <- (descending_sort l m Hm). split.
  - intros [H ->]. apply bind_Ok in H as (? & Hd & H). apply np_Ok in Hd. apply bind_Ok in H as (? & _ & H).
    apply bind_Ok in H as (v & Hv & H). apply expect_Ok in Hv. apply bind_Ok in H as (v1 & H1 & H). injection H as <-.
    apply (clear_chain c m Hd Hm0 s v); [exact Hv|]. eauto.
  - intros H. destruct (clear_accepted_voter _ _ _ _ _ Hm0 H) as [Hd [v Hv]].
    apply (clear_chain c m Hd Hm0 s v _ _ Hv) in H as (-> & v1 & H1 & ->). split; [|reflexivity].
    rewrite np_go by exact Hd. destruct l; [contradiction|]. change (require true _) with (Ok tt). rewrite go. unfold get_voter_or_panic. rewrite Hv. cbn [expect].
    rewrite go, H1. reflexivity.
Qed.

(** ** Withdrawing *)
Lemma c78_withdraw c s l m n s' e : descending l m ->
  exec c s (Withdraw l n) = Ok (s', e) <-> all_accepted s (map (one_collect (unpaid c)) m ++ [(c, Withdraw [] n)]) s' e.
Proof.
  intros Hm. destruct l as [|k l].
  { destruct Hm as [Hp _]. apply Permutation_sym, Permutation_nil in Hp as ->. cbn [map app]. rewrite aa_cons_inv. cbn [fst snd]. split.
    - intros H. exists s', e, []. split; [exact H|]. split; [constructor|symmetry; apply app_nil_r].
    - intros (s1 & e1 & f & H & H2 & ->). apply aa_nil_inv in H2 as [-> ->]. rewrite app_nil_r. exact H. }
  pose proof (desc_nil _ _ Hm ltac:(discriminate)) as Hm0. pose proof (descending_sort _ _ Hm) as Em.
  rewrite aa_app. set (l0 := k :: l) in *. set (amt := if n =? 0 then None else Some n).
  assert (Hw : forall s v r, om_get (voters s) (c_pred c) = Some v ->
    (v1 ← (match l0 with [] => Ok v | _ => clear_fully_unlocked_positions (now_ms c) v l0 end); r v1) =
    (v1 ← foldM (clear_one (now_ms c)) m v; r v1 : res (state * list eff))).
  { intros s2 v r Hv. unfold clear_fully_unlocked_positions. rewrite <- Em. reflexivity. }
  set (tail := fun (s : state) (v1 : voter) =>
     let total := default (v_bal v1) amt in
     _ ← require (0 <? total) "Nothing to withdraw.";
     _ ← require (total <=? v_bal v1) "Not enough balance.";
     b ← sub128 (v_bal v1) total;
     let v2 := v1 <| v_bal := b |> in
     let s1 := if voter_is_empty v2 then s <| voters := om_remove (voters s) (c_pred c) |> else save_voter s (c_pred c) v2 in
     Ok (s1, [PayMp (c_pred c) total])).
  assert (Ht : forall s v v1, om_get (voters s) (c_pred c) = Some v -> tail (save_voter s (c_pred c) v1) v1 = tail s v1).
  { intros s2 v v1 Hv. unfold tail. cbv zeta. destruct (require (0 <? _) _); [|reflexivity]. rewrite !go. destruct (require _ _); [|reflexivity].
    rewrite !go. destruct (sub128 _ _) as [b|]; [|reflexivity]. rewrite !go.
    rewrite (remove_saved s2 _ v1 v Hv), save_twice. reflexivity. }
  assert (E0 : forall s, exec c s (Withdraw [] n) = (_ ← assert_one_yocto c; v ← get_voter_or_panic s (c_pred c); tail s v)) by reflexivity.
  assert (E1 : exec c s (Withdraw l0 n) = (_ ← assert_one_yocto c; v ← get_voter_or_panic s (c_pred c); v1 ← foldM (clear_one (now_ms c)) m v; tail s v1)).
  { unfold clear_fully_unlocked_positions in Hw. rewrite <- Em in Hw. cbn [exec]. unfold withdraw, internal_withdraw, clear_fully_unlocked_positions. rewrite <- Em. reflexivity. }
  rewrite E1. clear E1 Hw. split.
  - intros H. apply bind_Ok in H as (u & Hd & H). apply bind_Ok in H as (v & Hv & H). apply expect_Ok in Hv. apply bind_Ok in H as (v1 & H1 & H).
    exists (save_voter s (c_pred c) v1), [], e. split; [|split; [|reflexivity]].
    + apply (clear_chain (unpaid c) m eq_refl Hm0 s v); [exact Hv|]. split; [reflexivity|]. exists v1. split; [exact H1|reflexivity].
    + apply aa_cons_inv. exists s', e, []. cbn [fst snd]. rewrite E0, Hd, go, voter_saved, go.
      rewrite (Ht s v v1 Hv). split; [exact H|]. split; [constructor|symmetry; apply app_nil_r].
  - intros (s1 & e1 & f & H1 & H2 & ->). destruct (clear_accepted_voter _ _ _ _ _ Hm0 H1) as [_ [v Hv]].
    apply (clear_chain (unpaid c) m eq_refl Hm0 s v _ _ Hv) in H1 as (-> & v1 & H1 & ->).
    apply aa_cons_inv in H2 as (s2 & e2 & f2 & H2 & H3 & ->). apply aa_nil_inv in H3 as [-> ->]. cbn [fst snd] in H2. rewrite E0 in H2.
    apply bind_Ok in H2 as (u & Hd & H2). change (c_pred (unpaid c)) with (c_pred c) in *. rewrite voter_saved, go in H2.
    rewrite (Ht s v v1 Hv) in H2. rewrite Hd, go. unfold get_voter_or_panic. rewrite Hv. cbn [expect]. rewrite go.
    change (now_ms (unpaid c)) with (now_ms c) in H1. rewrite H1, go. cbn [app]. rewrite app_nil_r. exact H2.
Qed.

(** ** Airdrop data *)
Lemma c78_airdrop c l : l <> [] -> forall s s' e,
  exec c s (OpMultiSetAirdrop l) = Ok (s', e) <-> all_accepted s (map (one_airdrop c) l) s' e.
Proof.
  assert (E1 : forall s l s' e, exec c s (OpMultiSetAirdrop l) = Ok (s', e) <->
    c_deposit c = 0 /\ assert_operator c s = Ok tt /\ e = [] /\ s' = s <| user_data := fold_left (fun m p => om_set m p.1 p.2) l (user_data s) |>).
  { intros s l0 s' e. cbn [exec]. rewrite noeff_inv. unfold operator_multi_set_airdrop_data. split.
    - intros [H ->]. apply bind_Ok in H as (? & Hd & H). apply np_Ok in Hd. apply bind_Ok in H as ([] & Ho & H). injection H as <-. auto.
    - intros (Hd & Ho & -> & ->). rewrite np_go by exact Hd. rewrite Ho. auto. }
  intros Hl. destruct l as [|p l]; [contradiction|]. clear Hl. revert p. induction l as [|q l IH]; intros p s s' e; cbn [map].
  - rewrite aa_cons_inv. cbn [one_airdrop fst snd]. split.
    + intros H. exists s', e, []. split; [exact H|]. split; [constructor|symmetry; apply app_nil_r].
    + intros (s1 & e1 & f & H & H2 & ->). apply aa_nil_inv in H2 as [-> ->]. rewrite app_nil_r. exact H.
  - rewrite aa_cons_inv. cbn [one_airdrop fst snd]. change ((c, OpMultiSetAirdrop [q]) :: map (one_airdrop c) l) with (map (one_airdrop c) (q :: l)). split.
    + intros H. apply E1 in H as (Hd & Ho & -> & ->). eexists _, [], []. split; [apply E1; auto|]. split; [|reflexivity].
      apply IH. apply E1. split; [exact Hd|]. split; [exact Ho|]. split; reflexivity.
    + intros (s1 & e1 & f & H & H2 & ->). apply E1 in H as (Hd & Ho & -> & ->). apply IH, E1 in H2 as (_ & _ & -> & ->). apply E1.
      split; [exact Hd|]. split; [exact Ho|]. split; reflexivity.
Qed.
