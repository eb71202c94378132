(** MVMisc.v -- vote lock-in (C25), listings (C34), airdrop data (C32, C36). *)

From Verif Require Export MVDeleg.

(** ** C25 *)
Lemma c25_rejected c s addr obj :
  lock_in_applies s (now_ms c) addr obj ->
  forall o, (o = Unvote addr obj \/ (exists e, o = UnvoteDelegated e addr obj) \/ o = Rebalance 0 addr obj) ->
  forall r, exec c s o <> Ok r.
Proof.
  intros Hl o Ho [s' e] H. apply locked_in_spec in Hl.
  assert (K : forall vid s1, internal_unvote c s vid addr obj <> Ok s1).
  { intros vid s1 Hu. apply unvote_shape in Hu as (Hf & _). congruence. }
  destruct Ho as [->|[(ev & ->)| ->]]; cbn [exec] in H; apply noeff_Ok in H as [H _].
  - unfold unvote in H. apply bind_Ok in H as (? & _ & H). exact (K _ _ H).
  - unfold unvote_delegated in H. apply bind_Ok in H as (? & _ & H). apply bind_Ok in H as (p & _ & H). exact (K _ _ H).
  - unfold rebalance in H. apply bind_Ok in H as (? & _ & H). apply bind_Ok in H as (v & _ & H).
    apply bind_Ok in H as (h & _ & H). apply bind_Ok in H as (o & _ & H). apply bind_Ok in H as (t & _ & H).
    apply bind_Ok in H as (? & _ & H). cbn [N.eqb] in H. exact (K _ _ H).
Qed.

Lemma change_mono s s' vid addr obj old new w a o :
  vote_change s s' vid addr obj old new ->
  ((w, a, o) = (vid, addr, obj) -> old <= new) ->
  (exists n, get_votes_for_object s w a o = Ok n) ->
  exists n n', get_votes_for_object s w a o = Ok n /\ get_votes_for_object s' w a o = Ok n' /\ n <= n'.
Proof.
  intros (E1 & E2 & _ & _ & (Hr & _)) Hle [n Hn].
  destruct (decide ((w, a, o) = (vid, addr, obj))) as [E|Hne].
  - injection E as -> -> ->. exists old, new. auto.
  - exists n, n. rewrite Hr by exact Hne. rewrite Hn. repeat split; lia.
Qed.

Lemma c25_kept a0 s0 tr x s' e addr obj w :
  mv_new a0 = Ok s0 -> collision_free (tr ++ [x]) -> no_zero_votes (tr ++ [x]) ->
  let s := run s0 tr in
  lock_in_applies s (now_ms x.1) addr obj -> exec x.1 s x.2 = Ok (s', e) ->
  (forall vp, x.2 <> Rebalance vp addr obj) -> (forall ext l, x.2 <> MirrorLps ext l) ->
  exists n n', get_votes_for_object s w addr obj = Ok n /\ get_votes_for_object s' w addr obj = Ok n' /\ n <= n'.
Proof.
  intros H0 Hc Hz s Hl H Hnr Hnm.
  pose proof (sinv_run_app a0 s0 tr [x] H0 Hc Hz) as HS. fold s in HS.
  assert (Hex : exists n, get_votes_for_object s w addr obj = Ok n).
  { destruct (si_ex _ _ HS w) as [L HX]. eexists. exact (get_votes_exact _ _ _ _ _ _ HX). }
  destruct x as [c o]. cbn [fst snd] in *.
  pose proof (targets_injP _ Hc) as Hinj.
  destruct (is_vote_op o) eqn:Eo.
  - destruct o; try discriminate Eo.
    + destruct (c30_vote a0 s0 tr c vp addr0 obj0 s' e H0 Hc Hz H) as (old & Hch).
      eapply change_mono; [exact Hch|intros _; lia|exact Hex].
    + cbn [exec] in H. apply noeff_Ok in H as [H _].
      destruct (rebalance_change_of _ Hinj _ _ _ _ _ _ HS H) as (old & _ & _ & Hch).
      eapply change_mono; [exact Hch| |exact Hex]. intros E. injection E as -> -> ->. exfalso. exact (Hnr vp eq_refl).
    + cbn [exec] in H. apply noeff_Ok in H as [H _]. unfold unvote in H. apply bind_Ok in H as (? & _ & H).
      pose proof H as Hu. apply unvote_shape in Hu as (Hf & _).
      destruct (unvote_change_of _ Hinj _ _ _ _ _ _ HS H) as (old & _ & Hch & _).
      eapply change_mono; [exact Hch| |exact Hex]. intros E. injection E as -> -> ->.
      apply locked_in_spec in Hl. congruence.
    + exfalso. eapply Hnm. reflexivity.
    + destruct (c30_vote_delegated a0 s0 tr c evm vp addr0 obj0 s' e H0 Hc Hz H) as (old & Hch).
      eapply change_mono; [exact Hch|intros _; lia|exact Hex].
    + cbn [exec] in H. apply noeff_Ok in H as [H _]. unfold unvote_delegated in H.
      apply bind_Ok in H as (? & _ & H). apply bind_Ok in H as (p & _ & H).
      pose proof H as Hu. apply unvote_shape in Hu as (Hf & _).
      destruct (unvote_change_of _ Hinj _ _ _ _ _ _ HS H) as (old & _ & Hch & _).
      eapply change_mono; [exact Hch| |exact Hex]. intros E. injection E as -> -> ->.
      apply locked_in_spec in Hl. congruence.
  - pose proof (nonvote_vvp _ _ _ _ _ _ HS H Eo w) as Ev.
    apply exec_cases in H as [Hk _]. destruct (Hk Eo) as (_ & E2 & E3).
    destruct Hex as [n Hn]. exists n, n. split; [exact Hn|]. split; [|lia].
    unfold get_votes_for_object in *. rewrite Ev, E2, E3. exact Hn.
Qed.

(** ** C34 *)
Lemma pages_take {A} (f : nat -> nat -> res (list A)) (m : list A) k n :
  (forall i, (i < n)%nat -> f (i * k)%nat k = Ok (take k (drop (i * k) m))) ->
  pages f k n = Ok (take (n * k) m).
Proof.
  induction n as [|n IH]; intros H; cbn [pages]; [reflexivity|].
  rewrite IH by (intros i Hi; apply H; lia). cbn [mbind res_bind]. rewrite H by lia. cbn [mbind res_bind]. f_equal.
  rewrite take_take_drop. f_equal. lia.
Qed.
Lemma pages_all {A} (f : nat -> nat -> res (list A)) (m : list A) k n :
  (forall i, (i < n)%nat -> f (i * k)%nat k = Ok (take k (drop (i * k) m))) -> (length m <= n * k)%nat ->
  pages f k n = Ok m.
Proof. intros H Hn. rewrite (pages_take f m) by exact H. rewrite take_ge by exact Hn. reflexivity. Qed.

Lemma c34_claims s k n :
  CIs s -> (length (claim_mp s) <= n * k)%nat ->
  exists l, pages (get_claims s) k n = Ok l /\ NoDup l.*1 /\
    forall a x, In (a, x) l <-> get_claimable_mpdao s a = x /\ 0 < x.
Proof.
  intros [Hm _] Hn. exists (claim_mp s). split; [|split].
  - apply pages_all; [|exact Hn]. intros i _. apply map_page_spec. apply Hm.
  - apply Hm.
  - intros a x. apply (CI_list _ _ _ _ Hm).
Qed.
Lemma c34_stnear s k n :
  CIs s -> (length (claim_st s) <= n * k)%nat ->
  exists l, pages (get_stnear_claims s) k n = Ok l /\ NoDup l.*1 /\
    forall a x, In (a, x) l <-> get_claimable_stnear s a = x /\ 0 < x.
Proof.
  intros [_ Hm] Hn. exists (claim_st s). split; [|split].
  - apply pages_all; [|exact Hn]. intros i _. apply map_page_spec. apply Hm.
  - apply Hm.
  - intros a x. apply (CI_list _ _ _ _ Hm).
Qed.

(** user data *)
Lemma deposits_data s vid l s1 v1 v0 :
  foldM (fun sv lp => deposit_locking_position sv.1 (lp.1 / E18) lp.2 vid sv.2) l (s, v0) = Ok (s1, v1) ->
  user_data s1 = user_data s.
Proof.
  intros H. eapply (foldM_inv (fun sv => user_data sv.1 = user_data s)) in H; [exact H| |reflexivity].
  intros [s2 v2] lp [s3 v3] _ I Hs. cbn [fst snd] in *. apply deposit_inv in Hs as (vp & l' & _ & _ & _ & _ & _ & _ & ->).
  rewrite <- I. reflexivity.
Qed.

Lemma migration_data c s vid l d s' :
  migration_create_lps c s vid l d = Ok s' ->
  user_data s' =
    match d, om_get (user_data s) (c_pred c) with
    | Some x, None => om_set (user_data s) (c_pred c) x
    | _, _ => user_data s
    end /\ c_pred c = prev_gov s.
Proof.
  intros H. unfold migration_create_lps in H. apply bind_Ok in H as (? & _ & H).
  apply bind_Ok in H as (? & Hp & H). apply require_Ok, bool_decide_eq_true in Hp.
  apply bind_Ok in H as ([s1 v1] & HF & H). apply deposits_data in HF. split; [|exact Hp].
  destruct d as [y|]; [|injection H as <-; exact HF].
  rewrite HF in H. destruct (om_get (user_data s) (c_pred c)); injection H as <-; [exact HF|reflexivity].
Qed.

Lemma fold_set_get l : forall (m : list (string * string)) k,
  om_get (fold_left (fun m p => om_set m p.1 p.2) l m) k
  = match last_listed k l with Some v => Some v | None => om_get m k end.
Proof.
  induction l as [|[a v] l IH]; intros m k; cbn [fold_left last_listed]; [reflexivity|].
  rewrite IH. cbn [fst snd]. destruct (last_listed k l); [reflexivity|].
  destruct (decide (a = k)) as [->|H]; [apply om_get_set_eq|apply om_get_set_ne; exact H].
Qed.
Lemma fold_set_nd l : forall (m : list (string * string)),
  NoDup m.*1 -> NoDup (fold_left (fun m p => om_set m p.1 p.2) l m).*1.
Proof. induction l as [|[a v] l IH]; intros m H; cbn [fold_left]; [exact H|]. apply IH, om_set_NoDup, H. Qed.

Lemma data_nd a s0 tr : mv_new a = Ok s0 -> NoDup (user_data (run s0 tr)).*1.
Proof.
  intros H. apply (run_inv (fun s => NoDup (user_data s).*1)).
  - apply init_zero in H as (_ & _ & _ & _ & _ & _ & _ & Hd & _). rewrite Hd. constructor.
  - intros [c o] s s' e _ Hn Hx. cbn [fst snd] in Hx. destruct (is_data_op o) eqn:Eo.
    + destruct o; try discriminate Eo; cbn [exec] in Hx; apply noeff_Ok in Hx as [Hx _].
      * unfold update_airdrop_user_data in Hx. apply bind_Ok in Hx as (? & _ & Hx). injection Hx as <-. apply om_set_NoDup. exact Hn.
      * unfold operator_multi_set_airdrop_data in Hx. apply bind_Ok in Hx as (? & _ & Hx). apply bind_Ok in Hx as (? & _ & Hx).
        injection Hx as <-. apply fold_set_nd. exact Hn.
      * apply migration_data in Hx as [-> _]. destruct data; [|exact Hn].
        destruct (om_get (user_data s) (c_pred c)); [exact Hn|]. apply om_set_NoDup. exact Hn.
    + apply exec_frame in Hx as (_ & _ & F). rewrite F by exact Eo. exact Hn.
Qed.

Lemma c34_airdrop a s0 tr k n :
  mv_new a = Ok s0 -> let s := run s0 tr in (length (user_data s) <= n * k)%nat ->
  exists l, pages (get_airdrop_accounts s) k n = Ok l /\ NoDup l.*1 /\
    forall u d, In (u, d) l <-> get_airdrop_account s u = Ok d.
Proof.
  intros H0 s Hn. pose proof (data_nd a s0 tr H0) as Hd. fold s in Hd. exists (user_data s). split; [|split].
  - apply pages_all; [|exact Hn]. intros i _. apply map_page_spec. exact Hd.
  - exact Hd.
  - intros u d. unfold get_airdrop_account. split.
    + intros Hin. rewrite (om_In_get _ _ _ Hd Hin). reflexivity.
    + intros H. apply expect_Ok in H. apply om_get_Some_In. exact H.
Qed.

Lemma c34_delegates s k n :
  DIs s -> let m := length (evm_delegates s) in
  (0 < n)%nat -> (0 < k)%nat -> ((n - 1) * k < m <= n * k)%nat -> N.of_nat (n * k) < 2 ^ 32 ->
  exists l, pages (get_delegates s) k n = Ok l /\ NoDup l.*1 /\
    (forall u d, In (u, d) l -> d = get_delegating_evm_addresses s u) /\
    (forall u, get_delegating_evm_addresses s u <> [] -> In (u, get_delegating_evm_addresses s u) l).
Proof.
  intros HD m Hn Hk Hm Hs. pose proof (di_nd _ _ HD) as Hd. exists (evm_delegates s). split; [|split; [|split]].
  - apply pages_all; [|apply Hm]. intros i Hi. unfold get_delegates.
    assert (Hlt : (i * k < m)%nat) by nia. fold m.
    destruct (Nat.ltb_spec (i * k) m); [|lia]. cbn [require mbind res_bind].
    destruct (N.ltb_spec (N.of_nat (i * k) + N.of_nat k) U32_SIZE) as [_|Hge].
    + cbn [require mbind res_bind]. apply map_page_spec. exact Hd.
    + exfalso. change U32_SIZE with (2 ^ 32) in Hge. assert (N.of_nat (i * k) + N.of_nat k <= N.of_nat (n * k)) by nia. lia.
  - exact Hd.
  - intros u d Hin. unfold get_delegating_evm_addresses. rewrite (om_In_get _ _ _ Hd Hin). reflexivity.
  - intros u Hne. unfold get_delegating_evm_addresses in *. destruct (om_get (evm_delegates s) u) as [l|] eqn:E; [|contradiction].
    apply om_get_Some_In. exact E.
Qed.

(** voters *)
Lemma json_ok P s now k v :
  Inv weak P s -> om_get (voters s) k = Some v ->
  exists j, voter_to_json now s k v = Ok j /\ vj_id j = k.
Proof.
  intros HI Hv. destruct (i_v _ _ _ HI _ _ Hv) as (L & Hr & _).
  unfold voter_to_json. rewrite (voter_votes_rep _ _ _ _ Hr). eexists. split; reflexivity.
Qed.

Definition jdummy : voter_json := mkVoterJson "" 0 [] 0 [].
Definition vj (now : N) (s : state) (e : string * voter) : voter_json :=
  match voter_to_json now s e.1 e.2 with Ok j => j | Panic _ => jdummy end.

Lemma voters_page P s now from limit :
  Inv weak P s -> get_voters now s from limit = Ok (take limit (drop from (vj now s <$> voters s))).
Proof.
  intros HI. pose proof (i_nd _ _ _ HI) as Hn. unfold get_voters.
  replace (Nat.min (from + limit) (length (voters s)) - from)%nat
    with (length (take limit (drop from (vj now s <$> voters s)))) by (rewrite take_length, drop_length, fmap_length; lia).
  apply mapMr_seq. intros i j Hi. apply lookup_take_Some in Hi as [Hi Hlt]. rewrite lookup_drop in Hi.
  apply list_lookup_fmap_inv in Hi as ([k v] & -> & E). rewrite list_lookup_fmap, E.
  cbn [fmap option_fmap option_map fst expect mbind res_bind].
  rewrite (om_get_lookup _ _ _ _ Hn E). cbn [expect mbind res_bind].
  destruct (json_ok P s now k v HI (om_get_lookup _ _ _ _ Hn E)) as (j' & Hj & _).
  unfold vj. cbn [fst snd]. rewrite Hj. reflexivity.
Qed.

Lemma c34_voters a s0 tr now k n :
  mv_new a = Ok s0 -> collision_free tr -> let s := run s0 tr in (length (voter_ids s) <= n * k)%nat ->
  exists l, pages (get_voters now s) k n = Ok l /\ map vj_id l = voter_ids s /\ NoDup (map vj_id l) /\
    forall j, In j l <-> exists vid, In vid (voter_ids s) /\ get_voter_info now s vid = Ok j.
Proof.
  intros H0 Hc s Hn. pose proof (inv_run a s0 tr H0 Hc) as HI. fold s in HI. pose proof (i_nd _ _ _ HI) as Hnd.
  exists (vj now s <$> voters s).
  assert (Hid : map vj_id (vj now s <$> voters s) = voter_ids s).
  { unfold voter_ids. change (map vj_id (vj now s <$> voters s)) with (vj_id <$> (vj now s <$> voters s)).
    rewrite <- list_fmap_compose. apply list_fmap_ext. intros i [k0 v] Hi. unfold compose, vj. cbn [fst snd].
    destruct (json_ok _ s now k0 v HI (om_get_lookup _ _ _ _ Hnd Hi)) as (j & Hj & E). rewrite Hj. exact E. }
  split; [|split; [exact Hid|split; [rewrite Hid; exact Hnd|]]].
  - apply pages_all; [|rewrite fmap_length; unfold voter_ids in Hn; rewrite fmap_length in Hn; exact Hn].
    intros i _. eapply voters_page. exact HI.
  - intros j. rewrite <- elem_of_list_In, elem_of_list_fmap. split.
    + intros ([k0 v] & -> & Hin). exists k0. apply elem_of_list_In in Hin. pose proof (om_In_get _ _ _ Hnd Hin) as Hg. split.
      * unfold voter_ids. apply elem_of_list_In. eapply om_get_Some_key. exact Hg.
      * unfold get_voter_info, vj. cbn [fst snd]. rewrite Hg. destruct (json_ok _ s now k0 v HI Hg) as (j & Hj & _). rewrite Hj. reflexivity.
    + intros (vid & Hin & Hj). unfold get_voter_info in Hj.
      destruct (om_get (voters s) vid) as [v|] eqn:Hg.
      * exists (vid, v). split; [unfold vj; cbn [fst snd]; rewrite Hj; reflexivity|]. apply elem_of_list_In. apply om_get_Some_In. exact Hg.
      * exfalso. apply om_get_None in Hg. apply Hg. apply elem_of_list_In. exact Hin.
Qed.

(** ** C36 *)
Lemma c36_own c s d :
  (forall s' e, exec c s (UpdateAirdrop d) = Ok (s', e) ->
     c_deposit c = reg_cost s /\ e = [] /\
     check_if_registered s' (c_pred c) = true /\ get_airdrop_account s' (c_pred c) = Ok d /\
     (forall u, u <> c_pred c -> get_airdrop_account s' u = get_airdrop_account s u /\
                                 check_if_registered s' u = check_if_registered s u) /\
     s' = s <| user_data := user_data s' |>) /\
  (c_deposit c = reg_cost s -> exists s', exec c s (UpdateAirdrop d) = Ok (s', [])).
Proof.
  split.
  - intros s' e H. cbn [exec] in H. apply noeff_Ok in H as [H ->]. unfold update_airdrop_user_data in H.
    apply bind_Ok in H as (? & Hd & H). apply require_Ok, N.eqb_eq in Hd. injection H as <-.
    split; [exact Hd|]. split; [reflexivity|]. unfold check_if_registered, get_airdrop_account. cbn.
    rewrite om_get_set_eq. split; [reflexivity|]. split; [reflexivity|]. split; [|destruct s; reflexivity].
    intros u Hu. rewrite om_get_set_ne by congruence. auto.
  - intros Hd. cbn [exec]. unfold update_airdrop_user_data. rewrite Hd, N.eqb_refl. eexists. reflexivity.
Qed.

Lemma c36_operator c s l s' e :
  exec c s (OpMultiSetAirdrop l) = Ok (s', e) ->
  c_pred c = operator_id s /\ e = [] /\
  (forall u, get_airdrop_account s' u = match last_listed u l with Some d => Ok d | None => get_airdrop_account s u end) /\
  s' = s <| user_data := user_data s' |>.
Proof.
  intros H. cbn [exec] in H. apply noeff_Ok in H as [H ->]. unfold operator_multi_set_airdrop_data in H.
  apply bind_Ok in H as (? & _ & H). apply bind_Ok in H as (? & Ho & H). apply is_operator in Ho. injection H as <-.
  split; [exact Ho|]. split; [reflexivity|]. split; [|destruct s; reflexivity].
  intros u. unfold get_airdrop_account. cbn. rewrite fold_set_get. destruct (last_listed u l); reflexivity.
Qed.

(** nothing else changes user data, except the first migration with data *)
Lemma c36_only x s s' e u :
  exec x.1 s x.2 = Ok (s', e) -> get_airdrop_account s' u <> get_airdrop_account s u ->
  ((exists d, x.2 = UpdateAirdrop d) /\ u = c_pred x.1) \/
  (exists l, x.2 = OpMultiSetAirdrop l /\ last_listed u l <> None) \/
  (exists vid l d, x.2 = MigrationCreateLps vid l (Some d) /\ u = c_pred x.1 /\ u = prev_gov s /\
     check_if_registered s u = false /\ get_airdrop_account s' u = Ok d).
Proof.
  destruct x as [c o]. cbn [fst snd]. intros H Hne. destruct (is_data_op o) eqn:Eo.
  2: { exfalso. apply Hne. apply exec_frame in H as (_ & _ & F). unfold get_airdrop_account. rewrite F by exact Eo. reflexivity. }
  destruct o; try discriminate Eo.
  - left. split; [eauto|]. destruct (decide (u = c_pred c)) as [E|E]; [exact E|].
    apply (c36_own c s data) in H as (_ & _ & _ & _ & H & _). exfalso. apply Hne. apply H. exact E.
  - right. left. exists l. split; [reflexivity|]. apply c36_operator in H as (_ & _ & H & _). intros E.
    apply Hne. rewrite H, E. reflexivity.
  - right. right. cbn [exec] in H. apply noeff_Ok in H as [H _]. apply migration_data in H as [Eu Hp].
    unfold get_airdrop_account in Hne |- *. rewrite Eu in Hne |- *. destruct data as [d|]; [|contradiction].
    destruct (om_get (user_data s) (c_pred c)) eqn:Eg; [contradiction|].
    exists vid, l, d. split; [reflexivity|].
    destruct (decide (u = c_pred c)) as [->|E]; [|exfalso; apply Hne; rewrite om_get_set_ne by congruence; reflexivity].
    split; [reflexivity|]. split; [exact Hp|]. split; [unfold check_if_registered; rewrite Eg; reflexivity|].
    rewrite om_get_set_eq. reflexivity.
Qed.

(** ** C32 *)
Lemma c32 c s vid l d s' e :
  exec c s (MigrationCreateLps vid l (Some d)) = Ok (s', e) ->
  c_pred c = prev_gov s /\
  (forall u, u <> c_pred c -> get_airdrop_account s' u = get_airdrop_account s u) /\
  get_airdrop_account s' (c_pred c) =
    (if check_if_registered s (c_pred c) then get_airdrop_account s (c_pred c) else Ok d).
Proof.
  intros H. cbn [exec] in H. apply noeff_Ok in H as [H _]. apply migration_data in H as [Eu Hp]. split; [exact Hp|].
  unfold get_airdrop_account, check_if_registered. rewrite Eu.
  destruct (om_get (user_data s) (c_pred c)) eqn:Eg.
  - split; [reflexivity|]. rewrite Eg. reflexivity.
  - rewrite om_get_set_eq. split; [|reflexivity]. intros u Hu. rewrite om_get_set_ne by congruence. reflexivity.
Qed.
