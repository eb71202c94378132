(** MVDeleg.v -- delegation of EVM addresses (C22-C24). *)

From Verif Require Export MVClaims.

Definition lst (d : list (string * list string)) (a : string) : list string := default [] (om_get d a).

Record DI (d : list (string * list string)) (g : gmap string (string * string)) : Prop := {
  di_nd : NoDup d.*1;
  di_l : forall a, NoDup (lst d a);
  di_iff : forall e a, e ∈ lst d a <-> fst <$> g !! e = Some a;
}.

Lemma retain_spec e l x : x ∈ retain_ne e l <-> x ∈ l /\ x <> e.
Proof.
  unfold retain_ne. rewrite !elem_of_list_In, List.filter_In, negb_true_iff, bool_decide_eq_false. reflexivity.
Qed.
Lemma retain_NoDup e l : NoDup l -> NoDup (retain_ne e l).
Proof. rewrite !NoDup_ListNoDup. apply List.NoDup_filter. Qed.

Lemma lst_set d a l b : lst (om_set d a l) b = if decide (a = b) then l else lst d b.
Proof.
  unfold lst. destruct (decide (a = b)) as [->|H]; [rewrite om_get_set_eq|rewrite om_get_set_ne by exact H]; reflexivity.
Qed.
Lemma lst_remove d a b : NoDup d.*1 -> lst (om_remove d a) b = if decide (a = b) then [] else lst d b.
Proof.
  intros Hn. unfold lst. destruct (decide (a = b)) as [->|H];
    [rewrite om_get_remove_eq by exact Hn|rewrite om_get_remove_ne by auto]; reflexivity.
Qed.

(** remove [e] from the list of its delegate; drop the entry or not *)
Lemma DI_remove d g e a s (d' : list (string * list string)) :
  DI d g -> g !! e = Some (a, s) -> NoDup d'.*1 ->
  (forall b, lst d' b = if decide (a = b) then retain_ne e (lst d a) else lst d b) ->
  DI d' (delete e g).
Proof.
  intros [H1 H2 H3] Hg Hn Hl. constructor.
  - exact Hn.
  - intros b. rewrite Hl. destruct (decide (a = b)); [apply retain_NoDup|]; apply H2.
  - intros x b. rewrite Hl. destruct (decide (x = e)) as [->|Hx].
    + rewrite lookup_delete. cbn. split; [|discriminate]. destruct (decide (a = b)) as [->|Hb].
      * rewrite retain_spec. tauto.
      * rewrite H3, Hg. cbn. congruence.
    + rewrite lookup_delete_ne by congruence. destruct (decide (a = b)) as [->|Hb].
      * rewrite retain_spec, H3. tauto.
      * apply H3.
Qed.

Lemma DI_add d g e a s :
  DI d g -> g !! e = None -> DI (om_set d a (lst d a ++ [e])) (<[e := (a, s)]> g).
Proof.
  intros [H1 H2 H3] Hg.
  assert (Hno : forall b, e ∉ lst d b) by (intros b; rewrite H3, Hg; discriminate).
  constructor.
  - apply om_set_NoDup. exact H1.
  - intros b. rewrite lst_set. destruct (decide (a = b)) as [->|Hb]; [|apply H2].
    apply NoDup_app. split; [apply H2|]. split; [|apply NoDup_singleton].
    intros x Hx Hx'. apply elem_of_list_singleton in Hx' as ->. exact (Hno _ Hx).
  - intros x b. rewrite lst_set. destruct (decide (x = e)) as [->|Hx].
    + rewrite lookup_insert. cbn. destruct (decide (a = b)) as [->|Hb].
      * split; [reflexivity|]. intros _. apply elem_of_app. right. left.
      * split; [intros H; exfalso; exact (Hno _ H)|congruence].
    + rewrite lookup_insert_ne by congruence. destruct (decide (a = b)) as [->|Hb]; [|apply H3].
      rewrite elem_of_app, elem_of_list_singleton, H3. tauto.
Qed.

Definition DIs (s : state) : Prop := DI (evm_delegates s) (evm_sigs s).

(** Exact effect of the calls on delegations. *)
Inductive deleg_step (c : ctx) (s : state) : op -> state -> Prop :=
| ds_pre e g s' :
    c_deposit c = 1 -> s' = s <| evm_pre := <[e := (c_pred c, g)]> (evm_pre s) |> ->
    deleg_step c s (PreDelegate e g) s'
| ds_unpre e s' :
    c_deposit c = 1 -> c_pred c = operator_id s -> s' = s <| evm_pre := delete e (evm_pre s) |> ->
    deleg_step c s (OpRemovePre e) s'
| ds_confirm_none e :
    c_deposit c = 1 -> c_pred c = operator_id s -> evm_pre s !! e = None -> deleg_step c s (OpConfirm e) s
| ds_confirm_same e a g g' s' :
    c_deposit c = 1 -> c_pred c = operator_id s -> evm_pre s !! e = Some (a, g) -> evm_sigs s !! e = Some (a, g') ->
    s' = s <| evm_pre := delete e (evm_pre s) |> ->
    deleg_step c s (OpConfirm e) s'
| ds_confirm e a g s' :
    c_deposit c = 1 -> c_pred c = operator_id s -> evm_pre s !! e = Some (a, g) ->
    fst <$> evm_sigs s !! e <> Some a ->
    evm_sigs s' = <[e := (a, g)]> (evm_sigs s) -> evm_pre s' = delete e (evm_pre s) -> DIs s' ->
    s' = s <| evm_pre := evm_pre s' |> <| evm_sigs := evm_sigs s' |> <| evm_delegates := evm_delegates s' |> ->
    deleg_step c s (OpConfirm e) s'
| ds_remove e g s' :
    c_deposit c = 1 -> evm_sigs s !! e = Some (c_pred c, g) ->
    evm_sigs s' = delete e (evm_sigs s) -> DIs s' ->
    s' = s <| evm_sigs := evm_sigs s' |> <| evm_delegates := evm_delegates s' |> ->
    deleg_step c s (RemoveDelegated e) s'
| ds_other o s' : is_deleg_op o = false -> delegf s' = delegf s -> deleg_step c s o s'.

Lemma one_yocto c x : assert_one_yocto c = Ok x -> c_deposit c = 1.
Proof. unfold assert_one_yocto. intros H. apply require_Ok, N.eqb_eq in H. exact H. Qed.
Lemma is_operator c s x : assert_operator c s = Ok x -> c_pred c = operator_id s.
Proof. unfold assert_operator. intros H. apply require_Ok, bool_decide_eq_true in H. congruence. Qed.

Lemma confirm_moved s1 e a g old g2 prevl :
  DIs s1 -> evm_sigs s1 !! e = Some (old, g2) -> old <> a -> om_get (evm_delegates s1) old = Some prevl ->
  let d1 := match retain_ne e prevl with
            | [] => om_remove (evm_delegates s1) old
            | _ => om_set (evm_delegates s1) old (retain_ne e prevl)
            end in
  DI (om_set d1 a (default [] (om_get d1 a) ++ [e])) (<[e := (a, g)]> (evm_sigs s1)).
Proof.
  intros HD Hg Hne Hl d1.
  assert (El : lst (evm_delegates s1) old = prevl) by (unfold lst; rewrite Hl; reflexivity).
  assert (HD1 : DI d1 (delete e (evm_sigs s1))).
  { eapply (DI_remove _ _ e old g2); [exact HD|exact Hg| |].
    - unfold d1. destruct (retain_ne e prevl); [apply om_remove_NoDup|apply om_set_NoDup]; apply HD.
    - intros b. rewrite El. unfold d1. destruct (retain_ne e prevl) as [|y r] eqn:Er.
      + apply lst_remove. apply HD.
      + apply lst_set. }
  rewrite <- (insert_delete_insert (evm_sigs s1)). apply DI_add; [exact HD1|]. apply lookup_delete.
Qed.

Lemma deleg_cases c s o s' e : DIs s -> exec c s o = Ok (s', e) -> deleg_step c s o s'.
Proof.
  intros HD H. destruct (is_deleg_op o) eqn:Eo.
  2: { apply ds_other; [exact Eo|]. apply exec_frame in H as (_ & H & _). auto. }
  destruct o; try discriminate Eo; cbn [exec] in H; apply noeff_Ok in H as [H _].
  - unfold pre_delegate_evm_address in H. apply bind_Ok in H as (? & H1 & H). apply bind_Ok in H as (? & _ & H).
    injection H as <-. apply one_yocto in H1. eapply ds_pre; [exact H1|reflexivity].
  - unfold operator_remove_pre_delegate in H. apply bind_Ok in H as (? & H1 & H). apply bind_Ok in H as (? & H2 & H).
    injection H as <-. apply one_yocto in H1. apply is_operator in H2. eapply ds_unpre; eauto.
  - unfold operator_confirm_delegated in H. apply bind_Ok in H as (? & H1 & H). apply bind_Ok in H as (? & H2 & H).
    apply one_yocto in H1. apply is_operator in H2.
    destruct (evm_pre s !! evm) as [[a g]|] eqn:Ep; [|injection H as <-; apply ds_confirm_none; assumption].
    cbn zeta in H. set (s1 := s <| evm_pre := delete evm (evm_pre s) |>) in H.
    assert (Es1 : evm_sigs s1 = evm_sigs s) by reflexivity.
    assert (Ed1 : evm_delegates s1 = evm_delegates s) by reflexivity.
    assert (HD1 : DIs s1) by exact HD.
    rewrite Es1 in H. destruct (evm_sigs s !! evm) as [[old g2]|] eqn:Eg.
    + case_bool_decide as Eold.
      * injection H as <-. subst old. eapply ds_confirm_same; eauto.
      * apply bind_Ok in H as (prevl & Hl & H). apply expect_Ok in Hl. injection H as <-.
        assert (Eg1 : evm_sigs s1 !! evm = Some (old, g2)) by exact Eg.
        pose proof (confirm_moved s1 evm a g old g2 prevl HD1 Eg1 Eold Hl) as K. cbv zeta in K.
        apply (ds_confirm c s evm a g); [exact H1|exact H2|exact Ep| |reflexivity|reflexivity|exact K|unfold s1; destruct s; reflexivity].
        rewrite Eg. cbn. congruence.
    + injection H as <-.
      apply (ds_confirm c s evm a g); [exact H1|exact H2|exact Ep| |reflexivity|reflexivity| |unfold s1; destruct s; reflexivity].
      * rewrite Eg. discriminate.
      * apply (DI_add _ _ evm a g); [exact HD1|]. exact Eg.
  - unfold remove_delegated_evm_address in H. apply bind_Ok in H as (? & H1 & H). apply one_yocto in H1.
    destruct (evm_sigs s !! evm) as [[a g]|] eqn:Eg; [|discriminate].
    case_bool_decide as Ea; [|discriminate]. subst a.
    apply bind_Ok in H as (l & Hl & H). apply expect_Ok in Hl. injection H as <-.
    eapply ds_remove; [exact H1|exact Eg|reflexivity| |destruct s; reflexivity].
    unfold DIs. cbn. eapply (DI_remove _ _ evm (c_pred c) g); [exact HD|exact Eg|apply om_set_NoDup; apply HD|].
    intros b. rewrite lst_set. destruct (decide (c_pred c = b)); [|reflexivity].
    f_equal. unfold lst. rewrite Hl. reflexivity.
Qed.

Lemma deleg_step_DI c s o s' : DIs s -> deleg_step c s o s' -> DIs s'.
Proof.
  intros HD H. destruct H; try (subst s'; exact HD); try assumption.
  unfold delegf in *. match goal with H : (_, _, _) = _ |- _ => injection H as E1 E2 E3 end.
  unfold DIs. rewrite E1, E3. exact HD.
Qed.

Lemma DIs_init a s0 : mv_new a = Ok s0 -> DIs s0.
Proof.
  intros H. apply init_zero in H as (_ & _ & _ & _ & _ & _ & _ & _ & Hd & _ & Hg). unfold DIs. rewrite Hd, Hg.
  constructor; [constructor|intros b; constructor|]. intros e b. rewrite lookup_empty. split; [inversion 1|discriminate].
Qed.
Lemma DIs_run s tr : DIs s -> DIs (run s tr).
Proof.
  intros H. apply run_inv; [exact H|]. intros x s1 s' e _ HD Hx. eapply deleg_step_DI; [exact HD|].
  eapply deleg_cases; eauto.
Qed.

(** C22 *)
Lemma DIs_consistent s : DIs s -> delegation_consistent s.
Proof.
  intros [H1 H2 H3]. split; [|exact H2]. intros e a. unfold get_delegate, get_delegating_evm_addresses.
  rewrite <- elem_of_list_In. symmetry. apply H3.
Qed.
Lemma c22 a s0 tr : mv_new a = Ok s0 -> delegation_consistent (run s0 tr).
Proof. intros H. apply DIs_consistent, DIs_run. eapply DIs_init; exact H. Qed.

(** the calls never fail on their internal lookups *)
Lemma c22_confirm c s e :
  DIs s -> c_deposit c = 1 -> c_pred c = operator_id s -> exists s', exec c s (OpConfirm e) = Ok (s', []).
Proof.
  intros HD Hd Ho. cbn [exec]. unfold operator_confirm_delegated, assert_one_yocto, assert_operator.
  rewrite Hd. cbn [N.eqb Pos.eqb require mbind res_bind]. rewrite bool_decide_true by congruence. cbn [require mbind res_bind].
  destruct (evm_pre s !! e) as [[a g]|]; [|eexists; reflexivity]. cbn zeta.
  set (s1 := s <| evm_pre := delete e (evm_pre s) |>).
  assert (Es1 : evm_sigs s1 = evm_sigs s) by reflexivity. rewrite Es1.
  destruct (evm_sigs s !! e) as [[old g2]|] eqn:Eg; [|eexists; reflexivity].
  case_bool_decide; [eexists; reflexivity|].
  assert (Hin : e ∈ lst (evm_delegates s) old) by (apply HD; rewrite Eg; reflexivity).
  assert (Ed1 : evm_delegates s1 = evm_delegates s) by reflexivity. rewrite Ed1.
  unfold lst in Hin. destruct (om_get (evm_delegates s) old) as [l|]; [|inversion Hin].
  eexists. reflexivity.
Qed.

Lemma c22_remove c s e :
  DIs s -> c_deposit c = 1 -> get_delegate s e = Some (c_pred c) ->
  exists s', exec c s (RemoveDelegated e) = Ok (s', []).
Proof.
  intros HD Hd Hg. cbn [exec]. unfold remove_delegated_evm_address, assert_one_yocto.
  rewrite Hd. cbn [N.eqb Pos.eqb require mbind res_bind].
  assert (Hin : e ∈ lst (evm_delegates s) (c_pred c)) by (apply HD; exact Hg).
  unfold get_delegate in Hg. destruct (evm_sigs s !! e) as [[a g]|]; [|discriminate].
  injection Hg as ->. rewrite bool_decide_true by reflexivity.
  unfold lst in Hin. destruct (om_get (evm_delegates s) (c_pred c)) as [l|]; [|inversion Hin].
  eexists. reflexivity.
Qed.

(** C23 *)
Lemma verify_inv c s e p : DIs s -> verify_delegate c s e = Ok p -> get_delegate s e = Some (c_pred c) /\ p = evm_account e.
Proof.
  intros HD H. unfold verify_delegate in H. apply bind_Ok in H as (? & H1 & H). injection H as <-.
  apply require_Ok, bool_decide_eq_true in H1. split; [|reflexivity]. apply HD. exact H1.
Qed.

Lemma c23 x s s' f e :
  DIs s -> CIs s -> exec x.1 s x.2 = Ok (s', f) ->
  (exists n, x.2 = DelegatedClaim e n) \/ (exists vp a o, x.2 = VoteDelegated e vp a o) \/
  (exists a o, x.2 = UnvoteDelegated e a o) ->
  get_delegate s e = Some (c_pred x.1) /\
  (forall w, w <> evm_account e ->
     get_voter s' w = get_voter s w /\
     get_claimable_mpdao s' w = get_claimable_mpdao s w /\ get_claimable_stnear s' w = get_claimable_stnear s w) /\
  match x.2 with
  | DelegatedClaim _ n =>
      f = [PaySt (ci_stnear (get_contract_info s)) (evm_account e) (c_pred x.1) n] /\
      get_claimable_stnear s' (evm_account e) + n = get_claimable_stnear s (evm_account e) /\
      voters s' = voters s
  | _ => f = [] /\ claimf s' = claimf s
  end.
Proof.
  intros HD HC H Ho. pose proof (claims_step _ _ _ _ HC H) as (_ & Hm & Hs & _).
  pose proof (exec_frame _ _ _ _ _ H) as (Fr & _ & _).
  destruct x as [c o]. cbn [fst snd] in *.
  destruct Ho as [(n & ->)|[(vp & a & o2 & ->)|(a & o2 & ->)]]; cbn [exec] in H.
  - unfold delegated_claim_stnear in H. apply bind_Ok in H as (p & Hv & H). apply verify_inv in Hv as [Hg ->]; [|exact HD].
    apply bind_Ok in H as (s1 & Hr & H). injection H as <- <-.
    apply remove_claimable_stnear_inv in Hr as (Hle & _ & Es).
    split; [exact Hg|].
    assert (Ev : voters s1 = voters s) by (rewrite Es; reflexivity).
    assert (Ea : stnear_addr s1 = stnear_addr s) by (rewrite Es; reflexivity).
    assert (Hst : forall w, get_claimable_stnear s1 w + (if decide (evm_account e = w) then n else 0) = get_claimable_stnear s w).
    { intros w. specialize (Hs w). destruct (given_none s (c, DelegatedClaim e n) [PaySt (stnear_addr s1) (evm_account e) (c_pred c) n] eq_refl) as (_ & Z & _).
      rewrite Z in Hs. change (st_restored w s (c, DelegatedClaim e n) [PaySt (stnear_addr s1) (evm_account e) (c_pred c) n]) with 0 in Hs.
      unfold st_claimed in Hs. rewrite sum_by_cons, sum_by_nil in Hs. lia. }
    split; [|split; [rewrite Ea; reflexivity|split; [|exact Ev]]].
    + intros w Hw. split; [unfold get_voter; rewrite Ev; reflexivity|]. split.
      * unfold get_claimable_mpdao. rewrite Es. reflexivity.
      * specialize (Hst w). rewrite decide_False in Hst by congruence. lia.
    + specialize (Hst (evm_account e)). rewrite decide_True in Hst by reflexivity. exact Hst.
  - apply noeff_Ok in H as [H ->]. unfold vote_delegated in H. apply bind_Ok in H as (? & _ & H). apply bind_Ok in H as (p & Hv & H).
    apply verify_inv in Hv as [Hg ->]; [|exact HD]. split; [exact Hg|].
    destruct (Fr eq_refl) as [Fc _]. split; [|split; [reflexivity|exact Fc]].
    intros w Hw. injection Fc as Fc1 Fc2 Fc3 Fc4 Fc5 Fc6. unfold get_claimable_mpdao, get_claimable_stnear. rewrite Fc1, Fc4. split; [|auto].
    apply vote_shape in H as (v & v' & _ & _ & vs & hv & hp & ->). unfold get_voter, save_voter. cbn.
    rewrite om_get_set_ne by congruence. reflexivity.
  - apply noeff_Ok in H as [H ->]. unfold unvote_delegated in H. apply bind_Ok in H as (? & _ & H). apply bind_Ok in H as (p & Hv & H).
    apply verify_inv in Hv as [Hg ->]; [|exact HD]. split; [exact Hg|].
    destruct (Fr eq_refl) as [Fc _]. split; [|split; [reflexivity|exact Fc]].
    intros w Hw. injection Fc as Fc1 Fc2 Fc3 Fc4 Fc5 Fc6. unfold get_claimable_mpdao, get_claimable_stnear. rewrite Fc1, Fc4. split; [|auto].
    apply unvote_shape in H as (_ & v & v' & _ & _ & vs & hv & hp & ->). unfold get_voter, save_voter. cbn.
    rewrite om_get_set_ne by congruence. reflexivity.
Qed.

(** C24, one call *)
Lemma c24_step x s s' f e :
  DIs s -> exec x.1 s x.2 = Ok (s', f) -> evm_sigs s' !! e <> evm_sigs s !! e ->
  (x.2 = OpConfirm e /\ c_pred x.1 = operator_id s /\
   exists a g, get_pre_delegate s e = Some (a, g) /\ evm_sigs s' !! e = Some (a, g)) \/
  (x.2 = RemoveDelegated e /\ get_delegate s e = Some (c_pred x.1) /\ evm_sigs s' !! e = None).
Proof.
  intros HD H Hne. destruct x as [c o]. cbn [fst snd] in *. apply deleg_cases in H; [|exact HD].
  destruct H as [e0 g s' _ Es|e0 s' _ _ Es|e0 _ _ _|e0 a g g' s' _ _ _ _ Es|e0 a g s' _ Ho Hp _ Es Ep _ _|e0 g s' _ Hg Es _ _|o s' _ Ef].
  - exfalso. apply Hne. rewrite Es. reflexivity.
  - exfalso. apply Hne. rewrite Es. reflexivity.
  - exfalso. apply Hne. reflexivity.
  - exfalso. apply Hne. rewrite Es. reflexivity.
  - destruct (decide (e = e0)) as [->|Hx].
    + left. split; [reflexivity|]. split; [exact Ho|]. exists a, g. split; [exact Hp|]. rewrite Es. apply lookup_insert.
    + exfalso. apply Hne. rewrite Es. apply lookup_insert_ne. congruence.
  - destruct (decide (e = e0)) as [->|Hx].
    + right. split; [reflexivity|]. split; [unfold get_delegate; rewrite Hg; reflexivity|]. rewrite Es. apply lookup_delete.
    + exfalso. apply Hne. rewrite Es. apply lookup_delete_ne. congruence.
  - exfalso. apply Hne. injection Ef as _ _ ->. reflexivity.
Qed.

Lemma c24_pre_step x s s' f e :
  DIs s -> exec x.1 s x.2 = Ok (s', f) -> get_pre_delegate s' e <> get_pre_delegate s e ->
  (exists g, x.2 = PreDelegate e g /\ get_pre_delegate s' e = Some (c_pred x.1, g)) \/
  ((x.2 = OpRemovePre e \/ x.2 = OpConfirm e) /\ c_pred x.1 = operator_id s /\ get_pre_delegate s' e = None).
Proof.
  intros HD H Hne. destruct x as [c o]. cbn [fst snd] in *. unfold get_pre_delegate in *. apply deleg_cases in H; [|exact HD].
  destruct H as [e0 g s' _ Es|e0 s' _ Ho Es|e0 _ _ _|e0 a g g' s' _ Ho _ _ Es|e0 a g s' _ Ho Hp _ Es Ep _ _|e0 g s' _ Hg Eg _ Es|o s' _ Ef].
  - assert (E : evm_pre s' = <[e0:=(c_pred c, g)]> (evm_pre s)) by (rewrite Es; reflexivity). rewrite E in *.
    destruct (decide (e = e0)) as [->|Hx].
    + left. exists g. split; [reflexivity|]. apply lookup_insert.
    + exfalso. apply Hne. apply lookup_insert_ne. congruence.
  - assert (E : evm_pre s' = delete e0 (evm_pre s)) by (rewrite Es; reflexivity). rewrite E in *.
    destruct (decide (e = e0)) as [->|Hx].
    + right. split; [auto|]. split; [exact Ho|]. apply lookup_delete.
    + exfalso. apply Hne. apply lookup_delete_ne. congruence.
  - contradiction.
  - assert (E : evm_pre s' = delete e0 (evm_pre s)) by (rewrite Es; reflexivity). rewrite E in *.
    destruct (decide (e = e0)) as [->|Hx].
    + right. split; [auto|]. split; [exact Ho|]. apply lookup_delete.
    + exfalso. apply Hne. apply lookup_delete_ne. congruence.
  - rewrite Ep in *. destruct (decide (e = e0)) as [->|Hx].
    + right. split; [auto|]. split; [exact Ho|]. apply lookup_delete.
    + exfalso. apply Hne. apply lookup_delete_ne. congruence.
  - exfalso. apply Hne. rewrite Es. reflexivity.
  - exfalso. apply Hne. injection Ef as _ -> _. reflexivity.
Qed.

Lemma run_snoc s0 tr x : run s0 (tr ++ [x]) = step (run s0 tr) x.
Proof. unfold run. rewrite fold_left_app. reflexivity. Qed.

(** whole histories *)
Lemma c24_pre_origin a0 s0 tr e a g :
  mv_new a0 = Ok s0 -> get_pre_delegate (run s0 tr) e = Some (a, g) ->
  exists tr1 x tr2, tr = tr1 ++ x :: tr2 /\ x.2 = PreDelegate e g /\ c_pred x.1 = a /\ succeeds_after s0 tr1 x.
Proof.
  intros H0. pose proof (DIs_init _ _ H0) as HD0.
  induction tr as [|x tr IH] using rev_ind; intros Hp.
  { apply init_zero in H0 as (_ & _ & _ & _ & _ & _ & _ & _ & _ & Hz & _).
    unfold get_pre_delegate in Hp. cbn in Hp. rewrite Hz, lookup_empty in Hp. discriminate. }
  rewrite run_snoc in Hp. unfold step in Hp.
  assert (Hold : get_pre_delegate (run s0 tr) e = Some (a, g) ->
    exists tr1 y tr2, tr ++ [x] = tr1 ++ y :: tr2 /\ y.2 = PreDelegate e g /\ c_pred y.1 = a /\ succeeds_after s0 tr1 y).
  { intros Hq. destruct (IH Hq) as (tr1 & y & tr2 & E1 & R). exists tr1, y, (tr2 ++ [x]).
    split; [rewrite E1, <- app_assoc; reflexivity|exact R]. }
  destruct (exec x.1 (run s0 tr) x.2) as [[s' f]|] eqn:E; [|apply Hold; exact Hp].
  destruct (decide (get_pre_delegate s' e = get_pre_delegate (run s0 tr) e)) as [Heq|Hne].
  { apply Hold. rewrite <- Heq. exact Hp. }
  destruct (c24_pre_step _ _ _ _ _ (DIs_run _ _ HD0) E Hne) as [(g' & Hx & Hs)|(_ & _ & Hs)]; [|congruence].
  rewrite Hs in Hp. injection Hp as <- <-. exists tr, x, []. repeat split; auto. exists s', f. exact E.
Qed.

Lemma c24_origin a0 s0 tr e a :
  mv_new a0 = Ok s0 -> get_delegate (run s0 tr) e = Some a ->
  exists g tr1 x tr2 y tr3, tr = tr1 ++ x :: tr2 ++ y :: tr3 /\
    x.2 = PreDelegate e g /\ c_pred x.1 = a /\ succeeds_after s0 tr1 x /\
    let t := run s0 (tr1 ++ x :: tr2) in
    y.2 = OpConfirm e /\ c_pred y.1 = operator_id t /\ get_pre_delegate t e = Some (a, g) /\
    get_delegation_signature (run s0 tr) e = Ok (a, g).
Proof.
  intros H0. pose proof (DIs_init _ _ H0) as HD0. intros Hd. unfold get_delegate in Hd.
  destruct (evm_sigs (run s0 tr) !! e) as [[a1 g]|] eqn:Es; [|discriminate]. injection Hd as ->.
  unfold get_delegation_signature. rewrite Es. cbn [expect].
  enough (Hex : exists tr1 x tr2 y tr3, tr = tr1 ++ x :: tr2 ++ y :: tr3 /\
    x.2 = PreDelegate e g /\ c_pred x.1 = a /\ succeeds_after s0 tr1 x /\
    y.2 = OpConfirm e /\ c_pred y.1 = operator_id (run s0 (tr1 ++ x :: tr2)) /\
    get_pre_delegate (run s0 (tr1 ++ x :: tr2)) e = Some (a, g)).
  { destruct Hex as (tr1 & x & tr2 & y & tr3 & R). exists g, tr1, x, tr2, y, tr3. cbv zeta. tauto. }
  revert Es. induction tr as [|z tr IH] using rev_ind; intros Es.
  { apply init_zero in H0 as (_ & _ & _ & _ & _ & _ & _ & _ & _ & _ & Hz).
    cbn in Es. rewrite Hz, lookup_empty in Es. discriminate. }
  rewrite run_snoc in Es. unfold step in Es.
  assert (Hold : evm_sigs (run s0 tr) !! e = Some (a, g) ->
    exists tr1 x tr2 y tr3, tr ++ [z] = tr1 ++ x :: tr2 ++ y :: tr3 /\
    x.2 = PreDelegate e g /\ c_pred x.1 = a /\ succeeds_after s0 tr1 x /\
    y.2 = OpConfirm e /\ c_pred y.1 = operator_id (run s0 (tr1 ++ x :: tr2)) /\
    get_pre_delegate (run s0 (tr1 ++ x :: tr2)) e = Some (a, g)).
  { intros Hq. destruct (IH Hq) as (tr1 & x & tr2 & y & tr3 & E1 & R). exists tr1, x, tr2, y, (tr3 ++ [z]).
    split; [|exact R]. rewrite E1. rewrite <- !app_assoc. cbn. rewrite <- app_assoc. reflexivity. }
  destruct (exec z.1 (run s0 tr) z.2) as [[s' f]|] eqn:E; [|apply Hold; exact Es].
  destruct (decide (evm_sigs s' !! e = evm_sigs (run s0 tr) !! e)) as [Heq|Hne].
  { apply Hold. rewrite <- Heq. exact Es. }
  destruct (c24_step _ _ _ _ _ (DIs_run _ _ HD0) E Hne) as [(Hz & Ho & a1 & g1 & Hp & Hs)|(_ & _ & Hs)]; [|congruence].
  rewrite Hs in Es. injection Es as -> ->.
  destruct (c24_pre_origin _ _ _ _ _ _ H0 Hp) as (tr1 & x & tr2 & E1 & Hx1 & Hx2 & Hx3).
  exists tr1, x, tr2, z, []. rewrite <- E1. split; [|tauto]. rewrite E1, <- app_assoc. reflexivity.
Qed.
