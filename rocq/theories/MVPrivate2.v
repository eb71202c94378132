(** MVPrivate2.v -- C79: calls of other accounts do not influence an account. *)

From Verif Require Export MVPrivate MVSmall2.

Lemma cf_sub tr tr' : (forall x, In x tr' -> In x tr) -> collision_free tr -> collision_free tr'.
Proof.
  intros H Hc p q Hp Hq. apply Hc; unfold vote_targets in *; apply elem_of_list_In, elem_of_list_omap;
    apply elem_of_list_In, elem_of_list_omap in Hp as (x & Hx & Hp); apply elem_of_list_In, elem_of_list_omap in Hq as (y & Hy & Hq);
    [exists x|exists y]; (split; [apply elem_of_list_In, H, elem_of_list_In; assumption|assumption]).
Qed.
Lemma nz_sub tr tr' : (forall x, In x tr' -> In x tr) -> no_zero_votes tr -> no_zero_votes tr'.
Proof. intros H Hz. apply List.Forall_forall. intros x Hx. exact (proj1 (List.Forall_forall _ _) Hz x (H x Hx)). Qed.

Section Priv.
Context (a : init_args) (s0 : state) (H0 : mv_new a = Ok s0).

Record fit (tr l : list call) : Prop := {
  f_cf : collision_free (tr ++ l); f_nz : no_zero_votes (tr ++ l); f_no : List.Forall (fun x => named_once x.2) l;
  f_len : N.of_nat (length tr) + N.of_nat (length l) < 2 ^ 64;
  f_mp : 60 * 10 ^ 18 * (mp_owed (run s0 tr) + sum_by mp_brought l) < 2 ^ 128;
  f_st : ci_uncl_st (get_contract_info (run s0 tr)) + sum_by st_brought l < 2 ^ 128;
  f_ac : List.Forall (fun x => acts_on x <> None) l;
}.

Lemma sum_by_cons {A} (f : A -> N) x l : sum_by f (x :: l) = f x + sum_by f l.
Proof. reflexivity. Qed.

Lemma received_le s x : mp_received s x <= mp_brought x.
Proof. unfold mp_received, mp_brought. destruct (x.2); try lia; [destruct ok; lia|destruct (decide _); lia]. Qed.
Lemma st_received_le s x : acts_on x <> None -> st_received s x <= st_brought x \/ exists sender n msg, x.2 = FtOnTransfer sender n msg.
Proof. intros _. unfold st_received, st_brought. destruct (x.2); eauto; left; try lia. destruct ok; lia. Qed.

Lemma acts_imports x : acts_on x <> None -> imports x = false.
Proof. unfold acts_on, imports. destruct (x.2); congruence. Qed.
Lemma acts_spare c o L : acts_on (c, o) <> None -> u128 (l_st_total L + st_brought (c, o)) -> spare c L o.
Proof.
  unfold acts_on, spare, st_brought. cbn [fst snd]. destruct o; try (intros; exact I).
  - intros _ H. destruct ok; [exact I|exact H].
  - destruct (after_prefix "for-claims:" msg); [congruence|intros; exact I].
Qed.

(** one call *)
Lemma step1 tr c o l : fit tr ((c, o) :: l) ->
  (enabled c (observe (run s0 tr)) o /\ exists s', exec c (run s0 tr) o = Ok (s', pays c (observe (run s0 tr)) o) /\
     same (observe s') (next c (observe (run s0 tr)) o)) \/
  (~ enabled c (observe (run s0 tr)) o /\ exists m, exec c (run s0 tr) o = Panic m).
Proof.
  intros F. pose proof (f_cf _ _ F) as Hc. pose proof (f_nz _ _ F) as Hz. pose proof (f_no _ _ F) as Hn. inversion Hn as [|? ? Hn1 _]; subst.
  pose proof (f_ac _ _ F) as Ha. inversion Ha as [|? ? Ha1 _]; subst. cbn [snd] in Hn1.
  assert (Hin : forall x, In x (tr ++ [(c, o)]) -> In x (tr ++ (c, o) :: l)).
  { intros x. rewrite !in_app_iff. cbn. tauto. }
  assert (HK : (exists s' e, exec c (run s0 tr) o = Ok (s', e)) <-> enabled c (observe (run s0 tr)) o).
  { apply (c77 a s0 tr c o H0); [eapply cf_sub; [exact Hin|exact Hc]|eapply nz_sub; [exact Hin|exact Hz]|exact Hn1| |apply acts_imports; exact Ha1| |].
    - eapply N.le_lt_trans; [|exact (f_len _ _ F)]. apply N.le_add_r.
    - pose proof (f_mp _ _ F) as HB. rewrite sum_by_cons in HB. eapply N.le_lt_trans; [|exact HB]. apply N.mul_le_mono_l.
      pose proof (received_le (run s0 tr) (c, o)). lia.
    - apply acts_spare; [exact Ha1|]. pose proof (f_st _ _ F) as HB. rewrite sum_by_cons in HB.
      change (ci_uncl_st (get_contract_info (run s0 tr))) with (l_st_total (observe (run s0 tr))) in HB. unfold u128. lia. }
  destruct (c72 a s0 tr c o H0 (cf_sub _ _ Hin Hc) (nz_sub _ _ Hin Hz) Hn1) as [HS _].
  destruct (exec c (run s0 tr) o) as [[s' e]|m] eqn:E.
  - left. destruct (HS _ _ eq_refl) as (He & Hb & ->). split; [exact He|]. exists s'. split; [reflexivity|].
    destruct o; try exact Hb. exfalso. apply Ha1. reflexivity.
  - right. split; [|eauto]. intros He. apply HK in He as (? & ? & He). discriminate He.
Qed.

Lemma fit_next tr x l : fit tr (x :: l) -> fit (tr ++ [x]) l.
Proof.
  intros F. destruct F as [Fc Fz Fn Fl Fm Fs Fa]. inversion Fn as [|? ? Fn1 Fn2]; subst. inversion Fa as [|? ? Fa1 Fa2]; subst.
  assert (Ht : (tr ++ [x]) ++ l = tr ++ x :: l) by (rewrite <- app_assoc; reflexivity).
  assert (HB : mp_owed (run s0 (tr ++ [x])) <= mp_owed (run s0 tr) + mp_brought x /\
               ci_uncl_st (get_contract_info (run s0 (tr ++ [x]))) <= ci_uncl_st (get_contract_info (run s0 tr)) + st_brought x).
  { rewrite run_snoc. unfold step. destruct (exec x.1 (run s0 tr) x.2) as [[s' e]|] eqn:E; [|lia]. split.
    - pose proof (c05 x _ _ _ (voter_ids_nodup a s0 tr H0) E (acts_imports _ Fa1)). pose proof (received_le (run s0 tr) x). lia.
    - assert (HC : CIs (run s0 tr)) by (apply CIs_run; eapply CIs_init; exact H0).
      pose proof (c05_st _ x _ _ HC E) as H.
      assert (Hr : st_received (run s0 tr) x <= st_brought x); [|lia].
      destruct (st_received_le (run s0 tr) x Fa1) as [Hr|(sender & n & msg & Hx)]; [exact Hr|].
      destruct x as [c o]. cbn [fst snd] in *. subst o. pose proof E as E'. apply ft_cases in E' as (_ & _ & [(l0 & Hl & _)|(_ & Hp & _)]).
      + exfalso. apply Fa1. unfold acts_on, claims_list in *. cbn [fst snd] in *.
        destruct (after_prefix "for-claims:" msg); [reflexivity|discriminate Hl].
      + unfold st_received. cbn [fst snd]. rewrite decide_True by exact Hp. lia. }
  destruct HB as [HB1 HB2]. rewrite sum_by_cons in Fm, Fs. split; try assumption; try (rewrite Ht; assumption).
  - rewrite app_length. cbn [length] in *. lia.
  - eapply N.le_lt_trans; [|exact Fm]. apply N.mul_le_mono_l. lia.
  - lia.
Qed.

(** the same history without a call *)
Lemma fit_skip tr x l : fit tr (x :: l) -> fit tr l.
Proof.
  intros [Fc Fz Fn Fl Fm Fs Fa]. inversion Fn; subst. inversion Fa; subst. rewrite sum_by_cons in Fm, Fs.
  assert (Hin : forall y, In y (tr ++ l) -> In y (tr ++ x :: l)) by (intros y; rewrite !in_app_iff; cbn; tauto).
  split; try assumption; [eapply cf_sub; eauto|eapply nz_sub; eauto| | |lia].
  - cbn [length] in Fl. lia.
  - eapply N.le_lt_trans; [|exact Fm]. apply N.mul_le_mono_l. lia.
Qed.
Lemma mine_sum (f : call -> N) w l : sum_by f (mine w l) <= sum_by f l.
Proof.
  induction l as [|x l IH]; [reflexivity|]. unfold mine in *. cbn [List.filter]. rewrite (sum_by_cons f x l).
  destruct (bool_decide _); [rewrite sum_by_cons|]; lia.
Qed.
Lemma mine_in w l x : In x (mine w l) -> In x l.
Proof. intros H. apply List.filter_In in H. apply H. Qed.
Lemma mine_length w l : (length (mine w l) <= length l)%nat.
Proof. unfold mine. induction l as [|x l IH]; cbn [List.filter length]; [lia|]. destruct (bool_decide _); cbn [length]; lia. Qed.
Lemma fit_mine w tr l : fit tr l -> fit tr (mine w l).
Proof.
  intros [Fc Fz Fn Fl Fm Fs Fa].
  assert (Hin : forall y, In y (tr ++ mine w l) -> In y (tr ++ l)).
  { intros y. rewrite !in_app_iff. intros [H|H]; [auto|right; eapply mine_in; exact H]. }
  split; [eapply cf_sub; eauto|eapply nz_sub; eauto| | | | |].
  - apply List.Forall_forall. intros x Hx. apply (proj1 (List.Forall_forall _ _) Fn). eapply mine_in; exact Hx.
  - pose proof (mine_length w l). lia.
  - eapply N.le_lt_trans; [|exact Fm]. apply N.mul_le_mono_l. pose proof (mine_sum mp_brought w l). lia.
  - pose proof (mine_sum st_brought w l). lia.
  - apply List.Forall_forall. intros x Hx. apply (proj1 (List.Forall_forall _ _) Fa). eapply mine_in; exact Hx.
Qed.

(** a call of another account *)
Lemma step_aside tr x l v : fit tr (x :: l) -> acts_on x = Some v -> aside v (observe (run s0 tr)) (observe (run s0 (tr ++ [x]))).
Proof.
  intros F Hx. rewrite run_snoc. destruct x as [c o]. unfold step. cbn [fst snd].
  destruct (step1 _ _ _ _ F) as [[_ (s' & E & Hs)]|[_ [m E]]]; rewrite E; [|apply fr_refl].
  pose proof (aside_next c o v (observe (run s0 tr)) Hx) as Hf. apply same_sym in Hs. eapply fr_trans; [exact Hf|].
  split; [apply same_rest; exact Hs|]. intros w _. destruct (same_agree w _ _ Hs) as (_ & H & _). exact H.
Qed.
Lemma aside_agree v w L M : aside v L M -> w <> v -> agree w L M.
Proof. intros [(H1 & H2 & _) H] Hw. split; [exact H1|]. split; [apply H; exact Hw|exact H2]. Qed.

(** a call of the account itself, after two histories that left it the same *)
Lemma step_local w tr tr' x l l' : fit tr (x :: l) -> fit tr' (x :: l') -> acts_on x = Some w ->
  agree w (observe (run s0 tr)) (observe (run s0 tr')) ->
  agree w (observe (run s0 (tr ++ [x]))) (observe (run s0 (tr' ++ [x]))) /\
  (match exec x.1 (run s0 tr) x.2 with Ok (_, e) => Some e | Panic _ => None end) =
  (match exec x.1 (run s0 tr') x.2 with Ok (_, e) => Some e | Panic _ => None end).
Proof.
  intros F F' Hx Ha. rewrite !run_snoc. destruct x as [c o]. unfold step. cbn [fst snd].
  destruct (step1 _ _ _ _ F) as [[He (s' & E & Hs)]|[He [m E]]]; destruct (step1 _ _ _ _ F') as [[He' (s2' & E' & Hs')]|[He' [m' E']]]; rewrite E, E'.
  - split; [|rewrite (local_pays _ _ _ _ _ Hx Ha); reflexivity].
    eapply agree_trans; [apply same_agree; exact Hs|]. eapply agree_trans; [apply local_next; [exact Hx|exact Ha]|].
    apply agree_sym, same_agree. exact Hs'.
  - exfalso. apply He'. exact (local_enabled _ _ _ _ _ Hx Ha He).
  - exfalso. apply He. exact (local_enabled _ _ _ _ _ Hx (agree_sym _ _ _ Ha) He').
  - split; [exact Ha|reflexivity].
Qed.

Lemma replies_cons w tr x l : replies w (run s0 tr) (x :: l) =
  (if decide (acts_on x = Some w) then [match exec x.1 (run s0 tr) x.2 with Ok (_, e) => Some e | Panic _ => None end] else []) ++
  replies w (run s0 (tr ++ [x])) l.
Proof.
  rewrite run_snoc. cbn [replies]. unfold step. destruct (decide _); destruct (exec x.1 (run s0 tr) x.2) as [[? ?]|]; reflexivity.
Qed.

Lemma private_gen w l : forall tr tr', fit tr l -> fit tr' (mine w l) -> agree w (observe (run s0 tr)) (observe (run s0 tr')) ->
  agree w (observe (run s0 (tr ++ l))) (observe (run s0 (tr' ++ mine w l))) /\
  replies w (run s0 tr) l = replies w (run s0 tr') (mine w l).
Proof.
  induction l as [|x l IH]; intros tr tr' F F' Ha; [rewrite !app_nil_r; split; [exact Ha|reflexivity]|].
  pose proof (f_ac _ _ F) as Hac. inversion Hac as [|? ? Hx _]; subst. destruct (acts_on x) as [v|] eqn:Ex; [|congruence].
  unfold mine in F' |- *. cbn [List.filter] in F' |- *. rewrite (replies_cons w tr x l).
  destruct (decide (v = w)) as [->|Hne].
  - rewrite bool_decide_true in F' |- * by exact Ex. rewrite (replies_cons w tr' x). rewrite !decide_True by exact Ex.
    destruct (step_local w tr tr' x _ _ F F' Ex Ha) as [Ha' He]. rewrite He.
    destruct (IH (tr ++ [x]) (tr' ++ [x]) (fit_next _ _ _ F) (fit_next _ _ _ F') Ha') as [H1 H2]. rewrite <- !app_assoc in H1. cbn [app] in H1.
    split; [exact H1|]. rewrite H2. reflexivity.
  - rewrite bool_decide_false in F' |- * by congruence. rewrite decide_False by congruence.
    pose proof (aside_agree v w _ _ (step_aside _ _ _ _ F Ex) (not_eq_sym Hne)) as Hf.
    destruct (IH (tr ++ [x]) tr' (fit_next _ _ _ F) F' (agree_trans _ _ _ _ (agree_sym _ _ _ Hf) Ha)) as [H1 H2].
    rewrite <- app_assoc in H1. split; [exact H1|exact H2].
Qed.

Lemma rest_run l : forall tr, fit tr l -> rest (observe (run s0 tr)) (observe (run s0 (tr ++ l))).
Proof.
  induction l as [|x l IH]; intros tr F; [rewrite app_nil_r; apply rest_refl|].
  pose proof (f_ac _ _ F) as Hac. inversion Hac as [|? ? Hx _]; subst. destruct (acts_on x) as [v|] eqn:Ex; [|congruence].
  destruct (step_aside _ _ _ _ F Ex) as [H _]. eapply rest_trans; [exact H|]. pose proof (IH _ (fit_next _ _ _ F)) as H1.
  rewrite <- app_assoc in H1. exact H1.
Qed.

(** ** Totals are determined by the accounts *)
Lemma sum_perm {A} (f : A -> N) l l' : Permutation l l' -> sum_by f l = sum_by f l'.
Proof. induction 1; rewrite ?sum_by_cons; try reflexivity; try lia. Qed.

Lemma CI_total m t m' t' : CI m t -> CI m' t' -> (forall b, clm m b = clm m' b) -> t = t'.
Proof.
  intros C C' H. rewrite (ci_sum _ _ C), (ci_sum _ _ C'). unfold om_sum. apply sum_perm. apply NoDup_Permutation.
  - eapply NoDup_fmap_1, C.
  - eapply NoDup_fmap_1, C'.
  - intros [b n]. rewrite !elem_of_list_In, (CI_list _ _ _ _ C), (CI_list _ _ _ _ C'), H. reflexivity.
Qed.

Lemma totals tr tr' : collision_free tr -> no_zero_votes tr -> collision_free tr' -> no_zero_votes tr' ->
  rest (observe (run s0 tr)) (observe (run s0 tr')) ->
  (forall w, same_account w (observe (run s0 tr)) (observe (run s0 tr'))) -> same (observe (run s0 tr)) (observe (run s0 tr')).
Proof.
  intros Hc Hz Hc' Hz' (R1 & R2 & R3 & R4 & R5 & R6) Ha.
  assert (HP : Permutation (voter_ids (run s0 tr)) (voter_ids (run s0 tr'))).
  { apply NoDup_Permutation; [apply (voter_ids_nodup a); exact H0..|]. intros w. rewrite !reg_same. destruct (Ha w) as [(E & _) _]. rewrite E. reflexivity. }
  assert (HV : l_power (observe (run s0 tr)) = l_power (observe (run s0 tr'))).
  { change (get_total_voting_power (run s0 tr) = get_total_voting_power (run s0 tr')).
    rewrite (inv_total _ _ _ (inv_run a s0 tr H0 Hc)), (inv_total _ _ _ (inv_run a s0 tr' H0 Hc')). rewrite (sum_perm _ _ _ HP). apply sum_by_ext. intros w _.
    destruct (Ha w) as [(_ & _ & _ & E1 & E2 & _) _]. cbn [observe l_acct] in E1, E2. unfold acct_of in E1, E2. cbn [a_free a_used] in E1, E2. congruence. }
  assert (HT : forall x y, l_tally (observe (run s0 tr)) x y = l_tally (observe (run s0 tr')) x y).
  { intros x y. change (get_total_votes (run s0 tr) x y = get_total_votes (run s0 tr') x y).
    pose proof (sinv_run_app a s0 tr [] H0) as S. rewrite app_nil_r in S. pose proof (sinv_run_app a s0 tr' [] H0) as S'. rewrite app_nil_r in S'.
    destruct (tallies_of_sinv _ _ (S Hc Hz) x y) as [_ E]. destruct (tallies_of_sinv _ _ (S' Hc' Hz') x y) as [_ E']. rewrite E, E', (sum_perm _ _ _ HP).
    apply sum_by_ext. intros w _. destruct (Ha w) as [(_ & _ & _ & _ & _ & E3) _]. apply E3. }
  assert (C : CIs (run s0 tr)) by (apply CIs_run; eapply CIs_init; exact H0).
  assert (C' : CIs (run s0 tr')) by (apply CIs_run; eapply CIs_init; exact H0).
  apply same_of; auto.
  - intros w. apply Ha.
  - unfold nums.
    assert (l_mp_total (observe (run s0 tr)) = l_mp_total (observe (run s0 tr'))) as ->.
    { change (uncl_mp (run s0 tr) = uncl_mp (run s0 tr')). eapply CI_total; [apply C|apply C'|]. intros b. destruct (Ha b) as (_ & E & _). exact E. }
    assert (l_st_total (observe (run s0 tr)) = l_st_total (observe (run s0 tr'))) as ->.
    { change (uncl_st (run s0 tr) = uncl_st (run s0 tr')). eapply CI_total; [apply C|apply C'|]. intros b. destruct (Ha b) as (_ & _ & E & _). exact E. }
    congruence.
  - intros w. apply Ha.
  - intros w. apply Ha.
  - intros w. apply Ha.
Qed.
End Priv.

(** ** The theorems *)
Lemma c79_private a s0 tr l w :
  mv_new a = Ok s0 -> collision_free (tr ++ l) -> no_zero_votes (tr ++ l) -> List.Forall (fun x => named_once x.2) l ->
  N.of_nat (length tr) + N.of_nat (length l) < 2 ^ 64 -> List.Forall (fun x => acts_on x <> None) l ->
  60 * 10 ^ 18 * (mp_owed (run s0 tr) + sum_by mp_brought l) < 2 ^ 128 ->
  ci_uncl_st (get_contract_info (run s0 tr)) + sum_by st_brought l < 2 ^ 128 ->
  let s := run s0 tr in
  same_account w (observe (run s l)) (observe (run s (mine w l))) /\ replies w s l = replies w s (mine w l).
Proof.
  intros H0 Hc Hz Hn Hl Ha Hm Hs s. assert (F : fit s0 tr l) by (split; assumption).
  destruct (private_gen a s0 H0 w l tr tr F (fit_mine s0 w _ _ F) (agree_refl _ _)) as [H1 H2]. rewrite !run_app in H1.
  split; [apply H1|exact H2].
Qed.

(** the histories [l] and [l'] hold the same calls of every account, in the same order: they are rearrangements of each other *)
Lemma mine_perm l : forall l', List.Forall (fun x => acts_on x <> None) l -> List.Forall (fun x => acts_on x <> None) l' ->
  (forall w, mine w l = mine w l') -> Permutation l l'.
Proof.
  induction l as [|x l IH]; intros l' Hl Hl' H.
  - destruct l' as [|y l']; [constructor|]. exfalso. inversion Hl' as [|? ? Hy _]; subst. destruct (acts_on y) as [v|] eqn:E; [|congruence].
    specialize (H v). unfold mine in H. cbn [List.filter] in H. rewrite bool_decide_true in H by exact E. discriminate H.
  - inversion Hl as [|? ? Hx Hl1]; subst. destruct (acts_on x) as [v|] eqn:E; [|congruence].
    assert (Hin : exists p q, l' = p ++ x :: q /\ mine v p = []).
    { pose proof (H v) as Hv. unfold mine in Hv. cbn [List.filter] in Hv. rewrite bool_decide_true in Hv by exact E. fold (mine v l) in Hv.
      clear - Hv. revert Hv. generalize (mine v l). clear l. induction l' as [|y l' IH]; intros r Hv; [discriminate Hv|].
      cbn [List.filter] in Hv. destruct (bool_decide (acts_on y = Some v)) eqn:Ey.
      - injection Hv as -> _. exists [], l'. auto.
      - destruct (IH _ Hv) as (p & q & -> & Hp). exists (y :: p), q. split; [reflexivity|]. unfold mine. cbn [List.filter]. rewrite Ey. exact Hp. }
    destruct Hin as (p & q & -> & Hp). apply Permutation_cons_app, IH; [exact Hl1| |].
    + apply List.Forall_app in Hl' as [Hp' Hq']. inversion Hq'; subst. apply List.Forall_app. auto.
    + intros w. pose proof (H w) as Hw. unfold mine in Hw, Hp |- *. rewrite !List.filter_app in Hw |- *. cbn [List.filter] in Hw.
      destruct (decide (w = v)) as [->|Hne].
      * rewrite bool_decide_true in Hw by exact E. rewrite Hp in Hw |- *. cbn [app] in Hw |- *. injection Hw as Hw. exact Hw.
      * rewrite bool_decide_false in Hw by congruence. exact Hw.
Qed.

Lemma c79_reorder a s0 tr l l' :
  mv_new a = Ok s0 -> collision_free (tr ++ l) -> no_zero_votes (tr ++ l) -> List.Forall (fun x => named_once x.2) l ->
  N.of_nat (length tr) + N.of_nat (length l) < 2 ^ 64 ->
  List.Forall (fun x => acts_on x <> None) l -> List.Forall (fun x => acts_on x <> None) l' ->
  60 * 10 ^ 18 * (mp_owed (run s0 tr) + sum_by mp_brought l) < 2 ^ 128 ->
  ci_uncl_st (get_contract_info (run s0 tr)) + sum_by st_brought l < 2 ^ 128 ->
  (forall w, mine w l = mine w l') ->
  let s := run s0 tr in
  same (observe (run s l)) (observe (run s l')) /\ forall w, replies w s l = replies w s l'.
Proof.
  intros H0 Hc Hz Hn Hl Ha Ha' Hm Hs HM s. assert (F : fit s0 tr l) by (split; assumption).
  pose proof (mine_perm _ _ Ha Ha' HM) as HP.
  assert (Hin : forall x, In x (tr ++ l') -> In x (tr ++ l)).
  { intros x. rewrite !in_app_iff. intros [H|H]; [auto|right]. eapply Permutation_in; [symmetry; exact HP|exact H]. }
  assert (F' : fit s0 tr l').
  { split; [eapply cf_sub; eauto|eapply nz_sub; eauto| | | | |exact Ha'].
    - apply List.Forall_forall. intros x Hx. apply (proj1 (List.Forall_forall _ _) Hn). eapply Permutation_in; [symmetry; exact HP|exact Hx].
    - rewrite <- (Permutation_length HP). exact Hl.
    - rewrite <- (sum_perm _ _ _ HP). exact Hm.
    - rewrite <- (sum_perm _ _ _ HP). exact Hs. }
  assert (HG : forall w, agree w (observe (run s0 (tr ++ l))) (observe (run s0 (tr ++ l'))) /\ replies w s l = replies w s l').
  { intros w. destruct (private_gen a s0 H0 w l tr tr F (fit_mine s0 w _ _ F) (agree_refl _ _)) as [A1 A2].
    destruct (private_gen a s0 H0 w l' tr tr F' (fit_mine s0 w _ _ F') (agree_refl _ _)) as [B1 B2]. rewrite <- HM in B1, B2.
    split; [eapply agree_trans; [exact A1|apply agree_sym; exact B1]|]. subst s. rewrite A2, B2. reflexivity. }
  split; [|intros w; apply HG]. subst s. rewrite <- !run_app. apply (totals a s0 H0); [exact Hc|exact Hz|exact (f_cf _ _ _ F')|exact (f_nz _ _ _ F')| |].
  - eapply rest_trans; [apply rest_sym, (rest_run a s0 H0 l tr F)|apply (rest_run a s0 H0 l' tr F')].
  - intros w. apply HG.
Qed.
