(** MVLimits.v -- imports need authority, minimum deposits, the list of accounts, EVM addresses (C58-C61). *)

From Verif Require Export MVDeleg MVMoney MVVoteEff MVSpecLimits.

(** ** C58 *)
Lemma import_authority x s s' e :
  exec x.1 s x.2 = Ok (s', e) -> imports x = true ->
  ((exists vid l d, x.2 = MigrationCreateLps vid l d) /\ c_pred x.1 = prev_gov s) \/
  ((exists ext l, x.2 = MirrorLps ext l) /\ c_pred x.1 = operator_id s).
Proof.
  destruct x as [c o]. unfold imports. cbn [fst snd]. intros H Hi. destruct o; try discriminate Hi; cbn [exec] in H;
    apply noeff_Ok in H as [H _].
  - left. split; [eauto|]. unfold migration_create_lps in H. apply bind_Ok in H as (? & _ & H).
    apply bind_Ok in H as (? & H1 & _). apply require_Ok, bool_decide_eq_true in H1. exact H1.
  - right. split; [eauto|]. unfold operator_mirror_lps in H. apply bind_Ok in H as (? & _ & H).
    apply bind_Ok in H as (? & H1 & _). eapply is_operator; exact H1.
Qed.

Lemma c58 a s0 tr x s' e :
  mv_new a = Ok s0 -> exec x.1 (run s0 tr) x.2 = Ok (s', e) ->
  mp_owed s' + mp_sent e <> mp_owed (run s0 tr) + mp_received (run s0 tr) x ->
  ((exists vid l d, x.2 = MigrationCreateLps vid l d) /\ c_pred x.1 = prev_gov (run s0 tr)) \/
  ((exists ext l, x.2 = MirrorLps ext l) /\ c_pred x.1 = operator_id (run s0 tr)).
Proof.
  intros H0 Hx Hne. eapply import_authority; [exact Hx|]. destruct (imports x) eqn:Ei; [reflexivity|].
  exfalso. apply Hne. apply c05; [eapply voter_ids_nodup; exact H0|exact Hx|exact Ei].
Qed.

(** ** C59 *)
Lemma dep1_lamt s v amount days v' d :
  dep1 s v amount days v' -> lamt d (v_lps v') = lamt d (v_lps v) + (if days =? d then amount else 0).
Proof. intros (vp & l' & _ & _ & Hd & _ & ->). cbn [v_lps]. eapply dep_lamt; exact Hd. Qed.
Lemma clears_lamt now v v' d : clears now v v' -> lamt d (v_lps v') <= lamt d (v_lps v).
Proof.
  induction 1 as [|v v1 i p _ IH Hl _ _]; [lia|]. cbn [v_lps]. pose proof (lamt_swap d _ _ _ Hl). lia.
Qed.

Lemma vchg_lamt c s o s' e vid v v' d :
  vchg c s o s' e vid v v' -> exempt_from_minimum (c, o) = false ->
  lamt d (v_lps v) < lamt d (v_lps v') -> lamt d (v_lps v) + min_deposit s <= lamt d (v_lps v').
Proof.
  unfold exempt_from_minimum. cbn [snd].
  destruct 1; intros Ho Hlt; cbn [v_lps] in *; try discriminate Ho;
    try (match goal with H : dep1 _ _ _ _ _ |- _ => rewrite (dep1_lamt _ _ _ _ _ d H) in Hlt |- *; cbn [v_lps] in *;
           clear H end).
  - destruct (days =? d); lia.
  - destruct (days =? d); lia.
  - exfalso. match goal with H : v_lps v !! i = Some p |- _ =>
      pose proof (lamt_insert d _ _ _ (mkLpos (lp_amount p) (lp_days p) (lp_vp p) (Some (now_ms c))) H) as E end.
    unfold is_locked in E at 2. cbn [lp_days lp_amount lp_unl andb] in E. lia.
  - exfalso. match goal with H : v_lps v !! i = Some p |- _ =>
      pose proof (lamt_insert d _ _ _ (mkLpos (lp_amount p - amount) (lp_days p) (lp_vp p - vp) (lp_unl p)) H) as E end.
    rewrite lamt_app in Hlt. unfold is_locked in Hlt at 1. unfold is_locked in E. cbn [lp_days lp_amount lp_unl andb] in E, Hlt.
    destruct (lp_unl p); cbn [andb] in E; [lia|]. destruct (lp_days p =? d); lia.
  - match goal with H : v_lps v !! i = Some p, Hu : lp_unl p = Some _ |- _ =>
      pose proof (lamt_insert d _ _ _ (mkLpos (lp_amount p - afp) (lp_days p) nvp (lp_unl p)) H) as E;
      unfold is_locked in E; cbn [lp_days lp_amount lp_unl] in E; rewrite Hu in E end.
    cbn [andb] in E. cbn [lp_unl] in *. destruct (days =? d); [|rewrite ?H1 in Hlt; lia].
    rewrite ?H1. lia.
  - match goal with H : v_lps v !! i = Some p, Hu : lp_unl p = Some _ |- _ =>
      pose proof (lamt_swap d _ _ _ H) as E; unfold is_locked in E; rewrite Hu in E end.
    cbn [andb] in E. destruct (days =? d); lia.
  - destruct (days =? d); lia.
  - exfalso. match goal with H : clears _ _ _ |- _ => apply (clears_lamt _ _ _ d) in H end. lia.
  - exfalso. match goal with H : clears _ _ _ |- _ => apply (clears_lamt _ _ _ d) in H end. lia.
  - lia.
  - exfalso. match goal with H : same_lps _ _ |- _ => destruct H as [_ E]; rewrite E in Hlt end. lia.
Qed.

Lemma min_deposit_run a s0 tr : mv_new a = Ok s0 -> min_deposit (run s0 tr) = i_min_deposit a.
Proof.
  intros H0. pose proof (run_consts s0 tr) as E. unfold consts in E. injection E as _ E _ _ _. rewrite E.
  unfold mv_new in H0. apply bind_Ok in H0 as (? & _ & H0). apply bind_Ok in H0 as (? & _ & H0). injection H0 as <-. reflexivity.
Qed.

Lemma c59_growth a s0 tr x s' e vid d :
  mv_new a = Ok s0 -> exec x.1 (run s0 tr) x.2 = Ok (s', e) -> exempt_from_minimum x = false ->
  locked_amount_at (run s0 tr) vid d < locked_amount_at s' vid d ->
  locked_amount_at (run s0 tr) vid d + i_min_deposit a <= locked_amount_at s' vid d.
Proof.
  intros H0 Hx Ho. rewrite !locked_amount_at_eq. pose proof (nodup_run a s0 tr H0) as Hnd.
  assert (Em : i_min_deposit a = min_deposit (run s0 tr)) by (symmetry; eapply min_deposit_run; exact H0).
  rewrite Em. clear Em. destruct x as [c o]. cbn [fst snd] in *.
  revert Hnd Hx. generalize (run s0 tr) as s. intros s Hnd Hx Hlt.
  apply exec_cases in Hx as [_ [(E & _)|(w & v' & Hst & Hch)]].
  { unfold get_voter in Hlt. rewrite E in Hlt. lia. }
  destruct (store_get _ _ _ _ vid Hnd Hst) as (_ & _ & Hne & Hw).
  destruct (decide (vid = w)) as [->|Hvw]; [|rewrite (Hne Hvw) in Hlt; lia].
  destruct Hw as [E|(E & _)]; rewrite E in Hlt |- *; [|change (lamt d (v_lps (new_voter w))) with 0 in Hlt; lia].
  eapply vchg_lamt; eauto.
Qed.

Lemma c59_partial_unlock a s0 tr x s' e i amount :
  mv_new a = Ok s0 -> exec x.1 (run s0 tr) x.2 = Ok (s', e) -> x.2 = UnlockPartial i amount ->
  exists j, get_locking_position (now_ms x.1) (run s0 tr) i (c_pred x.1) = Some j /\ (amount = j_amount j \/
     i_min_deposit a + amount <= j_amount j /\ 1000000 <= amount /\ 1000000 + amount <= j_amount j).
Proof.
  intros H0 Hx Ho. pose proof (min_deposit_run _ _ tr H0) as Em. destruct x as [c o]. cbn [fst snd] in *. subst o.
  apply exec_cases in Hx as [_ [K|(w & v' & Hst & Hch)]].
  { destruct K as (_ & _ & _ & _ & _ & _ & _ & []). }
  assert (Hj : forall p, v_lps (get_voter (run s0 tr) (c_pred c)) !! i = Some p ->
    get_locking_position (now_ms c) (run s0 tr) i (c_pred c) = Some (lp_to_json (now_ms c) i p)).
  { intros p Hp. unfold get_locking_position. rewrite Hp. reflexivity. }
  inversion Hch as [ | | |o i0 p s1 v Hv Hl Ho _ _| i0 am p vp s1 v Hv Hl Hlt Hm Ha Hb _ _ _ _ _| | | | | | 
    |o total s1 v v1 _ Ho| |o s1 vid v v1 _ Ho|]; subst.
  - destruct Ho as [Ho|Ho]; [discriminate Ho|]. injection Ho as -> ->. exists (lp_to_json (now_ms c) i0 p).
    split; [apply Hj; exact Hl|]. left. reflexivity.
  - exists (lp_to_json (now_ms c) i p). split; [apply Hj; exact Hl|]. right.
    change (j_amount (lp_to_json (now_ms c) i p)) with (lp_amount p). unfold ONE_MPDAO in *. lia.
  - exfalso. destruct Ho as [(? & ? & Ho)|Ho]; discriminate Ho.
  - exfalso. destruct Ho as [(_ & [(? & ? & ? & Ho)|[(? & ? & ? & Ho)|(? & ? & Ho)]])|(? & _ & [(? & ? & ? & Ho)|(? & ? & Ho)])];
      discriminate Ho.
Qed.

(** no empty positions *)
Definition apos (v : voter) : Prop := Forall (fun p => 0 < lp_amount p) (v_lps v).
Lemma dep1_apos s v amount days v' : dep1 s v amount days v' -> 0 < amount -> apos v -> apos v'.
Proof.
  unfold apos. intros (vp & l' & Hv & _ & Hd & _ & ->) Hp Ha. cbn.
  destruct Hd as [(i & p & Hl & Hdays & Hun & _ & _ & ->)|(_ & _ & ->)].
  - apply Forall_insert; [exact Ha|]. cbn. lia.
  - apply Forall_app. split; [exact Ha|]. constructor; [exact Hp|constructor].
Qed.
Lemma deps_apos s v l v' : deps s v l v' -> Forall (fun lp => E18 <= lp.1) l -> apos v -> apos v'.
Proof.
  induction 1 as [|v v1 v' lp l Hd _ IH]; [auto|]. intros Hl Ha. inversion Hl as [|? ? H1 H2]; subst.
  apply IH; [exact H2|]. eapply dep1_apos; [exact Hd| |exact Ha].
  apply N.div_str_pos. split; [reflexivity|exact H1].
Qed.
Lemma clears_apos now v v' : clears now v v' -> apos v -> apos v'.
Proof. unfold apos. induction 1; [auto|]. intros Ha. cbn. apply Forall_swap_remove. auto. Qed.
Lemma zip_apos l : forall vps, length vps = length l -> Forall (fun lp : N * N => 0 < lp.2) l ->
  Forall (fun p => 0 < lp_amount p) (zip_with (fun lp vp => mkLpos lp.2 lp.1 vp None) l vps).
Proof.
  induction l as [|lp l IH]; intros [|vp vps] Hl Ha; try discriminate Hl; [constructor|].
  inversion Ha; subst. cbn [zip_with]. constructor; [assumption|]. apply IH; [injection Hl as Hl; exact Hl|assumption].
Qed.

Lemma vchg_apos c s o s' e vid v v' :
  vchg c s o s' e vid v v' -> 0 < min_deposit s -> imports_positive (c, o) -> apos v -> apos v'.
Proof.
  unfold imports_positive. cbn [snd].
  destruct 1; intros Hmin Hi Ha;
    try (match goal with H : v_lps v !! _ = Some ?q |- _ =>
      assert (Hp : 0 < lp_amount q) by (eapply (Forall_lookup_1 _ _ _ _ Ha); exact H) end).
  - eapply dep1_apos; [eassumption|lia|exact Ha].
  - eapply dep1_apos; [eassumption|lia|exact Ha].
  - eapply deps_apos; eauto.
  - apply Forall_insert; [exact Ha|]. exact Hp.
  - apply Forall_app. unfold ONE_MPDAO in *. split; [apply Forall_insert; [exact Ha|]; cbn; lia|].
    constructor; [cbn; lia|constructor].
  - apply Forall_insert; [exact Ha|]. exact Hp.
  - eapply dep1_apos; [eassumption|lia|]. apply Forall_swap_remove. exact Ha.
  - eapply dep1_apos; [eassumption|lia|]. apply Forall_insert; [exact Ha|]. cbn. lia.
  - eapply dep1_apos; [eassumption|lia|]. apply Forall_swap_remove. exact Ha.
  - eapply dep1_apos; [eassumption|lia|]. exact Ha.
  - eapply clears_apos; eauto.
  - eapply (clears_apos _ v v1); eauto.
  - exact Ha.
  - unfold apos. match goal with H : same_lps _ _ |- _ => destruct H as [_ ->] end. exact Ha.
  - unfold apos. match goal with H : v_lps v' = _ |- _ => rewrite H end. apply zip_apos; assumption.
Qed.

Lemma c59_no_empty a s0 tr :
  mv_new a = Ok s0 -> 0 < i_min_deposit a -> Forall imports_positive tr -> no_empty_position (run s0 tr).
Proof.
  intros H0 Hm Hi now vid j Hj.
  destruct (allv_run apos a s0 tr) as [_ H]; [intros w; constructor| |exact H0|].
  - intros c s o s' e w v' Hin Hc Hch Ha. eapply vchg_apos; [exact Hch| |exact (proj1 (List.Forall_forall _ _) Hi _ Hin)|exact Ha].
    unfold consts in Hc. injection Hc as _ E _ _ _. rewrite E. pose proof (min_deposit_run a s0 [] H0) as E2.
    change (run s0 []) with s0 in E2. rewrite E2. exact Hm.
  - unfold get_all_locking_positions in Hj. apply elem_of_list_In in Hj. apply elem_of_lookup_imap in Hj as (i & p & -> & Hl).
    exact (Forall_lookup_1 _ _ _ _ (H vid) Hl).
Qed.

(** ** C60 *)
Lemma in_ids s w : In w (voter_ids s) <-> is_Some (om_get (voters s) w).
Proof.
  unfold voter_ids. rewrite <- elem_of_list_In. split.
  - intros H. destruct (om_get (voters s) w) as [v|] eqn:E; [eauto|]. apply om_get_None in E. contradiction.
  - intros [v H]. eapply om_get_Some_key; exact H.
Qed.
Lemma holdings_eq s w : holdings s w = vowe (get_voter s w).
Proof. unfold holdings. rewrite positions_amount_eq. reflexivity. Qed.

Lemma c60_step x s s' e :
  NoDup (voter_ids s) -> exec x.1 s x.2 = Ok (s', e) ->
  (forall w, In w (voter_ids s) -> ~ In w (voter_ids s') ->
     w = c_pred x.1 /\ is_withdrawal x = true /\ e = [PayMp w (holdings s w)]) /\
  (forall w, ~ In w (voter_ids s) -> In w (voter_ids s') -> w = call_target x /\ can_register x = true) /\
  (is_withdrawal x = true ->
     In (c_pred x.1) (voter_ids s) /\
     (In (c_pred x.1) (voter_ids s') <->
      0 < raw_balance s' (c_pred x.1) \/ get_all_locking_positions 0 s' (c_pred x.1) <> [])).
Proof.
  destruct x as [c o]. cbn [fst snd]. intros Hn H. pose proof (exec_cases_by _ _ _ _ _ H) as [_ K].
  split; [|split].
  - intros w Hi Ho. destruct K as [(E & _)|(vid & v' & Hst & Hch)].
    { exfalso. apply Ho. unfold voter_ids. rewrite E. exact Hi. }
    destruct Hst as [E|[(E & Eb & El & _ & _) Hw]].
    { exfalso. apply Ho. rewrite in_ids in Hi |- *. rewrite E. destruct (decide (w = vid)) as [->|Hne].
      - rewrite om_get_set_eq. eauto.
      - rewrite om_get_set_ne by congruence. exact Hi. }
    assert (w = vid) as ->.
    { destruct (decide (w = vid)) as [|Hne]; [assumption|]. exfalso. apply Ho. rewrite in_ids in Hi |- *. rewrite E.
      rewrite om_get_remove_ne by (exact Hn || congruence). exact Hi. }
    inversion Hch as [ | | | | | | | | | | |? total ? ? v1 Hv Hop _ Hcl Hp Hle _| |o1 s1 vid1 ? ? _ Ho1|]; subst; try discriminate Hw.
    + exfalso. match goal with H : _ = Unlock _ \/ _ = UnlockPartial _ _ |- _ => destruct H as [-> | ->] end; discriminate Hw.
    + split; [reflexivity|]. split; [exact Hw|]. rewrite holdings_eq. apply clears_owe in Hcl. rewrite <- Hcl.
      cbn [v_bal v_lps] in Eb, El. unfold vowe. rewrite El. change (sum_by lp_amount []) with 0. do 2 f_equal. lia.
    + exfalso. destruct Ho1 as [(_ & [(? & ? & ? & ->)|[(? & ? & ? & ->)|(? & ? & ->)]])|(? & _ & [(? & ? & ? & ->)|(? & ? & ->)])];
        discriminate Hw.
  - intros w Ho Hi. destruct K as [(E & _)|(vid & v' & Hst & Hch)].
    { exfalso. apply Ho. unfold voter_ids. rewrite <- E. exact Hi. }
    assert (w = vid) as ->.
    { destruct (decide (w = vid)) as [|Hne]; [assumption|]. exfalso. apply Ho. rewrite in_ids in Hi |- *.
      destruct Hst as [E|[(E & _) _]]; rewrite E in Hi;
        [rewrite om_get_set_ne in Hi by congruence|rewrite om_get_remove_ne in Hi by (exact Hn || congruence)]; exact Hi. }
    rewrite in_ids in Ho. split; [eapply vchg_target; exact Hch|].
    destruct Hch; try reflexivity; exfalso; apply Ho; eauto.
  - intros Hw.
    assert (Hsh : exists l amt, internal_withdraw c s (c_pred c) l amt = Ok (s', e)).
    { destruct o; try discriminate Hw; cbn [exec] in H; unfold withdraw, withdraw_all in H.
      - eauto.
      - apply bind_Ok in H as (v & _ & H). eauto. }
    destruct Hsh as (l & amt & Hiw).
    apply withdraw_inv in Hiw as (v & v1 & total & Hv & Hc & Hd & _ & _ & Hpos & Hle & _ & Hcase).
    split; [apply in_ids; eauto|]. rewrite in_ids. unfold raw_balance, get_all_locking_positions, get_voter.
    destruct Hcase as [(E1 & E2 & ->)|(Hne & ->)].
    + cbn [voters set]. unfold set. cbn. rewrite om_get_remove_eq by exact Hn. cbn. split.
      * intros [? Hd0]. discriminate Hd0.
      * intros [?|[]]; [lia|reflexivity].
    + unfold save_voter, set. cbn. rewrite om_get_set_eq. cbn. split; [|eauto]. intros _.
      destruct (v_lps v1) as [|p r]; [|right; rewrite imap_cons; discriminate].
      left. destruct Hne as [?|[]]; [lia|reflexivity].
Qed.

(** ** C61 *)
Definition dotless (s : state) : Prop :=
  (forall e, is_Some (evm_pre s !! e) -> str_contains "." e = false) /\
  (forall e, is_Some (evm_sigs s !! e) -> str_contains "." e = false).
Lemma dotless_step c s o s' e : DIs s -> dotless s -> exec c s o = Ok (s', e) -> dotless s'.
Proof.
  intros HD [H1 H2] Hx. pose proof Hx as Hd. apply deleg_cases in Hd; [|exact HD].
  destruct Hd.
  - subst s'. split; [|exact H2]. cbn. intros e1 [z He]. destruct (decide (e1 = e0)) as [->|Hne].
    + cbn [exec] in Hx. apply noeff_Ok in Hx as [Hx _]. unfold pre_delegate_evm_address in Hx.
      apply bind_Ok in Hx as (? & _ & Hx). apply bind_Ok in Hx as (? & Hr & _). apply require_Ok, negb_true_iff in Hr. exact Hr.
    + apply H1. rewrite lookup_insert_ne in He by congruence. eauto.
  - subst s'. split; [|exact H2]. cbn. intros e1 [z He]. apply lookup_delete_Some in He as [_ He]. apply H1. eauto.
  - split; assumption.
  - subst s'. split; [|exact H2]. cbn. intros e1 [z He]. apply lookup_delete_Some in He as [_ He]. apply H1. eauto.
  - split.
    + match goal with E : evm_pre s' = _ |- _ => rewrite E end. intros e1 [z He]. apply lookup_delete_Some in He as [_ He]. apply H1. eauto.
    + match goal with E : evm_sigs s' = _ |- _ => rewrite E end. intros e1 [z He].
      destruct (decide (e1 = e0)) as [->|Hne]; [apply H1; eauto|]. apply H2. rewrite lookup_insert_ne in He by congruence. eauto.
  - match goal with E : s' = _ |- _ => assert (Ep : evm_pre s' = evm_pre s) by (rewrite E; reflexivity) end.
    split; [rewrite Ep; exact H1|]. match goal with E : evm_sigs s' = _ |- _ => rewrite E end.
    intros e1 [z He]. apply lookup_delete_Some in He as [_ He]. apply H2. eauto.
  - unfold delegf in *. match goal with H : (_, _, _) = _ |- _ => injection H as E1 E2 E3 end.
    split; [rewrite E2|rewrite E3]; assumption.
Qed.

Lemma contains_no_dot e : str_contains "." e = false -> ~ occurs "." e.
Proof. intros H Ho. apply str_contains_occurs in Ho. congruence. Qed.

Lemma c61 a s0 tr e :
  mv_new a = Ok s0 ->
  get_pre_delegate (run s0 tr) e <> None \/ get_delegate (run s0 tr) e <> None \/
  (exists n, In e (get_delegating_evm_addresses (run s0 tr) n)) ->
  ~ occurs "." e.
Proof.
  intros H0 He. apply contains_no_dot.
  assert (Hd : DIs (run s0 tr) /\ dotless (run s0 tr)).
  { apply (run_inv (fun s => DIs s /\ dotless s)).
    - split; [eapply DIs_init; exact H0|]. apply init_zero in H0 as (_ & _ & _ & _ & _ & _ & _ & _ & _ & Hp & Hg).
      unfold dotless. rewrite Hp, Hg. split; intros e1 [z Hz]; rewrite lookup_empty in Hz; discriminate.
    - intros x s s' f _ [HD Hdl] Hx. split; [eapply deleg_step_DI; [exact HD|eapply deleg_cases; eauto]|].
      eapply dotless_step; eauto. }
  destruct Hd as [HD [H1 H2]].
  assert (Hs : get_delegate (run s0 tr) e <> None -> is_Some (evm_sigs (run s0 tr) !! e)).
  { unfold get_delegate. destruct (evm_sigs (run s0 tr) !! e); [eauto|]. intros []; reflexivity. }
  destruct He as [He|[He|[n He]]].
  - apply H1. unfold get_pre_delegate in He. destruct (evm_pre (run s0 tr) !! e); [eauto|]. destruct He; reflexivity.
  - apply H2, Hs, He.
  - apply H2, Hs. apply DIs_consistent in HD as [HD _]. apply HD in He. rewrite He. discriminate.
Qed.
