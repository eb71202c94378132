(** MpipLife.v -- the life of proposals: creation, window, content, final states (C41-C45, C47-C52). *)

From Verif Require Import MpipSpec MpipInv.

(** ** Effects of calls and callbacks on the proposals *)
Inductive pcall (c : ctx) (s : mstate) : mop -> N -> mpip -> mpip -> Prop :=
| pc_cancel id p : (m_operator s = c_signer c \/ pr_creator p = c_signer c) ->
    is_active_or_draft (now_ms c) p = true -> pcall c s (CancelProposal id) id p (p <| pr_canceled := true |>)
| pc_update id ct p : pr_creator p = c_signer c ->
    is_active_or_draft (now_ms c) p = true -> pcall c s (UpdateProposal id ct) id p (p <| pr_content := ct |>)
| pc_exec id p : (m_admin s = c_signer c \/ m_operator s = c_signer c) ->
    is_on_voting (now_ms c) p = Ok true -> pr_end p = Some (now_ms c) -> is_quorum_reached s id = Ok true ->
    pcall c s (ProcessVotingStatus id) id p (p <| pr_executed := true |>).

Lemma get_mpip_Ok s id p : get_mpip s id = Ok p <-> om_get (m_proposals s) id = Some p.
Proof.
  unfold get_mpip. split; [apply expect_Ok|]. intros ->. reflexivity.
Qed.

Lemma mcall_props c s o s' out :
  mcall c s o = Ok (s', out) ->
  m_proposers s' = m_proposers s /\
  (m_proposals s' = m_proposals s \/
   exists id p p', om_get (m_proposals s) id = Some p /\ pcall c s o id p p' /\
     m_proposals s' = om_set (m_proposals s) id p').
Proof.
  intros H. destruct o; cbn [mcall] in H;
    try (apply process_inv in H as (_ & Ha & [->|(p & Hp & Hv & He & Hq & ->)]);
         [split; [reflexivity|left; reflexivity]|
          split; [reflexivity|right; exists id, p; eexists; split; [apply get_mpip_Ok; exact Hp|]; split; [constructor; assumption|reflexivity]]]);
    try (apply remove_inv in H as (? & ? & ? & _ & _ & _ & _ & _ & _ & _ & _ & _ & ->);
         split; [reflexivity|left; reflexivity]).
  all: try (unfold update_open, update_operator_role, update_admin_role, pay_to_account, update_meta_vote_address,
      update_voting_period, update_min_meta, update_min_vp, update_storage, update_quorum_floor,
      start_voting_period, create_proposal, vote_proposal in H; rinv; split; [reflexivity|left; reflexivity]).
  - unfold cancel_proposal in H. apply bind_Ok in H as (u1 & _ & H). apply bind_Ok in H as (u2 & Ha & H).
    apply bind_Ok in H as (u3 & Hb & H). apply bind_Ok in H as (p & Hp & H). injection H as <- <-.
    unfold assert_only_operator_or_creator in Ha. rewrite Hp in Ha. cbn [mbind res_bind] in Ha.
    apply require_Ok, orb_true_iff in Ha. rewrite !bool_decide_eq_true in Ha.
    unfold assert_active_or_draft in Hb. rewrite Hp in Hb. cbn [mbind res_bind] in Hb. apply require_Ok in Hb.
    split; [reflexivity|]. right. exists id, p. eexists. split; [apply get_mpip_Ok; exact Hp|]. split; [|reflexivity].
    constructor; assumption.
  - unfold update_proposal in H. apply bind_Ok in H as (u1 & _ & H). apply bind_Ok in H as (u2 & Ha & H).
    apply bind_Ok in H as (u3 & Hb & H). apply bind_Ok in H as (p & Hp & H). injection H as <- <-.
    unfold assert_only_creator in Ha. rewrite Hp in Ha. cbn [mbind res_bind] in Ha.
    apply require_Ok in Ha. rewrite bool_decide_eq_true in Ha.
    unfold assert_active_or_draft in Hb. rewrite Hp in Hb. cbn [mbind res_bind] in Hb. apply require_Ok in Hb.
    split; [reflexivity|]. right. exists id, p. eexists. split; [apply get_mpip_Ok; exact Hp|]. split; [|reflexivity].
    constructor; assumption.
Qed.

Lemma add64_Ok a b r : add64 a b = Ok r -> r = a + b /\ a + b < 2 ^ 64.
Proof.
  unfold add64. destruct (N.ltb_spec (a + b) U64_SIZE) as [H|H]; [|discriminate]. intros E. injection E as <-. auto.
Qed.
Definition started (s : mstate) (now n : N) (p : mpip) : mpip :=
  p <| pr_start := Some now |> <| pr_end := Some (now + m_period s) |> <| pr_draft := false |>
    <| pr_quorum := Some (n * m_floor s / 10000) |>.
Definition next_id (s : mstate) : N := N.of_nat (length (m_proposals s)) mod U32_SIZE.

Inductive pback (c : ctx) (s : mstate) : pkind -> answer -> mstate -> Prop :=
| pb_vote id v vt memo a s' : m_proposals s' = m_proposals s -> m_proposers s' = m_proposers s ->
    pback c s (KVote id v vt memo) a s'
| pb_start id n t p s' : om_get (m_proposals s) id = Some p -> now_ms c + m_period s < 2 ^ 64 -> n < 2 ^ 128 ->
    m_proposals s' = om_set (m_proposals s) id (started s (now_ms c) n p) -> m_proposers s' = m_proposers s ->
    pback c s (KStart id) (ABytes (Some n) t) s'
| pb_create ct t l s' : m_min_vp s <= locked_sum l ->
    m_proposals s' = om_set (m_proposals s) (next_id s) (mkMpip (next_id s) ct (c_signer c) None None true false false None) ->
    m_proposers s' = om_set (m_proposers s) (c_signer c) (get_proposer s (c_signer c) ++ [next_id s]) ->
    pback c s (KCreate ct) (ABytes t (Some l)) s'.

Lemma mcallback_props c s k a s' : mcallback c s k a = Ok s' -> pback c s k a s'.
Proof.
  intros H. destruct k as [id|ct|id v vt memo]; cbn [mcallback] in H.
  - unfold start_callback in H. apply bind_Ok in H as (n & Ht & H). apply bind_Ok in H as (p & Hp & H).
    apply bind_Ok in H as (e & He & H). apply bind_Ok in H as (q & Hq & H). injection H as <-.
    unfold total_from_promise in Ht. destruct a as [|t l]; [discriminate|]. apply bind_Ok in Ht as (n' & Hn & Ht).
    apply expect_Ok in Hn as ->. apply bind_Ok in Ht as (u & Hu & Ht). injection Ht as ->.
    apply require_Ok, N.ltb_lt in Hu.
    apply add64_Ok in He as [-> He]. unfold get_quorum in Hq. apply bind_Ok in Hq as (y & Hy & Hq). injection Hq as <-.
    apply mul128_Ok in Hy as [-> _]. apply get_mpip_Ok in Hp.
    eapply pb_start; [exact Hp|exact He|exact Hu| |reflexivity].
    unfold started. cbn. rewrite N.div_div by discriminate. reflexivity.
  - unfold create_callback in H. apply bind_Ok in H as (vp & Hv & H). apply bind_Ok in H as (u & Hu & H). injection H as <-.
    apply require_Ok in Hu. unfold check_threshold in Hu. apply N.leb_le in Hu.
    apply user_power_spec in Hv as (t & l & -> & -> & _). eapply pb_create; [exact Hu|reflexivity|reflexivity].
  - apply vote_cb_inv in H as (t & l & pv1 & _ & _ & _ & _ & _ & ->). constructor; reflexivity.
Qed.

(** ** One event, one proposal *)
Inductive pevol (w : world) (x : mevent) (id : N) : option mpip -> option mpip -> Prop :=
| pe_same o : pevol w x id o o
| pe_call c o p p' : x = MCall c o -> pcall c (w_m w) o id p p' -> pevol w x id (Some p) (Some p')
| pe_start i ts q n t p : x = MAnswer i ts (ABytes (Some n) t) -> w_pend w !! i = Some q -> pd_kind q = KStart id ->
    ts / 1000000 + m_period (w_m w) < 2 ^ 64 -> n < 2 ^ 128 ->
    pevol w x id (Some p) (Some (started (w_m w) (ts / 1000000) n p))
| pe_create i ts q ct t l o : x = MAnswer i ts (ABytes t (Some l)) -> w_pend w !! i = Some q -> pd_kind q = KCreate ct ->
    m_min_vp (w_m w) <= locked_sum l -> id = next_id (w_m w) ->
    pevol w x id o (Some (mkMpip id ct (pd_signer q) None None true false false None)).

Lemma pcall_id c s o id p p' : pcall c s o id p p' -> pr_id p' = pr_id p /\ pr_creator p' = pr_creator p.
Proof. intros H. destruct H; split; reflexivity. Qed.

Lemma pevol_step w x id :
  pevol w x id (om_get (m_proposals (w_m w)) id) (om_get (m_proposals (w_m (wstep w x))) id).
Proof.
  destruct (wstep_case w x) as [x|c o s' out Hc Ho|c o s' p Hc|i ts a q s' Hi Hc|i ts a q m Hi Hc]; cbn [w_m];
    try apply pe_same.
  1,2: apply mcall_props in Hc as [_ [->|(id' & p0 & p' & Hp & Hpc & ->)]]; [apply pe_same|];
    (destruct (decide (id' = id)) as [->|Hne];
     [rewrite Hp, om_get_set_eq; eapply pe_call; [reflexivity|exact Hpc]|
      rewrite om_get_set_ne by exact Hne; apply pe_same]).
  apply mcallback_props in Hc. remember (pd_kind q) as k eqn:Ek. symmetry in Ek.
  destruct Hc as [id' v vt memo a s' E _|id' n t p s' Hp Hb Hn E _|ct t l s' Hm E _].
  - rewrite E. apply pe_same.
  - rewrite E. destruct (decide (id' = id)) as [->|Hne]; [|rewrite om_get_set_ne by exact Hne; apply pe_same].
    rewrite Hp, om_get_set_eq. eapply pe_start; [reflexivity|exact Hi|exact Ek|exact Hb|exact Hn].
  - rewrite E. destruct (decide (next_id (w_m w) = id)) as [Hx|Hne]; [|rewrite om_get_set_ne by exact Hne; apply pe_same].
    rewrite Hx, om_get_set_eq. eapply pe_create; [reflexivity|exact Hi|exact Ek|exact Hm|symmetry; exact Hx].
Qed.

(** ** Dense ids (C41) *)
Lemma om_set_app {K V} `{EqDecision K} (m : list (K * V)) k v : om_get m k = None -> om_set m k v = m ++ [(k, v)].
Proof.
  induction m as [|[k2 v2] m IH]; [reflexivity|]. cbn. case_decide; [discriminate|]. intros E. rewrite IH by exact E. reflexivity.
Qed.
Lemma om_set_map {K V B} `{EqDecision K} (f : V -> B) (m : list (K * V)) k v v' :
  om_get m k = Some v -> f v' = f v -> map (fun e => f e.2) (om_set m k v') = map (fun e => f e.2) m.
Proof.
  intros Hg E. induction m as [|[k2 v2] m IH]; [discriminate|]. cbn in *. case_decide.
  - injection Hg as ->. cbn. rewrite E. reflexivity.
  - cbn. rewrite IH by exact Hg. reflexivity.
Qed.

Definition idc (p : mpip) : N * string := (pr_id p, pr_creator p).
Definition mine (a : string) (l : list (N * string)) : list N :=
  map fst (List.filter (fun e => bool_decide (e.2 = a)) l).
Definition dense (n : nat) : list N := map N.of_nat (seq 0 n).
Lemma dense_S n : dense (S n) = dense n ++ [N.of_nat n].
Proof. unfold dense. rewrite seq_S, map_app. reflexivity. Qed.
Lemma In_dense n k : In k (dense n) <-> k < N.of_nat n.
Proof.
  unfold dense. rewrite in_map_iff. split.
  - intros (i & <- & Hi). apply in_seq in Hi. lia.
  - intros H. exists (N.to_nat k). rewrite N2Nat.id. split; [reflexivity|]. apply in_seq. lia.
Qed.

Record KI (s : mstate) : Prop := {
  ki_keys : (m_proposals s).*1 = dense (n_proposals s);
  ki_ids : map (fun e => pr_id e.2) (m_proposals s) = dense (n_proposals s);
  ki_mine : forall a, get_proposer s a = mine a (map (fun e => idc e.2) (m_proposals s));
}.

Lemma n_step w x :
  n_proposals (w_m (wstep w x)) = n_proposals (w_m w) \/ n_proposals (w_m (wstep w x)) = S (n_proposals (w_m w)).
Proof.
  unfold n_proposals.
  destruct (wstep_case w x) as [x|c o s' out Hc Ho|c o s' p Hc|i ts a q s' Hi Hc|i ts a q m Hi Hc]; cbn [w_m]; auto.
  1,2: apply mcall_props in Hc as [_ [->|(id' & p0 & p' & Hp & Hpc & ->)]]; [auto|]; rewrite om_set_length, Hp; auto.
  apply mcallback_props in Hc. destruct Hc as [id' v vt memo a s' E _|id' n t p s' Hp Hb Hn E _|ct t l s' Hm E _]; rewrite E; auto;
    rewrite om_set_length; destruct (om_get _ _); auto.
Qed.
Lemma few_step w x : few_proposals (w_m (wstep w x)) -> few_proposals (w_m w).
Proof. unfold few_proposals. destruct (n_step w x) as [->| ->]; lia. Qed.
Lemma few_run w tr : few_proposals (w_m (wrun w tr)) -> few_proposals (w_m w).
Proof.
  revert w. induction tr as [|x tr IH]; intros w H; [exact H|]. cbn [wrun fold_left] in H. apply IH in H. eapply few_step. exact H.
Qed.
Lemma next_few s : few_proposals s -> next_id s = N.of_nat (n_proposals s).
Proof. intros H. unfold next_id. apply N.mod_small. exact H. Qed.
Lemma KI_next s : KI s -> few_proposals s -> om_get (m_proposals s) (next_id s) = None.
Proof.
  intros HK Hf. apply om_get_None. rewrite (ki_keys _ HK), next_few by exact Hf. rewrite elem_of_list_In, In_dense. lia.
Qed.

Lemma KI_init a s0 : mpip_new a = Ok s0 -> KI s0.
Proof.
  unfold mpip_new. intros H. apply bind_Ok in H as (u & _ & H). injection H as <-. split; reflexivity.
Qed.
Lemma KI_same s s' : KI s -> m_proposals s' = m_proposals s -> m_proposers s' = m_proposers s -> KI s'.
Proof.
  intros [H1 H2 H3] E1 E2. split; unfold n_proposals in *; rewrite E1; [exact H1|exact H2|]. intros a. rewrite <- H3. unfold get_proposer. rewrite E2. reflexivity.
Qed.
Lemma KI_old s s' id p p' :
  KI s -> om_get (m_proposals s) id = Some p -> idc p' = idc p ->
  m_proposals s' = om_set (m_proposals s) id p' -> m_proposers s' = m_proposers s -> KI s'.
Proof.
  intros [H1 H2 H3] Hp Ei E1 E2. assert (pr_id p' = pr_id p) as Ei1 by (unfold idc in Ei; congruence).
  split; unfold n_proposals in *; rewrite E1.
  - rewrite om_set_keys, om_set_length, Hp. exact H1.
  - rewrite (om_set_map _ _ _ _ _ Hp Ei1), om_set_length, Hp. exact H2.
  - intros a. rewrite (om_set_map _ _ _ _ _ Hp Ei), <- H3. unfold get_proposer. rewrite E2. reflexivity.
Qed.
Lemma KI_new s s' p a0 :
  KI s -> few_proposals s -> pr_id p = next_id s -> pr_creator p = a0 ->
  m_proposals s' = om_set (m_proposals s) (next_id s) p ->
  m_proposers s' = om_set (m_proposers s) a0 (get_proposer s a0 ++ [next_id s]) -> KI s'.
Proof.
  intros HK Hf Ei Ec E1 E2. pose proof (KI_next _ HK Hf) as Hn. destruct HK as [H1 H2 H3].
  rewrite om_set_app in E1 by exact Hn. pose proof (next_few _ Hf) as En.
  assert (El : n_proposals s' = S (n_proposals s)) by (unfold n_proposals; rewrite E1, app_length; cbn; lia).
  split; rewrite El, ?dense_S, ?E1 || rewrite ?E1.
  - rewrite fmap_app, H1. cbn. rewrite En. reflexivity.
  - rewrite map_app, H2. cbn. rewrite Ei, En. reflexivity.
  - intros a. rewrite map_app. unfold mine. rewrite List.filter_app, map_app. fold (mine a (map (fun e => idc e.2) (m_proposals s))).
    rewrite <- H3. cbn. rewrite Ec. unfold get_proposer at 1. rewrite E2. destruct (decide (a0 = a)) as [->|Hne].
    + rewrite om_get_set_eq, bool_decide_eq_true_2 by reflexivity. cbn. rewrite Ei. reflexivity.
    + rewrite om_get_set_ne by exact Hne. rewrite bool_decide_eq_false_2 by exact Hne. cbn. rewrite app_nil_r. reflexivity.
Qed.
Lemma KI_step w x : KI (w_m w) -> few_proposals (w_m w) -> KI (w_m (wstep w x)).
Proof.
  intros HK Hf.
  destruct (wstep_case w x) as [x|c o s' out Hc Ho|c o s' p Hc|i ts a q s' Hi Hc|i ts a q m Hi Hc]; cbn [w_m]; auto.
  1,2: apply mcall_props in Hc as [Ep [E|(id' & p0 & p' & Hp & Hpc & E)]];
     [eapply KI_same; eassumption|]; eapply KI_old; [exact HK|exact Hp| |exact E|exact Ep]; unfold idc;
     apply pcall_id in Hpc as [-> ->]; reflexivity.
  apply mcallback_props in Hc. destruct Hc as [id' v vt memo a s' E Ep|id' n t p s' Hp Hb Hn E Ep|ct t l s' Hm E Ep].
  - eapply KI_same; eassumption.
  - eapply KI_old; [exact HK|exact Hp| |exact E|exact Ep]; reflexivity.
  - eapply KI_new; [exact HK|exact Hf| | |exact E|exact Ep]; reflexivity.
Qed.
Lemma KI_run tr : forall w, KI (w_m w) -> few_proposals (w_m (wrun w tr)) -> KI (w_m (wrun w tr)).
Proof.
  induction tr as [|x tr IH] using rev_ind; intros w HK Hf; [exact HK|]. rewrite wrun_snoc in *.
  pose proof (few_step _ _ Hf) as Hf'. apply KI_step; [|exact Hf']. apply IH; assumption.
Qed.
Lemma KI_reach w tr : mreach w tr -> few_proposals (w_m w) -> KI (w_m w).
Proof. intros (a & s0 & H0 & ->) Hf. apply KI_run; [eapply KI_init; exact H0|exact Hf]. Qed.

Lemma om_keys_get {K V} `{EqDecision K} (m : list (K * V)) k : k ∈ m.*1 -> exists v, om_get m k = Some v.
Proof.
  intros H. destruct (om_get m k) eqn:E; [eauto|]. apply om_get_None in E. contradiction.
Qed.
Lemma dense_NoDup n : NoDup (dense n).
Proof.
  unfold dense. apply (NoDup_fmap_2 N.of_nat). apply NoDup_seq.
Qed.
Lemma KI_id s id p : KI s -> om_get (m_proposals s) id = Some p -> pr_id p = id /\ id < N.of_nat (n_proposals s).
Proof.
  intros HK Hp. apply om_get_Some_In in Hp. apply elem_of_list_In, elem_of_list_lookup in Hp as (i & Hi).
  assert (H1 : (m_proposals s).*1 !! i = Some id) by (rewrite list_lookup_fmap, Hi; reflexivity).
  assert (H2 : map (fun e => pr_id e.2) (m_proposals s) !! i = Some (pr_id p)).
  { change (map (fun e => pr_id e.2) (m_proposals s)) with ((fun e => pr_id e.2) <$> m_proposals s). rewrite list_lookup_fmap, Hi. reflexivity. }
  rewrite (ki_keys _ HK) in H1. rewrite (ki_ids _ HK) in H2. split; [congruence|].
  apply In_dense, elem_of_list_In. eapply elem_of_list_lookup_2. exact H1.
Qed.
Lemma filter_ext_map {A B} (f : A -> B) (g : A -> bool) (h : B -> bool) l :
  (forall x, In x l -> g x = h (f x)) -> map f (List.filter g l) = List.filter h (map f l).
Proof.
  induction l as [|x l IH]; intros H; [reflexivity|]. cbn. rewrite (H x) by (left; reflexivity).
  destruct (h (f x)); cbn; rewrite IH by (intros y Hy; apply H; right; exact Hy); reflexivity.
Qed.

Lemma c41_state w tr : mreach w tr -> let s := w_m w in few_proposals s ->
  (forall id, (exists p, get_proposal s id = Ok p) <-> id < N.of_nat (n_proposals s)) /\
  (forall id p, get_proposal s id = Ok p -> pr_id p = id) /\
  get_last_proposal_id s = Ok (if decide (n_proposals s = 0%nat) then None else Some (N.of_nat (n_proposals s) - 1)) /\
  (forall a, get_user_proposals_ids s a = List.filter (created_by s a) (map N.of_nat (seq 0 (n_proposals s)))).
Proof.
  intros Hr s Hf. pose proof (KI_reach _ _ Hr Hf) as HK. fold s in HK. split; [|split; [|split]].
  - intros id. split.
    + intros (p & Hp). apply get_mpip_Ok in Hp. apply (KI_id _ _ _ HK Hp).
    + intros H. apply In_dense, elem_of_list_In in H. rewrite <- (ki_keys _ HK) in H. apply om_keys_get in H as (p & Hp).
      exists p. apply get_mpip_Ok. exact Hp.
  - intros id p Hp. apply get_mpip_Ok in Hp. apply (KI_id _ _ _ HK Hp).
  - unfold get_last_proposal_id. unfold few_proposals, n_proposals in *. destruct (length (m_proposals s)) as [|n]; [reflexivity|].
    rewrite N.mod_small by exact Hf. unfold sub128. destruct (N.leb_spec 1 (N.of_nat (S n))); [|lia]. cbn [mbind res_bind].
    rewrite decide_False by discriminate. reflexivity.
  - intros a. unfold get_user_proposals_ids. rewrite (ki_mine _ HK). unfold mine. fold (dense (n_proposals s)).
    assert (Hnd : NoDup (m_proposals s).*1) by (rewrite (ki_keys _ HK); apply dense_NoDup).
    rewrite (filter_ext_map fst _ (created_by s a)).
    + f_equal. rewrite map_map. exact (ki_ids _ HK).
    + intros [i c] Hin. cbn. apply in_map_iff in Hin as ([k p] & E & Hin). unfold idc in E. cbn in E. injection E as <- <-.
      pose proof (om_In_get _ _ _ Hnd Hin) as Hg. destruct (KI_id _ _ _ HK Hg) as [-> _].
      unfold created_by. apply get_mpip_Ok in Hg. unfold get_proposal. rewrite Hg. reflexivity.
Qed.


(** what an event can do to an existing proposal *)
Inductive pmove (w : world) (x : mevent) (id : N) (p : mpip) : mpip -> Prop :=
| pm_same : pmove w x id p p
| pm_call c o p' : x = MCall c o -> pcall c (w_m w) o id p p' -> pmove w x id p p'
| pm_start i ts q n t : x = MAnswer i ts (ABytes (Some n) t) -> w_pend w !! i = Some q -> pd_kind q = KStart id ->
    ts / 1000000 + m_period (w_m w) < 2 ^ 64 -> n < 2 ^ 128 ->
    pmove w x id p (started (w_m w) (ts / 1000000) n p).

Lemma pmove_step w x id p :
  KI (w_m w) -> few_proposals (w_m w) -> om_get (m_proposals (w_m w)) id = Some p ->
  exists p', om_get (m_proposals (w_m (wstep w x))) id = Some p' /\ pmove w x id p p'.
Proof.
  intros HK Hf Hp. pose proof (pevol_step w x id) as He. rewrite Hp in He.
  destruct (om_get (m_proposals (w_m (wstep w x))) id) as [p'|]; [|inversion He; fail].
  exists p'. split; [reflexivity|]. inversion He; subst.
  - constructor.
  - econstructor; [reflexivity|assumption].
  - eapply pm_start; [reflexivity|eassumption..].
  - pose proof (KI_next _ HK Hf). congruence.
Qed.
Lemma evol_run (R : mpip -> mpip -> Prop) tr : forall w,
  (forall p, R p p) -> (forall p q r, R p q -> R q r -> R p r) ->
  (forall w x id p p', pmove w x id p p' -> R p p') ->
  KI (w_m w) -> few_proposals (w_m (wrun w tr)) ->
  forall id p, get_proposal (w_m w) id = Ok p -> exists p', get_proposal (w_m (wrun w tr)) id = Ok p' /\ R p p'.
Proof.
  induction tr as [|x tr IH]; intros w Hr Ht Hs HK Hf id p Hp.
  { exists p. split; [exact Hp|apply Hr]. }
  cbn [wrun fold_left] in *. pose proof (few_run _ _ Hf) as Hf1. pose proof (few_step _ _ Hf1) as Hf0.
  apply get_mpip_Ok in Hp. destruct (pmove_step w x id p HK Hf0 Hp) as (p1 & Hp1 & Hm). apply get_mpip_Ok in Hp1.
  destruct (IH (wstep w x) Hr Ht Hs (KI_step _ _ HK Hf0) Hf id p1 Hp1) as (p' & Hp' & HR).
  exists p'. split; [exact Hp'|]. eapply Ht; [eapply Hs; exact Hm|exact HR].
Qed.

Lemma c41_step w tr x : mreach w tr -> few_proposals (w_m w) -> let s := w_m w in let s' := w_m (wstep w x) in
  (n_proposals s' = n_proposals s \/
   n_proposals s' = S (n_proposals s) /\ exists p, get_proposal s' (N.of_nat (n_proposals s)) = Ok p /\
     pr_id p = N.of_nat (n_proposals s) /\
     get_user_proposals_ids s' (pr_creator p) = get_user_proposals_ids s (pr_creator p) ++ [pr_id p]).
Proof.
  intros Hr Hf s s'. pose proof (KI_reach _ _ Hr Hf) as HK. fold s in HK. subst s'.
  destruct (wstep_case w x) as [x|c o s' out Hc Ho|c o s' p Hc|i ts a q s' Hi Hc|i ts a q m Hi Hc]; cbn [w_m]; auto.
  1,2: left; apply mcall_props in Hc as [Ep [E|(id' & p0 & p' & Hp & Hpc & E)]]; unfold n_proposals; rewrite E; [reflexivity|];
     rewrite om_set_length, Hp; reflexivity.
  apply mcallback_props in Hc. destruct Hc as [id' v vt memo a s' E Ep|id' n t p s' Hp Hb Hn E Ep|ct t l s' Hm E Ep].
  - left. unfold n_proposals. rewrite E. reflexivity.
  - left. unfold n_proposals. rewrite E, om_set_length, Hp. reflexivity.
  - right. pose proof (KI_next _ HK Hf) as Hn. split; [unfold n_proposals; rewrite E, om_set_length; fold s; rewrite Hn; reflexivity|].
    eexists. split; [apply get_mpip_Ok; rewrite E; fold s; rewrite <- (next_few s Hf); apply om_get_set_eq|].
    cbn [pr_id pr_creator]. split; [rewrite <- (next_few s Hf); reflexivity|].
    unfold get_user_proposals_ids, get_proposer at 1. rewrite Ep, om_get_set_eq. reflexivity.
Qed.
Lemma c41_permanent w tr tr' : mreach w tr -> few_proposals (w_m (wrun w tr')) ->
  forall id p, get_proposal (w_m w) id = Ok p -> exists p', get_proposal (w_m (wrun w tr')) id = Ok p' /\
    pr_id p' = pr_id p /\ pr_creator p' = pr_creator p.
Proof.
  intros Hr Hf. apply (evol_run (fun p p' => pr_id p' = pr_id p /\ pr_creator p' = pr_creator p)).
  - auto.
  - intros p q r [H1 H2] [H3 H4]. split; congruence.
  - intros w0 x id p p' Hm. destruct Hm as [|c o p' _ Hc|]; [auto|eapply pcall_id; exact Hc|auto].
  - eapply KI_reach; [exact Hr|]. eapply few_run. exact Hf.
  - exact Hf.
Qed.

(** ** Final states (C42) *)
Lemma active_draft_flags now p : is_active_or_draft now p = true -> pr_canceled p = false /\ pr_executed p = false /\
  (forall d, pr_start p = Some d -> now <= d).
Proof.
  unfold is_active_or_draft. destruct (pr_start p) as [d|].
  - rewrite !andb_true_iff, !negb_true_iff. intros [[H1 H2] H3]. apply N.leb_le in H1. repeat split; auto. intros d' E. injection E as <-. exact H1.
  - rewrite !andb_true_iff, !negb_true_iff. intros [H1 H2]. repeat split; auto. intros d E. discriminate.
Qed.
Lemma on_voting_flags now p : is_on_voting now p = Ok true ->
  exists d e, pr_start p = Some d /\ pr_end p = Some e /\ d <= now <= e /\
    pr_draft p = false /\ pr_canceled p = false /\ pr_executed p = false.
Proof.
  unfold is_on_voting. destruct (pr_start p) as [d|]; [|discriminate]. destruct (N.leb_spec d now); [|discriminate].
  intros Hx. apply bind_Ok in Hx as (e & He & Hx). apply expect_Ok in He. injection Hx as Hx.
  rewrite !andb_true_iff, !negb_true_iff in Hx. destruct Hx as [[[H1 H2] H3] H4]. apply N.leb_le in H1.
  exists d, e. auto 10.
Qed.
Lemma c42_run w tr tr' : mreach w tr -> few_proposals (w_m (wrun w tr')) ->
  forall id p, get_proposal (w_m w) id = Ok p -> exists p', get_proposal (w_m (wrun w tr')) id = Ok p' /\
    (pr_canceled p = true -> pr_canceled p' = true /\ pr_executed p' = pr_executed p) /\
    (pr_executed p = true -> pr_executed p' = true /\ pr_canceled p' = pr_canceled p) /\
    (pr_draft p = false -> pr_draft p' = false).
Proof.
  intros Hr Hf. apply (evol_run (fun p p' => 
    (pr_canceled p = true -> pr_canceled p' = true /\ pr_executed p' = pr_executed p) /\
    (pr_executed p = true -> pr_executed p' = true /\ pr_canceled p' = pr_canceled p) /\
    (pr_draft p = false -> pr_draft p' = false))).
  - auto.
  - intros p q r (A1 & A2 & A3) (B1 & B2 & B3). split; [|split].
    + intros H. destruct (A1 H) as [H1 H2]. destruct (B1 H1) as [H3 H4]. split; congruence.
    + intros H. destruct (A2 H) as [H1 H2]. destruct (B2 H1) as [H3 H4]. split; congruence.
    + auto.
  - intros w0 x id p p' Hm. destruct Hm as [|c o p' _ Hc|]; [auto| |cbn; auto].
    destruct Hc as [id p _ Ha|id ct p _ Ha|id p _ Hv _ _]; cbn; [|auto|].
    + apply active_draft_flags in Ha as (E1 & E2 & _). rewrite E1, E2. split; [discriminate|]. split; [discriminate|auto].
    + apply on_voting_flags in Hv as (d & e & _ & _ & _ & _ & E1 & E2). rewrite E1, E2. split; [discriminate|]. split; [discriminate|auto].
  - eapply KI_reach; [exact Hr|]. eapply few_run. exact Hf.
  - exact Hf.
Qed.
Lemma c42 w tr tr' id now : mreach w tr -> few_proposals (w_m (wrun w tr')) -> let s := w_m w in let s' := w_m (wrun w tr') in
  (get_proposal_state now s id = Ok StCanceled -> forall now', get_proposal_state now' s' id = Ok StCanceled) /\
  (get_proposal_state now s id = Ok StExecuted -> forall now', get_proposal_state now' s' id = Ok StExecuted) /\
  (forall p, get_proposal s id = Ok p -> get_proposal_state now s id <> Ok StDraft -> forall now', get_proposal_state now' s' id <> Ok StDraft).
Proof.
  intros Hr Hf s s'.
  assert (Hst : forall t s1 st, get_proposal_state t s1 id = Ok st -> exists p, get_proposal s1 id = Ok p).
  { intros t s1 st H. unfold get_proposal_state in H. apply bind_Ok in H as (p & Hp & _). exists p. exact Hp. }
  assert (Hv : forall t s1 p, get_proposal s1 id = Ok p ->
     (get_proposal_state t s1 id = Ok StExecuted <-> pr_executed p = true) /\
     (get_proposal_state t s1 id = Ok StCanceled <-> pr_executed p = false /\ pr_canceled p = true) /\
     (get_proposal_state t s1 id = Ok StDraft <-> pr_executed p = false /\ pr_canceled p = false /\ pr_draft p = true)).
  { intros t s1 p Hp. unfold get_proposal_state. unfold get_proposal in Hp. rewrite Hp. cbn [mbind res_bind].
    destruct (pr_executed p); [split; [tauto|]; split; split; (discriminate || (intros [E _]; discriminate E))|].
    destruct (pr_canceled p); [split; [split; discriminate|]; split; [tauto|]; split; [discriminate|]; intros (_ & E & _); discriminate E|].
    destruct (pr_draft p); [split; [split; discriminate|]; split; [|tauto]; split; [discriminate|]; intros (_ & E); discriminate E|].
    assert (Hno : forall st, (b ← is_on_voting t p; if (b : bool) then Ok StVotingProcess else if is_active t p then Ok StActive
       else q ← is_quorum_reached s1 id; if (q && get_proposal_vote_succeeded s1 id)%bool then Ok StAccepted else Ok StRejected) = Ok st ->
       st <> StExecuted /\ st <> StCanceled /\ st <> StDraft).
    { intros st H. apply bind_Ok in H as (b & _ & H). destruct b; [injection H as <-; repeat split; discriminate|].
      destruct (is_active t p); [injection H as <-; repeat split; discriminate|]. apply bind_Ok in H as (q & _ & H).
      destruct (q && _)%bool; injection H as <-; repeat split; discriminate. }
    split; [|split]; (split; [intros H; apply Hno in H; destruct H as (A & B & C); congruence|]); [discriminate|intros [_ E]; discriminate E|intros (_ & _ & E); discriminate E]. }
  split; [|split].
  - intros H now'. destruct (Hst _ _ _ H) as (p & Hp). destruct (c42_run w tr tr' Hr Hf id p Hp) as (p' & Hp' & A1 & A2 & A3).
    apply (Hv now s p Hp) in H as [E1 E2]. apply (Hv now' s' p' Hp'). destruct (A1 E2) as [-> ->]. auto.
  - intros H now'. destruct (Hst _ _ _ H) as (p & Hp). destruct (c42_run w tr tr' Hr Hf id p Hp) as (p' & Hp' & A1 & A2 & A3).
    apply (Hv now s p Hp) in H. apply (Hv now' s' p' Hp'). apply A2. exact H.
  - intros p Hp H now' H'. destruct (c42_run w tr tr' Hr Hf id p Hp) as (p' & Hp' & A1 & A2 & A3).
    destruct (Hv now' s' p' Hp') as (_ & _ & Hd). apply Hd in H'. destruct H' as (E1 & E2 & E3). apply H. apply (Hv now s p Hp).
    destruct (pr_executed p); [destruct (A2 eq_refl); congruence|]. destruct (pr_canceled p); [destruct (A1 eq_refl); congruence|].
    destruct (pr_draft p); [auto|]. rewrite (A3 eq_refl) in E3. discriminate.
Qed.

(** ** Execution (C43, C44) *)
Lemma quorum_reached_iff s id : is_quorum_reached s id = Ok true ->
  exists p q, get_proposal s id = Ok p /\ pr_quorum p = Some q /\ q <= tally s id VFor + tally s id VAbstain.
Proof.
  unfold is_quorum_reached. intros H. apply bind_Ok in H as (p & Hp & H). apply bind_Ok in H as (q & Hq & H). apply expect_Ok in Hq.
  apply bind_Ok in H as (t & Ht & H). apply add128_Ok in Ht as [-> _]. injection H as H. apply N.leb_le in H.
  exists p, q. auto.
Qed.
Lemma c43 w tr x id p p' : mreach w tr -> few_proposals (w_m w) -> let s := w_m w in
  get_proposal s id = Ok p -> get_proposal (w_m (wstep w x)) id = Ok p' ->
  pr_executed p = false -> pr_executed p' = true ->
  exists c q, x = MCall c (ProcessVotingStatus id) /\ (m_admin s = c_signer c \/ m_operator s = c_signer c) /\
    pr_canceled p = false /\ pr_draft p = false /\ pr_quorum p = Some q /\
    q <= tally s id VFor + tally s id VAbstain /\ pr_end p = Some (now_ms c).
Proof.
  intros Hr Hf s Hp Hp' E E'. subst s. pose proof (KI_reach _ _ Hr Hf) as HK. apply get_mpip_Ok in Hp.
  destruct (pmove_step w x id p HK Hf Hp) as (p1 & Hp1 & Hm). apply get_mpip_Ok in Hp'.
  assert (p1 = p') as -> by congruence. destruct Hm as [|c o p' -> Hc|]; [congruence| |cbn in E'; congruence].
  destruct Hc as [id p _ _|id ct p _ _|id p Ha Hv He Hq]; [cbn in E'; congruence|cbn in E'; congruence|].
  apply on_voting_flags in Hv as (d & e & _ & _ & _ & H1 & H2 & _).
  apply quorum_reached_iff in Hq as (p2 & q & Hp2 & Hq & Hle). apply get_mpip_Ok in Hp2. assert (p2 = p) as -> by congruence.
  exists c, q. auto 10.
Qed.

Lemma c44_at_end w tr c id p q d : mreach w tr -> let s := w_m w in
  c_deposit c = 0 -> (m_admin s = c_signer c \/ m_operator s = c_signer c) ->
  get_proposal s id = Ok p -> pr_draft p = false -> pr_canceled p = false -> pr_executed p = false ->
  pr_start p = Some d -> d <= now_ms c -> pr_end p = Some (now_ms c) ->
  pr_quorum p = Some q -> q <= tally s id VFor + tally s id VAbstain -> tally s id VFor + tally s id VAbstain < 2 ^ 128 ->
  exists s' p', mcall c s (ProcessVotingStatus id) = Ok (s', ONone) /\ get_proposal s' id = Ok p' /\ pr_executed p' = true.
Proof.
  intros Hr s Hd Ha Hp E1 E2 E3 Es Hle Ee Eq Hq Hb.
  assert (Hqr : is_quorum_reached s id = Ok true).
  { unfold is_quorum_reached. unfold get_proposal in Hp. rewrite Hp. cbn [mbind res_bind]. rewrite Eq. cbn [expect mbind res_bind].
    change (pv_for (get_pvote s id)) with (tally s id VFor). change (pv_abstain (get_pvote s id)) with (tally s id VAbstain).
    unfold add128. destruct (N.ltb_spec (tally s id VFor + tally s id VAbstain) U128_SIZE) as [H|H]; [|exfalso; exact (N.lt_irrefl _ (N.lt_le_trans _ _ _ Hb H))].
    cbn [mbind res_bind]. rewrite (proj2 (N.leb_le _ _) Hq). reflexivity. }
  assert (Hon : is_on_voting (now_ms c) p = Ok true).
  { unfold is_on_voting. rewrite Es, (proj2 (N.leb_le _ _) Hle), Ee. cbn [expect mbind res_bind]. rewrite N.leb_refl, E1, E2, E3. reflexivity. }
  exists (s <| m_proposals := om_set (m_proposals s) id (p <| pr_executed := true |>) |>), (p <| pr_executed := true |>).
  split; [|split; [apply get_mpip_Ok; apply om_get_set_eq|reflexivity]].
  cbn [mcall]. unfold process_voting_status, non_payable. rewrite Hd. cbn [N.eqb require mbind res_bind].
  unfold assert_only_operator. 
  assert (Hor : (bool_decide (m_admin s = c_signer c) || bool_decide (m_operator s = c_signer c))%bool = true).
  { apply orb_true_iff. rewrite !bool_decide_eq_true. exact Ha. }
  rewrite Hor. cbn [require mbind res_bind]. unfold get_proposal in Hp. rewrite Hp. cbn [mbind res_bind]. rewrite Hon. cbn [mbind res_bind].
  rewrite Ee. cbn [expect mbind res_bind]. rewrite N.leb_refl, Hqr. reflexivity.
Qed.
(** Any history whose events all come after the end leaves the proposal unexecuted,
    unless a start call is still in flight. *)
Definition missed (w : world) (id : N) (e : N) : Prop :=
  ~ start_in_flight w id /\ exists p d, om_get (m_proposals (w_m w)) id = Some p /\ pr_executed p = false /\
    pr_start p = Some d /\ pr_end p = Some e /\ d <= e.
Lemma missed_step w x id e :
  KI (w_m w) -> few_proposals (w_m w) -> missed w id e -> e < event_ts x / 1000000 -> missed (wstep w x) id e.
Proof.
  intros HK Hf (Hn & p & d & Hp & He & Hs & Hend & Hde) Hx. split.
  - intros (q & Hq & Hk). apply Hn.
    destruct (wstep_case w x) as [x|c o s' out Hc Ho|c o s' q0 Hc|i ts a q0 s' Hi Hc|i ts a q0 m Hi Hc]; cbn [w_pend] in Hq.
    + exists q. auto.
    + exists q. auto.
    + apply in_app_iff in Hq as [Hq|[->|[]]]; [exists q; auto|]. exfalso.
      apply mcall_asks in Hc as (_ & _ & _ & Hc). rewrite Hk in Hc. destruct Hc as (_ & _ & _ & p1 & Hp1 & _ & Ha).
      apply get_mpip_Ok in Hp1. assert (p1 = p) as -> by congruence. apply active_draft_flags in Ha as (_ & _ & Ha).
      specialize (Ha _ Hs). cbn [event_ts] in Hx. unfold now_ms in Ha. lia.
    + exists q. split; [|exact Hk]. apply elem_of_list_In. apply elem_of_list_In in Hq. eapply elem_of_submseteq; [exact Hq|].
      apply submseteq_delete.
    + exists q. split; [|exact Hk]. apply elem_of_list_In. apply elem_of_list_In in Hq. eapply elem_of_submseteq; [exact Hq|].
      apply submseteq_delete.
  - destruct (pmove_step w x id p HK Hf Hp) as (p' & Hp' & Hm). exists p', d. split; [exact Hp'|].
    destruct Hm as [|c o p' -> Hc|i ts q n t -> Hi Hk _ _].
    + auto.
    + destruct Hc as [id p _ _|id ct p _ _|id p Ha Hv He' Hq]; cbn; auto.
      exfalso. cbn [event_ts] in Hx. rewrite Hend in He'. injection He' as E. unfold now_ms in E. lia.
    + exfalso. apply Hn. exists q. split; [|exact Hk]. apply elem_of_list_In. eapply elem_of_list_lookup_2. exact Hi.
Qed.
Lemma c44_missed w tr tr' id p d e :
  mreach w tr -> get_proposal (w_m w) id = Ok p -> pr_executed p = false ->
  pr_start p = Some d -> pr_end p = Some e -> d <= e -> ~ start_in_flight w id ->
  Forall (fun x => e < event_ts x / 1000000) tr' -> few_proposals (w_m (wrun w tr')) ->
  exists p', get_proposal (w_m (wrun w tr')) id = Ok p' /\ pr_executed p' = false.
Proof.
  intros Hr Hp He Hs Hend Hde Hn Hall Hf.
  assert (Hm : missed w id e).
  { split; [exact Hn|]. exists p, d. apply get_mpip_Ok in Hp. auto. }
  assert (HK : KI (w_m w)) by (eapply KI_reach; [exact Hr|]; eapply few_run; exact Hf).
  clear Hr Hp He Hs Hend Hn. revert w HK Hm Hf. induction Hall as [|x tr' Hx _ IH]; intros w HK Hm Hf.
  - destruct Hm as (_ & p' & d' & Hp' & E & _). exists p'. split; [apply get_mpip_Ok; exact Hp'|exact E].
  - cbn [wrun fold_left] in *. pose proof (few_step _ _ (few_run _ _ Hf)) as Hf0.
    apply (IH (wstep w x)); [apply KI_step; assumption|apply missed_step; assumption|exact Hf].
Qed.
