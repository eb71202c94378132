(** AskBoard.v -- C96 for the proposal contract: the answers have the declared types and tell what the contract holds. *)

From Verif Require Export AskMv.
From Verif Require Import WireProofs MpipSized PostProofs.
Import Mpip MpipSized.

(** ** Same answer, same value *)
Lemma vote_type_inj t t' : vote_type_val t = vote_type_val t' -> t = t'.
Proof. destruct t, t'; intros E; try reflexivity; discriminate E. Qed.
Lemma mvote_eq (u u' : mvote) : vt_mpip u = vt_mpip u' -> vt_type u = vt_type u' -> vt_power u = vt_power u' -> vt_memo u = vt_memo u' -> u = u'.
Proof. destruct u, u'. cbn. intros -> -> -> ->. reflexivity. Qed.
Global Instance ballot_inj : Inj (=) (=) ballot_val.
Proof.
  intros [v u] [v' u'] E. unfold ballot_val in E. cbn [fst snd] in E. injection E as E1 E2 E3 E4 E5. f_equal; [exact E2|].
  apply mvote_eq; try assumption. apply vote_type_inj. unfold vote_type_val. f_equal. exact E3.
Qed.
Global Instance proposal_inj : Inj (=) (=) proposal_val.
Proof.
  intros [i [t1 t2 t3 t4 t5] cr a e d x k q] [i' [u1 u2 u3 u4 u5] cr' a' e' d' x' k' q'] E. unfold proposal_val in E.
  cbn [pr_id pr_content ct_title ct_short ct_body ct_data ct_extra pr_creator pr_start pr_end pr_draft pr_executed pr_canceled pr_quorum] in E.
  assert (Ea : opt VNum a = opt VNum a') by congruence. assert (Ee : opt VNum e = opt VNum e') by congruence.
  assert (Eq : opt VBig q = opt VBig q') by congruence.
  apply (inj (opt VNum)) in Ea as ->. apply (inj (opt VNum)) in Ee as ->. apply (inj (opt VBig)) in Eq as ->.
  injection E as -> -> -> -> -> -> -> -> -> ->. reflexivity.
Qed.
Global Instance votes_inj : Inj (=) (=) votes_val.
Proof.
  intros [[[a b] c] l] [[[a' b'] c'] l'] E. unfold votes_val in E.
  assert (El : items ballot_val l = items ballot_val l') by congruence. apply (inj (items ballot_val)) in El as ->. injection E as -> -> ->. reflexivity.
Qed.
Global Instance state_inj : Inj (=) (=) state_val.
Proof. intros t t'. destruct t, t'; intros E; try reflexivity; discriminate E. Qed.
Lemma board_answers_same c s c' s' q v : board_answer c s q = Ok v -> board_answer c' s' q = Ok v -> board_same c s c' s' q.
Proof.
  destruct q; cbn [board_answer board_same]; unfold page, paged; intros E1 E2;
    try (eapply (same_ok VBool); [apply _|exact E1|exact E2]; fail); try (eapply (same_ok VBig); [apply _|exact E1|exact E2]; fail);
    try (eapply (same_ok VNum); [apply _|exact E1|exact E2]; fail); try (eapply (same_ok (items VNum)); [apply _|exact E1|exact E2]; fail);
    try (eapply same_bind; [|exact E1|exact E2]; apply _; fail).
  - eapply (same_ok votes_val); [apply _|exact E1|exact E2].
  - unfold get_total_voters in *. assert (E : pretty (N.of_nat (length (m_voters s))) = pretty (N.of_nat (length (m_voters s')))) by congruence.
    apply (inj pretty) in E. apply Nat2N.inj in E. exact E.
  - eapply (same_ok (items ballot_val)); [apply _| |]; [|reflexivity]. congruence.
Qed.

(** ** Accounts *)
Record IDS (s : mstate) : Prop := {
  id_props : all (fun _ p => account_id (pr_creator p)) (m_proposals s);
  id_votes : all (fun _ v => all (fun w _ => account_id w) (pv_voted v)) (m_votes s);
}.
Definition id_pending (p : pending) : Prop :=
  account_id (pd_signer p) /\ match pd_kind p with KVote _ w _ _ => account_id w | _ => True end.
Definition id_out (f : mout) : Prop := match f with OAsk p => id_pending p | _ => True end.
Lemma id_get s id p : IDS s -> get_mpip s id = Ok p -> account_id (pr_creator p).
Proof. intros H E. apply expect_Ok in E. exact (all_get _ _ _ _ (id_props s H) E). Qed.
Lemma id_pvote s id : IDS s -> all (fun w (_ : mvote) => account_id w) (pv_voted (get_pvote s id)).
Proof.
  intros H. unfold get_pvote. destruct (om_get (m_votes s) id) as [v|] eqn:E; [exact (all_get _ _ _ _ (id_votes s H) E)|constructor].
Qed.
Lemma add_voted v vt n v' : add_tally v vt n = Ok v' -> pv_voted v' = pv_voted v.
Proof. unfold add_tally. destruct vt; intros H; rinv; reflexivity. Qed.
Lemma sub_voted v vt n v' : sub_tally v vt n = Ok v' -> pv_voted v' = pv_voted v.
Proof. unfold sub_tally. destruct vt; intros H; rinv; reflexivity. Qed.
Lemma id_mcall c s o s' out : IDS s -> account_id (c_pred c) -> account_id (c_signer c) -> mcall c s o = Ok (s', out) -> IDS s' /\ id_out out.
Proof.
  intros HK Hp Hs H. pose proof HK as [K1 K2]. destruct o; cbn [mcall] in *.
  - unfold update_open in H. rinv. split; [constructor; assumption|exact I].
  - unfold update_operator_role in H. rinv. split; [constructor; assumption|exact I].
  - unfold update_admin_role in H. rinv. split; [constructor; assumption|exact I].
  - unfold pay_to_account in H. rinv. split; [constructor; assumption|exact I].
  - unfold update_meta_vote_address in H. rinv. split; [constructor; assumption|exact I].
  - unfold update_voting_period in H. rinv. split; [constructor; assumption|exact I].
  - unfold update_min_meta in H. rinv. split; [constructor; assumption|exact I].
  - unfold update_min_vp in H. rinv. split; [constructor; assumption|exact I].
  - unfold update_storage in H. rinv. split; [constructor; assumption|exact I].
  - unfold update_quorum_floor in H. rinv. split; [constructor; assumption|exact I].
  - unfold start_voting_period in H. rinv. split; [exact HK|]. split; [exact Hs|exact I].
  - unfold create_proposal in H. rinv. split; [exact HK|]. split; [exact Hs|exact I].
  - unfold cancel_proposal in H. apply bind_Ok in H as (? & _ & H). apply bind_Ok in H as (? & _ & H). apply bind_Ok in H as (? & _ & H).
    apply bind_Ok in H as (p & E & H). pose proof (id_get _ _ _ HK E) as Hi. injection H as <- <-.
    split; [|exact I]. constructor; try assumption. cbn [m_proposals set]. apply all_set; [exact K1|exact Hi].
  - unfold update_proposal in H. apply bind_Ok in H as (? & _ & H). apply bind_Ok in H as (? & _ & H). apply bind_Ok in H as (? & _ & H).
    apply bind_Ok in H as (p & E & H). pose proof (id_get _ _ _ HK E) as Hi. injection H as <- <-.
    split; [|exact I]. constructor; try assumption. cbn [m_proposals set]. apply all_set; [exact K1|exact Hi].
  - unfold vote_proposal in H. rinv. split; [exact HK|]. split; assumption.
  - unfold remove_vote_proposal in H. apply bind_Ok in H as (? & _ & H). apply bind_Ok in H as (? & _ & H). apply bind_Ok in H as (? & _ & H).
    apply bind_Ok in H as (u & _ & H). apply bind_Ok in H as (v1 & E & H). apply sub_voted in E. injection H as <- <-. split; [|exact I].
    constructor; try assumption. cbn [m_votes set]. apply all_set; [exact K2|]. cbn [pv_voted set]. apply all_remove. rewrite E. apply id_pvote. exact HK.
  - unfold process_voting_status in H. apply bind_Ok in H as (? & _ & H). apply bind_Ok in H as (? & _ & H).
    apply bind_Ok in H as (p & E & H). pose proof (id_get _ _ _ HK E) as Hi. apply bind_Ok in H as (b & _ & H).
    destruct b; [|injection H as <- <-; split; [exact HK|exact I]]. apply bind_Ok in H as (e & _ & H).
    destruct (e <=? now_ms c); [|injection H as <- <-; split; [exact HK|exact I]]. apply bind_Ok in H as (q & _ & H).
    destruct q; injection H as <- <-; (split; [|exact I]); [|exact HK].
    constructor; try assumption. cbn [m_proposals set]. apply all_set; [exact K1|exact Hi].
Qed.
Lemma id_callback c s p a s' : IDS s -> c_signer c = pd_signer p -> id_pending p -> mcallback c s (pd_kind p) a = Ok s' -> IDS s'.
Proof.
  intros HK Hc [Hs Hp] H. pose proof HK as [K1 K2]. destruct (pd_kind p); cbn [mcallback] in H.
  - unfold start_callback in H. apply bind_Ok in H as (t & E1 & H). apply bind_Ok in H as (q & E2 & H). apply bind_Ok in H as (e & E3 & H).
    apply bind_Ok in H as (n & E4 & H). injection H as <-. constructor; try assumption. cbn [m_proposals set]. apply all_set; [exact K1|].
    exact (id_get _ _ _ HK E2).
  - unfold create_callback in H. apply bind_Ok in H as (? & _ & H). apply bind_Ok in H as (? & _ & H). injection H as <-.
    constructor; try assumption. cbn [m_proposals set]. apply all_set; [exact K1|]. cbn [new_mpip pr_creator]. rewrite Hc. exact Hs.
  - unfold vote_callback in H. apply bind_Ok in H as (n & E & H). apply bind_Ok in H as (? & _ & H).
    apply bind_Ok in H as (v1 & E1 & H). injection H as <-. apply add_voted in E1. constructor; try assumption.
    cbn [m_votes set]. apply all_set; [exact K2|]. rewrite E1. cbn [pv_voted set]. apply all_set; [apply id_pvote; exact HK|exact Hp].
Qed.
Definition WIDS (w : Mpip.world) : Prop := IDS (w_m w) /\ Forall id_pending (Mpip.w_pend w).
Lemma wids_step w x : WIDS w -> by_account x -> WIDS (Mpip.wstep w x).
Proof.
  intros [HK Hp] Hx. destruct x as [c o|i ts a]; cbn [Mpip.wstep by_account] in *.
  - destruct Hx as [H1 H2]. destruct (mcall c (w_m w) o) as [[s' out]|] eqn:E; [|split; assumption].
    destruct (id_mcall _ _ _ _ _ HK H1 H2 E) as [H3 H4]. destruct out as [|p|? ?]; (split; [exact H3|]); cbn [Mpip.w_pend]; try exact Hp.
    apply Forall_app. split; [exact Hp|]. apply Forall_singleton. exact H4.
  - destruct (Mpip.w_pend w !! i) as [p|] eqn:E; [|split; assumption]. split; cbn [w_m Mpip.w_pend].
    + destruct (mcallback _ _ _ _) as [s'|] eqn:E'; [|exact HK]. eapply id_callback; [exact HK| | |exact E'].
      * reflexivity.
      * eapply Forall_lookup_1; [exact Hp|exact E].
    + apply Forall_delete. exact Hp.
Qed.
Lemma wids_run tr w : WIDS w -> Forall by_account tr -> WIDS (Mpip.wrun w tr).
Proof.
  revert w. induction tr as [|x tr IH]; intros w Hw Ht; [exact Hw|]. apply Forall_cons in Ht as [Hx Ht].
  exact (IH _ (wids_step _ _ Hw Hx) Ht).
Qed.
Lemma wids_new a s0 : mpip_new a = Ok s0 -> WIDS (winit s0).
Proof. unfold mpip_new. intros H. rinv. split; [|constructor]. constructor; constructor. Qed.

(** ** The declared types *)
Lemma vote_type_has t : has VOTE_TYPE (vote_type_val t).
Proof. unfold VOTE_TYPE, vote_type_val. constructor. destruct t; cbn; tauto. Qed.
Lemma ballot_has w u : account_id w -> oku u -> has BALLOT (ballot_val (w, u)).
Proof.
  intros Hw [U1 U2]. unfold BALLOT, ballot_val. cbn [fst snd]. apply has_rec; [refine (bool_decide_unpack _ _); exact I|].
  constructor; [split; [reflexivity|constructor; exact U1]|]. constructor; [split; [reflexivity|constructor; exact Hw]|].
  constructor; [split; [reflexivity|apply vote_type_has]|]. constructor; [split; [reflexivity|constructor; exact U2]|].
  constructor; [split; [reflexivity|constructor]|constructor].
Qed.
Lemma proposal_has p : account_id (pr_creator p) -> sized_mpip p -> has PROPOSAL (proposal_val p).
Proof.
  intros Hc (P1 & P2 & P3 & P4). unfold PROPOSAL, proposal_val. cbv zeta. apply has_rec; [refine (bool_decide_unpack _ _); exact I|].
  constructor; [split; [reflexivity|constructor; exact P1]|]. do 5 (constructor; [split; [reflexivity|constructor]|]).
  constructor; [split; [reflexivity|constructor; exact Hc]|].
  constructor; [split; [reflexivity|]|]. { apply has_opt; [exact I|]. intros x E. cbn in P2 |- *. rewrite E in P2. constructor. exact P2. }
  constructor; [split; [reflexivity|]|]. { apply has_opt; [exact I|]. intros x E. cbn in P3 |- *. rewrite E in P3. constructor. exact P3. }
  do 3 (constructor; [split; [reflexivity|constructor]|]). constructor; [split; [reflexivity|]|constructor].
  apply has_opt; [exact I|]. intros x E. rewrite E in P4. constructor. exact P4.
Qed.
Lemma state_has t : has (TEnum ["Draft"; "Active"; "VotingProcess"; "Accepted"; "Rejected"; "Executed"; "Canceled"]) (state_val t).
Proof. unfold state_val. constructor. destruct t; cbn; tauto. Qed.
Lemma ids_has s a : OK s -> has (TVec U32) (items VNum (get_proposer s a)).
Proof. intros H. apply has_items. intros n Hn. constructor. pose proof (ok_proposer s a H) as P. rewrite Forall_forall in P. apply P. apply elem_of_list_In. exact Hn. Qed.
Lemma board_has c s q v : OK s -> IDS s -> boardq_typed q -> board_answer c s q = Ok v -> has (board_type q) v.
Proof.
  intros HS HI Hq. destruct q; cbn [board_answer board_type boardq_typed] in *; unfold page; intros E.
  - injection E as <-. apply ids_has. exact HS.
  - injection E as <-. constructor.
  - injection E as <-. constructor. apply (ok_fee s HS).
  - injection E as <-. destruct (ok_pvote s id HS) as (V1 & V2 & V3 & V4). unfold get_proposal_votes, votes_val. apply has_rec; [refine (bool_decide_unpack _ _); exact I|].
    constructor; [split; [reflexivity|constructor; exact V1]|]. constructor; [split; [reflexivity|constructor; exact V2]|].
    constructor; [split; [reflexivity|constructor; exact V3]|]. constructor; [split; [reflexivity|]|constructor].
    apply has_items. intros [w u] Hj. pose proof (id_pvote s id HI) as V5. unfold all in V4, V5. rewrite Forall_forall in V4, V5. apply elem_of_list_In in Hj.
    exact (ballot_has w u (V5 _ Hj) (V4 _ Hj)).
  - apply bind_Ok in E as (b & _ & E). injection E as <-. constructor.
  - injection E as <-. constructor.
  - apply bind_Ok in E as (b & _ & E). injection E as <-. apply state_has.
  - apply bind_Ok in E as (p & Ep & E). injection E as <-. apply proposal_has; [exact (id_get _ _ _ HI Ep)|exact (proj2 (ok_get _ _ _ HS Ep))].
  - apply bind_Ok in E as (o & Eo & E). injection E as <-. unfold get_proposals in Eo. destruct (_ <=? _)%nat; [injection Eo as <-; constructor|].
    apply bind_Ok in Eo as (l & El & Eo). injection Eo as <-. constructor; [exact I|]. apply has_items. intros p Hp.
    destruct (mapMr_In _ _ _ _ El Hp) as (k & _ & Ek). apply bind_Ok in Ek as (id & _ & Ek). apply expect_Ok in Ek.
    apply proposal_has; [exact (all_get _ _ _ _ (id_props s HI) Ek)|exact (proj2 (all_get _ _ _ _ (ok_props s HS) Ek))].
  - injection E as <-. apply ids_has. exact HS.
  - apply bind_Ok in E as (o & Eo & E). injection E as <-. apply has_opt; [exact I|]. intros n ->. constructor. unfold get_last_proposal_id in Eo.
    destruct (length (m_proposals s)) as [|k]; [discriminate|]. apply bind_Ok in Eo as (x & Ex & Eo). injection Eo as <-.
    assert (Hl : N.of_nat (S k) mod U32_SIZE < U32_SIZE) by (apply N.mod_lt; discriminate). rinv. lia.
  - injection E as <-. constructor. apply (ok_floor s HS).
  - injection E as <-. constructor. apply (ok_vp s HS).
  - injection E as <-. constructor.
  - apply bind_Ok in E as (b & _ & E). injection E as <-. constructor.
  - injection E as <-. constructor.
  - apply bind_Ok in E as (o & Eo & E). injection E as <-. apply has_opt; [exact I|]. intros [w u] ->. unfold get_my_vote in Eo.
    destruct (internal_has_voted s id voter); [|discriminate]. apply bind_Ok in Eo as (m & Em & Eo). apply expect_Ok in Em. apply bind_Ok in Eo as (u' & Eu & Eo). apply expect_Ok in Eu.
    injection Eo as <- <-. apply ballot_has; [exact (proj1 Hq)|]. exact (proj2 (all_get _ _ _ _ (all_get _ _ _ _ (ok_voters s HS) Em) Eu)).
  - injection E as <-. apply has_rec; [refine (bool_decide_unpack _ _); exact I|]. constructor; [split; [reflexivity|]|constructor].
    apply has_items. intros j Hj. unfold get_voter_votes in Hj. apply in_map_iff in Hj as ([k u] & <- & Hj). cbn [snd]. apply ballot_has; [exact Hq|].
    pose proof (ok_mvoter s voter HS) as P. unfold all in P. rewrite Forall_forall in P. apply elem_of_list_In in Hj. exact (proj2 (P _ Hj)).
Qed.

(** ** The claims *)
Lemma c96_board_answered c s m a t : board_view c s m a = Ok t -> exists q, boardq_typed q /\ m = (board_asked q).1 /\ reads_as (boardq_params q) a (board_asked q).2 /\ board_reply c s q = Ok t.
Proof.
  intros H. unfold board_view in H. destruct (enter board_views m a) as [q|] eqn:E.
  - rewrite (ask_some _ _ _ _ _ E), board_written in H. destruct (boardq_sound _ _ _ E) as (H1 & H2 & H3). eauto.
  - destruct (ask_none board_views (board_answer c s) m a E) as (e & H'). congruence.
Qed.
Lemma c96_board_asked c s q a : boardq_typed q -> reads_as (boardq_params q) a (board_asked q).2 -> board_view c s (board_asked q).1 a = board_reply c s q.
Proof. intros H Ha. unfold board_view. rewrite (ask_some _ _ _ _ _ (boardq_complete _ _ H Ha)). apply board_written. Qed.
(** a proposal contract that was deployed with [a] and lived through [tr] *)
Lemma board_reply_has a s0 tr c q t : mpip_new a = Ok s0 -> sized_args a -> Forall sized_event tr -> Forall by_account tr -> boardq_typed q ->
  let s := w_m (Mpip.wrun (winit s0) tr) in
  board_reply c s q = Ok t -> exists v, board_answer c s q = Ok v /\ t = write v /\ json (board_type q) t = Some v.
Proof.
  intros H0 Ha Ht Hb Hq s H. rewrite <- board_written in H. apply written_Ok in H as (v & Hv & ->). exists v. split; [exact Hv|]. split; [reflexivity|].
  apply json_ok. destruct (wok_run tr _ (wok_new _ _ H0 Ha) Ht) as [HS _]. destruct (wids_run tr _ (wids_new _ _ H0) Hb) as [HI _].
  exact (board_has c s q v HS HI Hq Hv).
Qed.
Lemma c96_board_readable a s0 tr c q t : mpip_new a = Ok s0 -> sized_args a -> Forall sized_event tr -> Forall by_account tr -> boardq_typed q ->
  board_reply c (w_m (Mpip.wrun (winit s0) tr)) q = Ok t -> exists v, json (board_type q) t = Some v.
Proof. intros H0 Ha Ht Hb Hq H. destruct (board_reply_has a s0 tr c q t H0 Ha Ht Hb Hq H) as (v & _ & _ & E). eauto. Qed.
Lemma c96_board_tells a s0 tr c a' s0' tr' c' q t : mpip_new a = Ok s0 -> sized_args a -> Forall sized_event tr -> Forall by_account tr ->
  mpip_new a' = Ok s0' -> sized_args a' -> Forall sized_event tr' -> Forall by_account tr' -> boardq_typed q ->
  board_reply c (w_m (Mpip.wrun (winit s0) tr)) q = Ok t -> board_reply c' (w_m (Mpip.wrun (winit s0') tr')) q = Ok t ->
  board_same c (w_m (Mpip.wrun (winit s0) tr)) c' (w_m (Mpip.wrun (winit s0') tr')) q.
Proof.
  intros H0 Ha Ht Hb H0' Ha' Ht' Hb' Hq H H'. destruct (board_reply_has a s0 tr c q t H0 Ha Ht Hb Hq H) as (v & Hv & _ & E).
  destruct (board_reply_has a' s0' tr' c' q t H0' Ha' Ht' Hb' Hq H') as (v' & Hv' & _ & E'). rewrite E in E'. injection E' as <-.
  exact (board_answers_same _ _ _ _ _ _ Hv Hv').
Qed.
