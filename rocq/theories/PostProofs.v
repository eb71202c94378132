(** PostProofs.v -- C93: the system of texts behaves as the system of values. *)

From Verif Require Export PostSpec.
From Verif Require Import WireProofs WorldProofs WorldSmall MVSized MVSpecSized MVAuth MVPos MpipInv SysProofs.
From RecordUpdate Require Import RecordUpdate.
Import World.

(** ** Texts *)
Lemma esc_digits s n : decimal s n -> esc s = s.
Proof.
  assert (D : forall a, 48 <= N_of_ascii a <= 57 -> forall r, esc_char a r = String a r).
  { intros a H r. unfold esc_char. cbv zeta. repeat match goal with |- context [N_of_ascii a =? ?k] => destruct (N.eqb_spec (N_of_ascii a) k); [lia|] end.
    destruct (N.ltb_spec (N_of_ascii a) 32); [lia|reflexivity]. }
  assert (A : forall s, (forall a, In a (list_ascii_of_string s) -> 48 <= N_of_ascii a <= 57) -> esc s = s).
  { clear s n. induction s as [|a s IH]; intros H; [reflexivity|]. cbn [esc]. rewrite D by (apply H; left; reflexivity).
    rewrite IH by (intros b Hb; apply H; right; exact Hb). reflexivity. }
  intros H. apply A. clear A D. apply decimal_dv in H. revert H. generalize 0 as acc. revert n. induction s as [|a s IH]; intros n acc H b Hb; [destruct Hb|].
  cbn [dv] in H. destruct (is_digit a) eqn:Ea; [|discriminate]. destruct Hb as [<-|Hb]; [apply digit_range; exact Ea|exact (IH _ _ H b Hb)].
Qed.
Lemma big_is n : quote (pretty n) = big n.
Proof. unfold quote, big. rewrite (esc_digits _ n) by apply pretty_numeral. reflexivity. Qed.
Lemma esc_all s : quote s = """" +:+ esc s +:+ """". Proof. reflexivity. Qed.

Ltac texts := unfold transfer_args, args; cbn [write map fst snd]; unfold commas; cbn [String.concat];
  rewrite ?big_is; rewrite ?append_assoc; reflexivity.
Lemma pay_text s sg f : pay_receipt s sg f =
  match f with
  | PayMp v n => mkReceipt (self_id s) (mpdao_addr s) "ft_transfer" (text_transfer v n) 1 sg (Some (text_paid Mp v n)) None
  | PaySt t src v n => mkReceipt (self_id s) t "ft_transfer" (text_transfer v n) 1 sg (Some (text_paid St src n)) None
  end.
Proof.
  destruct f as [v n|t src v n]; unfold pay_receipt, text_transfer, text_paid; do 3 f_equal; texts.
Qed.
Lemma token_text t sg f : token_receipt t sg f =
  match f with OnTransfer s v n m =>
    mkReceipt (t_self t) v "ft_on_transfer" (text_received s n m) 0 sg (Some ("ft_resolve_transfer", text_resolve s v n)) None end.
Proof. destruct f as [s v n m]; unfold token_receipt, text_received, text_resolve; do 3 f_equal; texts. Qed.
Lemma ask_text q : ask_call q = text_ask q.
Proof. destruct q; [reflexivity|]. unfold ask_call, text_ask. f_equal; texts. Qed.
Lemma kind_text k : back_call k = text_kind k.
Proof.
  destruct k as [id|ct|id v vt memo]; unfold back_call, text_kind; try destruct vt; f_equal; unfold show_vote; texts.
Qed.

(** ** Reading them *)
Ltac typ := repeat match goal with
  | |- has (TRec _) _ => apply has_rec
  | |- has (TVec _) _ => apply has_vec
  | |- has _ _ => constructor
  | |- NoDup _ => refine (bool_decide_unpack _ _); exact I
  | |- List.Forall2 _ (_ :: _) (_ :: _) => constructor
  | |- List.Forall2 _ [] [] => constructor
  | |- _ /\ _ => split
  | |- _.1 = _.1 => reflexivity
  | |- has _.2 _.2 => cbn [snd]
  end.
Lemma read_args_ok fs l t : t = args l -> has (TRec fs) (VRec l) -> read_args fs t = Some (map snd l).
Proof. intros -> H. unfold read_args, args. rewrite (json_ok _ _ H). reflexivity. Qed.
Lemma r_received s n m : account_id s -> n < 2 ^ 128 ->
  read_args [("sender_id", TAcc); ("amount", TBig); ("msg", TStr)] (text_received s n m) = Some [VStr s; VBig n; VStr m].
Proof. intros Hs Hn. apply (read_args_ok _ [("sender_id", VStr s); ("amount", VBig n); ("msg", VStr m)]); [cbn [text_paid text_ask snd]; texts|typ; assumption]. Qed.
Lemma r_resolve s v n : account_id s -> account_id v -> n < 2 ^ 128 ->
  read_args [("sender_id", TAcc); ("receiver_id", TAcc); ("amount", TBig)] (text_resolve s v n) = Some [VStr s; VStr v; VBig n].
Proof. intros Hs Hv Hn. apply (read_args_ok _ [("sender_id", VStr s); ("receiver_id", VStr v); ("amount", VBig n)]); [cbn [text_paid text_ask snd]; texts|typ; assumption]. Qed.
Lemma r_transfer v n : account_id v -> n < 2 ^ 128 ->
  read_args [("receiver_id", TAcc); ("amount", TBig); ("memo", TOpt TStr)] (text_transfer v n) = Some [VStr v; VBig n; VNone].
Proof. intros Hv Hn. apply (read_args_ok _ [("receiver_id", VStr v); ("amount", VBig n); ("memo", VNone)]); [cbn [text_paid text_ask snd]; texts|typ; assumption]. Qed.
Lemma r_paid_mp v n : n < 2 ^ 128 -> read_args [("voter_id", TStr); ("amount", TBig)] (text_paid Mp v n).2 = Some [VStr v; VBig n].
Proof. intros Hn. apply (read_args_ok _ [("voter_id", VStr v); ("amount", VBig n)]); [cbn [text_paid text_ask snd]; texts|typ; assumption]. Qed.
Lemma r_paid_st v n : n < 2 ^ 128 -> read_args [("source", TStr); ("amount", TBig)] (text_paid St v n).2 = Some [VStr v; VBig n].
Proof. intros Hn. apply (read_args_ok _ [("source", VStr v); ("amount", VBig n)]); [cbn [text_paid text_ask snd]; texts|typ; assumption]. Qed.
Lemma r_voter v : read_args [("voter_id", TStr)] (text_ask (AskPositions v)).2 = Some [VStr v].
Proof. apply (read_args_ok _ [("voter_id", VStr v)]); [cbn [text_paid text_ask snd]; texts|typ; assumption]. Qed.

(** what a callback of the proposal contract must hold *)
Definition kind_ok (k : pkind) : Prop :=
  match k with KStart id => id < 2 ^ 32 | KCreate _ => True | KVote id v _ _ => id < 2 ^ 32 /\ account_id v end.
Lemma r_back r k : rc_method r = (text_kind k).1 -> rc_args r = (text_kind k).2 -> kind_ok k -> read_back r = Some (Some k).
Proof.
  intros Hm Ha Hk. unfold read_back. rewrite Hm, Ha. rewrite <- kind_text. destruct k as [id|[t s b d e]|id v vt memo]; cbn [back_call fst snd]; cbv zeta.
  - rewrite bool_decide_eq_true_2 by reflexivity. rewrite (read_args_ok _ _ _ eq_refl) by (typ; exact Hk). reflexivity.
  - rewrite bool_decide_eq_false_2 by discriminate. rewrite bool_decide_eq_true_2 by reflexivity.
    rewrite (read_args_ok _ _ _ eq_refl) by typ. reflexivity.
  - destruct Hk as [Hk Hv]. rewrite !bool_decide_eq_false_2 by discriminate. rewrite bool_decide_eq_true_2 by reflexivity.
    rewrite (read_args_ok _ _ _ eq_refl) by (typ; try assumption; destruct vt; cbn; tauto). destruct vt; reflexivity.
Qed.

(** ** Answers *)
Lemma read_show_u128 n : n < 2 ^ 128 -> read_u128 (show_u128 n) = Some n.
Proof. intros H. unfold read_u128, show_u128. rewrite (json_ok TBig (VBig n)) by (constructor; exact H). reflexivity. Qed.
Definition lpj_ok (j : lp_json) : Prop :=
  N.of_nat (j_index j) < 2 ^ 64 /\ j_amount j < 2 ^ 128 /\ j_days j < 2 ^ 16 /\ j_vp j < 2 ^ 128 /\
  match j_unl j with Some t => t < 2 ^ 64 | None => True end.
Lemma pos_has j : lpj_ok j -> has POSITION (pos_val j).
Proof.
  intros (H1 & H2 & H3 & H4 & H5). unfold POSITION, pos_val. typ; try assumption; try exact I. unfold opt_num. destruct (j_unl j); typ; try assumption; exact I.
Qed.
Lemma val_pos_val j : val_pos (pos_val j) = Some (to_lpj j).
Proof. unfold pos_val, to_lpj. cbn. destruct (j_unl j); reflexivity. Qed.
Lemma read_show_positions l : Forall lpj_ok l -> read_positions (show_positions l) = Some (map to_lpj l).
Proof.
  intros H. unfold read_positions, show_positions. rewrite (json_ok (TVec POSITION) (VList (map pos_val l))).
  - clear H. induction l as [|j l IH]; [reflexivity|]. cbn [map mapM]. rewrite val_pos_val, IH. reflexivity.
  - constructor. induction H as [|j l Hj _ IH]; constructor; [apply pos_has; exact Hj|exact IH].
Qed.
Lemma u128_no_positions n : read_positions (show_u128 n) = None.
Proof. reflexivity. Qed.
Lemma positions_no_u128 l : read_u128 (show_positions l) = None.
Proof. reflexivity. Qed.
Lemma positions_ok a s0 h now v : mv_new a = Ok s0 -> Forall sized_call h -> Forall lpj_ok (get_all_locking_positions now (run s0 h) v).
Proof.
  intros H0 Hh. pose proof (c88_stored a s0 h H0 Hh) as S. destruct S as (_ & _ & _ & _ & _ & _ & _ & S & _). destruct (S v) as (_ & P & _).
  cbn [observe l_acct acct_of a_pos] in P. pose proof (positions_count a s0 h v H0) as [C1 C2]. unfold get_all_locking_positions in *.
  set (l := v_lps (get_voter (run s0 h) v)) in *. clearbody l. apply Forall_lookup. intros i j Hj. rewrite list_lookup_imap in Hj.
  destruct (l !! i) as [p|] eqn:E; [|discriminate]. injection Hj as <-. apply lookup_lt_Some in E as Hl.
  rewrite Forall_lookup in P. specialize (P i (pos_of (lp_to_json 0 i p))). rewrite list_lookup_fmap, list_lookup_imap, E in P.
  specialize (P eq_refl). destruct P as (P1 & P2 & P3 & P4). unfold lpj_ok, lp_to_json. cbn in *. unfold fits128, fits16, fits64 in *.
  split; [lia|]. split; [exact P1|]. split; [exact P2|]. split; [exact P3|]. destruct (lp_unl p); [apply P4|exact I].
Qed.

(** ** The invariant *)
Definition pend_ok (p : pend) : Prop :=
  match p with
  | PDeliver _ s v n _ | PResolve _ s v n _ => account_id s /\ account_id v /\ n < 2 ^ 128
  | PPay _ _ _ v n => account_id v /\ n < 2 ^ 128
  | PBack _ _ n _ => n < 2 ^ 128
  end.
Definition ask_ok (q : pending * option answer) : Prop := kind_ok (pd_kind q.1).
Definition names (x : net) := (self_id (n_mv x), t_self (n_mp x), t_self (n_st x), m_self (n_board x)).
Definition reach (s : state) : Prop := exists a s0 h, mv_new a = Ok s0 /\ Forall sized_call h /\ s = run s0 h.
Definition differ (x : net) : Prop :=
  self_id (n_mv x) <> t_self (n_mp x) /\ self_id (n_mv x) <> t_self (n_st x) /\ t_self (n_mp x) <> t_self (n_st x) /\
  m_self (n_board x) <> self_id (n_mv x) /\ m_self (n_board x) <> t_self (n_mp x) /\ m_self (n_board x) <> t_self (n_st x).
Record SIM (x : net) (y : system) (lost : list receipt) : Prop := {
  sim_c : same_contracts x y;
  sim_m : same_mail x y lost;
  sim_l : Forall (lost_callback (m_self (y_board y))) lost;
  sim_p : Forall pend_ok (w_pend (y_world y));
  sim_a : Forall ask_ok (y_asks y);
  sim_r : reach (n_mv x);
  sim_t : TI (n_mp x) /\ TI (n_st x);
  sim_n : differ x;
}.

Lemma reach_step s x : reach s -> sized_call x -> reach (step s x).
Proof.
  intros (a & s0 & h & H0 & Hh & ->) Hx. exists a, s0, (h ++ [x]). split; [exact H0|]. split; [apply Forall_app; split; [exact Hh|constructor; [exact Hx|constructor]]|].
  unfold run. rewrite fold_left_app. reflexivity.
Qed.
Lemma reach_exec c s o s' e : reach s -> sized_call (c, o) -> exec c s o = Ok (s', e) -> reach s'.
Proof. intros Hr Hx H. pose proof (reach_step s (c, o) Hr Hx) as R. unfold step in R. cbn [fst snd] in R. rewrite H in R. exact R. Qed.
Lemma reach_sent c s o s' e : reach s -> sized_call (c, o) -> exec c s o = Ok (s', e) -> Forall sized_eff e.
Proof. intros (a & s0 & h & H0 & Hh & ->) Hx H. exact (c88_sent a s0 h (c, o) s' e H0 Hh Hx H). Qed.
Lemma exec_self c s o s' e : exec c s o = Ok (s', e) -> self_id s' = self_id s.
Proof. intros H. apply exec_consts, consts_of in H. apply H. Qed.
Lemma step_self s x : self_id (step s x) = self_id s.
Proof. unfold step. destruct (exec x.1 s x.2) as [[s' e]|] eqn:E; [exact (exec_self _ _ _ _ _ E)|reflexivity]. Qed.
Lemma letter_ids w w' p r : self_id (w_mv w') = self_id (w_mv w) -> t_self (w_mp w') = t_self (w_mp w) -> t_self (w_st w') = t_self (w_st w) ->
  letter w p r -> letter w' p r.
Proof.
  intros E1 E2 E3. assert (E : forall k, t_self (tok_of w' k) = t_self (tok_of w k)) by (intros []; assumption).
  unfold letter. cbv zeta. rewrite E1. destruct p; rewrite ?E; auto.
Qed.

(** the voting contract and the tokens move, receipts [rs] are sent *)
Lemma sim_world x y lost x' w' ps rs : SIM x y lost ->
  n_mv x' = w_mv w' -> n_mp x' = w_mp w' -> n_st x' = w_st w' -> n_board x' = n_board x ->
  self_id (n_mv x') = self_id (n_mv x) -> t_self (n_mp x') = t_self (n_mp x) -> t_self (n_st x') = t_self (n_st x) ->
  w_pend w' = w_pend (y_world y) ++ ps -> n_mail x' = n_mail x ++ rs ->
  List.Forall2 (letter (y_world y)) ps rs -> Forall pend_ok ps -> reach (n_mv x') -> TI (n_mp x') -> TI (n_st x') ->
  SIM x' (mkSystem w' (y_board y) (y_asks y)) lost.
Proof.
  intros [C M L P A R T D] E1 E2 E3 E4 I1 I2 I3 Ep Em Hl Hp Hr T1 T2. destruct C as (C1 & C2 & C3 & C4). constructor; cbn [y_world y_board y_asks].
  - repeat split; cbn [y_world y_board]; congruence.
  - destruct M as (l1 & l2 & M1 & M2 & M3). exists (l1 ++ rs), l2. cbn [y_world y_board y_asks]. rewrite Em, Ep. split; [|split; [|exact M3]].
    + rewrite <- !app_assoc. rewrite (Permutation_app_comm rs), (Permutation_app_comm rs), !app_assoc. apply Permutation_app_tail, M1.
    + apply Forall2_app; (eapply Forall2_impl; [eassumption|]); intros p r; apply letter_ids; congruence.
  - exact L.
  - rewrite Ep. apply Forall_app. split; assumption.
  - exact A.
  - exact Hr.
  - split; assumption.
  - unfold differ in *. rewrite I1, I2, I3, E4. exact D.
Qed.

(** ** Calls from outside *)
Lemma paying s w c e : s = w_mv w -> (forall f, In f e -> match f with PayMp v n => account_id v /\ n < 2 ^ 128 | PaySt _ _ v n => account_id v /\ n < 2 ^ 128 end) ->
  List.Forall2 (letter w) (map (pend_of s) e) (map (pay_receipt s c) e) /\ Forall pend_ok (map (pend_of s) e).
Proof.
  intros -> H. split.
  - induction e as [|f e IH]; [constructor|]. cbn [map]. constructor; [|apply IH; intros g Hg; apply H; right; exact Hg].
    rewrite pay_text. destruct f; exists c; reflexivity.
  - induction e as [|f e IH]; [constructor|]. cbn [map]. constructor; [|apply IH; intros g Hg; apply H; right; exact Hg].
    specialize (H f (or_introl eq_refl)). destruct f; exact H.
Qed.
Lemma sim_mv x y lost z : SIM x y lost -> typed x (XMv z) -> SIM (xstep x (XMv z)) (ystep y (YWorld (EMv z))) lost.
Proof.
  intros S [(Ha & O1 & O2 & O3) Hz]. destruct z as [c o]. cbn [fst snd] in *. pose proof (sim_c _ _ _ S) as (C1 & C2 & C3 & C4).
  cbn [xstep ystep wstep fst snd]. unfold is_contract. rewrite <- C1, <- C2, <- C3. rewrite !bool_decide_eq_false_2 by assumption. cbn [orb].
  destruct (exec c (n_mv x) o) as [[s' e]|m] eqn:E; [|destruct y; exact S].
  pose proof (reach_sent _ _ _ _ _ (sim_r _ _ _ S) Hz E) as Hs.
  destruct (paying (n_mv x) (y_world y) (c_signer c) e C1) as [F1 F2].
  { intros f Hf. rewrite List.Forall_forall in Hs. specialize (Hs f Hf). pose proof (exec_effs _ _ _ _ _ f E Hf) as G. destruct f; destruct G as [G1 G2]; subst; split; assumption. }
  eapply (sim_world x y lost _ _ _ _ S); try exact F1; try exact F2; cbn; try reflexivity; try congruence.
  - exact (exec_self _ _ _ _ _ E).
  - exact (reach_exec _ _ _ _ _ (sim_r _ _ _ S) Hz E).
  - apply (sim_t _ _ _ S).
  - apply (sim_t _ _ _ S).
Qed.
Lemma sim_tok x y lost k z : SIM x y lost -> typed x (XTok k z) -> SIM (xstep x (XTok k z)) (ystep y (YWorld (ETok k z))) lost.
Proof.
  intros S [(Ha & O1 & O2 & O3) Hz]. destruct z as [c o]. cbn [fst snd] in *. pose proof (sim_c _ _ _ S) as (C1 & C2 & C3 & C4).
  cbn [xstep ystep wstep fst snd]. unfold is_contract. rewrite <- C1, <- C2, <- C3. rewrite !bool_decide_eq_false_2 by assumption. cbn [orb].
  assert (Ek : tok_of (y_world y) k = ntok x k) by (destruct k; cbn; congruence). rewrite Ek.
  destruct (t_exec c (ntok x k) o) as [[t' e]|m] eqn:E; [|destruct y; exact S].
  destruct (sim_t _ _ _ S) as [T1 T2]. assert (T : TI (ntok x k)) by (destruct k; assumption).
  destruct (t_exec_spec (c, o) _ _ _ T E) as (T' & _ & _ & _ & I' & _).
  assert (G : forall f, In f e -> match f with OnTransfer s r n m => account_id s /\ account_id r /\ n < 2 ^ 128 end).
  { destruct o; cbn [t_exec] in E; unfold noteff in E; try (apply bind_Ok in E as (t1 & _ & E); injection E as _ <-; intros f []; fail).
    apply bind_Ok in E as (t1 & _ & E). injection E as _ <-. intros f [<-|[]]. split; [exact Ha|exact Hz]. }
  assert (F1 : List.Forall2 (letter (y_world y)) (map (tpend_of k) e) (map (token_receipt (ntok x k) (c_signer c)) e)).
  { clear G E. induction e as [|f e IH]; [constructor|]. cbn [map]. constructor; [|exact IH]. rewrite token_text. destruct f. exists (c_signer c). rewrite Ek. reflexivity. }
  assert (F2 : Forall pend_ok (map (tpend_of k) e)).
  { clear F1 E. induction e as [|f e IH]; [constructor|]. cbn [map]. constructor; [|apply IH; intros g Hg; apply G; right; exact Hg].
    specialize (G f (or_introl eq_refl)). destruct f; exact G. }
  pose proof (sim_r _ _ _ S).
  eapply (sim_world x y lost _ _ _ _ S); try exact F1; try exact F2; destruct k; cbn in *; try reflexivity; try congruence; assumption.
Qed.

Lemma mcall_self c s o s' out : mcall c s o = Ok (s', out) -> m_self s' = m_self s.
Proof.
  intros H. destruct o; cbn [mcall] in H;
    cbv [update_open update_operator_role update_admin_role pay_to_account update_meta_vote_address update_voting_period update_min_meta
      update_min_vp update_storage update_quorum_floor start_voting_period create_proposal cancel_proposal update_proposal vote_proposal
      remove_vote_proposal process_voting_status] in H; cbv zeta in H; rinv; try reflexivity;
    repeat match type of H with context [if ?b then _ else _] => destruct b end; rinv; try reflexivity;
    repeat match type of H with context [if ?b then _ else _] => destruct b end; rinv; try reflexivity.
  repeat match type of H with context [if ?b then _ else _] => destruct b end; rinv; reflexivity.
Qed.
Lemma mcallback_self c s k a s' : mcallback c s k a = Ok s' -> m_self s' = m_self s.
Proof.
  intros H. destruct k; cbn [mcallback] in H; unfold start_callback, create_callback, vote_callback in H; cbv zeta in H; rinv; reflexivity.
Qed.
Lemma mcall_kind c s o s' p : match o with StartVoting id | VoteProposal id _ _ => id < 2 ^ 32 | _ => True end -> account_id (c_pred c) ->
  mcall c s o = Ok (s', OAsk p) -> kind_ok (pd_kind p).
Proof.
  intros Ho Ha H. apply mcall_asks in H. destruct H as (_ & _ & _ & H). destruct (pd_kind p) as [id|ct|id v vt memo]; cbn [kind_ok].
  - destruct H as [-> _]. exact Ho.
  - exact I.
  - destruct H as (-> & -> & _). split; assumption.
Qed.

(** the proposal contract moves, questions are sent *)
Lemma sim_gov x y lost x' b' qs rs : SIM x y lost ->
  n_mv x' = n_mv x -> n_mp x' = n_mp x -> n_st x' = n_st x -> n_board x' = b' -> m_self b' = m_self (n_board x) ->
  n_mail x' = n_mail x ++ rs -> List.Forall2 (ask_letter (m_self (n_board x))) qs rs -> Forall ask_ok qs ->
  SIM x' (mkSystem (y_world y) b' (y_asks y ++ qs)) lost.
Proof.
  intros [C M L P A R T D] E1 E2 E3 E4 I Em Hl Hp. destruct C as (C1 & C2 & C3 & C4). constructor; cbn [y_world y_board y_asks].
  - repeat split; cbn [y_world y_board]; congruence.
  - destruct M as (l1 & l2 & M1 & M2 & M3). exists l1, (l2 ++ rs). cbn [y_world y_board y_asks]. rewrite Em, I. split; [|split; [exact M2|]].
    + rewrite <- !app_assoc. rewrite (Permutation_app_comm rs), !app_assoc. apply Permutation_app_tail, M1.
    + rewrite C4 in Hl |- *. apply Forall2_app; assumption.
  - rewrite I, C4. exact L.
  - exact P.
  - apply Forall_app. split; assumption.
  - rewrite E1. exact R.
  - rewrite E2, E3. exact T.
  - unfold differ in *. rewrite E1, E2, E3, E4, I. exact D.
Qed.
Lemma sim_board x y lost c o : SIM x y lost -> typed x (XBoard c o) -> SIM (xstep x (XBoard c o)) (ystep y (YCall c o)) lost.
Proof.
  intros S [Ha Ho]. pose proof (sim_c _ _ _ S) as (C1 & C2 & C3 & C4). cbn [xstep ystep]. unfold with_gov, gov_of. cbn [gstep g_m g_mv g_pend].
  rewrite <- C4. destruct (mcall c (n_board x) o) as [[b' out]|m] eqn:E; [|cbn [g_m g_pend]; rewrite C4; destruct y; exact S].
  pose proof (mcall_self _ _ _ _ _ E) as I. destruct out as [|p|a n]; cbn [g_m g_pend].
  - rewrite <- (app_nil_r (y_asks y)). eapply (sim_gov x y lost _ _ _ [] S); cbn; try reflexivity; try assumption; [symmetry; apply app_nil_r|constructor|constructor].
  - eapply (sim_gov x y lost _ _ _ [ask_receipt (n_board x) p] S); cbn; try reflexivity; try assumption.
    + constructor; [|constructor]. unfold ask_letter, ask_receipt. cbn [fst snd]. rewrite ask_text, kind_text. reflexivity.
    + constructor; [|constructor]. exact (mcall_kind _ _ _ _ _ Ho Ha E).
  - rewrite <- (app_nil_r (y_asks y)). eapply (sim_gov x y lost _ _ _ [] S); cbn; try reflexivity; try assumption; [symmetry; apply app_nil_r|constructor|constructor].
Qed.

(** ** Taking a receipt out *)
Lemma mail_take (mail lost l1 l2 : list receipt) i r : Permutation (mail ++ lost) (l1 ++ l2) -> mail !! i = Some r ->
  (exists j, l1 !! j = Some r /\ Permutation (delete i mail ++ lost) (delete j l1 ++ l2)) \/
  (exists j, l2 !! j = Some r /\ Permutation (delete i mail ++ lost) (l1 ++ delete j l2)).
Proof.
  intros H Hi. rewrite (delete_Permutation _ _ _ Hi) in H. cbn [app] in H.
  assert (Hr : r ∈ l1 ++ l2) by (rewrite <- H; left). apply elem_of_app in Hr as [Hr|Hr]; apply elem_of_list_lookup in Hr as (j & Hj); [left|right]; exists j; (split; [exact Hj|]); rewrite (delete_Permutation _ _ _ Hj) in H.
  - exact (Permutation_cons_inv H).
  - rewrite <- Permutation_middle in H. exact (Permutation_cons_inv H).
Qed.
Lemma Forall2_del {A B} (R : A -> B -> Prop) l k j : List.Forall2 R l k -> List.Forall2 R (delete j l) (delete j k).
Proof. intros H. revert j. induction H as [|a b l k Hab H IH]; intros j; [constructor|]. destruct j; [exact H|]. constructor; [exact Hab|apply IH]. Qed.
Lemma Forall_del {A} (P : A -> Prop) l j : Forall P l -> Forall P (delete j l).
Proof. intros H. revert j. induction H as [|a l Ha H IH]; intros j; [constructor|]. destruct j; [exact H|]. constructor; [exact Ha|apply IH]. Qed.
Lemma sim_take x y lost i r : SIM x y lost -> n_mail x !! i = Some r ->
  (exists j p, w_pend (y_world y) !! j = Some p /\ letter (y_world y) p r /\ pend_ok p /\
     SIM (mkNet (n_mv x) (n_mp x) (n_st x) (n_board x) (delete i (n_mail x)))
       (mkSystem (mkWorld (w_mv (y_world y)) (w_mp (y_world y)) (w_st (y_world y)) (delete j (w_pend (y_world y)))) (y_board y) (y_asks y)) lost) \/
  (exists j q, y_asks y !! j = Some q /\ ask_letter (m_self (y_board y)) q r /\ ask_ok q /\
     SIM (mkNet (n_mv x) (n_mp x) (n_st x) (n_board x) (delete i (n_mail x))) (mkSystem (y_world y) (y_board y) (delete j (y_asks y))) lost).
Proof.
  intros [C M L P A R T D] Hi. destruct M as (l1 & l2 & M1 & M2 & M3). destruct (mail_take _ _ _ _ _ _ M1 Hi) as [(j & Hj & H)|(j & Hj & H)]; [left|right].
  - destruct (Forall2_lookup_r _ _ _ _ _ M2 Hj) as (p & Hp & Hl). exists j, p. split; [exact Hp|]. split; [exact Hl|].
    split; [exact (Forall_lookup_1 _ _ _ _ P Hp)|]. constructor; try assumption.
    + exists (delete j l1), l2. cbn. split; [exact H|]. split; [|exact M3]. apply Forall2_del. eapply Forall2_impl; [exact M2|].
      intros q s. apply letter_ids; reflexivity.
    + apply Forall_del, P.
  - destruct (Forall2_lookup_r _ _ _ _ _ M3 Hj) as (p & Hp & Hl). exists j, p. split; [exact Hp|]. split; [exact Hl|].
    split; [exact (Forall_lookup_1 _ _ _ _ A Hp)|]. constructor; try assumption.
    + exists l1, (delete j l2). cbn. split; [exact H|]. split; [exact M2|]. apply Forall2_del, M3.
    + apply Forall_del, A.
Qed.

(** ** Receipts between the voting contract and the tokens *)
Lemma sim_send x y lost w' ps rs : SIM x y lost -> w_mv w' = w_mv (y_world y) -> w_mp w' = w_mp (y_world y) -> w_st w' = w_st (y_world y) ->
  w_pend w' = w_pend (y_world y) ++ ps -> List.Forall2 (letter (y_world y)) ps rs -> Forall pend_ok ps ->
  SIM (send x rs) (mkSystem w' (y_board y) (y_asks y)) lost.
Proof.
  intros S E1 E2 E3 Ep F1 F2. pose proof (sim_c _ _ _ S) as (C1 & C2 & C3 & C4). destruct (sim_t _ _ _ S) as [T1 T2]. pose proof (sim_r _ _ _ S).
  eapply (sim_world x y lost (send x rs) w' ps rs S); cbn; try reflexivity; try congruence; assumption.
Qed.
Lemma one2 {A B} (R : A -> B -> Prop) a b : R a b -> List.Forall2 R [a] [b].
Proof. intros H. constructor; [exact H|constructor]. Qed.
Lemma one1 {A} (P : A -> Prop) a : P a -> Forall P [a].
Proof. intros H. constructor; [exact H|constructor]. Qed.
Lemma received_zero c s sender n msg s' u : ft_on_transfer c s sender n msg = Ok (s', u) -> u = 0.
Proof.
  intros H. unfold ft_on_transfer in H. cbv zeta in H. rinv.
  repeat match type of H with context [if ?b then _ else _] => destruct b end; rinv; try reflexivity.
Qed.

Section one.
Variables (x : net) (y : system) (lost : list receipt) (c : ctx) (fail : bool) (alt : option string).
Hypotheses (S : SIM x y lost) (Ht : c_ts c < 2 ^ 64).
Definition runs (p : pend) (r : receipt) : Prop := exists c' f ans,
  c_ts c' = c_ts c /\ c_json_pair c' = c_json_pair c /\ c_json_claims c' = c_json_claims c /\ (f = fail \/ f = true /\ alt = None) /\
  SIM (deliver x r c fail alt) (mkSystem (run_pend (y_world y) p c' f ans) (y_board y) (y_asks y)) lost.

Lemma run_deliver k s v n m r : letter (y_world y) (PDeliver k s v n m) r -> pend_ok (PDeliver k s v n m) -> runs (PDeliver k s v n m) r.
Proof.
  intros [sg ->] (Hs & Hv & Hn). pose proof (sim_c _ _ _ S) as (C1 & C2 & C3 & C4).
  assert (Ek : t_self (tok_of (y_world y) k) = t_self (ntok x k)) by (destruct k; cbn; congruence).
  exists (mkCtx (c_pred c) sg (c_deposit c) (c_ts c) (c_json_pair c) (c_json_claims c)), fail, (if fail then None else alt ≫= read_u128).
  split; [reflexivity|]. split; [reflexivity|]. split; [reflexivity|]. split; [left; reflexivity|].
  assert (N : forall o u, u = match o with Some t => read_u128 t | None => None end ->
    letter (y_world y) (PResolve k s v n u) (mkReceipt (t_self (tok_of (y_world y) k)) (t_self (tok_of (y_world y) k)) "ft_resolve_transfer" (text_resolve s v n) 0 sg None (Some o))).
  { intros o u Hu. exists sg, o. split; [reflexivity|exact Hu]. }
  assert (G : pend_ok (PResolve k s v n (match (if fail then None else alt) with Some t => read_u128 t | None => None end))) by (split; [exact Hs|split; assumption]).
  unfold deliver, run_pend. cbn [rc_from rc_to rc_signer rc_deposit rc_then rc_method rc_args]. rewrite <- C1.
  destruct fail.
  - apply (sim_send _ _ _ _ [PResolve k s v n None] _ S); try (destruct (bool_decide (v = self_id (n_mv x))); reflexivity).
    + apply one2, N. reflexivity.
    + apply one1. exact G.
  - destruct (bool_decide_reflect (v = self_id (n_mv x))) as [Hm|Hm].
    + unfold mv_method. cbn [rc_method rc_args]. cbv zeta. rewrite bool_decide_eq_true_2 by reflexivity. rewrite r_received by assumption.
      unfold called_by. cbn [c_signer c_ts c_json_pair c_json_claims].
      set (cc := mkCtx _ _ _ _ _ _). destruct (ft_on_transfer cc (n_mv x) s n m) as [[s' u]|e] eqn:E; cbn [mbind res_bind ended].
      * pose proof (received_zero _ _ _ _ _ _ _ E) as ->.
        assert (Ex : exec cc (n_mv x) (FtOnTransfer s n m) = Ok (s', [])) by (cbn [exec]; rewrite E; reflexivity).
        destruct (sim_t _ _ _ S) as [T1 T2].
        eapply (sim_world x y lost _ _ [PResolve k s v n (Some 0)] [_] S); cbn; try reflexivity; try congruence; try assumption.
        -- exact (exec_self _ _ _ _ _ Ex).
        -- apply one2, N. reflexivity.
        -- apply one1. split; [exact Hs|split; assumption].
        -- refine (reach_exec _ _ _ _ _ (sim_r _ _ _ S) _ Ex). split; [exact Ht|]. split; [reflexivity|exact Hn].
      * apply (sim_send _ _ _ _ [PResolve k s v n None] _ S); try reflexivity.
        -- apply one2, N. reflexivity.
        -- apply one1. split; [exact Hs|split; assumption].
    + assert (X : SIM (send x (reply (mkReceipt (t_self (tok_of (y_world y) k)) v "ft_on_transfer" (text_received s n m) 0 sg
          (Some ("ft_resolve_transfer", text_resolve s v n)) None) alt)) (mkSystem (set w_pend (fun _ => w_pend (y_world y) ++ [PResolve k s v n (alt ≫= read_u128)]) (y_world y)) (y_board y) (y_asks y)) lost).
      { apply (sim_send _ _ _ _ [PResolve k s v n (alt ≫= read_u128)] _ S); try reflexivity.
        - apply one2, N. destruct alt; reflexivity.
        - apply one1. split; [exact Hs|split; assumption]. }
      repeat match goal with |- context [if bool_decide (v = ?a) then _ else _] => destruct (bool_decide_reflect (v = a)) end; exact X.
Qed.

Lemma run_resolve k s v n u r : letter (y_world y) (PResolve k s v n u) r -> pend_ok (PResolve k s v n u) -> runs (PResolve k s v n u) r.
Proof.
  intros (sg & o & -> & Hu) (Hs & Hv & Hn). pose proof (sim_c _ _ _ S) as (C1 & C2 & C3 & C4). pose proof (sim_n _ _ _ S) as (D1 & D2 & D3 & _).
  assert (Ek : tok_of (y_world y) k = ntok x k) by (destruct k; cbn; congruence).
  exists (mkCtx (c_pred c) sg (c_deposit c) (c_ts c) (c_json_pair c) (c_json_claims c)), fail, None.
  split; [reflexivity|]. split; [reflexivity|]. split; [reflexivity|]. split; [left; reflexivity|].
  unfold deliver, run_pend. cbn [rc_from rc_to rc_signer rc_deposit]. rewrite Ek. unfold called_by. cbn [c_signer c_ts c_json_pair c_json_claims].
  destruct fail; [apply (sim_send _ _ _ _ [] _ S); try constructor; symmetry; apply app_nil_r|].
  set (cc := mkCtx _ _ _ _ _ _). destruct (sim_t _ _ _ S) as [T1 T2]. pose proof (sim_r _ _ _ S) as R.
  assert (Hr : forall t, tok_method cc t (mkReceipt (t_self (ntok x k)) (t_self (ntok x k)) "ft_resolve_transfer" (text_resolve s v n) 0 sg None (Some o)) =
    Some ('(t', _) ← t_exec cc t (TResolve s v n u); Ok (t', EmptyString))).
  { intros t. unfold tok_method. cbn [rc_method rc_args rc_result]. cbv zeta. rewrite bool_decide_eq_false_2 by discriminate.
    rewrite bool_decide_eq_true_2 by reflexivity. rewrite r_resolve by assumption. rewrite Hu. destruct o; reflexivity. }
  assert (Tk : TI (ntok x k)) by (destruct k; assumption).
  assert (X : SIM match t_exec cc (ntok x k) (TResolve s v n u) with Ok (t', _) => send (set_ntok x k t') [] | Panic _ => send x [] end
     (mkSystem (set_tok (y_world y) k (t_step (ntok x k) (cc, TResolve s v n u))) (y_board y) (y_asks y)) lost).
  { unfold t_step. cbn [fst snd]. destruct (t_exec cc (ntok x k) (TResolve s v n u)) as [[t' e]|e] eqn:E.
    - destruct (t_exec_spec (cc, _) _ _ _ Tk E) as (T' & _ & _ & _ & I' & _).
      eapply (sim_world x y lost _ _ [] [] S); destruct k; cbn in *; try reflexivity; try congruence; try assumption; try constructor; symmetry; apply app_nil_r.
    - apply (sim_send _ _ _ _ [] _ S); try (destruct k; cbn in *; congruence); try constructor. rewrite app_nil_r. destruct k; reflexivity. }
  destruct k; cbn [ntok] in *.
  - rewrite bool_decide_eq_false_2 by congruence. rewrite bool_decide_eq_true_2 by reflexivity. rewrite Hr.
    destruct (t_exec cc (n_mp x) (TResolve s v n u)) as [[t' e]|e]; exact X.
  - rewrite !bool_decide_eq_false_2 by congruence. rewrite bool_decide_eq_true_2 by reflexivity. rewrite Hr.
    destruct (t_exec cc (n_st x) (TResolve s v n u)) as [[t' e]|e]; exact X.
Qed.

Lemma run_pay cb token src v n r : letter (y_world y) (PPay cb token src v n) r -> pend_ok (PPay cb token src v n) -> runs (PPay cb token src v n) r.
Proof.
  intros (sg & ->) (Hv & Hn). pose proof (sim_c _ _ _ S) as (C1 & C2 & C3 & C4). pose proof (sim_n _ _ _ S) as (D1 & D2 & D3 & _).
  destruct (sim_t _ _ _ S) as [T1 T2]. pose proof (sim_r _ _ _ S) as R. unfold runs. rewrite <- C1.
  set (rr := mkReceipt _ _ _ _ _ _ _ _).
  assert (N : forall o (b : bool), (b = true <-> o <> None) -> List.Forall2 (letter (y_world y)) [PBack cb src n b] (reply rr o)).
  { intros o b Hb. unfold rr. rewrite C1. destruct cb; (apply one2; exists sg, o; split; [reflexivity|exact Hb]). }
  assert (P : forall b, Forall pend_ok [PBack cb src n b]) by (intros b; apply one1; exact Hn).
  assert (K : forall k, token = t_self (ntok x k) -> exists c' f ans,
     c_ts c' = c_ts c /\ c_json_pair c' = c_json_pair c /\ c_json_claims c' = c_json_claims c /\ (f = fail \/ f = true /\ alt = None) /\
     SIM (deliver x rr c fail alt) (mkSystem (run_pend (y_world y) (PPay cb token src v n) c' f ans) (y_board y) (y_asks y)) lost).
  { intros k Hk. exists (mkCtx (c_pred c) sg (c_deposit c) (c_ts c) (c_json_pair c) (c_json_claims c)), fail, None.
    split; [reflexivity|]. split; [reflexivity|]. split; [reflexivity|]. split; [left; reflexivity|].
    assert (W : (if bool_decide (token = t_self (w_mp (y_world y))) then Some Mp
             else if bool_decide (token = t_self (w_st (y_world y))) then Some St else None) = Some k).
    { rewrite <- C2, <- C3. destruct k; cbn [ntok] in Hk; [rewrite bool_decide_eq_true_2 by exact Hk; reflexivity|].
      rewrite bool_decide_eq_false_2 by congruence. rewrite bool_decide_eq_true_2 by exact Hk. reflexivity. }
    unfold run_pend. rewrite W. rewrite <- C1. unfold deliver. replace (rc_to rr) with token by reflexivity.
    destruct fail; [apply (sim_send _ _ _ _ [PBack cb src n false] _ S); try reflexivity; [apply N; split; congruence|apply P]|].
    unfold called_by. cbn [c_signer c_ts c_json_pair c_json_claims]. replace (rc_from rr) with (self_id (n_mv x)) by reflexivity.
    replace (rc_signer rr) with sg by reflexivity. replace (rc_deposit rr) with 1 by reflexivity. set (cc := mkCtx _ _ _ _ _ _).
    assert (Ek : tok_of (y_world y) k = ntok x k) by (destruct k; cbn; congruence). rewrite Ek.
    assert (Hr : forall t, tok_method cc t rr = Some ('(t', _) ← t_exec cc t (TTransfer v n); Ok (t', EmptyString))).
    { intros t. unfold tok_method, rr. cbn [rc_method rc_args rc_result]. cbv zeta. rewrite bool_decide_eq_true_2 by reflexivity.
      rewrite r_transfer by assumption. reflexivity. }
    assert (Tk : TI (ntok x k)) by (destruct k; assumption).
    assert (X : SIM match t_exec cc (ntok x k) (TTransfer v n) with Ok (t', _) => send (set_ntok x k t') (reply rr (Some EmptyString)) | Panic _ => send x (reply rr None) end
       (mkSystem match t_exec cc (ntok x k) (TTransfer v n) with
            | Ok (t', _) => set_tok (y_world y) k t' <| w_pend := w_pend (y_world y) ++ [PBack cb src n true] |>
            | Panic _ => y_world y <| w_pend := w_pend (y_world y) ++ [PBack cb src n false] |>
            end (y_board y) (y_asks y)) lost).
    { destruct (t_exec cc (ntok x k) (TTransfer v n)) as [[t' e]|e] eqn:E.
      - destruct (t_exec_spec (cc, _) _ _ _ Tk E) as (T' & _ & _ & _ & I' & _).
        eapply (sim_world x y lost _ _ [PBack cb src n true] (reply rr (Some EmptyString)) S); try (destruct k; cbn in *; try reflexivity; try congruence; assumption);
          [apply N; split; congruence|apply P].
      - apply (sim_send _ _ _ _ [PBack cb src n false] _ S); try reflexivity; [apply N; split; congruence|apply P]. }
    destruct k; cbn [ntok] in *.
    - rewrite bool_decide_eq_false_2 by congruence. rewrite bool_decide_eq_true_2 by exact Hk. rewrite Hr.
      destruct (t_exec cc (n_mp x) (TTransfer v n)) as [[t' e]|e]; exact X.
    - rewrite !bool_decide_eq_false_2 by congruence. rewrite bool_decide_eq_true_2 by exact Hk. rewrite Hr.
      destruct (t_exec cc (n_st x) (TTransfer v n)) as [[t' e]|e]; exact X. }
  destruct (decide (token = t_self (n_mp x))) as [H1|H1]; [exact (K Mp H1)|].
  destruct (decide (token = t_self (n_st x))) as [H2|H2]; [exact (K St H2)|].
  exists (mkCtx (c_pred c) sg (c_deposit c) (c_ts c) (c_json_pair c) (c_json_claims c)), (fail || negb (arrived alt))%bool, None.
  split; [reflexivity|]. split; [reflexivity|]. split; [reflexivity|].
  split; [destruct fail; [left; reflexivity|]; destruct alt; [left; reflexivity|right; split; reflexivity]|].
  unfold run_pend. rewrite <- C2, <- C3. rewrite !bool_decide_eq_false_2 by assumption. unfold deliver. replace (rc_to rr) with token by reflexivity.
  destruct fail; cbn [orb negb].
  - apply (sim_send _ _ _ _ [PBack cb src n false] _ S); try reflexivity; [apply N; split; congruence|apply P].
  - assert (X : SIM (send x (reply rr alt))
      (mkSystem (set w_pend (fun _ => w_pend (y_world y) ++ [PBack cb src n (negb (negb (arrived alt)))]) (y_world y)) (y_board y) (y_asks y)) lost).
    { apply (sim_send _ _ _ _ [PBack cb src n (negb (negb (arrived alt)))] _ S); try reflexivity; [apply N|apply P]. destruct alt; cbn; split; congruence. }
    rewrite (bool_decide_eq_false_2 (token = t_self (n_mp x))) by assumption. rewrite (bool_decide_eq_false_2 (token = t_self (n_st x))) by assumption.
    repeat match goal with |- context [if bool_decide (token = ?a) then _ else _] => destruct (bool_decide_reflect (token = a)) end; exact X.
Qed.

Lemma run_back cb src n ok r : letter (y_world y) (PBack cb src n ok) r -> pend_ok (PBack cb src n ok) -> runs (PBack cb src n ok) r.
Proof.
  intros (sg & o & -> & Hok) Hn. pose proof (sim_c _ _ _ S) as (C1 & C2 & C3 & C4).
  assert (Ho : ok = arrived o) by (destruct ok, o; cbn; try reflexivity; destruct Hok as [K1 K2]; [exfalso; apply K1; reflexivity|apply K2; discriminate]).
  exists (mkCtx (c_pred c) sg (c_deposit c) (c_ts c) (c_json_pair c) (c_json_claims c)), fail, None.
  split; [reflexivity|]. split; [reflexivity|]. split; [reflexivity|]. split; [left; reflexivity|].
  unfold deliver, run_pend. cbn [rc_from rc_to rc_signer rc_deposit]. rewrite <- C1. unfold called_by. cbn [c_signer c_ts c_json_pair c_json_claims].
  destruct fail; [apply (sim_send _ _ _ _ [] _ S); try constructor; symmetry; apply app_nil_r|].
  rewrite bool_decide_eq_true_2 by reflexivity. set (cc := mkCtx _ _ _ _ _ _). destruct (sim_t _ _ _ S) as [T1 T2].
  set (q := match cb with Mp => AfterMp src n ok | St => AfterSt src n ok end).
  assert (Hr : mv_method cc (n_mv x) (mkReceipt (self_id (n_mv x)) (self_id (n_mv x)) (text_paid cb src n).1 (text_paid cb src n).2 0 sg None (Some o)) =
    Some ('(s', _) ← exec cc (n_mv x) q; Ok (s', EmptyString))).
  { unfold mv_method, q. cbn [rc_method rc_args rc_result]. cbv zeta. destruct cb.
    - change ((text_paid Mp src n).1) with "after_transfer_mpdao_callback". rewrite bool_decide_eq_false_2 by discriminate.
      rewrite bool_decide_eq_true_2 by reflexivity. rewrite r_paid_mp by exact Hn. rewrite Ho. reflexivity.
    - change ((text_paid St src n).1) with "after_transfer_stnear_callback". rewrite !bool_decide_eq_false_2 by discriminate.
      rewrite bool_decide_eq_true_2 by reflexivity. rewrite r_paid_st by exact Hn. rewrite Ho. reflexivity. }
  rewrite Hr. fold q. unfold step. cbn [fst snd]. destruct (exec cc (n_mv x) q) as [[s' e]|e] eqn:E; cbn [mbind res_bind ended reply rc_then].
  - eapply (sim_world x y lost _ _ [] [] S); cbn in *; try reflexivity; try congruence; try assumption; try constructor; try (symmetry; apply app_nil_r).
    + exact (exec_self _ _ _ _ _ E).
    + refine (reach_exec _ _ _ _ _ (sim_r _ _ _ S) _ E). split; [exact Ht|]. split; [reflexivity|]. subst q. destruct cb; exact Hn.
  - apply (sim_send _ _ _ _ [] _ S); try constructor; cbn; try congruence. symmetry; apply app_nil_r.
Qed.
Lemma run_any p r : letter (y_world y) p r -> pend_ok p -> runs p r.
Proof. destruct p; [apply run_deliver|apply run_resolve|apply run_pay|apply run_back]. Qed.
End one.

(** ** Questions of the proposal contract *)
Lemma Forall2_perm {A B} (R : A -> B -> Prop) l l' : Permutation l l' -> forall k, List.Forall2 R l k -> exists k', Permutation k k' /\ List.Forall2 R l' k'.
Proof.
  induction 1 as [|a l l' H IH|a b l|l l1 l2 H1 IH1 H2 IH2]; intros k Hk.
  - exists k. split; [reflexivity|exact Hk].
  - inversion Hk as [|? b ? k1 Hb Hk1]; subst. destruct (IH k1 Hk1) as (k' & P & Q). exists (b :: k'). split; [constructor; exact P|constructor; assumption].
  - inversion Hk as [|? x1 ? k1 Hx Hk1]; subst. inversion Hk1 as [|? x2 ? k2 Hx2 Hk2]; subst. exists (x2 :: x1 :: k2). split; [constructor|repeat constructor; assumption].
  - destruct (IH1 k Hk) as (k1 & P1 & Q1). destruct (IH2 k1 Q1) as (k2 & P2 & Q2). exists k2. split; [etransitivity; eassumption|exact Q2].
Qed.
Lemma sim_perm x w b l l' lost : SIM x (mkSystem w b l) lost -> Permutation l l' -> SIM x (mkSystem w b l') lost.
Proof.
  intros [C M L P A R T D] H. constructor; try assumption.
  - destruct M as (l1 & l2 & M1 & M2 & M3). cbn [y_world y_board y_asks] in *. destruct (Forall2_perm _ _ _ H _ M3) as (l3 & P3 & M4).
    exists l1, l3. split; [rewrite M1, P3; reflexivity|]. split; assumption.
  - cbn [y_asks] in *. rewrite <- H. exact A.
Qed.
Lemma insert_perm {A} (l : list A) j a b : l !! j = Some a -> Permutation (delete j l ++ [b]) (<[j := b]> l).
Proof.
  intros H. rewrite (delete_Permutation (<[j:=b]> l) j b).
  - rewrite Permutation_app_comm. cbn [app]. constructor. revert j H. induction l as [|x l IH]; intros j H; [reflexivity|]. destruct j; [reflexivity|].
    cbn. constructor. apply IH. exact H.
  - apply list_lookup_insert. apply lookup_lt_Some in H. exact H.
Qed.
Lemma total_ok s : reach s -> get_total_voting_power s < 2 ^ 128.
Proof.
  intros (a & s0 & h & H0 & Hh & ->). destruct (c88_stored a s0 h H0 Hh) as (_ & _ & _ & _ & _ & _ & _ & _ & P & _). exact P.
Qed.
Lemma answer_back s q c : reach s -> exists t,
  (forall r, rc_method r = (text_ask q).1 -> rc_args r = (text_ask q).2 -> mv_method c s r = Some (Ok (s, t))) /\
  answer_in (Some t) = answer_of (c_ts c / 1000000) s q.
Proof.
  intros R. destruct q as [|v]; cbn [text_ask fst snd].
  - exists (show_u128 (get_total_voting_power s)). split.
    + intros r Hm _. unfold mv_method. rewrite Hm. cbv zeta. rewrite !bool_decide_eq_false_2 by discriminate. rewrite bool_decide_eq_true_2 by reflexivity. reflexivity.
    + unfold answer_in. rewrite u128_no_positions, read_show_u128 by (apply total_ok, R). reflexivity.
  - exists (show_positions (get_all_locking_positions (now_ms c) s v)). split.
    + intros r Hm Ha. unfold mv_method. rewrite Hm, Ha. cbv zeta. rewrite !bool_decide_eq_false_2 by discriminate. rewrite bool_decide_eq_true_2 by reflexivity.
      pose proof (r_voter v) as E. cbn [text_ask snd] in E. rewrite E. reflexivity.
    + unfold answer_in. rewrite positions_no_u128, read_show_positions; [reflexivity|]. destruct R as (a & s0 & h & H0 & Hh & ->). apply (positions_ok a s0 h _ _ H0 Hh).
Qed.

Lemma run_query x w b l lost j p r c fail alt : SIM x (mkSystem w b (delete j l)) lost -> l !! j = Some (p, None) -> kind_ok (pd_kind p) ->
  ask_letter (m_self b) (p, None) r ->
  SIM (deliver x r c fail alt) (ystep (mkSystem w b l) (YQuery j (c_ts c) fail (answer_in alt))) lost.
Proof.
  intros S Hj Hk Hl. cbn [ask_letter fst snd] in Hl. pose proof (sim_c _ _ _ S) as (C1 & C2 & C3 & C4). cbn [y_world y_board] in *. pose proof (sim_n _ _ _ S) as D.
  cbn [ystep]. unfold with_gov, gov_of. cbn [gstep g_mv g_m g_pend y_world y_board y_asks]. rewrite Hj. cbn [g_m g_pend]. rewrite <- C1.
  assert (G : forall x' o, (x' = x \/ x' = set n_mv (fun _ => n_mv x) x) ->
    SIM (send x' (reply r o)) (mkSystem w b (<[j := (p, Some (answer_in o))]> l)) lost).
  { intros x' o Hx. apply (sim_perm _ _ _ (delete j l ++ [(p, Some (answer_in o))])); [|exact (insert_perm _ _ _ _ Hj)].
    apply (sim_gov _ _ _ _ _ _ (reply r o) S); try (destruct Hx as [->| ->]; reflexivity); try exact (eq_sym C4); try (destruct Hx as [->| ->]; cbn; congruence).
    - subst r. unfold reply. cbn [rc_then rc_from rc_signer]. destruct (text_kind (pd_kind p)) as [m a] eqn:E.
      apply one2. cbn [ask_letter fst snd]. exists o. rewrite E, C4. split; reflexivity.
    - apply one1. exact Hk. }
  destruct (answer_back (n_mv x) (pd_ask p) (mkCtx (rc_from r) (rc_signer r) (rc_deposit r) (c_ts c) (c_json_pair c) (c_json_claims c)) (sim_r _ _ _ S)) as (t & B1 & B2).
  unfold deliver. cbv zeta. destruct fail; [exact (G x None (or_introl eq_refl))|].
  assert (Em : rc_method r = (text_ask (pd_ask p)).1) by (subst r; reflexivity). assert (Ea : rc_args r = (text_ask (pd_ask p)).2) by (subst r; reflexivity).
  assert (Et : rc_to r = pd_contract p) by (subst r; reflexivity). rewrite <- Et.
  destruct (bool_decide_reflect (rc_to r = self_id (n_mv x))) as [H|H].
  - rewrite B1 by assumption. cbn [ended]. cbn [c_ts] in B2. rewrite <- B2. apply G. right. reflexivity.
  - assert (N1 : forall cc tt, tok_method cc tt r = None).
    { intros cc tt. unfold tok_method. rewrite Em. destruct (pd_ask p); reflexivity. }
    assert (N2 : forall cc bb, board_method cc bb r = None).
    { intros cc bb. unfold board_method, read_back. rewrite Em. destruct (pd_ask p); reflexivity. }
    rewrite !N1, N2. cbn [ended]. specialize (G x alt (or_introl eq_refl)).
    repeat match goal with |- context [if bool_decide (rc_to r = ?a) then _ else _] => destruct (bool_decide_reflect (rc_to r = a)) end; exact G.
Qed.

Lemma run_callback x w b l lost j p a r c alt : SIM x (mkSystem w b (delete j l)) lost -> l !! j = Some (p, Some a) -> kind_ok (pd_kind p) ->
  ask_letter (m_self b) (p, Some a) r ->
  SIM (deliver x r c false alt) (ystep (mkSystem w b l) (YBack j (c_ts c))) lost.
Proof.
  intros S Hj Hk Hl. cbn [ask_letter fst snd] in Hl. destruct Hl as (o & -> & ->). pose proof (sim_c _ _ _ S) as (C1 & C2 & C3 & C4). cbn [y_world y_board] in *.
  pose proof (sim_n _ _ _ S) as (_ & _ & _ & D1 & D2 & D3).
  cbn [ystep]. unfold with_gov, gov_of. cbn [gstep g_mv g_m g_pend y_world y_board y_asks]. rewrite Hj. cbn [g_m g_pend].
  unfold deliver. cbn [rc_to rc_from rc_signer rc_deposit]. rewrite <- C4. rewrite !bool_decide_eq_false_2 by assumption. rewrite bool_decide_eq_true_2 by reflexivity.
  set (r := mkReceipt _ _ _ _ _ _ _ _). set (cc := mkCtx _ _ _ _ _ _).
  assert (B : board_method cc (n_board x) r = Some (b' ← mcallback (callback_ctx (n_board x) p (c_ts c)) (n_board x) (pd_kind p) (answer_in o); Ok (b', EmptyString))).
  { unfold board_method. rewrite (r_back r (pd_kind p)) by (try reflexivity; exact Hk). unfold non_payable, assert_private. cbn [cc c_deposit c_pred].
    rewrite bool_decide_eq_true_2 by reflexivity. cbn [N.eqb require mbind res_bind expect r rc_result]. destruct (pd_kind p); reflexivity. }
  rewrite B. destruct (mcallback _ _ _ _) as [b'|e] eqn:E; cbn [mbind res_bind ended].
  - rewrite <- (app_nil_r (delete j l)). apply (sim_gov _ _ _ _ _ _ [] S); try reflexivity; try constructor. exact (mcallback_self _ _ _ _ _ E).
  - rewrite <- (app_nil_r (delete j l)). apply (sim_gov _ _ _ _ _ _ [] S); try reflexivity; try constructor.
Qed.

(** ** Every event *)
Lemma sim_lost x y lost i r : SIM x y lost -> n_mail x !! i = Some r -> lost_callback (m_self (y_board y)) r ->
  SIM (mkNet (n_mv x) (n_mp x) (n_st x) (n_board x) (delete i (n_mail x))) y (r :: lost).
Proof.
  intros [C M L P A R T D] Hi Hl. constructor; try assumption.
  - destruct M as (l1 & l2 & M1 & M2 & M3). exists l1, l2. cbn [n_mail]. split; [|split; assumption].
    rewrite <- Permutation_middle. rewrite (delete_Permutation _ _ _ Hi) in M1. exact M1.
  - constructor; assumption.
Qed.
Lemma sim_step x y lost e : SIM x y lost -> typed x e -> exists l more, like e l /\ SIM (xstep x e) (yrun y l) (more ++ lost).
Proof.
  intros S Ht. destruct e as [z|k z|c o|i c fail alt].
  - exists [YWorld (EMv z)], []. split; [reflexivity|]. exact (sim_mv _ _ _ _ S Ht).
  - exists [YWorld (ETok k z)], []. split; [reflexivity|]. exact (sim_tok _ _ _ _ _ S Ht).
  - exists [YCall c o], []. split; [reflexivity|]. exact (sim_board _ _ _ _ _ S Ht).
  - cbn [xstep]. destruct (n_mail x !! i) as [r|] eqn:Hi.
    + change (x <| n_mail := delete i (n_mail x) |>) with (mkNet (n_mv x) (n_mp x) (n_st x) (n_board x) (delete i (n_mail x))).
      set (x1 := mkNet _ _ _ _ _).
      destruct (sim_take _ _ _ _ _ S Hi) as [(j & p & Hj & Hl & Hp & S1)|(j & [p [a|]] & Hj & Hl & Hp & S1)]; fold x1 in S1.
      * destruct (run_any x1 _ lost c fail alt S1 Ht p r) as (c' & f & ans & E1 & E2 & E3 & E4 & S2).
        { revert Hl. apply letter_ids; reflexivity. } { exact Hp. }
        exists [YWorld (ERun j c' f ans)], []. split.
        -- right. eexists. split; [reflexivity|]. split; [exact E1|]. split; [exact E2|]. split; [exact E3|exact E4].
        -- cbn [yrun fold_left ystep wstep]. rewrite Hj. exact S2.
      * destruct fail.
        -- exists [], [r]. split; [left; split; reflexivity|]. destruct Hl as (o & Hl & _). subst r.
           unfold deliver, reply, send. cbn [rc_then]. cbn [yrun fold_left app].
           assert (E : forall z : net, set n_mail (fun _ => n_mail z ++ []) z = z) by (intros []; cbn; rewrite app_nil_r; reflexivity).
           cbv zeta. rewrite E. apply (sim_lost _ _ _ _ _ S Hi). repeat split; discriminate.
        -- exists [YBack j (c_ts c)], []. split; [right; eexists; split; [reflexivity|]; split; reflexivity|].
           cbn [yrun fold_left app]. destruct y as [w b l]. exact (run_callback _ _ _ _ _ _ _ _ _ _ _ S1 Hj Hp Hl).
      * exists [YQuery j (c_ts c) fail (answer_in alt)], []. split; [right; eexists; split; [reflexivity|]; split; reflexivity|].
        cbn [yrun fold_left app]. destruct y as [w b l]. exact (run_query _ _ _ _ _ _ _ _ _ _ _ S1 Hj Hp Hl).
    + exists [YWorld (ERun (length (w_pend (y_world y))) c fail None)], []. split.
      * right. eexists. split; [reflexivity|]. repeat split. left. reflexivity.
      * cbn [yrun fold_left ystep wstep app]. rewrite lookup_ge_None_2 by lia. destruct y; exact S.
Qed.

Lemma mv_method_self c s r s' t : mv_method c s r = Some (Ok (s', t)) -> self_id s' = self_id s.
Proof.
  unfold mv_method. cbv zeta. intros H.
  repeat match type of H with context [if ?b then _ else _] => destruct b end; try discriminate H; injection H as H.
  - destruct (read_args _ _) as [[|[| | |sender| | | |] [|[|n| | | | | |] [|[| | |msg| | | |] []]]]|]; try discriminate H. apply bind_Ok in H as ([s1 u] & E & H). injection H as <- _.
    assert (Ex : exec c s (FtOnTransfer sender n msg) = Ok (s1, [])) by (cbn [exec]; rewrite E; reflexivity). exact (exec_self _ _ _ _ _ Ex).
  - destruct (read_args _ _) as [[|[] [|[] []]]|], (rc_result r); try discriminate H. apply bind_Ok in H as ([t1 u] & E & H). injection H as <- _. exact (exec_self _ _ (AfterMp _ _ _) _ _ E).
  - destruct (read_args _ _) as [[|[] [|[] []]]|], (rc_result r); try discriminate H. apply bind_Ok in H as ([t1 u] & E & H). injection H as <- _. exact (exec_self _ _ (AfterSt _ _ _) _ _ E).
  - intros; congruence.
  - destruct (read_args _ _) as [[|[] []]|]; try discriminate H. injection H as <- _. reflexivity.
Qed.
Lemma tok_method_self c s r s' t : TI s -> tok_method c s r = Some (Ok (s', t)) -> t_self s' = t_self s.
Proof.
  unfold tok_method. cbv zeta. intros T H.
  repeat match type of H with context [if ?b then _ else _] => destruct b end; try discriminate H; injection H as H.
  - destruct (read_args _ _) as [[|[] [|[] [|v []]]]|]; try discriminate H. apply bind_Ok in H as ([t1 u] & E & H). injection H as <- _.
    destruct (t_exec_spec (c, TTransfer _ _) _ _ _ T E) as (_ & _ & _ & _ & I & _). exact I.
  - destruct (read_args _ _) as [[|[] [|[] [|[] []]]]|], (rc_result r); try discriminate H. apply bind_Ok in H as ([t1 u] & E & H). injection H as <- _.
    destruct (t_exec_spec (c, TResolve _ _ _ _) _ _ _ T E) as (_ & _ & _ & _ & I & _). exact I.
Qed.
Lemma board_method_self c s r s' t : board_method c s r = Some (Ok (s', t)) -> m_self s' = m_self s.
Proof.
  unfold board_method. destruct (read_back r); [|discriminate]. intros [= H]. rinv. exact (mcallback_self _ _ _ _ _ ltac:(eassumption)).
Qed.
Lemma deliver_names x r c fail alt : TI (n_mp x) -> TI (n_st x) -> names (deliver x r c fail alt) = names x.
Proof.
  intros T1 T2. unfold deliver. cbv zeta. set (cc := mkCtx _ _ _ _ _ _). clearbody cc. destruct fail; [reflexivity|].
  repeat match goal with |- context [if ?b then _ else _] => destruct b end; [| | | |reflexivity].
  - destruct (mv_method cc (n_mv x) r) as [[[s' t]|]|] eqn:E; [|reflexivity|reflexivity]. unfold names. cbn. rewrite (mv_method_self _ _ _ _ _ E). reflexivity.
  - destruct (tok_method cc (n_mp x) r) as [[[s' t]|]|] eqn:E; [|reflexivity|reflexivity]. unfold names. cbn. rewrite (tok_method_self _ _ _ _ _ T1 E). reflexivity.
  - destruct (tok_method cc (n_st x) r) as [[[s' t]|]|] eqn:E; [|reflexivity|reflexivity]. unfold names. cbn. rewrite (tok_method_self _ _ _ _ _ T2 E). reflexivity.
  - destruct (board_method cc (n_board x) r) as [[[s' t]|]|] eqn:E; [|reflexivity|reflexivity]. unfold names. cbn. rewrite (board_method_self _ _ _ _ _ E). reflexivity.
Qed.
Lemma xstep_names x e : TI (n_mp x) -> TI (n_st x) -> names (xstep x e) = names x.
Proof.
  intros T1 T2. destruct e as [[c o]|k [c o]|c o|i c fail alt]; cbn [xstep fst snd].
  - destruct (exec c (n_mv x) o) as [[s' l]|] eqn:E; [|reflexivity]. unfold names. cbn. rewrite (exec_self _ _ _ _ _ E). reflexivity.
  - destruct (t_exec c (ntok x k) o) as [[t' l]|] eqn:E; [|reflexivity]. destruct (t_exec_spec (c, o) (ntok x k) _ _ ltac:(destruct k; assumption) E) as (_ & _ & _ & _ & I & _).
    unfold names. destruct k; cbn in *; rewrite I; reflexivity.
  - destruct (mcall c (n_board x) o) as [[b' []]|] eqn:E; try reflexivity; unfold names; cbn; rewrite (mcall_self _ _ _ _ _ E); reflexivity.
  - destruct (n_mail x !! i); [|reflexivity]. rewrite deliver_names by assumption. reflexivity.
Qed.
Lemma typed_names x0 x e : names x = names x0 -> typed x0 e -> typed x e.
Proof. unfold names, typed, outside. intros [= E1 E2 E3 E4]. rewrite E1, E2, E3. auto. Qed.
Lemma sim_run x0 : forall tr x y lost, SIM x y lost -> names x = names x0 -> Forall (typed x0) tr ->
  exists trs more, List.Forall2 like tr trs /\ SIM (xrun x tr) (yrun y (concat trs)) (more ++ lost) /\ names (xrun x tr) = names x0.
Proof.
  induction tr as [|e tr IH]; intros x y lost S N Ht.
  - exists [], []. split; [constructor|]. split; [exact S|exact N].
  - inversion Ht as [|? ? He Ht']; subst. destruct (sim_step x y lost e S (typed_names _ _ _ N He)) as (l & more & Hl & S1).
    destruct (sim_t _ _ _ S) as [T1 T2]. destruct (IH _ _ _ S1) as (trs & more' & H1 & H2); [rewrite xstep_names by assumption; exact N|exact Ht'|].
    exists (l :: trs), (more' ++ more). split; [constructor; assumption|]. cbn [concat xrun fold_left]. unfold yrun. rewrite fold_left_app.
    rewrite <- app_assoc. exact H2.
Qed.
Lemma c93_system x0 y0 tr : started x0 y0 -> Forall (typed x0) tr ->
  exists trs lost, List.Forall2 like tr trs /\ same_contracts (xrun x0 tr) (yrun y0 (concat trs)) /\
    same_mail (xrun x0 tr) (yrun y0 (concat trs)) lost /\ Forall (lost_callback (m_self (y_board y0))) lost.
Proof.
  intros ((C1 & C2 & C3 & C4) & Hm & Hw & Ha & Hb) Ht. pose proof Hw as (a & o1 & n1 & m1 & o2 & n2 & m2 & W1 & W2 & W3 & W4 & W5 & W6 & W7).
  destruct (t_new_spec _ _ _ _ _ W3) as (T1 & _ & _ & _ & _ & I1). destruct (t_new_spec _ _ _ _ _ W4) as (T2 & _ & _ & _ & _ & I2).
  assert (I0 : self_id (w_mv (y_world y0)) = i_self a) by (unfold mv_new in W1; rinv; rewrite <- W1; reflexivity).
  assert (S : SIM x0 y0 []).
  { constructor.
    - repeat split; assumption.
    - exists [], []. rewrite Hm, W2, Ha. split; [constructor|]. split; constructor.
    - constructor.
    - rewrite W2. constructor.
    - rewrite Ha. constructor.
    - exists a, (n_mv x0), []. split; [congruence|]. split; [constructor|reflexivity].
    - split; congruence.
    - unfold differ. rewrite C1, C2, C3, C4, I0, I1, I2. split; [congruence|]. split; [congruence|]. split; [congruence|].
      rewrite I0, I1, I2 in Hb. cbn [In] in Hb. split; [|split]; intros E; apply Hb; auto. }
  destruct (sim_run x0 tr x0 y0 [] S eq_refl Ht) as (trs & lost & H1 & H2 & H3). rewrite app_nil_r in H2. exists trs, lost. split; [exact H1|].
  destruct H2 as [K1 K2 K3 _ _ _ _ _]. split; [exact K1|]. split; [exact K2|].
  injection H3 as _ _ _ E. destruct K1 as (_ & _ & _ & K1). rewrite <- C4, <- E, K1. exact K3.
Qed.

(** ** Votes cost tokens (C92), for texts *)
Lemma like_ts e l : like e l -> Forall (fun e' => yev_ts e' = xev_ts e) l.
Proof.
  destruct e as [z|k z|c o|i c fail alt]; cbn [like].
  - intros ->. constructor; [reflexivity|constructor].
  - intros ->. constructor; [reflexivity|constructor].
  - intros ->. constructor; [reflexivity|constructor].
  - intros [[_ ->]|(e' & -> & H)]; [constructor|]. constructor; [|constructor]. destruct e' as [[z|k z|j c' f a]|c' o|j ts f a|j ts]; try destruct H; assumption.
Qed.
Lemma like_each (P : yev -> Prop) e l : (forall j c f a, P (YWorld (ERun j c f a))) -> (forall j ts f a, P (YQuery j ts f a)) -> (forall j ts, P (YBack j ts)) ->
  like e l -> each P e -> Forall P l.
Proof.
  intros P1 P2 P3. destruct e as [z|k z|c o|i c fail alt]; cbn [like]; unfold each; cbn [asked]; intros H He.
  - subst l. constructor; [exact He|constructor].
  - subst l. constructor; [exact He|constructor].
  - subst l. constructor; [exact He|constructor].
  - destruct H as [[_ ->]|(e' & -> & H)]; [constructor|]. constructor; [|constructor]. destruct e' as [[z|k z|j c' f a]|c' o|j ts f a|j ts]; try destruct H; auto.
Qed.
Lemma like_len e l : like e l -> (length l <= 1)%nat.
Proof. destruct e; cbn [like]; try (intros ->; cbn; lia). intros [[_ ->]|(e' & -> & _)]; cbn; lia. Qed.
Lemma likes_len tr trs : List.Forall2 like tr trs -> (length (concat trs) <= length tr)%nat.
Proof. induction 1 as [|e l tr trs H _ IH]; [cbn; lia|]. cbn [concat length]. rewrite app_length. pose proof (like_len _ _ H). lia. Qed.
Lemma likes_all (P : xev -> Prop) (Q : yev -> Prop) tr trs : (forall e l, like e l -> P e -> Forall Q l) -> List.Forall2 like tr trs -> Forall P tr -> Forall Q (concat trs).
Proof.
  intros H. induction 1 as [|e l tr trs Hl _ IH]; intros Hp; [constructor|]. inversion Hp; subst. cbn [concat]. apply Forall_app. split; [apply (H e l Hl); assumption|apply IH; assumption].
Qed.
Lemma likes_sorted tr trs : List.Forall2 like tr trs -> StronglySorted N.le (map xev_ts tr) -> StronglySorted N.le (map yev_ts (concat trs)).
Proof.
  induction 1 as [|e l tr trs Hl Hf IH]; intros Hs; [constructor|]. cbn [map] in Hs. apply StronglySorted_inv in Hs as [Hs Ha].
  specialize (IH Hs). cbn [concat]. rewrite map_app. pose proof (like_ts _ _ Hl) as Ht. pose proof (like_len _ _ Hl) as Hn.
  destruct l as [|e' [|? ?]]; [exact IH| |cbn in Hn; lia]. cbn [map app]. constructor; [exact IH|]. inversion Ht as [|? ? E _]; subst. rewrite E.
  apply List.Forall_forall. intros t Hin. apply in_map_iff in Hin as (y & <- & Hy). clear IH Hl Hn Ht Hs E.
  assert (F : Forall (fun z => xev_ts e <= xev_ts z) tr) by (clear - Ha; induction tr; [constructor|]; inversion Ha; subst; constructor; auto).
  assert (G : Forall (fun z => xev_ts e <= yev_ts z) (concat trs)).
  { refine (likes_all _ _ _ _ _ Hf F). intros z l' Hz Hle. eapply Forall_impl; [exact (like_ts _ _ Hz)|]. cbn. intros q ->. exact Hle. }
  rewrite List.Forall_forall in G. exact (G y Hy).
Qed.
Lemma c93_tokens b x0 y0 tr id T D vs :
  started x0 y0 -> mpip_new b = Ok (n_board x0) -> mi_vote b = self_id (n_mv x0) -> Forall (typed x0) tr -> Sorted N.le (map xev_ts tr) ->
  Forall (each (tame D y0)) tr -> D <= min_unbond (n_mv x0) ->
  Forall (fun e => xev_ts e / 1000000 <= T) tr -> (forall c vt memo, In (XBoard c (VoteProposal id vt memo)) tr -> T < now_ms c + D * 86400000) ->
  N.of_nat (length tr) < 2 ^ 64 ->
  let x := xrun x0 tr in
  sum_by (fun v => match get_my_vote (n_board x) v id with Ok (Some (_, u)) => vt_power u | _ => 0 end) vs <=
    60 * 10 ^ 18 * sum_by (positions_amount (n_mv x)) vs.
Proof.
  intros H0 Hb Hv Ht Hs Hd HD HT Hr Hn. cbv zeta. destruct (c93_system x0 y0 tr H0 Ht) as (trs & lost & L & (C1 & _ & _ & C4) & _ & _).
  destruct H0 as ((B1 & B2 & B3 & B4) & _ & Hw & Ha & _). rewrite C1, C4.
  assert (Dp : deployed y0) by (exists b; split; [exact Hw|]; split; [congruence|]; split; [exact Ha|congruence]).
  destruct (c92_coalition y0 (concat trs) id T D Dp) with (vs := vs) as [G _]; try exact G.
  - refine (likes_all _ _ _ _ _ L Hd). intros e l Hl He. refine (like_each (tame D y0) e l _ _ _ Hl He); intros; try exact I. split; [split; exact I|exact I].
  - unfold ytimed. apply StronglySorted_Sorted, (likes_sorted _ _ L), Sorted_StronglySorted; [intros u v w; apply N.le_trans|exact Hs].
  - rewrite <- B1. exact HD.
  - split.
    + refine (likes_all _ _ _ _ _ L HT). intros e l Hl He. eapply Forall_impl; [exact (like_ts _ _ Hl)|]. cbn. intros q ->. exact He.
    + intros c vt memo Hin. apply (Hr c vt memo). revert Hin. clear - L. induction L as [|e l tr trs Hl _ IH]; [intros []|].
      cbn [concat]. intros Hin. apply in_app_iff in Hin as [Hin|Hin]; [left|right; apply IH; exact Hin].
      destruct e as [z|k z|c' o|i c' fail alt]; cbn [like] in Hl.
      * subst l. destruct Hin as [E|[]]; discriminate E.
      * subst l. destruct Hin as [E|[]]; discriminate E.
      * subst l. destruct Hin as [E|[]]. injection E as -> ->. reflexivity.
      * destruct Hl as [[_ ->]|(e' & -> & Hl)]; [destruct Hin|]. destruct Hin as [->|[]]. destruct Hl.
  - pose proof (likes_len _ _ L). lia.
Qed.
