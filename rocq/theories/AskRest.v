(** AskRest.v -- C96 for the token and the key-value store. *)

From Verif Require Export AskBoard.
From Verif Require Import WireProofs.

(** ** The token *)
Lemma tok_answers_same t t' q v : tok_answer t q = Ok v -> tok_answer t' q = Ok v -> tok_same t t' q.
Proof.
  destruct q; cbn [tok_answer tok_same]; intros E1 E2;
    try (eapply (same_ok VStr); [apply _|exact E1|exact E2]; fail); try (eapply (same_ok VBig); [apply _|exact E1|exact E2]; fail).
  - eapply (same_ok (items VStr)); [apply _|exact E1|exact E2].
  - cbn in E1, E2. congruence.
  - destruct (t_storage_balance_of t a) as [[x y]|], (t_storage_balance_of t' a) as [[x' y']|]; cbn in E1, E2; congruence.
Qed.
Definition TACC (t : tstate) : Prop := account_id (t_owner t) /\ forall m, In m (t_minters t) -> account_id m.
Lemma tacc_step t x : RI t -> TACC t -> names_account x -> TACC (t_step t x).
Proof.
  intros HR [H1 H2] Hx. unfold t_step. destruct (t_exec x.1 t x.2) as [[t' e]|] eqn:E; [|split; assumption].
  destruct (roles_step _ _ _ _ HR E) as (_ & Ho & Hm & _). unfold owner_after, minter_after, names_account, t_get_owner_id, get_minters in *. split.
  - rewrite Ho. destruct x.2; assumption.
  - intros m Hin. apply Hm in Hin. destruct x.2; try (apply H2; exact Hin); [destruct Hin as [->|Hin]; [exact Hx|exact (H2 _ Hin)]|apply H2; apply Hin].
Qed.
Lemma tacc_run tr : forall t, RI t -> TACC t -> Forall names_account tr -> TACC (t_run t tr).
Proof.
  induction tr as [|x tr IH]; intros t HR HT Ht; [exact HT|]. apply Forall_cons in Ht as [Hx Ht]. apply (IH (t_step t x)); [|exact (tacc_step _ _ HR HT Hx)|exact Ht].
  exact (RI_run [x] t HR).
Qed.
Lemma tok_has t q v : TI t -> TACC t -> t_min_storage t < 2 ^ 128 -> tok_answer t q = Ok v -> has (tok_type q) v.
Proof.
  intros HT [HO HM] Hs. destruct q; cbn [tok_answer tok_type]; intros E; injection E as <-.
  - constructor. exact HO.
  - apply has_items. intros m Hm. constructor. exact (HM m Hm).
  - constructor. apply HT.
  - constructor. eapply N.le_lt_trans; [apply bal_le_supply; exact HT|]. apply HT.
  - apply has_rec; [refine (bool_decide_unpack _ _); exact I|]. constructor; [split; [reflexivity|constructor; exact Hs]|].
    constructor; [split; [reflexivity|]|constructor]. constructor; [exact I|]. constructor. exact Hs.
  - apply has_opt; [exact I|]. intros [x y] E. unfold t_storage_balance_of in E. destruct (om_get _ _); [|discriminate]. injection E as <- <-. cbn [fst snd].
    apply has_rec; [refine (bool_decide_unpack _ _); exact I|]. constructor; [split; [reflexivity|constructor; exact Hs]|].
    constructor; [split; [reflexivity|constructor; reflexivity]|constructor].
Qed.
Lemma c96_tok_answered t m a r : tok_view t m a = Ok r -> exists q, tokq_typed q /\ m = (tok_asked q).1 /\ reads_as (tokq_params q) a (tok_asked q).2 /\ r = tok_reply t q.
Proof.
  intros H. unfold tok_view in H. destruct (enter tok_views m a) as [q|] eqn:E.
  - rewrite (ask_some _ _ _ _ _ E), tok_written in H. destruct (tokq_sound _ _ _ E) as (H1 & H2 & H3). injection H as <-. eauto 6.
  - destruct (ask_none tok_views (tok_answer t) m a E) as (e & H'). congruence.
Qed.
Lemma c96_tok_asked t q a : tokq_typed q -> reads_as (tokq_params q) a (tok_asked q).2 -> tok_view t (tok_asked q).1 a = Ok (tok_reply t q).
Proof. intros H Ha. unfold tok_view. rewrite (ask_some _ _ _ _ _ (tokq_complete _ _ H Ha)). apply tok_written. Qed.
Lemma tok_reply_has self owner n ms t0 tr q : t_new self owner n ms = Ok t0 -> account_id owner -> ms < 2 ^ 128 -> Forall names_account tr ->
  let t := t_run t0 tr in exists v, tok_answer t q = Ok v /\ json (tok_type q) (tok_reply t q) = Some v.
Proof.
  intros H0 Ho Hs Ht t. pose proof (tok_written t q) as H. apply written_Ok in H as (v & Hv & ->). exists v. split; [exact Hv|].
  pose proof (RI_new _ _ _ _ _ H0) as HR. apply json_ok. apply (tok_has t q v); [exact (proj1 (RI_run tr _ HR))| | |exact Hv].
  - apply tacc_run; [exact HR| |exact Ht]. destruct (t_new_spec _ _ _ _ _ H0) as (_ & _ & _ & E1 & E2 & _). unfold t_get_owner_id, get_minters in *.
    split; [rewrite E1; exact Ho|rewrite E2; intros m []].
  - unfold t. rewrite (proj1 (near_run tr t0)). replace (t_min_storage t0) with ms; [exact Hs|]. unfold t_new in H0. apply bind_Ok in H0 as (t1 & H1 & H0).
    unfold t_register in H1. cbn in H1. injection H1 as <-. apply t_deposit_inv in H0 as (b & _ & _ & _ & ->). reflexivity.
Qed.
Lemma c96_tok_readable self owner n ms t0 tr q : t_new self owner n ms = Ok t0 -> account_id owner -> ms < 2 ^ 128 -> Forall names_account tr ->
  exists v, json (tok_type q) (tok_reply (t_run t0 tr) q) = Some v.
Proof. intros H0 Ho Hs Ht. destruct (tok_reply_has self owner n ms t0 tr q H0 Ho Hs Ht) as (v & _ & E). eauto. Qed.
Lemma c96_tok_tells self owner n ms t0 tr self' owner' n' ms' t0' tr' q :
  t_new self owner n ms = Ok t0 -> account_id owner -> ms < 2 ^ 128 -> Forall names_account tr ->
  t_new self' owner' n' ms' = Ok t0' -> account_id owner' -> ms' < 2 ^ 128 -> Forall names_account tr' ->
  tok_reply (t_run t0 tr) q = tok_reply (t_run t0' tr') q -> tok_same (t_run t0 tr) (t_run t0' tr') q.
Proof.
  intros H0 Ho Hs Ht H0' Ho' Hs' Ht' H. destruct (tok_reply_has self owner n ms t0 tr q H0 Ho Hs Ht) as (v & Hv & E).
  destruct (tok_reply_has self' owner' n' ms' t0' tr' q H0' Ho' Hs' Ht') as (v' & Hv' & E'). rewrite H, E' in E. injection E as <-.
  exact (tok_answers_same _ _ _ _ Hv Hv').
Qed.

(** ** The key-value store *)
Lemma kv_answers_same s s' q v : kv_answer s q = Ok v -> kv_answer s' q = Ok v -> kv_same s s' q.
Proof.
  destruct q; cbn [kv_answer kv_same]; unfold page, paged, texts; intros E1 E2;
    try (eapply (same_ok VStr); [apply _|exact E1|exact E2]; fail); try (eapply same_bind; [|exact E1|exact E2]; apply _; fail).
  eapply (same_ok (fun n => VBig (N.of_nat n))); [apply _|exact E1|exact E2].
Qed.
Lemma kv_has s q v : N.of_nat (k_len s) < 2 ^ 64 -> kv_answer s q = Ok v -> has (kv_type q) v.
Proof.
  intros Hl. destruct q; cbn [kv_answer kv_type]; unfold page; intros E.
  - apply bind_Ok in E as (o & _ & E). injection E as <-. apply has_opt; [exact I|]. intros x _. constructor.
  - apply bind_Ok in E as (l & _ & E). injection E as <-. apply has_texts.
  - injection E as <-. constructor.
  - injection E as <-. constructor.
  - injection E as <-. constructor. exact Hl.
Qed.
Lemma c96_kv_answered s m a t : kv_view s m a = Ok t -> exists q, kvq_typed q /\ m = (kv_asked q).1 /\ reads_as (kvq_params q) a (kv_asked q).2 /\ kv_reply s q = Ok t.
Proof.
  intros H. unfold kv_view in H. destruct (enter kv_views m a) as [q|] eqn:E.
  - rewrite (ask_some _ _ _ _ _ E), kv_written in H. destruct (kvq_sound _ _ _ E) as (H1 & H2 & H3). eauto.
  - destruct (ask_none kv_views (kv_answer s) m a E) as (e & H'). congruence.
Qed.
Lemma c96_kv_asked s q a : kvq_typed q -> reads_as (kvq_params q) a (kv_asked q).2 -> kv_view s (kv_asked q).1 a = kv_reply s q.
Proof. intros H Ha. unfold kv_view. rewrite (ask_some _ _ _ _ _ (kvq_complete _ _ H Ha)). apply kv_written. Qed.
Lemma kv_reply_has s q t : N.of_nat (k_len s) < 2 ^ 64 -> kv_reply s q = Ok t -> exists v, kv_answer s q = Ok v /\ json (kv_type q) t = Some v.
Proof.
  intros Hl H. rewrite <- kv_written in H. apply written_Ok in H as (v & Hv & ->). exists v. split; [exact Hv|]. apply json_ok. exact (kv_has s q v Hl Hv).
Qed.
Lemma c96_kv_readable s q t : N.of_nat (k_len s) < 2 ^ 64 -> kv_reply s q = Ok t -> exists v, json (kv_type q) t = Some v.
Proof. intros Hl H. destruct (kv_reply_has s q t Hl H) as (v & _ & E). eauto. Qed.
Lemma c96_kv_tells s s' q t : N.of_nat (k_len s) < 2 ^ 64 -> N.of_nat (k_len s') < 2 ^ 64 ->
  kv_reply s q = Ok t -> kv_reply s' q = Ok t -> kv_same s s' q.
Proof.
  intros Hl Hl' H H'. destruct (kv_reply_has s q t Hl H) as (v & Hv & E). destruct (kv_reply_has s' q t Hl' H') as (v' & Hv' & E').
  rewrite E in E'. injection E' as <-. exact (kv_answers_same _ _ _ _ Hv Hv').
Qed.
