(** BoardBytesProofs.v -- C99: the proposal contract from text to bytes. *)

From Verif Require Export BoardText.
From Verif Require Import FlatProofs WireProofs EntryProofs AskProofs KVBytesProofs MpipSized BoardSim ReadLen.
From RecordUpdate Require Import RecordUpdate.
Import FlatProofs Mpip BoardBytes KVBytesProofs KVBytesSpec BoardStore BoardSim BoardBytesSpec BoardText.

Section Board.
Variables (H : string -> string) (NM : string -> Prop) (self : string).
Hypothesis H32 : hash32 H.
Hypothesis Hinj : forall x y, NM x -> NM y -> H x = H y -> x = y.
Notation Good := (Good H NM).

Definition BRep (n : nat) (st : gmap string string) (x : option mstate) : Prop :=
  match x with None => st = ∅ | Some s => st !! "STATE" = Some (enc_broot (broot_of s)) /\ Good n st s end.
Lemma brep_save n st s : Good n st s -> BRep n (bb_save st (broot_of s)) (Some s).
Proof using. intros (M & R). split; [apply lookup_insert|]. split; [exact (maps_state H NM _ _ _ M)|exact R]. Qed.
Lemma brep_more n st x : BRep n st x -> BRep (S n) st x.
Proof using. destruct x as [s|]; [|exact (fun e => e)]. intros [E G]. exact (conj E (good_more _ _ _ _ _ G)). Qed.
Lemma bload n st s : BRep n st (Some s) -> bb_load st = Ok (broot_of s).
Proof using. intros (E & M & R & _). unfold bb_load. rewrite E. cbn [expect mbind res_bind]. rewrite (root_decoded H NM _ _ M R). reflexivity. Qed.
Lemma bload_none n st : BRep n st None -> bb_load st = Panic "The contract is not initialized".
Proof using. intros ->. unfold bb_load. rewrite lookup_empty. reflexivity. Qed.
Lemma new_sim n x : account_id (mi_admin x) -> account_id (mi_operator x) -> account_id (mi_token x) -> account_id (mi_vote x) -> sized_args x ->
  match mpip_new x with Ok s => bb_new ∅ x = Ok (bb_save ∅ (broot_of s)) /\ Good n ∅ s | Panic _ => exists e, bb_new ∅ x = Panic e end.
Proof using.
  intros H1 H2 H3 H4 (A1 & A2 & A3 & A4). unfold mpip_new, bb_new. rewrite lookup_empty, bool_decide_eq_false_2 by (intros [? E]; discriminate). cbn [negb require mbind res_bind].
  destruct (require (mi_floor x <=? ONE_HUNDRED) _) as [[]|e]; [|cbn; eauto]. cbn [mbind res_bind]. split; [reflexivity|]. split; [|split].
  - constructor; cbn [m_proposals m_votes m_voters m_proposers]; try apply t_nil; try (intros; apply t_nil); intros key [b E]; rewrite lookup_empty in E; discriminate E.
  - constructor; cbn [m_admin m_operator m_meta_token m_meta_vote m_period m_min_meta m_min_st m_min_vp m_cost_meta m_storage m_floor]; try assumption; reflexivity.
  - constructor; cbn [m_proposals m_votes m_voters m_proposers length]; try lia; intros; cbn; lia.
Qed.

(** ** One call *)
Definition call_ok (x : bbcall) : Prop :=
  let '(c, _, m, a) := x in
  caller_ok c /\ (forall o, board_means m a o -> short_mop o) /\ (forall k, back_means m a k -> short_kind k /\ known NM k).
Lemma free c : c_deposit c = 0 -> non_payable c = Ok tt. Proof using. intros E. unfold non_payable. rewrite E. reflexivity. Qed.
Ltac peel v := destruct v as [|[] v]; try reflexivity.
Lemma bcall_new_is st c pr a : bb_call H self st c pr "new" a =
  match enter (binit_tbl self) "new" a with
  | Some x => _ ← non_payable c; st' ← bb_new st x; Ok (st', ("", ONone)) | None => Panic "Failed to deserialize input from JSON." end.
Proof using.
  rewrite binit_read. unfold bb_call. rewrite bool_decide_eq_true_2 by reflexivity. destruct (read_args INIT a) as [vs|]; [|reflexivity].
  peel vs. peel vs. peel vs. peel vs. peel vs. peel vs. peel vs. peel vs. destruct vs; reflexivity.
Qed.
Lemma bcall_new st c pr m a x : binit_means m a x -> mi_self x = self -> bb_call H self st c pr m a = (_ ← non_payable c; st' ← bb_new st x; Ok (st', ("", ONone))).
Proof using.
  intros Hm Hs. pose proof Hm as (_ & _ & _ & _ & _ & -> & _). rewrite bcall_new_is, (proj2 (binit_iff self "new" a x) (conj Hm Hs)). reflexivity.
Qed.
Lemma bcall_back st c pr m a k : back_means m a k -> bb_call H self st c pr m a =
  (_ ← non_payable c; _ ← assert_private c self; r ← bb_load st; p ← expect pr "This is a callback method."; '(st', r', t) ← bb_callback H c st r k (answer_in p); Ok (bb_save st' r', (t, ONone))).
Proof using.
  intros Hm. destruct (back_name _ _ _ Hm) as [N B]. unfold bb_call. rewrite bool_decide_eq_false_2 by exact N. rewrite read_back_is, B. rewrite (proj2 (back_iff _ _ _) Hm). reflexivity.
Qed.
Lemma bcall_op st c pr m a o : board_means m a o -> bb_call H self st c pr m a = (r ← bb_load st; '(st', r', out) ← bb_exec H c st r o; Ok (bb_save st' r', ("", out))).
Proof using.
  intros Hm. destruct (op_name _ _ _ Hm) as [N B]. unfold bb_call. rewrite bool_decide_eq_false_2 by exact N. rewrite read_back_is, B. rewrite (proj2 (board_iff _ _ _) Hm). reflexivity.
Qed.
Lemma bcall_view st c pr m a q : boardq_means m a q -> bb_call H self st c pr m a = (r ← bb_load st; v ← bb_answer H c st r q; Ok (st, (write v, ONone))).
Proof using.
  intros Hm. destruct (view_name _ _ _ Hm) as [N B]. unfold bb_call. rewrite bool_decide_eq_false_2 by exact N. rewrite read_back_is, B.
  destruct (board_entry m a) as [o|] eqn:E; [apply board_iff in E; destruct (op_not_view _ _ _ _ E Hm)|]. rewrite (proj2 (boardq_iff _ _ _) Hm). reflexivity.
Qed.
Lemma bcall_cases st c pr m a z : bb_call H self st c pr m a = Ok z ->
  (exists x, binit_means m a x /\ mi_self x = self) \/ (exists k, back_means m a k) \/ (exists o, board_means m a o) \/ (exists q, boardq_means m a q).
Proof using.
  intros E. destruct (bool_decide_reflect (m = "new")) as [->|N].
  { left. rewrite bcall_new_is in E. destruct (enter (binit_tbl self) "new" a) as [x|] eqn:Ex; [|discriminate]. exists x. apply binit_iff. exact Ex. }
  unfold bb_call in E. rewrite bool_decide_eq_false_2 in E by exact N.
  rewrite read_back_is in E. destruct (is_back m).
  { right. left. destruct (enter back_tbl m a) as [k|] eqn:Ek; [exists k; apply back_iff; exact Ek|]. apply bind_Ok in E as (? & _ & E). apply bind_Ok in E as (? & _ & E). discriminate. }
  destruct (board_entry m a) as [o|] eqn:Eo; [do 2 right; left; exists o; apply board_iff; exact Eo|]. destruct (enter board_views m a) as [q|] eqn:Eq; [|discriminate].
  do 3 right. exists q. apply boardq_iff. exact Eq.
Qed.
Lemma view_text c st s q : Maps H NM st s -> boardq_typed q -> (v ← bb_answer H c st (broot_of s) q; Ok (write v)) = board_reply c s q.
Proof using H32. intros M Ht. rewrite (answer_ok H NM H32 _ _ _ _ M Ht). rewrite <- board_written. unfold written. destruct (board_answer c s q); reflexivity. Qed.
Lemma bcall_yes n st x c pr m a x' out : BRep n st x -> call_ok (c, pr, m, a) -> N.of_nat (S n) < 2 ^ 32 -> board_accepts self x c pr m a x' out ->
  exists st', bb_call H self st c pr m a = Ok (st', out) /\ BRep (S n) st' x'.
Proof using H32 Hinj.
  intros HR (Lc & Lo & Lk) L Ha. destruct Ha as [c pr m a x s Hm Hs Hd Hn|s c pr m a o s' out Hm He|s c p m a k s' Hm Hd Hs He|s c pr m a q t Hm He].
  - rewrite (bcall_new _ _ _ _ _ _ Hm Hs), (free _ Hd). cbn [mbind res_bind]. cbn [BRep] in HR. subst st. pose proof Hm as (H1 & H2 & H3 & H4 & H5 & _).
    pose proof (new_sim (S n) x H1 H2 H3 H4 H5) as HN. rewrite Hn in HN. destruct HN as [-> G]. cbn [mbind res_bind]. eexists. split; [reflexivity|]. apply brep_save. exact G.
  - rewrite (bcall_op _ _ _ _ _ _ Hm), (bload _ _ _ HR). cbn [mbind res_bind]. pose proof (exec_sim H NM H32 Hinj n st s c o (proj2 HR) L Lc (proj1 Hm) (Lo _ Hm)) as HS. rewrite He in HS.
    destruct HS as ([[st' r'] out'] & -> & Er & Eo & G). cbn [fst snd] in *. subst r' out'. cbn [mbind res_bind]. eexists. split; [reflexivity|]. apply brep_save. exact G.
  - rewrite (bcall_back _ _ _ _ _ _ Hm), (free _ Hd). cbn [mbind res_bind]. unfold assert_private. rewrite Hs, bool_decide_eq_true_2 by reflexivity. cbn [require mbind res_bind].
    rewrite (bload _ _ _ HR). cbn [mbind res_bind expect]. destruct (Lk _ Hm) as [Sk Kk]. pose proof (callback_sim H NM H32 Hinj n st s c k (answer_in p) (proj2 HR) L Lc (proj1 Hm) Sk Kk) as HS. rewrite He in HS.
    destruct HS as ([[st' r'] t] & -> & Er & Eo & G). cbn [fst snd] in *. subst r' t. cbn [mbind res_bind]. eexists. split; [reflexivity|]. apply brep_save. exact G.
  - rewrite (bcall_view _ _ _ _ _ _ Hm), (bload _ _ _ HR). cbn [mbind res_bind]. rewrite <- (view_text c st s q (proj1 (proj2 HR)) (proj1 Hm)) in He.
    destruct (bb_answer H c st (broot_of s) q) as [v|]; [|discriminate]. cbn [mbind res_bind] in *. injection He as <-. exists st. split; [reflexivity|]. apply brep_more. exact HR.
Qed.
Lemma bcall_no n st x c pr m a st' out : BRep n st x -> call_ok (c, pr, m, a) -> N.of_nat (S n) < 2 ^ 32 -> bb_call H self st c pr m a = Ok (st', out) ->
  exists x' out', board_accepts self x c pr m a x' out'.
Proof using H32 Hinj.
  intros HR (Lc & Lo & Lk) L E. destruct (bcall_cases _ _ _ _ _ _ E) as [(y & Hm & Hs)|[(k & Hm)|[(o & Hm)|(q & Hm)]]].
  - rewrite (bcall_new _ _ _ _ _ _ Hm Hs) in E. apply bind_Ok in E as (u & Ed & E). unfold non_payable in Ed. apply require_Ok in Ed. apply N.eqb_eq in Ed. apply bind_Ok in E as (s1 & En & E).
    destruct x as [s|]. { destruct HR as [E0 _]. unfold bb_new in En. rewrite E0, bool_decide_eq_true_2 in En by eauto. discriminate. }
    cbn [BRep] in HR. subst st. pose proof Hm as (H1 & H2 & H3 & H4 & H5 & _). pose proof (new_sim n y H1 H2 H3 H4 H5) as HN. destruct (mpip_new y) as [s|e] eqn:Ey; [|destruct HN as [e' HN]; congruence].
    eexists _, _. eapply ba_new; eassumption.
  - rewrite (bcall_back _ _ _ _ _ _ Hm) in E. apply bind_Ok in E as (u & Ed & E). unfold non_payable in Ed. apply require_Ok in Ed. apply N.eqb_eq in Ed. apply bind_Ok in E as (u' & Ep & E).
    unfold assert_private in Ep. apply require_Ok in Ep. apply bool_decide_eq_true in Ep. destruct x as [s|]; [|rewrite (bload_none _ _ HR) in E; discriminate]. rewrite (bload _ _ _ HR) in E. cbn [mbind res_bind] in E.
    destruct pr as [p|]; [|discriminate]. cbn [expect mbind res_bind] in E. destruct (Lk _ Hm) as [Sk Kk]. pose proof (callback_sim H NM H32 Hinj n st s c k (answer_in p) (proj2 HR) L Lc (proj1 Hm) Sk Kk) as HS.
    destruct (mcallback c s k (answer_in p)) as [s'|e] eqn:Ek; [|destruct HS as [e' HS]; rewrite HS in E; discriminate]. eexists _, _. eapply ba_back; eassumption.
  - rewrite (bcall_op _ _ _ _ _ _ Hm) in E. destruct x as [s|]; [|rewrite (bload_none _ _ HR) in E; discriminate]. rewrite (bload _ _ _ HR) in E. cbn [mbind res_bind] in E.
    pose proof (exec_sim H NM H32 Hinj n st s c o (proj2 HR) L Lc (proj1 Hm) (Lo _ Hm)) as HS. destruct (mcall c s o) as [[s' out']|e] eqn:Eo; [|destruct HS as [e' HS]; rewrite HS in E; discriminate].
    eexists _, _. eapply ba_op; eassumption.
  - rewrite (bcall_view _ _ _ _ _ _ Hm) in E. destruct x as [s|]; [|rewrite (bload_none _ _ HR) in E; discriminate]. rewrite (bload _ _ _ HR) in E. cbn [mbind res_bind] in E.
    pose proof (view_text c st s q (proj1 (proj2 HR)) (proj1 Hm)) as HV. destruct (bb_answer H c st (broot_of s) q) as [v|]; [|discriminate]. cbn [mbind res_bind] in HV.
    eexists _, _. eapply ba_view; [exact Hm|symmetry; exact HV].
Qed.

(** ** All calls *)
Lemma gives_app st tr1 tr2 : board_gives H self st (tr1 ++ tr2) = board_gives H self st tr1 ++ board_gives H self (fold_left (bb_step H self) tr1 st) tr2.
Proof using. revert st. induction tr1 as [|x tr1 IH]; intros st; [reflexivity|]. cbn [app board_gives fold_left]. rewrite IH. reflexivity. Qed.
Lemma c99_all tr : Forall call_ok tr -> N.of_nat (length tr) < 2 ^ 32 -> exists x, board_history self tr x (board_gives H self ∅ tr) /\ BRep (length tr) (bb_run H self tr) x.
Proof using H32 Hinj.
  induction tr as [|[[[c pr] m] a] tr IH] using rev_ind; intros F L; [exists None; split; [constructor|reflexivity]|].
  apply Forall_app in F as [F Fx]. apply Forall_cons in Fx as [Fx _]. rewrite app_length, Nat.add_comm in *. cbn [length Nat.add] in *.
  destruct IH as (x & Hh & HR); [exact F|lia|]. rewrite gives_app. fold (bb_run H self tr). cbn [board_gives fst snd].
  unfold bb_run. rewrite fold_left_app. fold (bb_run H self tr). cbn [fold_left]. unfold bb_step at 1. cbn [fst snd].
  destruct (bb_call H self (bb_run H self tr) c pr m a) as [[st' out]|e] eqn:E.
  - destruct (bcall_no _ _ _ _ _ _ _ _ _ HR Fx L E) as (x' & out' & Ha). destruct (bcall_yes _ _ _ _ _ _ _ _ _ HR Fx L Ha) as (st2 & E2 & HR').
    rewrite E in E2. injection E2 as <- ->. exists x'. split; [exact (bh_yes _ _ _ _ _ _ _ _ _ _ Hh Ha)|exact HR'].
  - exists x. split; [|apply brep_more; exact HR]. apply bh_no; [exact Hh|]. intros x' out Ha. destruct (bcall_yes _ _ _ _ _ _ _ _ _ HR Fx L Ha) as (st2 & E2 & _). congruence.
Qed.
End Board.

Lemma accepts_once self x c pr m a x1 o1 x2 o2 : board_accepts self x c pr m a x1 o1 -> board_accepts self x c pr m a x2 o2 -> x1 = x2 /\ o1 = o2.
Proof.
  intros H1 H2. destruct H1 as [c pr m a y s Hm Hs Hd Hn|s c pr m a o s' out Hm He|s c p m a k s' Hm Hd Hs He|s c pr m a q t Hm He].
  - inversion H2 as [c0 pr0 m0 a0 y0 s0 Hm0 Hs0 Hd0 Hn0| | |]; subst. pose proof (proj2 (binit_iff _ _ _ _) (conj Hm eq_refl)) as E1. pose proof (proj2 (binit_iff _ _ _ _) (conj Hm0 Hs0)) as E2.
    rewrite E1 in E2. injection E2 as <-. split; congruence.
  - destruct (op_name _ _ _ Hm) as [N B]. inversion H2 as [|s0 c0 pr0 m0 a0 o0 s0' out0 Hm0 He0|s0 c0 p0 m0 a0 k0 s0' Hm0 Hd0 Hs0 He0|s0 c0 pr0 m0 a0 q0 t0 Hm0 He0]; subst.
    + apply board_iff in Hm, Hm0. rewrite Hm in Hm0. injection Hm0 as <-. rewrite He in He0. injection He0 as <- <-. auto.
    + destruct (back_name _ _ _ Hm0) as [_ B']. congruence.
    + destruct (op_not_view _ _ _ _ Hm Hm0).
  - destruct (back_name _ _ _ Hm) as [N B]. inversion H2 as [|s0 c0 pr0 m0 a0 o0 s0' out0 Hm0 He0|s0 c0 p0 m0 a0 k0 s0' Hm0 Hd0 Hs0 He0|s0 c0 pr0 m0 a0 q0 t0 Hm0 He0]; subst.
    + destruct (op_name _ _ _ Hm0) as [_ B']. congruence.
    + apply back_iff in Hm, Hm0. rewrite Hm in Hm0. injection Hm0 as <-. rewrite He in He0. injection He0 as <-. auto.
    + destruct (view_name _ _ _ Hm0) as [_ B']. congruence.
  - destruct (view_name _ _ _ Hm) as [N B]. inversion H2 as [|s0 c0 pr0 m0 a0 o0 s0' out0 Hm0 He0|s0 c0 p0 m0 a0 k0 s0' Hm0 Hd0 Hs0 He0|s0 c0 pr0 m0 a0 q0 t0 Hm0 He0]; subst.
    + destruct (op_not_view _ _ _ _ Hm0 Hm).
    + destruct (back_name _ _ _ Hm0) as [_ B']. congruence.
    + apply boardq_iff in Hm, Hm0. rewrite Hm in Hm0. injection Hm0 as <-. split; congruence.
Qed.
Lemma c99_once self tr : forall x outs x' outs', board_history self tr x outs -> board_history self tr x' outs' -> x = x' /\ outs = outs'.
Proof.
  induction tr as [|y tr IH] using rev_ind; intros x outs x' outs' H H'.
  - inversion H; [|match goal with E : _ ++ [_] = [] |- _ => apply app_eq_nil in E as [_ E]; discriminate E end|match goal with E : _ ++ [_] = [] |- _ => apply app_eq_nil in E as [_ E]; discriminate E end].
    inversion H'; [auto|match goal with E : _ ++ [_] = [] |- _ => apply app_eq_nil in E as [_ E]; discriminate E end|match goal with E : _ ++ [_] = [] |- _ => apply app_eq_nil in E as [_ E]; discriminate E end].
  - inversion H as [E|tr1 b1 ts1 c pr m a b2 t H1 Ha E|tr1 b1 ts1 c pr m a H1 Ha E]; [destruct tr; discriminate| |]; apply snoc_eq in E as [-> <-];
    (inversion H' as [E|tr2 b1' ts1' c' pr' m' a' b2' t' H1' Ha' E|tr2 b1' ts1' c' pr' m' a' H1' Ha' E]; [destruct tr; discriminate| |]; apply snoc_eq in E as [-> E]; injection E as <- <- <- <-);
    destruct (IH _ _ _ _ H1 H1') as [<- <-].
    + subst. destruct (accepts_once _ _ _ _ _ _ _ _ _ _ Ha Ha') as [-> ->]. auto.
    + destruct (Ha' _ _ Ha).
    + destruct (Ha _ _ Ha').
    + auto.
Qed.

(** ** The calls that are made *)
Lemma text_fits fs a l s : read_args fs a = Some l -> N.of_nat (String.length a) < 2 ^ 32 -> In (VStr s) l -> str_fits s.
Proof. intros E L Hin. pose proof (args_len _ _ _ _ E Hin) as HL. change (ReadLen.size (VStr s)) with (String.length s) in HL. unfold str_fits. refine (N.lt_trans _ _ _ _ L). lia. Qed.
Ltac unread E v := destruct v as [|[] v]; try discriminate E.
Ltac fits_all E L := unfold okcontent; cbn [ct_title ct_short ct_body ct_data ct_extra]; repeat split; refine (text_fits _ _ _ _ E L _); cbn [In]; tauto.
Lemma op_short m a o : N.of_nat (String.length a) < 2 ^ 32 -> board_means m a o -> short_mop o.
Proof.
  intros L Hm. pose proof Hm as (_ & Em & _). destruct o; cbn [short_mop]; try exact I; cbn in Em; subst m; apply board_iff in Hm; unfold board_entry in Hm;
    (eapply enter_at in Hm as (vs & E & Ef); [|reflexivity|discriminate]); cbv beta in Ef.
  - unread Ef vs. unread Ef vs. unread Ef vs. unread Ef vs. unread Ef vs. destruct vs; [|discriminate Ef]. injection Ef as <-. fits_all E L.
  - unread Ef vs. unread Ef vs. unread Ef vs. unread Ef vs. unread Ef vs. unread Ef vs. destruct vs; [|discriminate Ef]. injection Ef as <- <-. fits_all E L.
  - unread Ef vs. unread Ef vs. unread Ef vs. destruct vs; [|discriminate Ef]. destruct (read_vote _); [|discriminate Ef]. injection Ef as <- <- <-. fits_all E L.
Qed.
Lemma kind_short m a k : N.of_nat (String.length a) < 2 ^ 32 -> back_means m a k -> short_kind k.
Proof.
  intros L Hm. pose proof Hm as (_ & Em & _). destruct k; cbn [short_kind]; try exact I; cbn in Em; subst m; apply back_iff in Hm;
    (eapply enter_at in Hm as (vs & E & Ef); [|reflexivity|discriminate]); cbv beta in Ef.
  - unread Ef vs. unread Ef vs. unread Ef vs. unread Ef vs. unread Ef vs. destruct vs; [|discriminate Ef]. injection Ef as <-. fits_all E L.
  - unread Ef vs. unread Ef vs. unread Ef vs. unread Ef vs. destruct vs; [|discriminate Ef]. destruct (read_vote _); [|discriminate Ef]. injection Ef as <- <- <- <-. fits_all E L.
Qed.
Lemma usual_ok H tr : usual H tr -> Forall (call_ok (hashed tr)) tr.
Proof.
  intros (F & _). apply Forall_forall. intros [[[c pr] m] a] Hin. pose proof (proj1 (Forall_forall _ _) F _ Hin) as (A1 & A2 & A3 & A4). cbn [call_ok].
  split; [exact (conj A1 (conj A2 A3))|]. split; [intros o Ho; exact (op_short _ _ _ A4 Ho)|].
  intros k Hk. split; [exact (kind_short _ _ _ A4 Hk)|].
  destruct k as [id|ct|id v vt memo]; cbn [known]; try exact I. apply elem_of_list_In in Hin. split; exists c, pr, m, a, id, v, vt, memo; auto.
Qed.
Lemma c99_both H self tr : usual H tr -> exists x, board_history self tr x (board_gives H self ∅ tr) /\ BRep H (hashed tr) (length tr) (bb_run H self tr) x.
Proof. intros U. pose proof U as (_ & L & H32 & Hinj). exact (c99_all H (hashed tr) self H32 Hinj tr (usual_ok _ _ U) L). Qed.
Lemma c99_history H self tr : usual H tr -> exists x, board_history self tr x (board_gives H self ∅ tr).
Proof. intros U. destruct (c99_both H self tr U) as (x & Hh & _). eauto. Qed.

(** ** The records *)
Lemma mpip_bytes_is p : enc_mpip p = proposal_bytes p.
Proof. unfold enc_mpip, proposal_bytes, texts_of. cbv zeta. cbn [fold_right]. rewrite !sapp_assoc. reflexivity. Qed.
Lemma map_bytes_is p n : enc_umh (KVBytesProofs.hd p n) = map_bytes p n.
Proof. reflexivity. Qed.
Lemma c99_records H self tr s outs : usual H tr -> board_history self tr (Some s) outs ->
  let st := bb_run H self tr in
  st !! "STATE" = Some (board_bytes s) /\
  stored st (enc_uint 1 0) (map (fun e => (enc_uint 4 e.1, proposal_bytes e.2)) (m_proposals s)) /\
  stored st (enc_uint 1 2) (map (fun e => (enc_uint 4 e.1, tally_bytes H e.1 e.2)) (m_votes s)) /\
  stored st (enc_uint 1 3) (map (fun e => (enc_str e.1, map_bytes (votes_of H e.1) (length e.2))) (m_voters s)) /\
  stored st (enc_uint 1 4) (map (fun e => (enc_str e.1, numbers_bytes e.2)) (m_proposers s)) /\
  (forall id v, In (id, v) (m_votes s) -> stored st (ballots_of H id) (map (fun e => (enc_str e.1, ballot_bytes e.2)) (pv_voted v))) /\
  (forall a l, In (a, l) (m_voters s) -> stored st (votes_of H a) (map (fun e => (enc_uint 4 e.1, ballot_bytes e.2)) l)).
Proof.
  intros U Hh. destruct (c99_both H self tr U) as (x & Hh' & HR). destruct (c99_once _ _ _ _ _ _ Hh Hh') as [<- _]. destruct HR as (E & M & _). cbv zeta.
  assert (S : forall K V (ek : K -> string) (ev : K -> V -> string) W st p (l : list (K * V)), TMap ek ev W st p l -> stored st p (map (fun e => (ek e.1, ev e.1 e.2)) l)).
  { intros K V ek ev W st p l T i k v L. rewrite list_lookup_fmap in L. destruct (l !! i) as [[k' v']|] eqn:El; [|discriminate]. injection L as <- <-. exact (t_records _ _ _ _ _ _ _ _ _ T El). }
  pose proof M as [a1 a2 a3 a4 a5 a6 a7]. split; [exact E|]. split; [|split; [|split; [|split; [|split]]]].
  - intros i k v L. apply (S _ _ _ _ _ _ _ _ a1 i k v). rewrite <- L. f_equal. apply map_ext. intros e. rewrite mpip_bytes_is. reflexivity.
  - exact (S _ _ _ _ _ _ _ _ a2).
  - exact (S _ _ _ _ _ _ _ _ a3).
  - exact (S _ _ _ _ _ _ _ _ a4).
  - intros id v Hin. pose proof (om_In_get _ _ _ (t_nodup _ _ _ _ _ _ a2) Hin) as Eg. pose proof (all_get _ _ _ _ (t_all _ _ _ _ _ _ a2) Eg) as (_ & N & _).
    pose proof (a5 id N) as T. unfold get_pvote in T. rewrite Eg in T. exact (S _ _ _ _ _ _ _ _ T).
  - intros a l Hin. pose proof (om_In_get _ _ _ (t_nodup _ _ _ _ _ _ a3) Hin) as Eg. pose proof (all_get _ _ _ _ (t_all _ _ _ _ _ _ a3) Eg) as (_ & N & _).
    pose proof (a6 a N) as T. unfold get_mvoter in T. rewrite Eg in T. exact (S _ _ _ _ _ _ _ _ T).
Qed.

(** ** Nothing else is stored *)
Lemma c99_nothing_else H self tr s outs : usual H tr -> board_history self tr (Some s) outs ->
  forall key, is_Some (bb_run H self tr !! key) ->
    key = "STATE" \/ of_map (enc_uint 1 0) (map (fun e => enc_uint 4 e.1) (m_proposals s)) key \/ of_map (enc_uint 1 2) (map (fun e => enc_uint 4 e.1) (m_votes s)) key \/
    of_map (enc_uint 1 3) (map (fun e => enc_str e.1) (m_voters s)) key \/ of_map (enc_uint 1 4) (map (fun e => enc_str e.1) (m_proposers s)) key \/
    (exists id v, In (id, v) (m_votes s) /\ of_map (ballots_of H id) (map (fun e => enc_str e.1) (pv_voted v)) key) \/
    (exists a l, In (a, l) (m_voters s) /\ of_map (votes_of H a) (map (fun e => enc_uint 4 e.1) l) key).
Proof.
  intros U Hh key Hk. destruct (c99_both H self tr U) as (x & Hh' & HR). destruct (c99_once _ _ _ _ _ _ Hh Hh') as [<- _]. destruct HR as (_ & M & _).
  assert (S : forall K V (ek : K -> string) (ev : K -> V -> string) W p (l : list (K * V)), TMap ek ev W (bb_run H self tr) p l -> under p key -> of_map p (map (fun e => ek e.1) l) key).
  { intros K V ek ev W p l T Hu. destruct (t_foot _ _ _ _ _ _ _ T Hu Hk) as (i & k & v & L & Hor). exists i, (ek k). split; [|exact Hor]. rewrite list_lookup_fmap, L. reflexivity. }
  assert (N0 : forall p, ~ of_map p [] key) by (intros p (i & k & L & _); discriminate L).
  destruct M as [a1 a2 a3 a4 a5 a6 a7]. destruct (a7 key Hk) as [P|[P|[P|[P|[P|[(id & Ni & P)|(a & Na & P)]]]]]].
  - left. exact P.
  - right. left. exact (S _ _ _ _ _ _ _ a1 P).
  - right. right. left. exact (S _ _ _ _ _ _ _ a2 P).
  - right. right. right. left. exact (S _ _ _ _ _ _ _ a3 P).
  - right. right. right. right. left. exact (S _ _ _ _ _ _ _ a4 P).
  - right. right. right. right. right. left. pose proof (S _ _ _ _ _ _ _ (a5 id Ni) P) as O. unfold get_pvote in O. destruct (om_get (m_votes s) id) as [v|] eqn:E; [|destruct (N0 _ O)].
    exists id, v. split; [exact (om_get_Some_In _ _ _ E)|exact O].
  - right. right. right. right. right. right. pose proof (S _ _ _ _ _ _ _ (a6 a Na) P) as O. unfold get_mvoter in O. destruct (om_get (m_voters s) a) as [l|] eqn:E; [|destruct (N0 _ O)].
    exists a, l. split; [exact (om_get_Some_In _ _ _ E)|exact O].
Qed.
Lemma c99_before H self tr outs : usual H tr -> board_history self tr None outs -> bb_run H self tr = ∅.
Proof. intros U Hh. destruct (c99_both H self tr U) as (x & Hh' & HR). destruct (c99_once _ _ _ _ _ _ Hh Hh') as [<- _]. exact HR. Qed.

(** ** The states reached *)
Lemma callback_only c c' s k a : c_signer c = c_signer c' -> c_ts c = c_ts c' -> mcallback c s k a = mcallback c' s k a.
Proof. intros E1 E2. destruct k; cbn [mcallback]; [|unfold create_callback, new_mpip; rewrite E1; reflexivity|reflexivity]. unfold start_callback, now_ms. rewrite E2. reflexivity. Qed.
Lemma driven_history self tr x pend : board_driven self tr x pend -> exists outs, board_history self tr x outs.
Proof.
  induction 1 as [|tr x pend c pr m a x' out _ [outs IH] _ Ha|tr x pend c pr m a _ [outs IH] _ Ha|tr x pend c p m a i q x' out _ [outs IH] _ _ _ Ha|tr x pend c p m a i q _ [outs IH] _ _ _ _ _ Ha];
    eexists; [apply bh_nil|eapply bh_yes; eassumption|eapply bh_no; eassumption|eapply bh_yes; eassumption|eapply bh_no; eassumption].
Qed.
Lemma c99_reached self tr s pend : board_driven self tr (Some s) pend ->
  exists x s0 evs, mi_self x = self /\ mpip_new x = Ok s0 /\ Mpip.wrun (Mpip.winit s0) evs = Mpip.mkWorld s pend /\ (length evs < length tr)%nat.
Proof.
  intros HD. remember (Some s) as y eqn:Ey. revert s Ey.
  assert (K : match y with None => pend = [] | Some s => exists x s0 evs, mi_self x = self /\ mpip_new x = Ok s0 /\ Mpip.wrun (Mpip.winit s0) evs = Mpip.mkWorld s pend /\ (length evs < length tr)%nat end); [|intros s ->; exact K].
  induction HD as [|tr x pend c pr m a x' out _ IH Nb Ha|tr x pend c pr m a _ IH _ Ha|tr x pend c p m a i q x' out _ IH Hi Hb Hs Ha|tr x pend c p m a i q _ IH Hi Hb Hs Hp Hd Ha].
  - reflexivity.
  - destruct Ha as [c pr m a x s Hm Hs Hd Hn|s c pr m a o s' out Hm He|s c p m a k s' Hm Hd Hs He|s c pr m a q t Hm He].
    + cbn [snd asked]. subst pend. exists x, s, []. rewrite app_length. cbn [length]. repeat split; [exact Hs|exact Hn|lia].
    + destruct IH as (x & s0 & evs & E1 & E2 & E3 & E4). exists x, s0, (evs ++ [MCall c o]). rewrite !app_length. cbn [length snd]. repeat split; [exact E1|exact E2| |lia].
      unfold Mpip.wrun. rewrite fold_left_app. fold (Mpip.wrun (Mpip.winit s0) evs). rewrite E3. cbn [fold_left Mpip.wstep Mpip.w_m Mpip.w_pend]. rewrite He. destruct out; reflexivity.
    + destruct (Nb _ Hm).
    + destruct IH as (x & s0 & evs & E1 & E2 & E3 & E4). exists x, s0, evs. rewrite app_length. cbn [length snd asked]. repeat split; [exact E1|exact E2|exact E3|lia].
  - destruct x as [s|]; [|exact IH]. destruct IH as (x & s0 & evs & E1 & E2 & E3 & E4). exists x, s0, evs. rewrite app_length. cbn [length]. repeat split; [exact E1|exact E2|exact E3|lia].
  - destruct (back_name _ _ _ Hb) as [N B]. inversion Ha as [c0 pr0 m0 a0 x0 s0 Hm0 Hs0 Hd0 Hn0|s0 c0 pr0 m0 a0 o0 s0' out0 Hm0 He0|s0 c0 p0 m0 a0 k0 s0' Hm0 Hd0 Hs0 He0|s0 c0 pr0 m0 a0 q0 t0 Hm0 He0]; subst.
    + destruct Hm0 as (_ & _ & _ & _ & _ & E & _). destruct (N E).
    + destruct (op_name _ _ _ Hm0) as [_ B']. congruence.
    + assert (k0 = pd_kind q) as -> by (apply back_iff in Hm0, Hb; congruence).
      destruct IH as (x & s1 & evs & E1 & E2 & E3 & E4). exists x, s1, (evs ++ [MAnswer i (c_ts c) (answer_in p)]). rewrite !app_length. cbn [length]. repeat split; [exact E1|exact E2| |lia].
      unfold Mpip.wrun. rewrite fold_left_app. fold (Mpip.wrun (Mpip.winit s1) evs). rewrite E3. cbn [fold_left Mpip.wstep Mpip.w_m Mpip.w_pend]. rewrite Hi.
      rewrite (callback_only _ c) by (symmetry; first [exact Hs|reflexivity]). rewrite He0. reflexivity.
    + destruct (view_name _ _ _ Hm0) as [_ B']. congruence.
  - destruct x as [s|]; [|subst pend; destruct i; discriminate Hi].
    destruct IH as (x & s1 & evs & E1 & E2 & E3 & E4). exists x, s1, (evs ++ [MAnswer i (c_ts c) (answer_in p)]). rewrite !app_length. cbn [length]. repeat split; [exact E1|exact E2| |lia].
    unfold Mpip.wrun. rewrite fold_left_app. fold (Mpip.wrun (Mpip.winit s1) evs). rewrite E3. cbn [fold_left Mpip.wstep Mpip.w_m Mpip.w_pend]. rewrite Hi.
    rewrite (callback_only _ c) by (symmetry; first [exact Hs|reflexivity]). destruct (mcallback c s (pd_kind q) (answer_in p)) as [s'|e] eqn:Ek; [|reflexivity].
    destruct (Ha (Some s') (kind_returned s (pd_kind q), ONone)). apply ba_back; assumption.
Qed.

(** ** A sign that a history is [usual] *)
Definition names_of (tr : list bbcall) : list string :=
  flat_map (fun x : bbcall => match enter back_tbl x.1.2 x.2 with Some (KVote id v _ _) => [pretty id; v] | _ => [] end) tr.
Definition plain_call (x : bbcall) : bool :=
  let '(c, _, _, a) := x in valid_id (c_pred c) && valid_id (c_signer c) && (c_ts c <? 2 ^ 64) && (N.of_nat (String.length a) <? 2 ^ 32).
Definition no_clash (H : string -> string) (l : list string) : bool := forallb (fun x => forallb (fun y => negb (String.eqb (H x) (H y)) || String.eqb x y) l) l.
Lemma hashed_names tr x : hashed tr x -> In x (names_of tr).
Proof.
  intros (c & pr & m & a & id & v & vt & memo & Hin & Hm & Hx). apply in_flat_map. exists (c, pr, m, a). split; [exact Hin|]. cbn [fst snd].
  rewrite (proj2 (back_iff _ _ _) Hm). cbn [In]. destruct Hx as [->| ->]; auto.
Qed.
Lemma usual_if H tr : (forall x, String.length (H x) = 32%nat) -> forallb plain_call tr = true -> N.of_nat (length tr) < 2 ^ 32 -> no_clash H (names_of tr) = true -> usual H tr.
Proof.
  intros H32 Hp Hl Hc. split; [|split; [exact Hl|split; [exact H32|]]].
  - rewrite forallb_forall in Hp. apply Forall_forall. intros [[[c pr] m] a] Hin. apply elem_of_list_In in Hin. specialize (Hp _ Hin). cbn [plain_call] in Hp.
    apply andb_prop in Hp as [Hp A4]. apply andb_prop in Hp as [Hp A3]. apply andb_prop in Hp as [A1 A2]. apply valid_id_spec in A1, A2. apply N.ltb_lt in A3, A4. exact (conj A1 (conj A2 (conj A3 A4))).
  - intros x y Hx Hy E. apply hashed_names in Hx, Hy. unfold no_clash in Hc. rewrite forallb_forall in Hc. specialize (Hc _ Hx). rewrite forallb_forall in Hc. specialize (Hc _ Hy).
    rewrite E, String.eqb_refl in Hc. cbn [negb orb] in Hc. apply String.eqb_eq. exact Hc.
Qed.
