(** MpipRefuted.v -- concrete histories of the proposal contract, and the claims about it that are
    false of the code. *)

From Verif Require Export MpipSpec MpipInv MpipLife MpipTime.

Definition mia : minit := mkMinit "mpip.near" "adm.near" "op.near" "meta.near" "mv.near" 1000 100 5 1000.
Definition ms0 : mstate := match mpip_new mia with Ok s => s | Panic _ => mkMstate "" "" "" "" "" [] [] [] [] 0 0 0 0 0 0 false 0 end.
Lemma ms0_ok : mpip_new mia = Ok ms0.
Proof. reflexivity. Qed.
Definition mw0 : world := winit ms0.
(** direct caller, signer, deposit, time in milliseconds *)
Definition mcx (p sg : string) (dep ms : N) : ctx := mkCtx p sg dep (ms * 1000000) (fun _ => None) (fun _ => None).
Definition mc (p : string) (ms : N) (o : mop) : mevent := MCall (mcx p p 0 ms) o.
Definition mcreate (p : string) (ms : N) (t : string) : mevent := MCall (mcx p p 5 ms) (CreateProposal (mkContent t "s" "b" "d" "e")).
Definition pos (vp : N) (locked : bool) : lpj := mkLpj None 1 60 vp None false (negb locked) locked.
(** answers: the total; positions of the given locked powers *)
Definition ans_total (i : nat) (ms n : N) : mevent := MAnswer i (ms * 1000000) (ABytes (Some n) None).
Definition ans_pos (i : nat) (ms : N) (l : list lpj) : mevent := MAnswer i (ms * 1000000) (ABytes None (Some l)).

Ltac mconj := cbv zeta; repeat match goal with |- _ /\ _ => split end.
Ltac mvmr := vm_compute; reflexivity.
Ltac mtimed_tac := unfold mtimed; repeat constructor; vm_compute; discriminate.

(** every call and every callback of the history succeeds *)
Definition event_ok (w : world) (x : mevent) : bool :=
  match x with
  | MCall c o => match mcall c (w_m w) o with Ok _ => true | Panic _ => false end
  | MAnswer i ts a =>
      match w_pend w !! i with
      | None => false
      | Some p => match mcallback (callback_ctx (w_m w) p ts) (w_m w) (pd_kind p) a with Ok _ => true | Panic _ => false end
      end
  end.
Fixpoint mall_ok (w : world) (tr : list mevent) : bool :=
  match tr with [] => true | x :: tr' => event_ok w x && mall_ok (wstep w x) tr' end.

(** alice creates proposal 0 and starts it; voting runs from 20 to 1020 ms, quorum 500 *)
Definition tr_open : list mevent :=
  [ mcreate "alice" 10 "P0"; ans_pos 0 11 [pos 70 true; pos 1000 false; pos 40 true];
    mc "alice" 15 (StartVoting 0); ans_total 0 20 5000 ].
Lemma tr_open_ok : mall_ok mw0 tr_open = true.
Proof. mvmr. Qed.

(** C38: bob's two votes are both in flight *)
Definition tr_double : list mevent :=
  tr_open ++ [ mc "bob" 30 (VoteProposal 0 VFor "a"); mc "bob" 31 (VoteProposal 0 VAgainst "b");
               ans_pos 0 32 [pos 300 true]; ans_pos 0 33 [pos 300 true] ].
Lemma r_c38 : ~ (forall a s0 tr, mpip_new a = Ok s0 -> mtimed tr -> mall_ok (winit s0) tr = true ->
  forall id t, tally (w_m (wrun (winit s0) tr)) id t = recorded (w_m (wrun (winit s0) tr)) id t).
Proof.
  intros H. assert (Ht : mtimed tr_double) by mtimed_tac. assert (Ho : mall_ok mw0 tr_double = true) by mvmr.
  specialize (H mia ms0 tr_double ms0_ok Ht Ho 0 VFor).
  assert (E1 : tally (w_m (wrun (winit ms0) tr_double)) 0 VFor = 300) by mvmr.
  assert (E2 : recorded (w_m (wrun (winit ms0) tr_double)) 0 VFor = 0) by mvmr.
  rewrite E1, E2 in H. discriminate H.
Qed.

(** C43: nobody for, 600 abstaining, 3000 against: executed at its end *)
Definition tr_against : list mevent :=
  tr_open ++ [ mc "bob" 30 (VoteProposal 0 VAbstain "a"); ans_pos 0 32 [pos 600 true];
               mc "carol" 40 (VoteProposal 0 VAgainst "a"); ans_pos 0 42 [pos 3000 true] ].
Lemma r_c43 : ~ (forall a s0 tr c id, mpip_new a = Ok s0 -> mtimed tr ->
  let s := w_m (wrun (winit s0) tr) in let s' := w_m (wstep (wrun (winit s0) tr) (MCall c (ProcessVotingStatus id))) in
  get_proposal_state (now_ms c) s id <> Ok StExecuted -> get_proposal_state (now_ms c) s' id = Ok StExecuted ->
  tally s id VAgainst < tally s id VFor).
Proof.
  intros H. assert (Ht : mtimed tr_against) by mtimed_tac.
  specialize (H mia ms0 tr_against (mcx "op.near" "op.near" 0 1020) 0 ms0_ok Ht). cbv zeta in H.
  assert (E1 : get_proposal_state (now_ms (mcx "op.near" "op.near" 0 1020)) (w_m (wrun (winit ms0) tr_against)) 0 = Ok StVotingProcess) by mvmr.
  assert (E2 : get_proposal_state (now_ms (mcx "op.near" "op.near" 0 1020))
     (w_m (wstep (wrun (winit ms0) tr_against) (MCall (mcx "op.near" "op.near" 0 1020) (ProcessVotingStatus 0)))) 0 = Ok StExecuted) by mvmr.
  assert (E3 : tally (w_m (wrun (winit ms0) tr_against)) 0 VAgainst = 3000) by mvmr.
  assert (E4 : tally (w_m (wrun (winit ms0) tr_against)) 0 VFor = 0) by mvmr.
  rewrite E1, E2, E3, E4 in H. specialize (H ltac:(discriminate) eq_refl). discriminate H.
Qed.

(** C44: accepted, but one millisecond late *)
Definition tr_accept : list mevent :=
  tr_open ++ [ mc "bob" 30 (VoteProposal 0 VFor "a"); ans_pos 0 32 [pos 600 true] ].
Lemma r_c44 : ~ (forall a s0 tr c id, mpip_new a = Ok s0 -> mtimed tr ->
  let s := w_m (wrun (winit s0) tr) in let s' := w_m (wstep (wrun (winit s0) tr) (MCall c (ProcessVotingStatus id))) in
  get_proposal_state (now_ms c) s id = Ok StAccepted -> c_signer c = m_operator s -> c_deposit c = 0 ->
  get_proposal_state (now_ms c) s' id = Ok StExecuted).
Proof.
  intros H. assert (Ht : mtimed tr_accept) by mtimed_tac.
  specialize (H mia ms0 tr_accept (mcx "op.near" "op.near" 0 1021) 0 ms0_ok Ht). cbv zeta in H.
  assert (E1 : get_proposal_state (now_ms (mcx "op.near" "op.near" 0 1021)) (w_m (wrun (winit ms0) tr_accept)) 0 = Ok StAccepted) by mvmr.
  assert (E2 : get_proposal_state (now_ms (mcx "op.near" "op.near" 0 1021))
     (w_m (wstep (wrun (winit ms0) tr_accept) (MCall (mcx "op.near" "op.near" 0 1021) (ProcessVotingStatus 0)))) 0 = Ok StAccepted) by mvmr.
  assert (E3 : m_operator (w_m (wrun (winit ms0) tr_accept)) = "op.near") by mvmr.
  rewrite E1, E2, E3 in H. specialize (H eq_refl eq_refl eq_refl). discriminate H.
Qed.

(** C45: the answer arrives 10 seconds after the end and is counted *)
Definition tr_late : list mevent := tr_open ++ [ mc "bob" 30 (VoteProposal 0 VFor "a") ].
Lemma r_c45 : ~ (forall a s0 tr i ts an id t, mpip_new a = Ok s0 -> mtimed (tr ++ [MAnswer i ts an]) ->
  let w := wrun (winit s0) tr in let w' := wstep w (MAnswer i ts an) in
  tally (w_m w') id t <> tally (w_m w) id t ->
  exists p, get_proposal (w_m w) id = Ok p /\ in_window (ts / 1000000) p).
Proof.
  intros H. assert (Ht : mtimed (tr_late ++ [ans_pos 0 11020 [pos 600 true]])) by mtimed_tac.
  specialize (H mia ms0 tr_late _ _ _ 0 VFor ms0_ok Ht). cbv zeta in H.
  assert (E1 : tally (w_m (wrun (winit ms0) tr_late)) 0 VFor = 0) by mvmr.
  assert (E2 : tally (w_m (wstep (wrun (winit ms0) tr_late) (MAnswer 0 (11020 * 1000000) (ABytes None (Some [pos 600 true]))))) 0 VFor = 600) by mvmr.
  rewrite E1, E2 in H. destruct (H ltac:(discriminate)) as (p & Hp & d & e & _ & He & [_ Hle] & _). clear H E1 E2.
  assert (E : get_proposal (w_m (wrun (winit ms0) tr_late)) 0 =
    Ok (mkMpip 0 (mkContent "P0" "s" "b" "d" "e") "alice" (Some 20) (Some 1020) false false false (Some 500))) by mvmr.
  rewrite E in Hp. injection Hp as <-. injection He as <-. vm_compute in Hle. exact (Hle eq_refl).
Qed.
(** ... nor after a cancellation: cancel in the start millisecond *)
Definition tr_cancel : list mevent :=
  tr_open ++ [ mc "bob" 20 (VoteProposal 0 VFor "a"); mc "alice" 20 (CancelProposal 0) ].

(** C47: a contract called by the admin opens and closes at will *)
Lemma r_c47 : ~ (forall c s o, mok c s o -> admin_call o = true -> c_pred c = m_admin s).
Proof.
  intros H. specialize (H (mcx "evil.near" "adm.near" 0 1) ms0 (UpdateAdminRole "evil.near")).
  assert (Hok : mok (mcx "evil.near" "adm.near" 0 1) ms0 (UpdateAdminRole "evil.near")).
  { eexists. vm_compute. reflexivity. }
  specialize (H Hok eq_refl). discriminate H.
Qed.

(** C49: two start calls in flight *)
Definition tr_twice : list mevent :=
  [ mcreate "alice" 10 "P0"; ans_pos 0 11 [pos 110 true];
    mc "alice" 15 (StartVoting 0); mc "op.near" 15 (StartVoting 0); ans_total 0 20 5000 ].
Lemma r_c49 : ~ (forall a s0 tr x id p p', mpip_new a = Ok s0 -> mtimed (tr ++ [x]) ->
  get_proposal (w_m (wrun (winit s0) tr)) id = Ok p -> pr_start p <> None ->
  get_proposal (w_m (wstep (wrun (winit s0) tr) x)) id = Ok p' -> pr_start p' = pr_start p).
Proof.
  intros H. assert (Ht : mtimed (tr_twice ++ [ans_total 0 900 6000])) by mtimed_tac.
  assert (E1 : get_proposal (w_m (wrun (winit ms0) tr_twice)) 0 =
    Ok (mkMpip 0 (mkContent "P0" "s" "b" "d" "e") "alice" (Some 20) (Some 1020) false false false (Some 500))) by mvmr.
  assert (E2 : get_proposal (w_m (wstep (wrun (winit ms0) tr_twice) (ans_total 0 900 6000))) 0 =
    Ok (mkMpip 0 (mkContent "P0" "s" "b" "d" "e") "alice" (Some 900) (Some 1900) false false false (Some 600))) by mvmr.
  specialize (H mia ms0 tr_twice _ 0 _ _ ms0_ok Ht E1 ltac:(discriminate) E2). discriminate H.
Qed.

(** C52: the creator is the signer, the checked account is the direct caller *)
Definition tr_proxy : list mevent := [ MCall (mcx "whale.near" "alice" 5 10) (CreateProposal (mkContent "P" "s" "b" "d" "e")) ].
Lemma r_c52 : ~ (forall a s0 tr i ts an q p id, mpip_new a = Ok s0 ->
  let w := wrun (winit s0) tr in w_pend w !! i = Some q ->
  get_proposal (w_m (wstep w (MAnswer i ts an))) id = Ok p -> n_proposals (w_m w) = 0%nat ->
  pd_ask q = AskPositions (pr_creator p)).
Proof.
  intros H.
  assert (E1 : w_pend (wrun (winit ms0) tr_proxy) !! 0%nat =
    Some (mkPending "alice" "mv.near" (AskPositions "whale.near") (KCreate (mkContent "P" "s" "b" "d" "e")))) by mvmr.
  assert (E2 : get_proposal (w_m (wstep (wrun (winit ms0) tr_proxy) (ans_pos 0 20 [pos 100 true]))) 0 =
    Ok (mkMpip 0 (mkContent "P" "s" "b" "d" "e") "alice" None None true false false None)) by mvmr.
  specialize (H mia ms0 tr_proxy _ _ _ _ _ 0 ms0_ok E1 E2 ltac:(mvmr)). discriminate H.
Qed.
