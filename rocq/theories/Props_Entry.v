(** Props_Entry.v -- C94: everything that arrives is text. *)

From Verif Require Import EntryProofs WireProofs MVWitness MpipRefuted Props_World Props_Sys Props_Sized Props_Post MVSpecSized MVSpecMsg.
Import EntrySpec PostSpec World.

(** A text is taken as a call exactly if it means this call: the method is the named one, the values are of the declared types, and the text says of
    the declared parameters what the plain text of the call says. All other texts are refused. *)
Theorem C94_voting_contract :
  forall m a o, mv_entry m a = Some o <-> mv_means m a o.
Proof. exact mv_iff. Qed.
Print Assumptions C94_voting_contract.

Theorem C94_token :
  forall m a o, tok_entry m a = Some o <-> tok_means m a o.
Proof. exact tok_iff. Qed.
Print Assumptions C94_token.

Theorem C94_proposal_contract :
  forall m a o, board_entry m a = Some o <-> board_means m a o.
Proof. exact board_iff. Qed.
Print Assumptions C94_proposal_contract.

Theorem C94_kv_store :
  forall m a o, kv_entry m a = Some o <-> kv_means m a o.
Proof. exact kv_iff. Qed.
Print Assumptions C94_kv_store.

(** Whatever texts arrive: the system behaves as the system of values, for the calls the texts stand for. *)
Theorem C94_system :
  forall x0 y0 tr, started x0 y0 -> Forall (natural x0) tr ->
    exists trs lost, List.Forall2 (zlike x0) tr trs /\
      let x := zrun x0 tr in
      let y := yrun y0 (concat trs) in
      same_contracts x y /\ same_mail x y lost /\ Forall (lost_callback (m_self (y_board y0))) lost.
Proof. exact c94_system. Qed.
Print Assumptions C94_system.

(** The voting contract is in a state that a history of typed calls leads to, made by the texts or by the contracts themselves, at the
    times of the history; messages are read as C90 says.  So all that is proved of such histories holds for texts, without
    hypotheses on what the callers send. *)
Theorem C94_voting_history :
  forall x0 y0 tr, started x0 y0 -> Forall (natural x0) tr ->
    exists h, n_mv (zrun x0 tr) = run (n_mv x0) h /\
      Forall (fun z => sized_call z /\ reads_json z.1 /\ justified x0 tr z) h /\
      sublist (map (fun z => c_ts z.1) h) (map tev_ts tr).
Proof. exact c94_history. Qed.
Print Assumptions C94_voting_history.

(** for instance C88: no number is too big for its type *)
Theorem C94_voting_sizes :
  forall x0 y0 tr, started x0 y0 -> Forall (natural x0) tr -> sized (MVSpecStep.observe (n_mv (zrun x0 tr))).
Proof. exact c94_sized. Qed.
Print Assumptions C94_voting_sizes.

(** The same for the proposal contract. *)
Theorem C94_proposal_history :
  forall x0 y0 tr, started x0 y0 -> Forall (natural x0) tr ->
    exists h, n_board (zrun x0 tr) = w_m (Mpip.wrun (winit (n_board x0)) h) /\
      Forall (fun z => MpipSpecSized.sized_event z /\ board_justified x0 tr z) h.
Proof. exact c94_board. Qed.
Print Assumptions C94_proposal_history.

(** and C92 *)
Theorem C94_voters_hold_tokens :
  forall b x0 y0 tr id T D vs,
    started x0 y0 -> mpip_new b = Ok (n_board x0) -> mi_vote b = self_id (n_mv x0) -> Forall (natural x0) tr ->
    Sorted N.le (map tev_ts tr) -> Forall (zeach x0 (tame D y0)) tr -> D <= min_unbond (n_mv x0) ->
    Forall (fun e => tev_ts e / 1000000 <= T) tr ->
    (forall e c vt memo, In e tr -> stands x0 e (XBoard c (VoteProposal id vt memo)) -> T < now_ms c + D * 86400000) ->
    N.of_nat (length tr) < 2 ^ 64 ->
    let x := zrun x0 tr in
    sum_by (fun v => match get_my_vote (n_board x) v id with Ok (Some (_, u)) => vt_power u | _ => 0 end) vs <=
      60 * 10 ^ 18 * sum_by (positions_amount (n_mv x)) vs.
Proof. exact c94_tokens. Qed.
Print Assumptions C94_voters_hold_tokens.

(** ** Examples *)
(** a text in another order, with white space, escapes and a member nobody asked for; a record as an array; and texts that are refused:
    a number where a string must be, a number too big, a member missing, one twice, something behind the end, a method in other letters *)
Example C94_example_read :
  mv_typed (ClaimAndLock (M 7) 30) /\
  mv_text (ClaimAndLock (M 7) 30) = ("claim_and_lock", "{""amount"":""7000000"",""locking_period"":30}") /\
  mv_entry "claim_and_lock" " { ""locking_period"" : 30, ""x"":[1,{""y"":null}], ""amount"":""7000000"" } " = Some (ClaimAndLock (M 7) 30) /\
  mv_entry "claim_and_lock" "[""7000000"",30]" = Some (ClaimAndLock (M 7) 30) /\
  mv_entry "withdraw_all" "nonsense" = Some WithdrawAll /\
  mv_entry "migration_create_lps" "{""voter_id"":""a.near"",""locking_positions"":[[""5"",30],[""6"",60]]}" = Some (MigrationCreateLps "a.near" [(5, 30); (6, 60)] None) /\
  board_entry "vote_proposal" "{""mpip_id"":3,""vote"":{""For"":null},""memo"":""\""""}" = Some (VoteProposal 3 VFor """") /\
  tok_entry "storage_deposit" "{}" = Some (TStorageDeposit None) /\
  map (fun p => mv_entry p.1 p.2)
    [("claim_and_lock", "{""amount"":7000000,""locking_period"":30}"); ("claim_and_lock", "{""amount"":""7000000"",""locking_period"":65536}");
     ("claim_and_lock", "{""amount"":""7000000""}"); ("claim_and_lock", "{""amount"":""7000000"",""locking_period"":30,""amount"":""7000000""}");
     ("claim_and_lock", "{""amount"":""7000000"",""locking_period"":30}}"); ("Claim_And_Lock", "{""amount"":""7000000"",""locking_period"":30}");
     ("set_owner_id", "{""owner_id"":""Alice""}"); ("after_transfer_mpdao_callback", "{""voter_id"":""bob"",""amount"":""4000000""}")] = repeat None 8.
Proof. split; [split; [split; reflexivity|exact I]|]. conj; vmr. Qed.

(** the history of Props_Post.v as texts *)
Definition zof (e : xev) : tev :=
  match e with
  | XMv z => ZCall (c_pred z.1) (c_signer z.1) "mv.near" (mv_text z.2).1 (mv_text z.2).2 (c_deposit z.1) (c_ts z.1)
  | XTok k z => ZCall (c_pred z.1) (c_signer z.1) (match k with Mp => "mpdao.near" | St => "stnear.near" end)
                  (tok_text (Some "m") None z.2).1 (tok_text (Some "m") None z.2).2 (c_deposit z.1) (c_ts z.1)
  | XBoard c o => ZCall (c_pred c) (c_signer c) (m_self ms0) (board_text o).1 (board_text o).2 (c_deposit c) (c_ts c)
  | XRun i c f alt => ZRun i (c_ts c) f alt
  end.
(** and a stranger's texts between them *)
Definition junk : list tev :=
  [ ZCall "eve" "eve" "mv.near" "withdraw" "{""position_index_list"":[0],""amount_from_balance"":-1}" 1 1020000000;
    ZCall "eve" "eve" "mv.near" "after_transfer_mpdao_callback" "{""voter_id"":""eve"",""amount"":""4000000""}" 0 1020000000;
    ZCall "eve" "eve" "mv.near" "vote" "{""voting_power"":""1"",""contract_address"":""a"",""votable_object_id"":""b""}" 0 1020000000 ].
Definition z_counted : list tev := map zof x_counted ++ junk.
Definition natural_check (e : tev) : bool :=
  match e with ZCall f _ _ _ _ d ts => outs f && (d <? 2 ^ 128) && (ts <? 2 ^ 64) | ZRun _ ts _ _ => ts <? 2 ^ 64 end.
Lemma natural_ok tr : forallb natural_check tr = true -> Forall (natural x0) tr.
Proof.
  intros H. apply List.Forall_forall. intros e He. rewrite forallb_forall in H. specialize (H e He). destruct e as [f g to m a d ts|i ts f alt]; cbn [natural_check natural] in *.
  - apply andb_prop in H as [H H3]. apply andb_prop in H as [H1 H2]. split; [apply outs_ok; exact H1|]. split; apply N.ltb_lt; assumption.
  - apply N.ltb_lt. exact H.
Qed.
Lemma ztimes_ok tr : sorted_check (map tev_ts tr) = true -> Sorted N.le (map tev_ts tr).
Proof.
  induction (map tev_ts tr) as [|t l IH]; intros H; [constructor|]. destruct l as [|u l]; [repeat constructor|].
  cbn [sorted_check] in H. apply andb_true_iff in H as [H1 H2]. constructor; [exact (IH H2)|]. constructor. apply N.leb_le. exact H1.
Qed.
Lemma x0_differ : PostProofs.differ x0. Proof. exact (PostProofs.sim_n _ _ _ (SIM0 x0 y0 x0_started)). Qed.
Lemma zeach_ok D tr : forallb (fun e => match zread x0 e with Some e' => match asked e' with Some e' => tame_check D e' | None => true end | None => true end) tr = true ->
  Forall (zeach x0 (tame D y0)) tr.
Proof.
  intros H. apply List.Forall_forall. intros e He e' E. rewrite forallb_forall in H. specialize (H e He). apply stands_read in E; [|exact x0_differ].
  revert H E. generalize (zread x0 e) as o. intros o H ->. assert (F : Forall (each (tame D y0)) [e']) by (apply each_ok; cbn [forallb]; rewrite H; reflexivity). inversion F; assumption.
Qed.
Lemma zlate_ok D T id tr : forallb (fun e => match zread x0 e with Some e' => late_check D T id e' | None => true end) tr = true ->
  forall e c vt memo, In e tr -> stands x0 e (XBoard c (VoteProposal id vt memo)) -> T < now_ms c + D * 86400000.
Proof.
  intros H e c vt memo He E. rewrite forallb_forall in H. specialize (H _ He). apply stands_read in E; [|exact x0_differ].
  revert H E. generalize (zread x0 e) as o. intros o H ->. cbn in H.
  rewrite N.eqb_refl in H. apply N.ltb_lt. exact H.
Qed.
Lemma zuntil_ok T tr : forallb (fun e => tev_ts e / 1000000 <=? T) tr = true -> Forall (fun e => tev_ts e / 1000000 <= T) tr.
Proof. intros H. apply List.Forall_forall. intros e He. rewrite forallb_forall in H. apply N.leb_le, (H e He). Qed.
Example C94_example :
  started x0 y0 /\ mpip_new mia = Ok (n_board x0) /\ mi_vote mia = self_id (n_mv x0) /\ Forall (natural x0) z_counted /\
  Sorted N.le (map tev_ts z_counted) /\ Forall (zeach x0 (tame 30 y0)) z_counted /\ 30 <= min_unbond (n_mv x0) /\
  Forall (fun e => tev_ts e / 1000000 <= 1021) z_counted /\
  (forall e c vt memo, In e z_counted -> stands x0 e (XBoard c (VoteProposal 0 vt memo)) -> 1021 < now_ms c + 30 * 86400000) /\
  length z_counted = (length x_counted + 3)%nat /\
  (let x := zrun x0 z_counted in
   get_proposal_votes (n_board x) 0 = (V 100, V 5, 0, [("alice", mkMvote 0 VFor (V 100) "m"); ("bob", mkMvote 0 VAgainst (V 5) "no"",")]) /\
   get_balance 1021 (n_mv x) "eve" = Ok 0).
Proof.
  split; [exact x0_started|]. split; [exact ms0_ok|]. split; [vmr|]. split; [apply natural_ok; vmr|]. split; [apply ztimes_ok; vmr|].
  split; [apply zeach_ok; vmr|]. split; [vm_compute; discriminate|]. split; [apply zuntil_ok; vmr|]. split; [apply zlate_ok; vmr|]. conj; vmr.
Qed.
