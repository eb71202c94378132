(** Props_Post.v -- C93: the contracts understand each other. *)

From Verif Require Import PostProofs WireProofs MVWitness MpipRefuted Props_World Props_Sys Props_Sized.
Import PostSpec World.

(** Every value of a type is read back from the text that is written for it, whatever bytes its strings hold. *)
Theorem C93_round_trip : forall t v, has t v -> json t (write v) = Some v.
Proof. exact json_ok. Qed.
Print Assumptions C93_round_trip.

(** near-sdk accepts exactly the account ids. *)
Theorem C93_account_ids : forall s, valid_id s = true <-> account_id s.
Proof. exact valid_id_spec. Qed.
Print Assumptions C93_account_ids.

(** The four contracts exchanging JSON texts do what they do in Sys.v exchanging values: for every history there is one of Sys.v with
    the same calls and receipts, after which all contracts are in the same states, and the receipts in flight are the texts
    of the values in flight there. *)
Theorem C93_system :
  forall x0 y0 tr, started x0 y0 -> Forall (typed x0) tr ->
    exists trs lost, List.Forall2 like tr trs /\
      let x := xrun x0 tr in
      let y := yrun y0 (concat trs) in
      same_contracts x y /\ same_mail x y lost /\ Forall (lost_callback (m_self (y_board y0))) lost.
Proof. exact c93_system. Qed.
Print Assumptions C93_system.

(** so what holds in Sys.v holds with texts: C92, for instance *)
Theorem C93_voters_hold_tokens :
  forall b x0 y0 tr id T D vs,
    started x0 y0 -> mpip_new b = Ok (n_board x0) -> mi_vote b = self_id (n_mv x0) -> Forall (typed x0) tr ->
    Sorted N.le (map xev_ts tr) -> Forall (each (tame D y0)) tr -> D <= min_unbond (n_mv x0) ->
    Forall (fun e => xev_ts e / 1000000 <= T) tr ->
    (forall c vt memo, In (XBoard c (VoteProposal id vt memo)) tr -> T < now_ms c + D * 86400000) ->
    N.of_nat (length tr) < 2 ^ 64 ->
    let x := xrun x0 tr in
    sum_by (fun v => match get_my_vote (n_board x) v id with Ok (Some (_, u)) => vt_power u | _ => 0 end) vs <=
      60 * 10 ^ 18 * sum_by (positions_amount (n_mv x)) vs.
Proof. exact c93_tokens. Qed.
Print Assumptions C93_voters_hold_tokens.

(** ** Examples *)
Definition x0 : net := mkNet s0 (tok0 "mpdao.near") (tok0 "stnear.near") ms0 [].
Lemma x0_started : started x0 y0.
Proof.
  split; [repeat split|]. split; [reflexivity|]. split; [exact w0_start|]. split; [reflexivity|].
  assert (E : existsb (String.eqb (m_self (y_board y0))) [self_id (w_mv (y_world y0)); t_self (w_mp (y_world y0)); t_self (w_st (y_world y0))] = false) by vmr.
  revert E. generalize (m_self (y_board y0)) as a. generalize [self_id (w_mv (y_world y0)); t_self (w_mp (y_world y0)); t_self (w_st (y_world y0))] as l.
  intros l a E H. assert (F : existsb (String.eqb a) l = true) by (apply existsb_exists; exists a; split; [exact H|apply String.eqb_refl]). congruence.
Qed.
(** the same receipts, now texts *)
Definition xw (e : wev) : xev :=
  match e with EMv z => XMv z | ETok k z => XTok k z | ERun i c f _ => XRun i c f None end.
Definition xb (p : string) (dep ms : N) (o : mop) : xev := XBoard (mcx p p dep ms) o.
Definition xr (i : nat) (ms : N) : xev := XRun i (cx "" 0 ms) false None.
(** proposal 0 of Props_Sys.v, with quotes, a backslash and a line break in its title *)
Definition title : string := "{""a"":""\"" " +:+ String (ascii_of_N 10) "}".
Definition x_open : list xev :=
  map xw evs_setup ++ [ xb "alice" 5 10 (CreateProposal (mkContent title "s" "b" "d" "e")); xr 0 11; xr 0 12; xb "alice" 0 15 (StartVoting 0); xr 0 16; xr 0 20 ].
(** bob's vote waits for its answer, alice's for its callback; bob's withdrawal is on its way *)
Definition x_voted : list xev :=
  x_open ++ [ xb "bob" 0 30 (VoteProposal 0 VAgainst "no"","); xb "alice" 0 31 (VoteProposal 0 VFor "m"); xr 1 33; xw (umv "bob" 35 (Unlock 0));
              xw (umv1 "bob" (36 + 30 * DAY) (Withdraw [0%nat] (M 4))) ].
(** [p]: account ids; no call from the contracts *)
Definition outs (a : string) : bool := valid_id a && negb (existsb (String.eqb a) ["mv.near"; "mpdao.near"; "stnear.near"]).
Definition typed_check (e : xev) : bool :=
  match e with
  | XMv z => outs (c_pred z.1) && szb z
  | XTok _ z => outs (c_pred z.1) && match z.2 with TTransferCall r n _ => valid_id r && (n <? 2 ^ 128) | _ => true end
  | XBoard c o => valid_id (c_pred c) && match o with StartVoting id | VoteProposal id _ _ => id <? 2 ^ 32 | _ => true end
  | XRun _ c _ _ => c_ts c <? 2 ^ 64
  end.
Lemma outs_ok a : outs a = true -> outside x0 a.
Proof.
  intros H. apply andb_prop in H as [H1 H2]. split; [apply valid_id_spec; exact H1|]. apply negb_true_iff in H2.
  assert (E1 : self_id (n_mv x0) = "mv.near") by vmr. assert (E2 : t_self (n_mp x0) = "mpdao.near") by vmr. assert (E3 : t_self (n_st x0) = "stnear.near") by vmr.
  rewrite E1, E2, E3. clear E1 E2 E3. cbn [existsb] in H2.
  apply orb_false_iff in H2 as [A H2]. apply orb_false_iff in H2 as [B H2]. apply orb_false_iff in H2 as [C _].
  split; [|split]; apply String.eqb_neq; assumption.
Qed.
Lemma typed_ok tr : forallb typed_check tr = true -> Forall (typed x0) tr.
Proof.
  intros H. apply List.Forall_forall. intros e He. rewrite forallb_forall in H. specialize (H e He). destruct e as [z|k z|c o|i c f alt]; cbn [typed_check typed] in *.
  - apply andb_prop in H as [H1 H2]. split; [apply outs_ok; exact H1|apply szb_sized; exact H2].
  - apply andb_prop in H as [H1 H2]. split; [apply outs_ok; exact H1|]. destruct z.2; try exact I. apply andb_prop in H2 as [H2 H3].
    split; [apply valid_id_spec; exact H2|apply N.ltb_lt; exact H3].
  - apply andb_prop in H as [H1 H2]. split; [apply valid_id_spec; exact H1|]. destruct o; try exact I; apply N.ltb_lt; exact H2.
  - apply N.ltb_lt. exact H.
Qed.
Example C93_example :
  started x0 y0 /\ Forall (typed x0) x_voted /\
  (let x := xrun x0 x_voted in
   map rc_method (n_mail x) = ["get_all_locking_positions"; "vote_proposal_callback"; "ft_transfer"] /\
   map rc_args (n_mail x) =
     ["{""voter_id"":""bob""}"; "{""mpip_id"":0,""voter_id"":""alice"",""vote_type"":""For"",""memo"":""m""}";
      "{""receiver_id"":""bob"",""amount"":""4000000"",""memo"":null}"] /\
   map rc_then (n_mail x) =
     [Some ("vote_proposal_callback", "{""mpip_id"":0,""voter_id"":""bob"",""vote_type"":""Against"",""memo"":""no\"",""}"); None;
      Some ("after_transfer_mpdao_callback", "{""voter_id"":""bob"",""amount"":""4000000""}")] /\
   map rc_result (n_mail x) =
     [None; Some (Some ("[{""index"":0,""amount"":""100000000"",""locking_period"":60,""voting_power"":""100000000000000000000000000""," +:+
        """unlocking_started_at"":null,""is_unlocked"":false,""is_unlocking"":false,""is_locked"":true}]")); None] /\
   (match get_proposal (n_board x) 0 with Ok p => ct_title (pr_content p) = title | Panic _ => False end) /\
   (let x' := xrun x [xr 1 40; xr 0 41; xr 1 42; xr 0 43; xr 0 44] in
    n_mail x' = [] /\ get_proposal_votes (n_board x') 0 = (V 100, 0, 0, [("alice", mkMvote 0 VFor (V 100) "m")]) /\
    ft_balance_of (n_mp x') "bob" = M 44)).
Proof. split; [exact x0_started|]. split; [apply typed_ok; vmr|]. conj; vmr. Qed.

(** both votes counted, bob's position unbonding *)
Definition x_counted : list xev :=
  x_open ++ [ xb "bob" 0 30 (VoteProposal 0 VAgainst "no"","); xb "alice" 0 31 (VoteProposal 0 VFor "m"); xr 1 33; xr 0 34; xr 0 35; xr 0 36;
              xw (umv "bob" 37 (Unlock 0)) ].
Lemma each_ok D tr : forallb (fun e => match asked e with Some e' => tame_check D e' | None => true end) tr = true -> Forall (each (tame D y0)) tr.
Proof.
  intros H. apply List.Forall_forall. intros e He. rewrite forallb_forall in H. specialize (H e He). unfold each. destruct (asked e) as [e'|]; [|exact I].
  assert (F : Forall (tame D y0) [e']) by (apply tame_ok; cbn [forallb]; rewrite H; reflexivity). inversion F; assumption.
Qed.
Lemma times_ok tr : sorted_check (map xev_ts tr) = true -> Sorted N.le (map xev_ts tr).
Proof.
  induction (map xev_ts tr) as [|t l IH]; intros H; [constructor|]. destruct l as [|u l]; [repeat constructor|].
  cbn [sorted_check] in H. apply andb_true_iff in H as [H1 H2]. constructor; [exact (IH H2)|]. constructor. apply N.leb_le. exact H1.
Qed.
Definition late_check (D T id : N) (e : xev) : bool :=
  match e with XBoard c (VoteProposal i _ _) => negb (i =? id) || (T <? now_ms c + D * 86400000) | _ => true end.
Lemma late_ok D T id tr : forallb (late_check D T id) tr = true ->
  forall c vt memo, In (XBoard c (VoteProposal id vt memo)) tr -> T < now_ms c + D * 86400000.
Proof. intros H c vt memo He. rewrite forallb_forall in H. specialize (H _ He). cbn in H. rewrite N.eqb_refl in H. apply N.ltb_lt. exact H. Qed.
Lemma until_ok T tr : forallb (fun e => xev_ts e / 1000000 <=? T) tr = true -> Forall (fun e => xev_ts e / 1000000 <= T) tr.
Proof. intros H. apply List.Forall_forall. intros e He. rewrite forallb_forall in H. apply N.leb_le, (H e He). Qed.
Example C93_example_tokens :
  mpip_new mia = Ok (n_board x0) /\ mi_vote mia = self_id (n_mv x0) /\ Forall (typed x0) x_counted /\ Sorted N.le (map xev_ts x_counted) /\
  Forall (each (tame 30 y0)) x_counted /\ 30 <= min_unbond (n_mv x0) /\ Forall (fun e => xev_ts e / 1000000 <= 1021) x_counted /\
  (forall c vt memo, In (XBoard c (VoteProposal 0 vt memo)) x_counted -> 1021 < now_ms c + 30 * 86400000) /\
  get_proposal_votes (n_board (xrun x0 x_counted)) 0 =
    (V 100, V 5, 0, [("alice", mkMvote 0 VFor (V 100) "m"); ("bob", mkMvote 0 VAgainst (V 5) "no"",")]).
Proof.
  split; [exact ms0_ok|]. split; [vmr|]. split; [apply typed_ok; vmr|]. split; [apply times_ok; vmr|]. split; [apply each_ok; vmr|].
  split; [vm_compute; discriminate|]. split; [apply until_ok; vmr|]. split; [apply late_ok; vmr|vmr].
Qed.

(** read: fields in any order, an optional one left out; refused: a field twice, one missing, a plain number for
    a U128, an upper-case or too short account id, two separators in a row, text after the end *)
Definition T3 : list (string * ty) := [("receiver_id", TAcc); ("amount", TBig); ("memo", TOpt TStr)].
Example C93_example_read :
  read_args T3 "{ ""amount"" : ""7"", ""receiver_id"":""a-b_c.near"" }" = Some [VStr "a-b_c.near"; VBig 7; VNone] /\
  read_args T3 "{""receiver_id"":""bob"",""amount"":""7"",""amount"":""8""}" = None /\ read_args T3 "{""receiver_id"":""bob""}" = None /\
  read_args T3 "{""receiver_id"":""bob"",""amount"":7}" = None /\ read_args T3 "{""receiver_id"":""Bob"",""amount"":""7""}" = None /\
  read_args T3 "{""receiver_id"":""b"",""amount"":""7""}" = None /\ read_args T3 "{""receiver_id"":""b..b"",""amount"":""7""}" = None /\
  read_args T3 "{""receiver_id"":""bob"",""amount"":""7""}}" = None /\
  read_args T3 "{""receiver_id"":""bob"",""amount"":""340282366920938463463374607431768211456""}" = None /\
  read_args [("vote_type", TEnum ["Against"; "For"; "Abstain"])] "{""vote_type"":""for""}" = None.
Proof. conj; vmr. Qed.
