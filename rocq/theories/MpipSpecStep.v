(** MpipSpecStep.v -- a complete specification of the proposal contract (C73): what it shows and remembers (a
    board), when a call or an answer is accepted and what the board is afterwards.  No storage, no arithmetic that
    can fail, none of the model's functions. *)

From Verif Require Export MpipSpec.
From RecordUpdate Require Export RecordUpdate.

(** ** The board *)
Record board := mkBoard {
  b_self : string; b_admin : string; b_operator : string; b_token : string;
  b_source : string;                              (* the contract asked for voting power *)
  b_period : N; b_min_meta : N; b_min_st : N; b_threshold : N; b_cost : N; b_fee : N; b_open : bool; b_floor : N;
  b_count : N;                                    (* proposals *)
  b_prop : N -> option mpip;
  b_made : string -> list N;                      (* ids by proposer *)
  b_tally : N -> vote_type -> N;
  b_ballot : N -> string -> option mvote;
  b_wait : list pending;                          (* questions not yet answered *)
}.
Global Instance eta_board : Settable _ := settable! mkBoard
  <b_self; b_admin; b_operator; b_token; b_source; b_period; b_min_meta; b_min_st; b_threshold; b_cost; b_fee; b_open;
   b_floor; b_count; b_prop; b_made; b_tally; b_ballot; b_wait>.

(** what the views show; the settings without a view are read from the state *)
Definition observe (w : world) : board :=
  let s := w_m w in
  {| b_self := m_self s; b_admin := m_admin s; b_operator := m_operator s; b_token := m_meta_token s;
     b_source := m_meta_vote s; b_period := m_period s; b_min_meta := m_min_meta s; b_min_st := m_min_st s;
     b_threshold := m_min_vp s; b_cost := m_cost_meta s; b_fee := m_storage s; b_open := m_open s; b_floor := m_floor s;
     b_count := match get_last_proposal_id s with Ok (Some n) => n + 1 | _ => 0 end;
     b_prop := fun id => match get_proposal s id with Ok p => Some p | Panic _ => None end;
     b_made := get_user_proposals_ids s;
     b_tally := tally s;
     b_ballot := fun id v => match get_my_vote s v id with Ok (Some j) => Some j.2 | _ => None end;
     b_wait := w_pend w |}.

Definition fixed (B : board) :=
  (b_self B, b_admin B, b_operator B, b_token B, b_source B, b_period B, b_min_meta B, b_min_st B, b_threshold B, b_cost B,
   b_fee B, b_open B, b_floor B, b_count B, b_wait B).
Definition same (B C : board) : Prop :=
  fixed B = fixed C /\ (forall id, b_prop B id = b_prop C id) /\ (forall a, b_made B a = b_made C a) /\
  (forall id t, b_tally B id t = b_tally C id t) /\ (forall id v, b_ballot B id v = b_ballot C id v).

Definition put {K} `{EqDecision K} {A} (k : K) (v : A) (f : K -> A) : K -> A := fun x => if decide (x = k) then v else f x.

(** ** Calls *)
(** not yet past its start, nor canceled or executed *)
Definition editable (now : N) (p : mpip) : Prop :=
  pr_canceled p = false /\ pr_executed p = false /\ (forall t, pr_start p = Some t -> now <= t).
Definition voting (now : N) (p : mpip) : Prop :=
  exists t e, pr_start p = Some t /\ pr_end p = Some e /\ t <= now <= e /\
    pr_draft p = false /\ pr_canceled p = false /\ pr_executed p = false.
(** votes for and abstentions *)
Definition turnout (B : board) (id : N) : N := b_tally B id VFor + b_tally B id VAbstain.
(** in the last millisecond of its voting period *)
Definition closing (now : N) (p : mpip) : Prop := voting now p /\ pr_end p = Some now.

Definition may (c : ctx) (B : board) (o : mop) : Prop :=
  let who := c_signer c in
  let now := now_ms c in
  let chief := c_deposit c = 0 /\ who = b_admin B in
  let staff := c_deposit c = 0 /\ (who = b_admin B \/ who = b_operator B) in
  match o with
  | UpdateOpen _ | UpdateOperatorRole _ | UpdateAdminRole _ | PayToAccount _ _ | UpdateMetaVoteAddress _ => chief
  | UpdateVotingPeriod _ | UpdateMinMeta _ | UpdateMinVp _ | UpdateStorage _ => staff
  | UpdateQuorumFloor n => staff /\ n <= 10000
  | StartVoting id | CancelProposal id =>
      c_deposit c = 0 /\ exists p, b_prop B id = Some p /\ (who = b_operator B \/ who = pr_creator p) /\ editable now p
  | UpdateProposal id _ => c_deposit c = 0 /\ exists p, b_prop B id = Some p /\ who = pr_creator p /\ editable now p
  | CreateProposal _ => b_open B = true /\ b_fee B <= c_deposit c
  | VoteProposal id _ _ => c_deposit c = 0 /\ b_ballot B id (c_pred c) = None /\ exists p, b_prop B id = Some p /\ voting now p
  | RemoveVoteProposal id =>
      c_deposit c = 0 /\ is_Some (b_ballot B id (c_pred c)) /\ exists p, b_prop B id = Some p /\ voting now p
  | ProcessVotingStatus id => staff /\ exists p, b_prop B id = Some p /\ (closing now p -> turnout B id < 2 ^ 128)
  end.

Definition asks (c : ctx) (B : board) (o : mop) : mout :=
  match o with
  | PayToAccount n a => OPay a n
  | StartVoting id => OAsk (mkPending (c_signer c) (b_source B) AskTotal (KStart id))
  | CreateProposal ct => OAsk (mkPending (c_signer c) (b_source B) (AskPositions (c_pred c)) (KCreate ct))
  | VoteProposal id vt memo =>
      OAsk (mkPending (c_signer c) (b_source B) (AskPositions (c_pred c)) (KVote id (c_pred c) vt memo))
  | _ => ONone
  end.

Definition edit (id : N) (f : mpip -> mpip) (B : board) : board :=
  B <| b_prop := put id (option_map f (b_prop B id)) (b_prop B) |>.
Definition recount (id : N) (t : vote_type) (f : N -> N) (B : board) : board :=
  B <| b_tally := put id (put t (f (b_tally B id t)) (b_tally B id)) (b_tally B) |>.
Definition set_ballot (id : N) (v : string) (u : option mvote) (B : board) : board :=
  B <| b_ballot := put id (put v u (b_ballot B id)) (b_ballot B) |>.

(** executed when the quorum is reached in the closing millisecond *)
Definition executes (B : board) (now id : N) : Prop :=
  exists p q, b_prop B id = Some p /\ closing now p /\ pr_quorum p = Some q /\ q <= turnout B id.

(** the board after an accepted call; [M] the board after *)
Definition after (c : ctx) (B : board) (o : mop) (M : board) : Prop :=
  match o with
  | UpdateOpen b => same M (B <| b_open := b |>)
  | UpdateOperatorRole a => same M (B <| b_operator := a |>)
  | UpdateAdminRole a => same M (B <| b_admin := a |>)
  | UpdateMetaVoteAddress a => same M (B <| b_source := a |>)
  | UpdateVotingPeriod n => same M (B <| b_period := n |>)
  | UpdateMinMeta n => same M (B <| b_min_meta := n |>)
  | UpdateMinVp n => same M (B <| b_threshold := n |>)
  | UpdateStorage n => same M (B <| b_fee := n |>)
  | UpdateQuorumFloor n => same M (B <| b_floor := n |>)
  | PayToAccount _ _ => same M B
  | StartVoting _ | CreateProposal _ | VoteProposal _ _ _ =>
      match asks c B o with OAsk p => same M (B <| b_wait := b_wait B ++ [p] |>) | _ => False end
  | CancelProposal id => same M (edit id (fun p => p <| pr_canceled := true |>) B)
  | UpdateProposal id ct => same M (edit id (fun p => p <| pr_content := ct |>) B)
  | RemoveVoteProposal id =>
      exists u, b_ballot B id (c_pred c) = Some u /\ vt_power u <= b_tally B id (vt_type u) /\
        same M (set_ballot id (c_pred c) None (recount id (vt_type u) (fun n => n - vt_power u) B))
  | ProcessVotingStatus id =>
      (executes B (now_ms c) id /\ same M (edit id (fun p => p <| pr_executed := true |>) B)) \/
      (~ executes B (now_ms c) id /\ same M B)
  end.

(** ** Answers *)
(** the number an answer to question [p] gives: the total power, or the power of the locked positions *)
Definition says (p : pending) (a : answer) (n : N) : Prop :=
  match pd_kind p with
  | KStart _ => exists l, a = ABytes (Some n) l /\ n < 2 ^ 128
  | _ => exists t l, a = ABytes t (Some l) /\ Forall (fun j => jp_vp j < 2 ^ 128) l /\ n = locked_sum l /\ n < 2 ^ 128
  end.
Definition accepts (B : board) (now : N) (p : pending) (n : N) : Prop :=
  match pd_kind p with
  | KStart id => is_Some (b_prop B id) /\ now + b_period B < 2 ^ 64 /\ n * b_floor B < 2 ^ 128
  | KCreate _ => b_threshold B <= n
  | KVote id _ vt _ => 0 < n /\ b_tally B id vt + n < 2 ^ 128
  end.
Definition done (B : board) (now : N) (p : pending) (n : N) : board :=
  match pd_kind p with
  | KStart id => edit id (fun q => q <| pr_start := Some now |> <| pr_end := Some (now + b_period B) |>
                                     <| pr_draft := false |> <| pr_quorum := Some (n * b_floor B / 10000) |>) B
  | KCreate ct =>
      let id := b_count B in
      let who := pd_signer p in
      B <| b_prop := put id (Some (mkMpip id ct who None None true false false None)) (b_prop B) |>
        <| b_made := put who (b_made B who ++ [id]) (b_made B) |> <| b_count := id + 1 |>
  | KVote id v vt memo => set_ballot id v (Some (mkMvote id vt n memo)) (recount id vt (fun m => m + n) B)
  end.

(** ** One event *)
Definition moves (B : board) (x : mevent) (M : board) : Prop :=
  match x with
  | MCall c o => (may c B o /\ after c B o M) \/ (~ may c B o /\ same M B)
  | MAnswer i ts a =>
      match b_wait B !! i with
      | None => same M B
      | Some p =>
          let B0 := B <| b_wait := delete i (b_wait B) |> in
          let now := ts / 1000000 in
          (exists n, says p a n /\ accepts B now p n /\ same M (done B0 now p n)) \/
          ((forall n, says p a n -> ~ accepts B now p n) /\ same M B0)
      end
  end.

(** the new contract *)
Definition new_board (a : minit) : board :=
  {| b_self := mi_self a; b_admin := mi_admin a; b_operator := mi_operator a; b_token := mi_token a; b_source := mi_vote a;
     b_period := mi_period a; b_min_meta := 0; b_min_st := 0; b_threshold := mi_min_vp a; b_cost := 0; b_fee := mi_storage a;
     b_open := true; b_floor := mi_floor a; b_count := 0; b_prop := fun _ => None; b_made := fun _ => [];
     b_tally := fun _ _ => 0; b_ballot := fun _ _ => None; b_wait := [] |}.
