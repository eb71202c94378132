(** MpipSpecOrder.v -- what voters do on the proposal contract, each acting for themselves (C95).  The board is that of
    C73; nothing of the model's functions is used but its steps. *)

From Verif Require Export MpipSpecStep.

(** A voter votes, takes a vote back, or one of the voter's questions is answered: [BCounted v k ts a] is the answer to
    the [k]-th of the waiting questions about the votes of [v], in whatever order the chain delivers them. *)
Inductive bev :=
| BVote (c : ctx) (id : N) (vt : vote_type) (memo : string)
| BRemove (c : ctx) (id : N)
| BCounted (v : string) (k : nat) (ts : N) (a : answer).
Definition actor (e : bev) : string :=
  match e with BVote c _ _ _ | BRemove c _ => c_pred c | BCounted v _ _ _ => v end.

(** a question about a vote of [v]; about no vote *)
Definition about (v : string) (p : pending) : bool :=
  match pd_kind p with KVote _ u _ _ => bool_decide (u = v) | _ => false end.
Definition no_vote (p : pending) : bool := match pd_kind p with KVote _ _ _ _ => false | _ => true end.

(** where the [k]-th element of the kind [f] is *)
Fixpoint place {A} (f : A -> bool) (k : nat) (l : list A) : option nat :=
  match l with
  | [] => None
  | x :: r => if f x then match k with O => Some O | S k => S <$> place f k r end else S <$> place f k r
  end.

Definition event (w : world) (e : bev) : option mevent :=
  match e with
  | BVote c id vt memo => Some (MCall c (VoteProposal id vt memo))
  | BRemove c id => Some (MCall c (RemoveVoteProposal id))
  | BCounted v k ts a => i ← place (about v) k (w_pend w); Some (MAnswer i ts a)
  end.
Definition bstep (w : world) (e : bev) : world := match event w e with Some x => wstep w x | None => w end.
Definition brun (w : world) (l : list bev) : world := fold_left bstep l w.

(** the events of [v], in their order *)
Definition own (v : string) (l : list bev) : list bev := List.filter (fun e => bool_decide (actor e = v)) l.

(** the voting power an event may add, and that all of it fits *)
Definition said (e : bev) : N := match e with BCounted _ _ _ (ABytes _ (Some l)) => locked_sum l | _ => 0 end.
Definition room (B : board) (l : list bev) : Prop := forall id t, b_tally B id t + sum_by said l < 2 ^ 128.

(** which calls of [v] were accepted *)
Fixpoint replies (v : string) (w : world) (l : list bev) : list bool :=
  match l with
  | [] => []
  | e :: r =>
      let rest := replies v (bstep w e) r in
      if decide (actor e = v) then
        match event w e with
        | Some (MCall c o) => (match mcall c (w_m w) o with Ok _ => true | Panic _ => false end) :: rest
        | _ => rest
        end
      else rest
  end.

(** questions of [v] *)
Definition waiting (v : string) (B : board) : list pending := List.filter (about v) (b_wait B).
Definition settings (B : board) :=
  (b_self B, b_admin B, b_operator B, b_token B, b_source B, b_period B, b_min_meta B, b_min_st B, b_threshold B, b_cost B,
   b_fee B, b_open B, b_floor B, b_count B).
(** the same board, but for the order of questions of different voters *)
Definition alike (B C : board) : Prop :=
  settings B = settings C /\ (forall id, b_prop B id = b_prop C id) /\ (forall a, b_made B a = b_made C a) /\
  (forall id t, b_tally B id t = b_tally C id t) /\ (forall id v, b_ballot B id v = b_ballot C id v) /\
  (forall v, waiting v B = waiting v C) /\ List.filter no_vote (b_wait B) = List.filter no_vote (b_wait C).
