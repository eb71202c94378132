(** Props_MpipSized.v -- C89: every number the proposal contract stores or sends fits its Rust type. *)

From Verif Require Import MpipSized MpipRefuted.

(** Whatever is called and whatever is answered (the answers come from another contract and may hold any number): every stored
    number is in the range of the type that stores it, the ids of proposals included, however many there are. *)
Theorem C89_stored :
  forall a s0 tr, mpip_new a = Ok s0 -> sized_args a -> Forall sized_event tr -> sized_board (observe (wrun (winit s0) tr)).
Proof. exact c89_stored. Qed.
Print Assumptions C89_stored.

(** and so is what a call sends: the amount paid, the id in the question *)
Theorem C89_sent :
  forall a s0 tr c o s' out, mpip_new a = Ok s0 -> sized_args a -> Forall sized_event tr -> sized_event (MCall c o) ->
  mcall c (w_m (wrun (winit s0) tr)) o = Ok (s', out) -> sized_out out.
Proof. exact c89_sent. Qed.
Print Assumptions C89_sent.

Definition szb (x : mevent) : bool :=
  match x with
  | MCall c o => (c_ts c <? 2 ^ 64) &&
      match o with
      | UpdateVotingPeriod n => n <? 2 ^ 64
      | UpdateMinMeta n | UpdateMinVp n | UpdateStorage n | PayToAccount n _ => n <? 2 ^ 128
      | UpdateQuorumFloor n => n <? 2 ^ 16
      | _ => true
      end
  | MAnswer _ ts _ => ts <? 2 ^ 64
  end.
Lemma szb_all l : forallb szb l = true -> Forall sized_event l.
Proof.
  intros H. apply List.Forall_forall. intros x Hx. rewrite forallb_forall in H. specialize (H x Hx).
  destruct x as [c o|i ts a]; cbn [szb sized_event] in *; [|apply N.ltb_lt; exact H]. apply andb_prop in H as [H1 H2].
  split; [apply N.ltb_lt; exact H1|]. destruct o; cbn [sized_mop]; try exact I; apply N.ltb_lt; exact H2.
Qed.

(** a history with votes on a running proposal, everything accepted *)
Definition tr_sz : list mevent :=
  tr_open ++ [ mc "bob" 30 (VoteProposal 0 VFor "a"); ans_pos 0 32 [pos (2 ^ 128 - 1) true] ].
Example C89_example :
  mpip_new mia = Ok ms0 /\ sized_args mia /\ Forall sized_event tr_sz /\ mall_ok mw0 tr_sz = true /\
  tally (w_m (wrun mw0 tr_sz)) 0 VFor = 2 ^ 128 - 1.
Proof. mconj; [exact ms0_ok|repeat split|apply szb_all; mvmr|mvmr|mvmr]. Qed.

(** The bounds are reached, and what would pass them is refused: a further vote for the proposal, a voting period ending after the
    last u64 millisecond, an answer that is no u128, a total that times the floor is none. *)
Definition tr_mx : list mevent := tr_sz ++ [ mc "adm.near" 40 (UpdateVotingPeriod (2 ^ 64 - 1)); mc "adm.near" 41 (UpdateStorage (2 ^ 128 - 1)) ].
Definition refused (l : list mevent) (x : mevent) : bool := negb (event_ok (wrun mw0 l) x).
Example C89_example_bounds :
  Forall sized_event tr_mx /\ mall_ok mw0 tr_mx = true /\
  b_period (observe (wrun mw0 tr_mx)) = 2 ^ 64 - 1 /\ b_fee (observe (wrun mw0 tr_mx)) = 2 ^ 128 - 1 /\
  refused (tr_sz ++ [mc "eve" 33 (VoteProposal 0 VFor "b")]) (ans_pos 0 34 [pos 1 true]) = true /\
  refused (tr_sz ++ [mc "eve" 33 (VoteProposal 0 VFor "b")]) (ans_pos 0 34 [pos (2 ^ 128) true]) = true /\
  (let l := [mcreate "alice" 10 "P0"; ans_pos 0 11 [pos 110 true]; mc "alice" 15 (StartVoting 0)] in
   refused l (ans_total 0 20 (2 ^ 128 - 1)) = true /\ refused l (ans_total 0 20 (2 ^ 128)) = true /\
   refused (mc "adm.near" 4 (UpdateVotingPeriod (2 ^ 64 - 1)) :: l) (ans_total 0 20 5000) = true /\
   refused l (ans_total 0 20 5000) = false).
Proof. mconj; [apply szb_all; mvmr|mvmr|mvmr|mvmr|mvmr|mvmr|mvmr|mvmr|mvmr|mvmr]. Qed.
