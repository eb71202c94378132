(** MpipSpecSized.v -- C89: the numbers of the proposal contract's board and of its calls, and the Rust types that hold them. *)

From Verif Require Export MpipSpecStep.

Definition fits16 (n : N) : Prop := n < 2 ^ 16.
Definition fits32 (n : N) : Prop := n < 2 ^ 32.
Definition fits64 (n : N) : Prop := n < 2 ^ 64.
Definition fits128 (n : N) : Prop := n < 2 ^ 128.
Definition opt_fits (P : N -> Prop) (o : option N) : Prop := match o with Some n => P n | None => True end.

(** what arrives: the arguments of [new] (lib.rs:66-75), the time and the integer parameters of a call (lib.rs:107-171); the ids a
    caller names, and the numbers in an answer, are not assumed in range *)
Definition sized_args (a : minit) : Prop :=
  fits64 (mi_period a) /\ fits128 (mi_min_vp a) /\ fits128 (mi_storage a) /\ fits16 (mi_floor a).
Definition sized_mop (o : mop) : Prop :=
  match o with
  | UpdateVotingPeriod n => fits64 n
  | UpdateMinMeta n | UpdateMinVp n | UpdateStorage n | PayToAccount n _ => fits128 n
  | UpdateQuorumFloor n => fits16 n
  | _ => True
  end.
Definition sized_event (x : mevent) : Prop :=
  match x with MCall c o => fits64 (c_ts c) /\ sized_mop o | MAnswer _ ts _ => fits64 ts end.

(** what is stored (lib.rs:27-61, mpip.rs:42-58, vote.rs:26-34, vote_counting.rs:18-24): u64 times, u128 amounts and powers, u16
    basis points, u32 ids *)
Definition sized_mpip (p : mpip) : Prop :=
  fits32 (pr_id p) /\ opt_fits fits64 (pr_start p) /\ opt_fits fits64 (pr_end p) /\ opt_fits fits128 (pr_quorum p).
Definition sized_pending (p : pending) : Prop :=
  match pd_kind p with KStart id | KVote id _ _ _ => fits32 id | KCreate _ => True end.
Definition sized_board (B : board) : Prop :=
  fits64 (b_period B) /\ fits128 (b_min_meta B) /\ fits128 (b_min_st B) /\ fits128 (b_threshold B) /\ fits128 (b_cost B) /\
  fits128 (b_fee B) /\ fits16 (b_floor B) /\
  (forall id p, b_prop B id = Some p -> fits32 id /\ sized_mpip p) /\
  (forall w, Forall fits32 (b_made B w)) /\
  (forall id t, fits128 (b_tally B id t)) /\
  (forall id v u, b_ballot B id v = Some u -> fits32 id /\ fits32 (vt_mpip u) /\ fits128 (vt_power u)) /\
  Forall sized_pending (b_wait B).
Definition sized_out (f : mout) : Prop := match f with OPay _ n => fits128 n | OAsk p => sized_pending p | ONone => True end.
