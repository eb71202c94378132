(** MVSpecBatch.v -- calls taking a list, and the calls naming one item each (C78). *)

From Verif Require Export MVSpecMoney MVSpecAccept.
From Coq Require Export Sorting.Sorted.

(** the calls [tr] are all accepted, lead from [s] to [s'] and order the transfers [e] *)
Inductive all_accepted : state -> list call -> state -> list eff -> Prop :=
| aa_nil s : all_accepted s [] s []
| aa_cons s x s1 e tr s2 f :
    exec x.1 s x.2 = Ok (s1, e) -> all_accepted s1 tr s2 f -> all_accepted s (x :: tr) s2 (e ++ f).

(** [m] is [l] from the highest number to the lowest *)
Definition descending (l m : list nat) : Prop := m ≡ₚ l /\ StronglySorted ge m.

(** the same caller at the same time, attaching nothing *)
Definition unpaid (c : ctx) : ctx := mkCtx (c_pred c) (c_signer c) 0 (c_ts c) (c_json_pair c) (c_json_claims c).
(** the same, with a message that decodes to [l] *)
Definition with_claims (c : ctx) (l : list (string * N)) : ctx :=
  mkCtx (c_pred c) (c_signer c) (c_deposit c) (c_ts c) (c_json_pair c) (fun _ => Some l).

Definition one_collect (c : ctx) (k : nat) : call := (c, ClearPositions [k]).
Definition one_airdrop (c : ctx) (p : string * string) : call := (c, OpMultiSetAirdrop [p]).
Definition one_migrate (c : ctx) (w : string) (lp : N * N) : call := (c, MigrationCreateLps w [lp] None).
Definition one_reward (c : ctx) (sender msg : string) (unit : N) (p : string * N) : call :=
  (with_claims c [p], FtOnTransfer sender (unit * p.2) msg).
