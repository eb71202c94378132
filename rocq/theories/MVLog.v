(** MVLog.v -- model of what meta-vote-contract logs (all its [log!] statements).

    Paths in comments are relative to /repo/meta-vote-contract/src.  A refused call writes nothing (its receipt fails), so
    [logs] gives the lines of a call that is accepted; it is computed from the state before the call, following the
    same branches as the call.  The runtime's limits on the number and length of lines are not part of the model. *)

From Verif Require Export MetaVote.

(** One line, with the values it prints. *)
Inductive line :=
| LUnlock (w : string) (i : nat)                (* lib.rs:244-248 *)
| LUnlockPart (w : string) (i : nat)            (* lib.rs:289-293 *)
| LExtend (w : string) (i : nat) (days : N)     (* lib.rs:327-332 *)
| LRelock (w : string) (i : nat)                (* lib.rs:395-399 *)
| LRelockPart (w : string) (i : nat)            (* lib.rs:474-478 *)
| LRelockBal (w : string)                       (* lib.rs:500 *)
| LVote (w : string) (n : N) (obj addr : string)   (* lib.rs:558-564 *)
| LUp (w : string) (n : N) (obj addr : string)     (* lib.rs:638-644 *)
| LDown (w : string) (n : N) (obj addr : string)   (* lib.rs:657-663 *)
| LUnvote (w : string) (obj addr : string)         (* lib.rs:709-714 *)
| LMirror (prev new used : N)                   (* lib.rs:854-859 *)
| LGodspeed (w : string)                        (* withdraw.rs:36 *)
| LSent (n : N) (w : string)                    (* withdraw.rs:84-88 *)
| LFailed (n : N) (w : string)                  (* withdraw.rs:91-95 *)
| LStSent (w : string) (n : N)                  (* withdraw.rs:131 *)
| LStFailed (n : N) (w : string)                (* withdraw.rs:134-138 *)
| LDeposit (n : N) (w : string).                (* deposit.rs:58 *)

Definition pnat (i : nat) : string := pretty (N.of_nat i).

(** The text of a line; numbers are printed in decimal. *)
Definition render (l : line) : string :=
  match l with
  | LUnlock w i => "UNLOCK: " +:+ w +:+ " unlocked position " +:+ pnat i +:+ "."
  | LUnlockPart w i => "UNLOCK: " +:+ w +:+ " partially unlocked position " +:+ pnat i +:+ "."
  | LExtend w i d => "EXTEND-TIME: " +:+ w +:+ " position #" +:+ pnat i +:+ " " +:+ pretty d +:+ " days"
  | LRelock w i => "RELOCK: " +:+ w +:+ " relocked position " +:+ pnat i +:+ "."
  | LRelockPart w i => "RELOCK: " +:+ w +:+ " partially relocked position " +:+ pnat i +:+ "."
  | LRelockBal w => "RELOCK: " +:+ w +:+ " relocked position."
  | LVote w n o a => "VOTE: " +:+ w +:+ " gave " +:+ pretty n +:+ " votes for object " +:+ o +:+ " at address " +:+ a +:+ "."
  | LUp w n o a => "VOTE: " +:+ w +:+ " increased to " +:+ pretty n +:+ " votes for object " +:+ o +:+ " at address " +:+ a +:+ "."
  | LDown w n o a => "VOTE: " +:+ w +:+ " decreased to " +:+ pretty n +:+ " votes for object " +:+ o +:+ " at address " +:+ a +:+ "."
  | LUnvote w o a => "UNVOTE: " +:+ w +:+ " unvoted object " +:+ o +:+ " at address " +:+ a +:+ "."
  | LMirror p n u => "MIRROR: prev_vp " +:+ pretty p +:+ " new_vp " +:+ pretty n +:+ " used_vp " +:+ pretty u +:+ "."
  | LGodspeed w => "GODSPEED: " +:+ w +:+ " is no longer part of Meta Vote!"
  | LSent n w => "WITHDRAW: " +:+ pretty n +:+ " mpDAO transfer to " +:+ w
  | LFailed n w => "FAILED: " +:+ pretty n +:+ " mpDAO not transferred. Recovering " +:+ w +:+ " state."
  | LStSent w n => w +:+ " WITHDRAW " +:+ pretty n +:+ " stNEAR"
  | LStFailed n w => "FAILED: " +:+ pretty n +:+ " stNEAR not transferred. Recovering " +:+ w +:+ " state."
  | LDeposit n w => "DEPOSIT: " +:+ pretty n +:+ " mpDAO deposited from " +:+ w
  end.

(** lib.rs:256-306: an amount equal to the position's goes to [unlock_position]. *)
Definition unlock_partial_log (c : ctx) (s : state) (i : nat) (amount : N) : list line :=
  match v_lps (get_voter s (c_pred c)) !! i with
  | Some p => if amount =? lp_amount p then [LUnlock (c_pred c) i] else [LUnlockPart (c_pred c) i]
  | None => []
  end.

(** lib.rs:602-676: to 0 goes to [unvote]. *)
Definition rebalance_log (c : ctx) (s : state) (vp : N) (addr obj : string) : list line :=
  let vid := c_pred c in
  if vp =? 0 then [LUnvote vid obj addr]
  else
    match (h ← get_vote_position_for_address s (get_voter s vid) vid addr; uget (hp_vv s) h obj) with
    | Ok (Some vts) => if vts <? vp then [LUp vid vp obj addr] else [LDown vid vp obj addr]
    | _ => []
    end.

(** lib.rs:861-875: the objects dropped by the loop, in its order (same steps as [mirror_loop]). *)
Fixpoint mirror_dropped (fuel : nat) (s : state) (vid : string) (v : voter) (used new : N) : res (list (string * string)) :=
  if new <? used then
    match fuel with
    | O => Panic "Exceeded the prepaid gas"
    | S fuel' =>
        ok ← ukey_at (hp_vp s) (v_vp v) 0;
        addr ← expect ok "unwrap on None";
        oh ← uget (hp_vp s) (v_vp v) addr;
        h ← expect oh "unwrap on None";
        oo ← ukey_at (hp_vv s) h 0;
        obj ← expect oo "unwrap on None";
        ov ← uget (hp_vv s) h obj;
        x ← expect ov "unwrap on None";
        '(s1, v1) ← internal_remove_voting_position s vid v addr obj;
        used' ← sub128 used x;
        r ← mirror_dropped fuel' s1 vid v1 used' new;
        Ok ((addr, obj) :: r)
    end
  else Ok [].

(** lib.rs:834-899 *)
Definition mirror_log (s : state) (ext : string) (l : list (N * N)) : res (list line) :=
  let vid := pseudo_near_address ext in
  let v := get_voter s vid in
  used ← sum_used_votes s v;
  prev ← add128 (v_avail v) used;
  vps ← mapMr (fun lp => calculate_voting_power lp.2 lp.1) l;
  new ← sum128 vps;
  gone ← mirror_dropped (S (vote_entries s v)) s vid v used new;
  Ok (LMirror prev new used :: map (fun x => LUnvote vid x.2 x.1) gone).

(** withdraw.rs:11-41 *)
Definition withdraw_log (c : ctx) (s : state) (l : list nat) (amt : option N) : list line :=
  let v := get_voter s (c_pred c) in
  match (match l with [] => Ok v | _ => clear_fully_unlocked_positions (now_ms c) v l end) with
  | Ok v1 =>
      let v2 := v1 <| v_bal := v_bal v1 - default (v_bal v1) amt |> in
      if voter_is_empty v2 then [LGodspeed (c_pred c)] else []
  | Panic _ => []
  end.

(** deposit.rs:13-64 *)
Definition deposit_log (c : ctx) (sender : string) (amount : N) (msg : string) : list line :=
  match msg_is_for_claims msg with
  | Ok true => []
  | _ =>
      match msg_is_pair msg with
      | Ok true => match c_json_pair c msg with Some pr => [LDeposit amount pr.1] | None => [] end
      | _ => [LDeposit amount sender]
      end
  end.

Definition logs (c : ctx) (s : state) (o : op) : list line :=
  let me := c_pred c in
  match o with
  | Unlock i => [LUnlock me i]
  | UnlockPartial i a => unlock_partial_log c s i a
  | ExtendDays i d => [LExtend me i d]
  | Relock i _ _ => [LRelock me i]
  | RelockPartial i _ _ _ => [LRelockPart me i]
  | RelockFromBalance _ _ => [LRelockBal me]
  | Vote n a b => [LVote me n b a]
  | Rebalance n a b => rebalance_log c s n a b
  | Unvote a b => [LUnvote me b a]
  | VoteDelegated e n a b => [LVote (pseudo_near_address e) n b a]
  | UnvoteDelegated e a b => [LUnvote (pseudo_near_address e) b a]
  | MirrorLps e l => match mirror_log s e l with Ok ls => ls | Panic _ => [] end
  | Withdraw l a => withdraw_log c s l (if a =? 0 then None else Some a)
  | WithdrawAll => withdraw_log c s (unlocked_indexes (now_ms c) (v_lps (get_voter s me))) None
  | AfterMp v a k => [if k then LSent a v else LFailed a v]
  | AfterSt v a k => [if k then LStSent v a else LStFailed a v]
  | FtOnTransfer x a m => deposit_log c x a m
  | _ => []
  end.

(** The lines of one receipt: none when it fails. *)
Definition logs_of (s : state) (x : call) : list line :=
  match exec x.1 s x.2 with Ok _ => logs x.1 s x.2 | Panic _ => [] end.
Fixpoint log_of (s : state) (tr : list call) : list line :=
  match tr with [] => [] | x :: r => logs_of s x ++ log_of (step s x) r end.
