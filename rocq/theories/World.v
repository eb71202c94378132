(** World.v -- meta-vote together with the mpDAO and stNEAR token contracts and the promises in
    flight between them.

    An event of the world is a call by an outside account to one of the contracts, or the execution
    of one pending receipt, in any order.  Each receipt may also fail (for instance for lack of
    gas), whatever the contract would have done.
    The token contracts are the one of Token.v; the stNEAR contract, which is not in the
    repository, is assumed to keep its ledger the same way.
    Assumed: the contract accounts themselves sign no transactions, so calls they make are the
    promises listed here. *)

From Verif Require Export Token MetaVote.
From RecordUpdate Require Import RecordUpdate.

Inductive tk := Mp | St.
Global Instance tk_eq_dec : EqDecision tk.
Proof. solve_decision. Defined.

Inductive pend :=
(* token [k]: receiver.ft_on_transfer(..).then(ft_resolve_transfer(..)) *)
| PDeliver (k : tk) (sender receiver : string) (amount : N) (msg : string)
| PResolve (k : tk) (sender receiver : string) (amount : N) (result : option N)
(* meta-vote: token.ft_transfer(receiver, amount).then(after_transfer_*_callback(source, amount)):
   withdraw.rs:66-76 ([cb] = Mp) and 108-123 ([cb] = St) *)
| PPay (cb : tk) (token source receiver : string) (amount : N)
| PBack (cb : tk) (source : string) (amount : N) (ok : bool).

Record world := mkWorld {
  w_mv : state;
  w_mp : tstate;
  w_st : tstate;
  w_pend : list pend;
}.
Global Instance eta_world : Settable _ := settable! mkWorld <w_mv; w_mp; w_st; w_pend>.

Definition tok_of (w : world) (k : tk) : tstate := match k with Mp => w_mp w | St => w_st w end.
Definition set_tok (w : world) (k : tk) (t : tstate) : world :=
  match k with Mp => w <| w_mp := t |> | St => w <| w_st := t |> end.
(** the accounts whose calls are promises *)
Definition is_contract (w : world) (a : string) : bool :=
  bool_decide (a = self_id (w_mv w)) || bool_decide (a = t_self (w_mp w)) || bool_decide (a = t_self (w_st w)).

Definition pend_of (s : state) (f : eff) : pend :=
  match f with
  | PayMp v n => PPay Mp (mpdao_addr s) v v n
  | PaySt t src rcv n => PPay St t src rcv n
  end.
Definition tpend_of (k : tk) (f : teff) : pend :=
  match f with OnTransfer s r n m => PDeliver k s r n m end.

(** context of a receipt: the outside world chooses the rest *)
Definition called_by (c : ctx) (a : string) (deposit : N) : ctx :=
  mkCtx a (c_signer c) deposit (c_ts c) (c_json_pair c) (c_json_claims c).

Inductive wev :=
| EMv (x : call)
| ETok (k : tk) (x : tcall)
| ERun (i : nat) (c : ctx) (fail : bool) (ans : option N).

(** executing one receipt; the receipt has already been taken off the list *)
Definition run_pend (w : world) (p : pend) (c : ctx) (fail : bool) (ans : option N) : world :=
  let mv := self_id (w_mv w) in
  match p with
  | PDeliver k sender receiver amount msg =>
      if bool_decide (receiver = mv) then
        if fail then w <| w_pend := w_pend w ++ [PResolve k sender receiver amount None] |>
        else
          match ft_on_transfer (called_by c (t_self (tok_of w k)) 0) (w_mv w) sender amount msg with
          | Ok (s', unused) =>
              w <| w_mv := s' |> <| w_pend := w_pend w ++ [PResolve k sender receiver amount (Some unused)] |>
          | Panic _ => w <| w_pend := w_pend w ++ [PResolve k sender receiver amount None] |>
          end
      else w <| w_pend := w_pend w ++ [PResolve k sender receiver amount ans] |>
  | PResolve k sender receiver amount result =>
      if fail then w
      else set_tok w k (t_step (tok_of w k) (called_by c (t_self (tok_of w k)) 0, TResolve sender receiver amount result))
  | PPay cb token source receiver amount =>
      match (if bool_decide (token = t_self (w_mp w)) then Some Mp
             else if bool_decide (token = t_self (w_st w)) then Some St else None) with
      | Some k =>
          if fail then w <| w_pend := w_pend w ++ [PBack cb source amount false] |>
          else
            match t_exec (called_by c mv 1) (tok_of w k) (TTransfer receiver amount) with
            | Ok (t', _) => set_tok w k t' <| w_pend := w_pend w ++ [PBack cb source amount true] |>
            | Panic _ => w <| w_pend := w_pend w ++ [PBack cb source amount false] |>
            end
      | None => w <| w_pend := w_pend w ++ [PBack cb source amount (negb fail)] |>   (* some other contract *)
      end
  | PBack cb source amount ok =>
      if fail then w
      else
        w <| w_mv := step (w_mv w) (called_by c mv 0,
                       match cb with Mp => AfterMp source amount ok | St => AfterSt source amount ok end) |>
  end.

Definition wstep (w : world) (ev : wev) : world :=
  match ev with
  | EMv x =>
      if is_contract w (c_pred x.1) then w
      else
        match exec x.1 (w_mv w) x.2 with
        | Ok (s', e) => w <| w_mv := s' |> <| w_pend := w_pend w ++ map (pend_of (w_mv w)) e |>
        | Panic _ => w
        end
  | ETok k x =>
      if is_contract w (c_pred x.1) then w
      else
        match t_exec x.1 (tok_of w k) x.2 with
        | Ok (t', e) => set_tok w k t' <| w_pend := w_pend w ++ map (tpend_of k) e |>
        | Panic _ => w
        end
  | ERun i c fail ans =>
      match w_pend w !! i with
      | None => w
      | Some p => run_pend (w <| w_pend := delete i (w_pend w) |>) p c fail ans
      end
  end.
Definition wrun (w : world) (evs : list wev) : world := fold_left wstep evs w.
