(** WorldSpec.v -- C06, C56: specification of solvency. *)

From Verif Require Export World MVSpecMoney TokenProofs.

(** in flight: withdrawals and claims whose transfer has not happened, or failed and is not yet
    put back *)
Definition outgoing (k : tk) (p : pend) : N :=
  match p with
  | PPay cb _ _ _ n => if decide (cb = k) then n else 0
  | PBack cb _ n false => if decide (cb = k) then n else 0
  | _ => 0
  end.
(** deposits in flight: received by the token ledger but not yet accepted, or to be given back *)
Definition incoming (mv : string) (k : tk) (p : pend) : N :=
  match p with
  | PDeliver k' _ r n _ => if decide (k' = k /\ r = mv) then n else 0
  | PResolve k' _ r n result =>
      if decide (k' = k /\ r = mv) then match result with Some u => N.min n u | None => n end else 0
  | _ => 0
  end.
Definition out_flight (k : tk) (w : world) : N := sum_by (outgoing k) (w_pend w).
Definition in_flight (k : tk) (w : world) : N := sum_by (incoming (self_id (w_mv w)) k) (w_pend w).

(** what meta-vote owes *)
Definition owed (k : tk) (s : state) : N :=
  match k with Mp => mp_owed s | St => ci_uncl_st (get_contract_info s) end.
(** what it has *)
Definition funds (k : tk) (w : world) : N := ft_balance_of (tok_of w k) (self_id (w_mv w)).

(** the three contracts at the start *)
Definition wstart (w : world) : Prop :=
  exists a o1 n1 m1 o2 n2 m2,
    mv_new a = Ok (w_mv w) /\ w_pend w = [] /\
    t_new (i_mpdao a) o1 n1 m1 = Ok (w_mp w) /\ t_new (i_stnear a) o2 n2 m2 = Ok (w_st w) /\
    i_mpdao a <> i_stnear a /\ i_self a <> i_mpdao a /\ i_self a <> i_stnear a.

(** the owner does not point the stNEAR address to another token *)
Definition keeps_stnear (w0 : world) (ev : wev) : Prop :=
  match ev with EMv (_, SetStnear a) => a = t_self (w_st w0) | _ => True end.
(** weaker: not to the mpDAO token *)
Definition not_mpdao (w0 : world) (ev : wev) : Prop :=
  match ev with EMv (_, SetStnear a) => a <> t_self (w_mp w0) | _ => True end.
Definition no_import (ev : wev) : Prop :=
  match ev with EMv x => imports x = false | _ => True end.

(** the executions in which token [k] is safe: for mpDAO neither of the two *)
Definition calm (k : tk) (w0 : world) (ev : wev) : Prop :=
  match k with Mp => not_mpdao w0 ev /\ no_import ev | St => keeps_stnear w0 ev end.

(** positions imported by the calls that succeed *)
Fixpoint imported (w : world) (evs : list wev) : N :=
  match evs with
  | [] => 0
  | ev :: evs' =>
      (match ev with
       | EMv x => if is_contract w (c_pred x.1) then 0
                  else match exec x.1 (w_mv w) x.2 with Ok _ => import_in x | Panic _ => 0 end
       | _ => 0
       end) + imported (wstep w ev) evs'
  end.
