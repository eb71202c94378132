(** Gov.v -- the proposal contract (Mpip.v) together with the voting contract it asks (MetaVote.v).

    A proposal call that needs voting power schedules a view call on the contract registered as
    meta-vote and a callback (mpip-contract/src/lib.rs:177-189, 204-233, 380-409; interface.rs:5-11).
    The view call runs some time after the proposal call, the callback some time after the view
    call; anything may happen in between, and the view call may fail.
    Simplified: the JSON text of an answer is not built; both contracts declare the same fields
    (meta-vote-contract/src/types.rs:25-34, mpip-contract/src/types.rs:19-29), so an answer is
    carried over field by field. *)

From Verif Require Export MVView Mpip.

(** A callback and the answer, once the view call has run. *)
Record gov := mkGov {
  g_mv : state;
  g_m : mstate;
  g_pend : list (pending * option answer);
}.

Definition to_lpj (j : lp_json) : lpj :=
  mkLpj (Some (N.of_nat (j_index j))) (j_amount j) (j_days j) (j_vp j) (j_unl j)
    (j_is_unlocked j) (j_is_unlocking j) (j_is_locked j).
(** meta-vote-contract/src/view.rs:67-69 and 180-191 *)
Definition answer_of (now : N) (s : state) (q : question) : answer :=
  match q with
  | AskTotal => ABytes (Some (get_total_voting_power s)) None
  | AskPositions v => ABytes None (Some (map to_lpj (get_all_locking_positions now s v)))
  end.

(** Events: a receipt on meta-vote; a call to the proposal contract; the view call number [i] runs
    ([alt]: the answer if the contract asked is not this meta-vote); the callback number [i] runs. *)
Inductive gev :=
| GVote (x : call)
| GCall (c : ctx) (o : mop)
| GQuery (i : nat) (ts : N) (fail : bool) (alt : answer)
| GBack (i : nat) (ts : N).
Definition gev_ts (x : gev) : N :=
  match x with GVote x => c_ts x.1 | GCall c _ => c_ts c | GQuery _ ts _ _ => ts | GBack _ ts => ts end.

Definition gstep (g : gov) (x : gev) : gov :=
  match x with
  | GVote x => mkGov (step (g_mv g) x) (g_m g) (g_pend g)
  | GCall c o =>
      match mcall c (g_m g) o with
      | Ok (s', OAsk p) => mkGov (g_mv g) s' (g_pend g ++ [(p, None)])
      | Ok (s', _) => mkGov (g_mv g) s' (g_pend g)
      | Panic _ => g
      end
  | GQuery i ts fail alt =>
      match g_pend g !! i with
      | Some (p, None) =>
          let a := if fail then AFailed
                   else if bool_decide (pd_contract p = self_id (g_mv g))
                        then answer_of (ts / 1000000) (g_mv g) (pd_ask p)
                        else alt in
          mkGov (g_mv g) (g_m g) (<[i := (p, Some a)]> (g_pend g))
      | _ => g
      end
  | GBack i ts =>
      match g_pend g !! i with
      | Some (p, Some a) =>
          mkGov (g_mv g)
            (match mcallback (callback_ctx (g_m g) p ts) (g_m g) (pd_kind p) a with
             | Ok s' => s'
             | Panic _ => g_m g
             end) (delete i (g_pend g))
      | _ => g
      end
  end.
Definition grun (g : gov) (tr : list gev) : gov := fold_left gstep tr g.
Definition ginit (s : state) (m : mstate) : gov := mkGov s m [].
