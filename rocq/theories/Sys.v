(** Sys.v -- the whole system: both token contracts and the voting contract with the receipts between them (World.v),
    and the proposal contract asking the voting contract (Gov.v).  Nothing new is modelled; the two compositions share
    the state of the voting contract. *)

From Verif Require Export Gov World.

Record system := mkSystem {
  y_world : world;                               (* World.v *)
  y_board : mstate;                              (* Mpip.v *)
  y_asks : list (pending * option answer);       (* Gov.v: mpip's questions and callbacks in flight *)
}.

Inductive yev :=
| YWorld (e : wev)                               (* calls to the tokens and to meta-vote, receipts between them *)
| YCall (c : ctx) (o : mop)                      (* a call to the proposal contract *)
| YQuery (i : nat) (ts : N) (fail : bool) (alt : answer)
| YBack (i : nat) (ts : N).
Definition yev_ts (e : yev) : N :=
  match e with
  | YWorld (EMv x) => c_ts x.1
  | YWorld (ETok _ x) => c_ts x.1
  | YWorld (ERun _ c _ _) => c_ts c
  | YCall c _ => c_ts c
  | YQuery _ ts _ _ => ts
  | YBack _ ts => ts
  end.

(** the proposal contract's side, with the voting contract as it is *)
Definition gov_of (y : system) : gov := mkGov (w_mv (y_world y)) (y_board y) (y_asks y).
Definition with_gov (y : system) (g : gov) : system := mkSystem (y_world y) (g_m g) (g_pend g).
Definition ystep (y : system) (e : yev) : system :=
  match e with
  | YWorld e => mkSystem (wstep (y_world y) e) (y_board y) (y_asks y)
  | YCall c o => with_gov y (gstep (gov_of y) (GCall c o))
  | YQuery i ts fail alt => with_gov y (gstep (gov_of y) (GQuery i ts fail alt))
  | YBack i ts => with_gov y (gstep (gov_of y) (GBack i ts))
  end.
Definition yrun (y : system) (tr : list yev) : system := fold_left ystep tr y.
