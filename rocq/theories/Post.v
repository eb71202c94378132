(** Post.v -- the four contracts of Sys.v again, but what passes between them is text: a receipt carries the name of a method and
    the JSON text of its arguments, a callback the JSON text of the result it waits for.  Sys.v carries the values themselves.

    Receipts may run in any order and may fail.  A receipt for an account or a method that is not modelled may have any result.
    Simplified: calls from outside carry values, whose types the hypotheses of the theorems give. *)

From Verif Require Export Sys Wire.
From RecordUpdate Require Import RecordUpdate.
Import World.

(** ** The records that are sent *)
(** near-sdk ext_contract: the arguments of a promise are a record with the names of the parameters; near_bindgen reads them *)
Definition args (l : list (string * val)) : string := write (VRec l).
Definition read_args (fs : list (string * ty)) (s : string) : option (list val) :=
  match json (TRec fs) s with Some (VRec l) => Some (map snd l) | _ => None end.
(** near-sdk json_types U128, as a result *)
Definition show_u128 (n : N) : string := write (VBig n).
Definition read_u128 (s : string) : option N := match json TBig s with Some (VBig n) => Some n | _ => None end.

(** meta-vote-contract/src/types.rs:25-34, locking_position.rs:50-61 *)
Definition opt_num (o : option N) : val := match o with Some n => VSome (VNum n) | None => VNone end.
Definition pos_val (j : lp_json) : val :=
  VRec [ ("index", opt_num (Some (N.of_nat (j_index j)))); ("amount", VBig (j_amount j)); ("locking_period", VNum (j_days j));
         ("voting_power", VBig (j_vp j)); ("unlocking_started_at", opt_num (j_unl j)); ("is_unlocked", VBool (j_is_unlocked j));
         ("is_unlocking", VBool (j_is_unlocking j)); ("is_locked", VBool (j_is_locked j)) ].
Definition show_positions (l : list lp_json) : string := write (VList (map pos_val l)).
(** mpip-contract/src/types.rs:19-29 *)
Definition POSITION : ty :=
  TRec [ ("index", TOpt (TNum U64_SIZE)); ("amount", TBig); ("locking_period", TNum U16_SIZE); ("voting_power", TBig);
         ("unlocking_started_at", TOpt (TNum U64_SIZE)); ("is_unlocked", TBool); ("is_unlocking", TBool); ("is_locked", TBool) ].
Definition val_opt (v : val) : option N := match v with VSome (VNum n) => Some n | _ => None end.
Definition val_pos (v : val) : option lpj :=
  match v with
  | VRec [(_, i); (_, VBig amount); (_, VNum days); (_, VBig vp); (_, u); (_, VBool b1); (_, VBool b2); (_, VBool b3)] =>
      Some (mkLpj (val_opt i) amount days vp (val_opt u) b1 b2 b3)
  | _ => None
  end.
Definition read_positions (s : string) : option (list lpj) :=
  match json (TVec POSITION) s with Some (VList l) => mapM val_pos l | _ => None end.
(** internal.rs:157-197: what mpip makes of a promise result *)
Definition answer_in (o : option string) : answer :=
  match o with None => AFailed | Some t => ABytes (read_u128 t) (read_positions t) end.

(** ** Receipts *)
Record receipt := mkReceipt {
  rc_from : string;                          (* predecessor *)
  rc_to : string;
  rc_method : string;
  rc_args : string;
  rc_deposit : N;
  rc_signer : string;                        (* signer of the transaction that started it *)
  rc_then : option (string * string);        (* callback to [rc_from]: method, arguments *)
  rc_result : option (option string);        (* if this is a callback: the promise result, [None] if it failed *)
}.

(** meta-vote-contract/src/withdraw.rs:66-76, 108-123; interface.rs:4-20 *)
Definition transfer_args (receiver : string) (amount : N) : string :=
  args [("receiver_id", VStr receiver); ("amount", VBig amount); ("memo", VNone)].
Definition pay_receipt (s : state) (signer : string) (f : eff) : receipt :=
  match f with
  | PayMp v n =>
      mkReceipt (self_id s) (mpdao_addr s) "ft_transfer" (transfer_args v n) 1 signer
        (Some ("after_transfer_mpdao_callback", args [("voter_id", VStr v); ("amount", VBig n)])) None
  | PaySt t src rcv n =>
      mkReceipt (self_id s) t "ft_transfer" (transfer_args rcv n) 1 signer
        (Some ("after_transfer_stnear_callback", args [("source", VStr src); ("amount", VBig n)])) None
  end.
(** near-contract-standards core_impl.rs ft_transfer_call *)
Definition token_receipt (t : tstate) (signer : string) (f : teff) : receipt :=
  match f with
  | OnTransfer s r n m =>
      mkReceipt (t_self t) r "ft_on_transfer" (args [("sender_id", VStr s); ("amount", VBig n); ("msg", VStr m)]) 0 signer
        (Some ("ft_resolve_transfer", args [("sender_id", VStr s); ("receiver_id", VStr r); ("amount", VBig n)])) None
  end.
(** mpip-contract/src/lib.rs:177-189, 204-227, 372-395; interface.rs:5-11; vote.rs:7-13 *)
Definition show_vote (v : vote_type) : string := match v with VAgainst => "Against" | VFor => "For" | VAbstain => "Abstain" end.
Definition ask_call (q : question) : string * string :=
  match q with
  | AskTotal => ("get_total_voting_power", EmptyString)
  | AskPositions a => ("get_all_locking_positions", args [("voter_id", VStr a)])
  end.
Definition back_call (k : pkind) : string * string :=
  match k with
  | KStart id => ("start_voting_period_callback", args [("mpip_id", VNum id)])
  | KCreate ct =>
      ("create_proposal_callback",
       args [("title", VStr (ct_title ct)); ("short_description", VStr (ct_short ct)); ("body", VStr (ct_body ct));
             ("data", VStr (ct_data ct)); ("extra", VStr (ct_extra ct))])
  | KVote id v vt memo =>
      ("vote_proposal_callback",
       args [("mpip_id", VNum id); ("voter_id", VStr v); ("vote_type", VStr (show_vote vt)); ("memo", VStr memo)])
  end.
Definition ask_receipt (b : mstate) (p : pending) : receipt :=
  mkReceipt (m_self b) (pd_contract p) (ask_call (pd_ask p)).1 (ask_call (pd_ask p)).2 1 (pd_signer p) (Some (back_call (pd_kind p))) None.
(** the callback of a receipt that ended with result [o] *)
Definition reply (r : receipt) (o : option string) : list receipt :=
  match rc_then r with
  | Some (m, a) => [mkReceipt (rc_from r) (rc_from r) m a 0 (rc_signer r) None (Some o)]
  | None => []
  end.

(** ** Methods: [None] if not modelled here; else the new state and the result.
    near_bindgen: arguments that cannot be read make the call panic. *)
Definition BAD : string := "Failed to deserialize input from JSON.".
Definition arrived (o : option string) : bool := match o with Some _ => true | None => false end.
(** meta-vote: deposit.rs:13-18, withdraw.rs:78-98, 125-143, view.rs:67-69, 180-191 *)
Definition mv_method (c : ctx) (s : state) (r : receipt) : option (res (state * string)) :=
  let is m := bool_decide (rc_method r = m) in
  if is "ft_on_transfer" then Some
    match read_args [("sender_id", TAcc); ("amount", TBig); ("msg", TStr)] (rc_args r) with
    | Some [VStr sender; VBig n; VStr msg] => '(s', u) ← ft_on_transfer c s sender n msg; Ok (s', show_u128 u)
    | _ => Panic BAD
    end
  else if is "after_transfer_mpdao_callback" then Some
    match read_args [("voter_id", TStr); ("amount", TBig)] (rc_args r), rc_result r with
    | Some [VStr v; VBig n], Some o => '(s', _) ← exec c s (AfterMp v n (arrived o)); Ok (s', EmptyString)
    | _, _ => Panic BAD
    end
  else if is "after_transfer_stnear_callback" then Some
    match read_args [("source", TStr); ("amount", TBig)] (rc_args r), rc_result r with
    | Some [VStr v; VBig n], Some o => '(s', _) ← exec c s (AfterSt v n (arrived o)); Ok (s', EmptyString)
    | _, _ => Panic BAD
    end
  else if is "get_total_voting_power" then Some (Ok (s, show_u128 (get_total_voting_power s)))
  else if is "get_all_locking_positions" then Some
    match read_args [("voter_id", TStr)] (rc_args r) with
    | Some [VStr v] => Ok (s, show_positions (get_all_locking_positions (now_ms c) s v))
    | _ => Panic BAD
    end
  else None.
(** test-meta-token/src/lib.rs:181-184, 208-222; near-contract-standards core_impl.rs internal_ft_resolve_transfer *)
Definition tok_method (c : ctx) (t : tstate) (r : receipt) : option (res (tstate * string)) :=
  let is m := bool_decide (rc_method r = m) in
  if is "ft_transfer" then Some
    match read_args [("receiver_id", TAcc); ("amount", TBig); ("memo", TOpt TStr)] (rc_args r) with
    | Some [VStr a; VBig n; _] => '(t', _) ← t_exec c t (TTransfer a n); Ok (t', EmptyString)
    | _ => Panic BAD
    end
  else if is "ft_resolve_transfer" then Some
    match read_args [("sender_id", TAcc); ("receiver_id", TAcc); ("amount", TBig)] (rc_args r), rc_result r with
    | Some [VStr a; VStr b; VBig n], Some o => '(t', _) ← t_exec c t (TResolve a b n (o ≫= read_u128)); Ok (t', EmptyString)
    | _, _ => Panic BAD
    end
  else None.
(** mpip: lib.rs:191-201, 229-250, 397-439, vote.rs:7-13 *)
Definition read_vote (s : string) : option vote_type :=
  if bool_decide (s = "Against") then Some VAgainst
  else if bool_decide (s = "For") then Some VFor
  else if bool_decide (s = "Abstain") then Some VAbstain
  else None.
Definition read_back (r : receipt) : option (option pkind) :=
  let is m := bool_decide (rc_method r = m) in
  if is "start_voting_period_callback" then Some
    match read_args [("mpip_id", TNum U32_SIZE)] (rc_args r) with Some [VNum id] => Some (KStart id) | _ => None end
  else if is "create_proposal_callback" then Some
    match read_args [("title", TStr); ("short_description", TStr); ("body", TStr); ("data", TStr); ("extra", TStr)] (rc_args r) with
    | Some [VStr t; VStr s; VStr b; VStr d; VStr e] => Some (KCreate (mkContent t s b d e))
    | _ => None
    end
  else if is "vote_proposal_callback" then Some
    match read_args [("mpip_id", TNum U32_SIZE); ("voter_id", TAcc); ("vote_type", TEnum ["Against"; "For"; "Abstain"]); ("memo", TStr)]
            (rc_args r) with
    | Some [VNum id; VStr v; VStr t; VStr memo] => vt ← read_vote t; Some (KVote id v vt memo)
    | _ => None
    end
  else None.
Definition board_method (c : ctx) (b : mstate) (r : receipt) : option (res (mstate * string)) :=
  match read_back r with
  | None => None
  | Some k => Some (
      _ ← non_payable c;
      _ ← assert_private c (m_self b);
      k ← expect k BAD;
      o ← expect (rc_result r) "This is a callback method.";
      b' ← mcallback c b k (answer_in o);
      Ok (b', EmptyString))
  end.

(** ** The system *)
Record net := mkNet {
  n_mv : state;
  n_mp : tstate;
  n_st : tstate;
  n_board : mstate;
  n_mail : list receipt;
}.
Global Instance eta_net : Settable _ := settable! mkNet <n_mv; n_mp; n_st; n_board; n_mail>.
Definition send (x : net) (l : list receipt) : net := x <| n_mail := n_mail x ++ l |>.
Definition ntok (x : net) (k : tk) : tstate := match k with Mp => n_mp x | St => n_st x end.
Definition set_ntok (x : net) (k : tk) (t : tstate) : net := match k with Mp => x <| n_mp := t |> | St => x <| n_st := t |> end.

(** how a receipt ends: [put] stores the new state *)
Definition ended {S} (x : net) (put : S -> net) (r : receipt) (alt : option string) (o : option (res (S * string))) : net :=
  match o with
  | Some (Ok (s', t)) => send (put s') (reply r (Some t))
  | Some (Panic _) => send x (reply r None)
  | None => send x (reply r alt)
  end.
(** [c]: time and decoders (MetaVote.v); [alt]: the result if the method is not modelled *)
Definition deliver (x : net) (r : receipt) (c : ctx) (fail : bool) (alt : option string) : net :=
  let c := mkCtx (rc_from r) (rc_signer r) (rc_deposit r) (c_ts c) (c_json_pair c) (c_json_claims c) in
  let to a := bool_decide (rc_to r = a) in
  if fail then send x (reply r None)
  else if to (self_id (n_mv x)) then ended x (fun s => x <| n_mv := s |>) r alt (mv_method c (n_mv x) r)
  else if to (t_self (n_mp x)) then ended x (fun t => x <| n_mp := t |>) r alt (tok_method c (n_mp x) r)
  else if to (t_self (n_st x)) then ended x (fun t => x <| n_st := t |>) r alt (tok_method c (n_st x) r)
  else if to (m_self (n_board x)) then ended x (fun b => x <| n_board := b |>) r alt (board_method c (n_board x) r)
  else send x (reply r alt).

Inductive xev :=
| XMv (x : call)                             (* a call from outside to meta-vote *)
| XTok (k : tk) (x : tcall)                  (* to a token *)
| XBoard (c : ctx) (o : mop)                 (* to the proposal contract *)
| XRun (i : nat) (c : ctx) (fail : bool) (alt : option string).    (* a receipt *)
Definition xstep (x : net) (e : xev) : net :=
  match e with
  | XMv z =>
      match exec z.1 (n_mv x) z.2 with
      | Ok (s', l) => send (x <| n_mv := s' |>) (map (pay_receipt (n_mv x) (c_signer z.1)) l)
      | Panic _ => x
      end
  | XTok k z =>
      match t_exec z.1 (ntok x k) z.2 with
      | Ok (t', l) => send (set_ntok x k t') (map (token_receipt (ntok x k) (c_signer z.1)) l)
      | Panic _ => x
      end
  | XBoard c o =>
      match mcall c (n_board x) o with
      | Ok (b', OAsk p) => send (x <| n_board := b' |>) [ask_receipt (n_board x) p]
      | Ok (b', _) => x <| n_board := b' |>
      | Panic _ => x
      end
  | XRun i c fail alt =>
      match n_mail x !! i with
      | None => x
      | Some r => deliver (x <| n_mail := delete i (n_mail x) |>) r c fail alt
      end
  end.
Definition xrun (x : net) (tr : list xev) : net := fold_left xstep tr x.
