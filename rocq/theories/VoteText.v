(** VoteText.v -- the account of the voting contract: what it does with the name of a method and the text of its arguments, on the bytes
    in its storage (MVBytes.v).  The views and migrate are not among the methods here. *)

From Verif Require Export Entry MVBytes.
Import MetaVote World.

(** a call as the chain delivers it: who calls, who signed, the deposit and the time (in nanoseconds); for a callback, whether the promise
    it waits for succeeded; the method and the text sent *)
Record vcall := mkVcall {
  vc_from : string; vc_signer : string; vc_deposit : N; vc_ts : N; vc_result : option bool; vc_method : string; vc_args : string;
}.
(** the messages of transfers are read by serde_json, deposit.rs:24, 48 (Json.v) *)
Definition vc_ctx (x : vcall) : ctx := at_time (vc_from x) (vc_signer x) (vc_deposit x) (vc_ts x).

(** lib.rs:71-84 *)
Definition VINIT : list (string * ty) :=
  [("owner_id", TAcc); ("operator_id", TAcc); ("min_unbond_period", U16); ("max_unbond_period", U16); ("min_deposit_amount", U128);
   ("max_locking_positions", TNum U8_SIZE); ("max_voting_positions", TNum U8_SIZE); ("mpdao_token_contract_address", TAcc);
   ("stnear_token_contract_address", TAcc); ("registration_cost", U128); ("prev_governance_contract", TStr)].
Definition vote_init (self : string) : list (string * method init_args) :=
  [("new", (VINIT, fun vs => match vs with
     | [VStr o; VStr p; VNum mn; VNum mx; VBig d; VNum l; VNum v; VStr t; VStr s; VBig c; VStr g] => Some (mkInit self o p mn mx d l v t s c g)
     | _ => None end))].
(** withdraw.rs:79, 125: [ok], the result of the transfer *)
Definition vote_back (ok : bool) : list (string * method op) :=
  [("after_transfer_mpdao_callback", ([("voter_id", TStr); ("amount", U128)],
     fun vs => match vs with [VStr v; VBig n] => Some (AfterMp v n ok) | _ => None end));
   ("after_transfer_stnear_callback", ([("source", TStr); ("amount", U128)],
     fun vs => match vs with [VStr v; VBig n] => Some (AfterSt v n ok) | _ => None end))].
Definition is_vote_back (m : string) : bool := bool_decide (m = "after_transfer_mpdao_callback") || bool_decide (m = "after_transfer_stnear_callback").
(** the code that near_bindgen generates around lib.rs:70-904, deposit.rs:10-68, withdraw.rs:40-143, evm_delegate.rs:10-160;
    env::promise_result(0) panics in a call that waited for nothing *)
Definition vt_call (H : string -> string) (self : string) (st : flat) (x : vcall) : res (flat * list eff) :=
  let c := vc_ctx x in
  if bool_decide (vc_method x = "new") then
    _ ← non_payable c;
    a ← expect (enter (vote_init self) (vc_method x) (vc_args x)) "Failed to deserialize input from JSON.";
    st' ← xb_new st a; Ok (st', [])
  else if is_vote_back (vc_method x) then
    ok ← expect (vc_result x) "InvalidPromiseResultIndex";
    o ← expect (enter (vote_back ok) (vc_method x) (vc_args x)) "Failed to deserialize input from JSON.";
    xb_call H self st c o
  else
    o ← expect (mv_entry (vc_method x) (vc_args x)) "MethodNotFound, or failed to deserialize input from JSON.";
    xb_call H self st c o.
Definition vt_step (H : string -> string) (self : string) (st : flat) (x : vcall) : flat := match vt_call H self st x with Ok (st', _) => st' | Panic _ => st end.
Definition vt_run (H : string -> string) (self : string) (tr : list vcall) : flat := fold_left (vt_step H self) tr ∅.
