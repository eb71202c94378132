(** PostSpec.v -- C93: when the system of Post.v, whose contracts exchange texts, is in the same situation as the system of Sys.v,
    whose contracts exchange values. *)

From Verif Require Export Post SysSpec WireSpec.
From Verif Require Import MVSpecSized.
Import World.

(** ** The texts *)
Definition big (n : N) : string := """" +:+ pretty n +:+ """".
Definition text_transfer (receiver : string) (n : N) : string :=
  "{""receiver_id"":" +:+ quote receiver +:+ ",""amount"":" +:+ big n +:+ ",""memo"":null}".
Definition text_paid (cb : tk) (source : string) (n : N) : string * string :=
  match cb with
  | Mp => ("after_transfer_mpdao_callback", "{""voter_id"":" +:+ quote source +:+ ",""amount"":" +:+ big n +:+ "}")
  | St => ("after_transfer_stnear_callback", "{""source"":" +:+ quote source +:+ ",""amount"":" +:+ big n +:+ "}")
  end.
Definition text_received (sender : string) (n : N) (msg : string) : string :=
  "{""sender_id"":" +:+ quote sender +:+ ",""amount"":" +:+ big n +:+ ",""msg"":" +:+ quote msg +:+ "}".
Definition text_resolve (sender receiver : string) (n : N) : string :=
  "{""sender_id"":" +:+ quote sender +:+ ",""receiver_id"":" +:+ quote receiver +:+ ",""amount"":" +:+ big n +:+ "}".
Definition text_ask (q : question) : string * string :=
  match q with
  | AskTotal => ("get_total_voting_power", EmptyString)
  | AskPositions v => ("get_all_locking_positions", "{""voter_id"":" +:+ quote v +:+ "}")
  end.
Definition text_kind (k : pkind) : string * string :=
  match k with
  | KStart id => ("start_voting_period_callback", "{""mpip_id"":" +:+ pretty id +:+ "}")
  | KCreate ct =>
      ("create_proposal_callback",
       "{""title"":" +:+ quote (ct_title ct) +:+ ",""short_description"":" +:+ quote (ct_short ct) +:+ ",""body"":" +:+ quote (ct_body ct) +:+
       ",""data"":" +:+ quote (ct_data ct) +:+ ",""extra"":" +:+ quote (ct_extra ct) +:+ "}")
  | KVote id v vt memo =>
      ("vote_proposal_callback",
       "{""mpip_id"":" +:+ pretty id +:+ ",""voter_id"":" +:+ quote v +:+ ",""vote_type"":" +:+
       match vt with VAgainst => """Against""" | VFor => """For""" | VAbstain => """Abstain""" end +:+ ",""memo"":" +:+ quote memo +:+ "}")
  end.

(** ** Receipts: [letter p r]: [r] is the receipt that [p] stands for *)
Definition letter (w : world) (p : pend) (r : receipt) : Prop :=
  let mv := self_id (w_mv w) in
  match p with
  | PDeliver k s v n m => exists signer,
      r = mkReceipt (t_self (tok_of w k)) v "ft_on_transfer" (text_received s n m) 0 signer (Some ("ft_resolve_transfer", text_resolve s v n)) None
  | PResolve k s v n unused => exists signer o,
      r = mkReceipt (t_self (tok_of w k)) (t_self (tok_of w k)) "ft_resolve_transfer" (text_resolve s v n) 0 signer None (Some o) /\
      unused = match o with Some t => read_u128 t | None => None end
  | PPay cb token source v n => exists signer,
      r = mkReceipt mv token "ft_transfer" (text_transfer v n) 1 signer (Some (text_paid cb source n)) None
  | PBack cb source n ok => exists signer o,
      r = mkReceipt mv mv (text_paid cb source n).1 (text_paid cb source n).2 0 signer None (Some o) /\ (ok = true <-> o <> None)
  end.
Definition ask_letter (bd : string) (q : pending * option answer) (r : receipt) : Prop :=
  let p := q.1 in
  match q.2 with
  | None =>
      r = mkReceipt bd (pd_contract p) (text_ask (pd_ask p)).1 (text_ask (pd_ask p)).2 1 (pd_signer p) (Some (text_kind (pd_kind p))) None
  | Some a => exists o,
      r = mkReceipt bd bd (text_kind (pd_kind p)).1 (text_kind (pd_kind p)).2 0 (pd_signer p) None (Some o) /\ a = answer_in o
  end.

(** ** The same situation.  [lost]: callbacks of the proposal contract that failed; Sys.v lets them wait for ever. *)
Definition same_contracts (x : net) (y : system) : Prop :=
  n_mv x = w_mv (y_world y) /\ n_mp x = w_mp (y_world y) /\ n_st x = w_st (y_world y) /\ n_board x = y_board y.
Definition same_mail (x : net) (y : system) (lost : list receipt) : Prop :=
  exists l1 l2, Permutation (n_mail x ++ lost) (l1 ++ l2) /\
    List.Forall2 (letter (y_world y)) (w_pend (y_world y)) l1 /\ List.Forall2 (ask_letter (m_self (y_board y))) (y_asks y) l2.
Definition lost_callback (bd : string) (r : receipt) : Prop := rc_from r = bd /\ rc_to r = bd /\ rc_then r = None /\ rc_result r <> None.

(** ** Corresponding events *)
Definition like (e : xev) (l : list yev) : Prop :=
  match e with
  | XMv z => l = [YWorld (EMv z)]
  | XTok k z => l = [YWorld (ETok k z)]
  | XBoard c o => l = [YCall c o]
  | XRun i c fail alt =>
      (fail = true /\ l = []) \/
      exists e', l = [e'] /\
        match e' with
        | YWorld (ERun _ c' f _) =>
            c_ts c' = c_ts c /\ c_json_pair c' = c_json_pair c /\ c_json_claims c' = c_json_claims c /\ (f = fail \/ f = true /\ alt = None)
        | YQuery _ ts f _ => ts = c_ts c /\ f = fail
        | YBack _ ts => ts = c_ts c /\ fail = false
        | _ => False
        end
  end.

(** ** What arrives from outside has the declared types: account ids, integers in range; the contracts sign nothing *)
Definition outside (x0 : net) (a : string) : Prop :=
  account_id a /\ a <> self_id (n_mv x0) /\ a <> t_self (n_mp x0) /\ a <> t_self (n_st x0).
Definition typed (x0 : net) (e : xev) : Prop :=
  match e with
  | XMv z => outside x0 (c_pred z.1) /\ sized_call z
  | XTok k z =>
      outside x0 (c_pred z.1) /\ match z.2 with TTransferCall r n _ => account_id r /\ n < 2 ^ 128 | _ => True end
  | XBoard c o => account_id (c_pred c) /\ match o with StartVoting id | VoteProposal id _ _ => id < 2 ^ 32 | _ => True end
  | XRun _ c _ _ => c_ts c < 2 ^ 64
  end.
(** all four contracts just deployed under different names, nothing sent yet *)
Definition started (x : net) (y : system) : Prop :=
  same_contracts x y /\ n_mail x = [] /\ wstart (y_world y) /\ y_asks y = [] /\
  ~ In (m_self (y_board y)) [self_id (w_mv (y_world y)); t_self (w_mp (y_world y)); t_self (w_st (y_world y))].

(** ** The same claims for texts *)
Definition xev_ts (e : xev) : N :=
  match e with XMv z => c_ts z.1 | XTok _ z => c_ts z.1 | XBoard c _ => c_ts c | XRun _ c _ _ => c_ts c end.
(** the calls from outside *)
Definition asked (e : xev) : option yev :=
  match e with XMv z => Some (YWorld (EMv z)) | XTok k z => Some (YWorld (ETok k z)) | XBoard c o => Some (YCall c o) | XRun _ _ _ _ => None end.
Definition each (P : yev -> Prop) (e : xev) : Prop := match asked e with Some e' => P e' | None => True end.
