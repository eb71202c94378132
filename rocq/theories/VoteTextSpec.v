(** VoteTextSpec.v -- what the account of the voting contract does with the texts it gets, in terms of the contract of MetaVote.v: without
    storage, Borsh and readers. *)

From Verif Require Export EntrySpec MVBytesSpec VoteText.
Import MetaVote MVBytesSpec.

(** ** What a text means *)
Definition vinit_means (m a : string) (x : init_args) : Prop :=
  account_id (i_owner x) /\ account_id (i_operator x) /\ account_id (i_mpdao x) /\ account_id (i_stnear x) /\
  (i_min_unbond x < 2 ^ 16 /\ i_max_unbond x < 2 ^ 16 /\ i_min_deposit x < 2 ^ 128 /\ i_max_lps x < 2 ^ 8 /\ i_max_vps x < 2 ^ 8 /\ i_reg_cost x < 2 ^ 128) /\
  m = "new" /\
  reads_as [("owner_id", TAcc); ("operator_id", TAcc); ("min_unbond_period", U16); ("max_unbond_period", U16); ("min_deposit_amount", U128);
            ("max_locking_positions", TNum U8_SIZE); ("max_voting_positions", TNum U8_SIZE); ("mpdao_token_contract_address", TAcc);
            ("stnear_token_contract_address", TAcc); ("registration_cost", U128); ("prev_governance_contract", TStr)] a
    (obj [("owner_id", quote (i_owner x)); ("operator_id", quote (i_operator x)); ("min_unbond_period", pretty (i_min_unbond x));
          ("max_unbond_period", pretty (i_max_unbond x)); ("min_deposit_amount", big (i_min_deposit x));
          ("max_locking_positions", pretty (i_max_lps x)); ("max_voting_positions", pretty (i_max_vps x));
          ("mpdao_token_contract_address", quote (i_mpdao x)); ("stnear_token_contract_address", quote (i_stnear x));
          ("registration_cost", big (i_reg_cost x)); ("prev_governance_contract", quote (i_prev_gov x))]).
(** the callbacks, after a transfer that succeeded or not *)
Definition vback_means (m a : string) (ok : bool) (o : op) : Prop :=
  match o with AfterMp _ n k | AfterSt _ n k => n < 2 ^ 128 /\ k = ok | _ => False end /\
  m = (mv_text o).1 /\ reads_as (mv_params o) a (mv_text o).2.
Definition means (x : vcall) (o : op) : Prop :=
  mv_means (vc_method x) (vc_args x) o \/ exists ok, vc_result x = Some ok /\ vback_means (vc_method x) (vc_args x) ok o.
(** who calls, and the JSON of Rust's serde_json for the messages of transfers *)
Definition vctx (x : vcall) : ctx := mkCtx (vc_from x) (vc_signer x) (vc_deposit x) (vc_ts x) json_pair json_claims.

(** the call [x] is accepted, makes [s'] out of [s] (nothing before [new]) and sends the transfers [out] *)
Inductive vote_accepts (self : string) : option state -> vcall -> option state -> list eff -> Prop :=
| va_new x a s : vinit_means (vc_method x) (vc_args x) a -> i_self a = self -> vc_deposit x = 0 -> mv_new a = Ok s -> vote_accepts self None x (Some s) []
| va_call s x o s' out : means x o -> exec (vctx x) s o = Ok (s', out) -> vote_accepts self (Some s) x (Some s') out.
Inductive vote_history (self : string) : list vcall -> option state -> list (option (list eff)) -> Prop :=
| vh_nil : vote_history self [] None []
| vh_yes tr s outs x s' out : vote_history self tr s outs -> vote_accepts self s x s' out -> vote_history self (tr ++ [x]) s' (outs ++ [Some out])
| vh_no tr s outs x : vote_history self tr s outs -> (forall s' out, ~ vote_accepts self s x s' out) -> vote_history self (tr ++ [x]) s (outs ++ [None]).
(** what the account gave, call by call *)
Fixpoint vt_gives (H : string -> string) (self : string) (st : gmap string string) (tr : list vcall) : list (option (list eff)) :=
  match tr with [] => [] | x :: tr => match vt_call H self st x with Ok (_, out) => Some out | Panic _ => None end :: vt_gives H self (vt_step H self st x) tr end.

(** ** The calls that are made *)
(** callers are accounts, and time and deposit are a u64 and a u128 *)
Definition usual_vcall (x : vcall) : Prop := account_id (vc_from x) /\ vc_ts x < 2 ^ 64 /\ vc_deposit x < 2 ^ 128.
(** for a limit on the number of calls and the bytes sent *)
Definition sent (tr : list vcall) : nat := fold_right (fun x n => 3 + 2 * String.length (vc_args x) + n)%nat 0%nat tr.
(** what is hashed for keys: callers, voters, and the addresses voted for, alone and joined to the voter *)
Definition hashed_text (tr : list vcall) (h : string) : Prop := exists x o, In x tr /\ means x o /\ In h (named (vctx x, o)).
Definition usual_texts (H : string -> string) (tr : list vcall) : Prop :=
  Forall usual_vcall tr /\ N.of_nat (sent tr) < 2 ^ 31 /\ (forall x, String.length (H x) = 32%nat) /\
  forall x y, hashed_text tr x -> hashed_text tr y -> H x = H y -> x = y.
(** the typed calls that the texts of [tr] mean, one after the other *)
Inductive read_off : list vcall -> list call -> Prop :=
| ro_nil : read_off [] []
| ro_call x tr o l : means x o -> read_off tr l -> read_off (x :: tr) ((vctx x, o) :: l)
| ro_none x tr l : (forall o, ~ means x o) -> read_off tr l -> read_off (x :: tr) l.
