(** TokBytesSpec.v -- what the token account does with the texts it gets, in terms of the token of Token.v and TokenNear.v:
    without storage, Borsh and readers. *)

From Verif Require Export KVBytesSpec TokBytes.

(** storage_balance_bounds().min of the token, in yoctoNEAR: 0.00125 NEAR *)
Definition MIN : N := 1250000000000000000000.

Definition init_means (m a owner : string) (supply : N) : Prop :=
  account_id owner /\ supply < 2 ^ 128 /\ m = "new_default_meta" /\
  reads_as [("owner_id", TAcc); ("total_supply", U128)] a (obj [("owner_id", quote owner); ("total_supply", big supply)]).
Definition resolve_means (m a s v : string) (n : N) : Prop :=
  account_id s /\ account_id v /\ n < 2 ^ 128 /\ m = "ft_resolve_transfer" /\
  reads_as [("sender_id", TAcc); ("receiver_id", TAcc); ("amount", U128)] a (obj [("sender_id", quote s); ("receiver_id", quote v); ("amount", big n)]).
Definition minter_means (m a x : string) : Prop :=
  account_id x /\ m = "assert_minter" /\ reads_as [("account_id", TAcc)] a (obj [("account_id", quote x)]).
Definition tokq_means (m a : string) (q : tokq) : Prop := tokq_typed q /\ m = (tok_asked q).1 /\ reads_as (tokq_params q) a (tok_asked q).2.

(** the text a call returns; [t] and [t'] are the token before and after *)
Definition balance_text (t' : tstate) (a : string) : string :=
  match t_storage_balance_of t' a with Some (total, avail) => obj [("total", big total); ("available", big avail)] | None => "null" end.
Definition tok_returned (c : ctx) (t t' : tstate) (o : top) : string :=
  match o with
  | TStorageDeposit a => balance_text t' (default (c_pred c) a)
  | TStorageWithdraw _ => balance_text t' (c_pred c)
  | TUnregister _ => yes_no (t_registered t (c_pred c))
  | _ => ""
  end.
Definition meta_text : string :=
  obj [("spec", quote "ft-1.0.0"); ("name", quote "metapool.app DAO Governance Token"); ("symbol", quote "mpDAO"); ("icon", quote ICON);
       ("reference", "null"); ("reference_hash", "null"); ("decimals", "6")].

(** the text of the result of a promise: how much was not used *)
Inductive unused : option string -> option N -> Prop :=
| unused_some s n : json U128 s = Some (VBig n) -> unused (Some s) (Some n)
| unused_bad s : (forall n, json U128 s <> Some (VBig n)) -> unused (Some s) None
| unused_failed : unused None None.

(** the call [m] with the text [a] (and [pr], the result of a promise, for a callback) is accepted, makes [x'] out of [x] and gives [out] *)
Inductive tok_accepts (self : string) : option tstate -> ctx -> option (option string) -> string -> string -> option tstate -> tout -> Prop :=
| ta_new c pr m a owner n t : init_means m a owner n -> c_deposit c = 0 -> t_new self owner n MIN = Ok t ->
    tok_accepts self None c pr m a (Some t) ("", [], [])
| ta_op t c pr m a o t' e : tok_means m a o -> t_exec c t o = Ok (t', e) ->
    tok_accepts self (Some t) c pr m a (Some t') (tok_returned c t t' o, e, t_near_out c t o)
| ta_resolve t c p m a s v n u t' used : resolve_means m a s v n -> c_deposit c = 0 -> c_pred c = self -> unused p u -> t_resolve t s v n u = Ok (t', used) ->
    tok_accepts self (Some t) c (Some p) m a (Some t') (big used, [], [])
| ta_minter t c pr m a x : minter_means m a x -> In x (t_minters t) -> tok_accepts self (Some t) c pr m a (Some t) ("", [], [])
| ta_meta t c pr a : tok_accepts self (Some t) c pr "ft_metadata" a (Some t) (meta_text, [], [])
| ta_view t c pr m a q : tokq_means m a q -> tok_accepts self (Some t) c pr m a (Some t) (tok_reply t q, [], []).
Inductive tok_history (self : string) : list tbcall -> option tstate -> list (option tout) -> Prop :=
| th_nil : tok_history self [] None []
| th_yes tr x outs c pr m a x' out : tok_history self tr x outs -> tok_accepts self x c pr m a x' out ->
    tok_history self (tr ++ [(c, pr, m, a)]) x' (outs ++ [Some out])
| th_no tr x outs c pr m a : tok_history self tr x outs -> (forall x' out, ~ tok_accepts self x c pr m a x' out) ->
    tok_history self (tr ++ [(c, pr, m, a)]) x (outs ++ [None]).

(** what the contract on bytes gave, call by call *)
Fixpoint tok_gives (self : string) (st : gmap string string) (tr : list tbcall) : list (option tout) :=
  match tr with
  | [] => []
  | x :: tr => match tb_call self st x.1.1.1 x.1.1.2 x.1.2 x.2 with Ok (_, out) => Some out | Panic _ => None end :: tok_gives self (tb_step self st x) tr
  end.
(** fewer than 2^32 minters at all times *)
Definition few_minters (self : string) (tr : list tbcall) : Prop :=
  forall tr1 tr2 t outs, tr = tr1 ++ tr2 -> tok_history self tr1 (Some t) outs -> N.of_nat (length (t_minters t)) < 2 ^ 32.

(** the bytes of the records *)
Definition state_bytes (t : tstate) : string :=
  enc_str (sk0 0) +:+ enc_uint 16 (t_supply t) +:+ enc_uint 8 125 +:+ enc_str (sk0 1) +:+ enc_str (t_owner t) +:+
  enc_uint 4 (N.of_nat (length (t_minters t))) +:+ fold_right (fun s b => enc_str s +:+ b) "" (t_minters t).
