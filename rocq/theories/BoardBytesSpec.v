(** BoardBytesSpec.v -- what the proposal contract's account does with the texts it gets, in terms of the contract of Mpip.v:
    without storage, Borsh and readers. *)

From Verif Require Export KVBytesSpec PostSpec MpipSpecSized BoardBytes.

(** ** What a text means *)
Definition binit_means (m a : string) (x : minit) : Prop :=
  account_id (mi_admin x) /\ account_id (mi_operator x) /\ account_id (mi_token x) /\ account_id (mi_vote x) /\ sized_args x /\ m = "new" /\
  reads_as [("admin_id", TAcc); ("operator_id", TAcc); ("meta_token_contract_address", TAcc); ("meta_vote_contract_address", TAcc);
            ("voting_period", TDec U64_SIZE); ("min_voting_power_amount", U128); ("mpip_storage_near", U128); ("quorum_floor", U16)] a
    (obj [("admin_id", quote (mi_admin x)); ("operator_id", quote (mi_operator x)); ("meta_token_contract_address", quote (mi_token x));
          ("meta_vote_contract_address", quote (mi_vote x)); ("voting_period", big (mi_period x)); ("min_voting_power_amount", big (mi_min_vp x));
          ("mpip_storage_near", big (mi_storage x)); ("quorum_floor", pretty (mi_floor x))]).
Definition kind_typed (k : pkind) : Prop :=
  match k with KStart id => id < 2 ^ 32 | KCreate _ => True | KVote id v _ _ => id < 2 ^ 32 /\ account_id v end.
Definition kind_params (k : pkind) : list (string * ty) :=
  match k with
  | KStart _ => [("mpip_id", U32)]
  | KCreate _ => [("title", TStr); ("short_description", TStr); ("body", TStr); ("data", TStr); ("extra", TStr)]
  | KVote _ _ _ _ => [("mpip_id", U32); ("voter_id", TAcc); ("vote_type", TEnum ["Against"; "For"; "Abstain"]); ("memo", TStr)]
  end.
Definition back_means (m a : string) (k : pkind) : Prop := kind_typed k /\ m = (text_kind k).1 /\ reads_as (kind_params k) a (text_kind k).2.
Definition boardq_means (m a : string) (q : boardq) : Prop := boardq_typed q /\ m = (board_asked q).1 /\ reads_as (boardq_params q) a (board_asked q).2.

(** the text a callback returns: a new proposal is numbered *)
Definition kind_returned (s : mstate) (k : pkind) : string := match k with KCreate _ => pretty (N.of_nat (length (m_proposals s))) | _ => "" end.

(** the call [m] with the text [a] (and [pr], the result of a promise, for a callback) is accepted, makes [x'] out of [x] and gives [out] *)
Inductive board_accepts (self : string) : option mstate -> ctx -> option (option string) -> string -> string -> option mstate -> bout -> Prop :=
| ba_new c pr m a x s : binit_means m a x -> mi_self x = self -> c_deposit c = 0 -> mpip_new x = Ok s -> board_accepts self None c pr m a (Some s) ("", ONone)
| ba_op s c pr m a o s' out : board_means m a o -> mcall c s o = Ok (s', out) -> board_accepts self (Some s) c pr m a (Some s') ("", out)
| ba_back s c p m a k s' : back_means m a k -> c_deposit c = 0 -> c_pred c = self -> mcallback c s k (answer_in p) = Ok s' ->
    board_accepts self (Some s) c (Some p) m a (Some s') (kind_returned s k, ONone)
| ba_view s c pr m a q t : boardq_means m a q -> board_reply c s q = Ok t -> board_accepts self (Some s) c pr m a (Some s) (t, ONone).
Inductive board_history (self : string) : list bbcall -> option mstate -> list (option bout) -> Prop :=
| bh_nil : board_history self [] None []
| bh_yes tr x outs c pr m a x' out : board_history self tr x outs -> board_accepts self x c pr m a x' out ->
    board_history self (tr ++ [(c, pr, m, a)]) x' (outs ++ [Some out])
| bh_no tr x outs c pr m a : board_history self tr x outs -> (forall x' out, ~ board_accepts self x c pr m a x' out) ->
    board_history self (tr ++ [(c, pr, m, a)]) x (outs ++ [None]).
(** what the contract on bytes gave, call by call *)
Fixpoint board_gives (H : string -> string) (self : string) (st : gmap string string) (tr : list bbcall) : list (option bout) :=
  match tr with
  | [] => []
  | x :: tr => match bb_call H self st x.1.1.1 x.1.1.2 x.1.2 x.2 with Ok (_, out) => Some out | Panic _ => None end :: board_gives H self (bb_step H self st x) tr
  end.

(** ** The calls that are made *)
Definition texts_of (ct : content) : list string := [ct_title ct; ct_short ct; ct_body ct; ct_data ct; ct_extra ct].
(** callers are accounts, the time is a u64, and the text is not longer than u32::MAX *)
Definition usual_call (x : bbcall) : Prop :=
  let '(c, _, _, a) := x in account_id (c_pred c) /\ account_id (c_signer c) /\ c_ts c < 2 ^ 64 /\ N.of_nat (String.length a) < 2 ^ 32.
(** what is hashed for the keys of the ballots: the numbers of the proposals voted on and the voters *)
Definition hashed (tr : list bbcall) (x : string) : Prop :=
  exists c pr m a id v vt memo, In (c, pr, m, a) tr /\ back_means m a (KVote id v vt memo) /\ (x = pretty id \/ x = v).
Definition usual (H : string -> string) (tr : list bbcall) : Prop :=
  Forall usual_call tr /\ N.of_nat (length tr) < 2 ^ 32 /\ (forall x, String.length (H x) = 32%nat) /\
  forall x y, hashed tr x -> hashed tr y -> H x = H y -> x = y.

(** ** The bytes of the records *)
Definition flag (b : bool) : string := enc_uint 1 (if b then 1 else 0).
Definition maybe (n : nat) (o : option N) : string := match o with Some x => enc_uint 1 1 +:+ enc_uint n x | None => enc_uint 1 0 end.
Definition ballot_bytes (u : mvote) : string :=
  enc_uint 4 (vt_mpip u) +:+ enc_uint 1 match vt_type u with VAgainst => 0 | VFor => 1 | VAbstain => 2 end +:+ enc_uint 16 (vt_power u) +:+ enc_str (vt_memo u).
Definition proposal_bytes (p : mpip) : string :=
  enc_uint 4 (pr_id p) +:+ fold_right (fun s b => enc_str s +:+ b) "" (texts_of (pr_content p)) +:+ enc_str (pr_creator p) +:+
  maybe 8 (pr_start p) +:+ maybe 8 (pr_end p) +:+ flag (pr_draft p) +:+ flag (pr_executed p) +:+ flag (pr_canceled p) +:+ maybe 16 (pr_quorum p).
(** an UnorderedMap with prefix [p] and [n] entries *)
Definition map_bytes (p : string) (n : nat) : string :=
  enc_str (p +:+ "i") +:+ enc_uint 8 (N.of_nat n) +:+ enc_str (p +:+ "k") +:+ enc_uint 8 (N.of_nat n) +:+ enc_str (p +:+ "v").
Definition ballots_of (H : string -> string) (id : N) : string := enc_uint 1 1 +:+ H (pretty id).
Definition votes_of (H : string -> string) (voter : string) : string := enc_uint 1 5 +:+ H voter.
Definition tally_bytes (H : string -> string) (id : N) (v : pvote) : string :=
  enc_uint 16 (pv_for v) +:+ enc_uint 16 (pv_against v) +:+ enc_uint 16 (pv_abstain v) +:+ map_bytes (ballots_of H id) (length (pv_voted v)).
Definition numbers_bytes (l : list N) : string := enc_uint 4 (N.of_nat (length l)) +:+ fold_right (fun x b => enc_uint 4 x +:+ b) "" l.
Definition board_bytes (s : mstate) : string :=
  enc_str (m_admin s) +:+ enc_str (m_operator s) +:+ enc_str (m_meta_token s) +:+ enc_str (m_meta_vote s) +:+
  map_bytes (enc_uint 1 0) (length (m_proposals s)) +:+ map_bytes (enc_uint 1 2) (length (m_votes s)) +:+
  map_bytes (enc_uint 1 3) (length (m_voters s)) +:+ map_bytes (enc_uint 1 4) (length (m_proposers s)) +:+
  enc_uint 8 (m_period s) +:+ enc_uint 16 (m_min_meta s) +:+ enc_uint 16 (m_min_st s) +:+ enc_uint 16 (m_min_vp s) +:+
  enc_uint 16 (m_cost_meta s) +:+ enc_uint 16 (m_storage s) +:+ flag (m_open s) +:+ enc_uint 2 (m_floor s).
(** the entries [l] (key and value in bytes) of a map with prefix [p] *)
Definition stored (st : gmap string string) (p : string) (l : list (string * string)) : Prop :=
  forall i k v, l !! i = Some (k, v) ->
    st !! (p +:+ "i" +:+ k) = Some (enc_uint 8 (N.of_nat i)) /\ st !! (p +:+ "k" +:+ enc_uint 8 (N.of_nat i)) = Some k /\
    st !! (p +:+ "v" +:+ enc_uint 8 (N.of_nat i)) = Some v.
(** [key] is the key of one of the records of a map with prefix [p] whose entries have the keys [ks] *)
Definition of_map (p : string) (ks : list string) (key : string) : Prop :=
  exists i k, ks !! i = Some k /\ (key = p +:+ "i" +:+ k \/ key = p +:+ "k" +:+ enc_uint 8 (N.of_nat i) \/ key = p +:+ "v" +:+ enc_uint 8 (N.of_nat i)).

(** ** Callbacks that were asked for
    [tr] made [x], and the questions [pend] are not yet answered; a callback answers one of them, for the signer of the call that asked *)
Definition asked (pend : list pending) (out : mout) : list pending := match out with OAsk p => pend ++ [p] | _ => pend end.
Inductive board_driven (self : string) : list bbcall -> option mstate -> list pending -> Prop :=
| bd_nil : board_driven self [] None []
| bd_call tr x pend c pr m a x' out : board_driven self tr x pend -> (forall k, ~ back_means m a k) -> board_accepts self x c pr m a x' out ->
    board_driven self (tr ++ [(c, pr, m, a)]) x' (asked pend out.2)
| bd_refused tr x pend c pr m a : board_driven self tr x pend -> (forall k, ~ back_means m a k) -> (forall x' out, ~ board_accepts self x c pr m a x' out) ->
    board_driven self (tr ++ [(c, pr, m, a)]) x pend
| bd_back tr x pend c p m a i q x' out : board_driven self tr x pend -> pend !! i = Some q -> back_means m a (pd_kind q) -> c_signer c = pd_signer q ->
    board_accepts self x c (Some p) m a x' out -> board_driven self (tr ++ [(c, Some p, m, a)]) x' (delete i pend)
| bd_lost tr x pend c p m a i q : board_driven self tr x pend -> pend !! i = Some q -> back_means m a (pd_kind q) -> c_signer c = pd_signer q ->
    c_pred c = self -> c_deposit c = 0 -> (forall x' out, ~ board_accepts self x c (Some p) m a x' out) -> board_driven self (tr ++ [(c, Some p, m, a)]) x (delete i pend).
