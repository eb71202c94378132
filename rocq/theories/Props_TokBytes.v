(** Props_TokBytes.v -- C98: the token, from the text of a call to the bytes in storage. *)

From Verif Require Import TokBytesProofs.
Import TokBytesSpec.

(** Whatever texts are sent to the account, by whom and in which order, the contract on bytes accepts the calls the token accepts,
    returns the texts the token returns and issues its promises and transfers of NEAR. *)
Theorem C98_calls : forall self tr, few_minters self tr -> exists x, tok_history self tr x (tok_gives self ∅ tr).
Proof. exact c98_history. Qed.
Print Assumptions C98_calls.

(** and these are no others: the texts determine the token and what it gives *)
Theorem C98_determined : forall self tr x outs x' outs', tok_history self tr x outs -> tok_history self tr x' outs' -> x = x' /\ outs = outs'.
Proof. exact c98_once. Qed.
Print Assumptions C98_determined.

(** the bytes on disk: the record of the contract, the metadata, the balances of the registered accounts and nothing else *)
Theorem C98_records :
  forall self tr t outs, few_minters self tr -> tok_history self tr (Some t) outs ->
    tb_run self tr !! "STATE" = Some (state_bytes t) /\ tb_run self tr !! sk0 1 = Some (enc_meta DEFAULT_META) /\
    (forall a, tb_run self tr !! (sk0 0 +:+ enc_str a) = if t_registered t a then Some (enc_uint 16 (ft_balance_of t a)) else None) /\
    forall key, is_Some (tb_run self tr !! key) -> key = "STATE" \/ key = sk0 1 \/ exists a, t_registered t a = true /\ key = sk0 0 +:+ enc_str a.
Proof. exact c98_records. Qed.
Print Assumptions C98_records.

(** every token reached by texts is one that the typed calls reach from [t_new]: what C54, C70, C81 and C86 say of those holds of
    the bytes; the deposit for an account is 0.00125 NEAR *)
Theorem C98_reached :
  forall self tr t outs, tok_history self tr (Some t) outs ->
    t_self t = self /\ exists owner n t0 trs, account_id owner /\ n < 2 ^ 128 /\ t_new self owner n MIN = Ok t0 /\ t = t_run t0 trs /\ (length trs < length tr)%nat.
Proof. exact c98_reached. Qed.
Print Assumptions C98_reached.

(** the balances on disk add up to the supply on disk *)
Theorem C98_supply :
  forall self tr s, few_minters self tr -> tb_run self tr !! "STATE" = Some s ->
    exists l rest, NoDup l.*1 /\ (forall a b, In (a, b) l -> b < 2 ^ 128) /\
      (forall a v, tb_run self tr !! (sk0 0 +:+ enc_str a) = Some v <-> exists b, In (a, b) l /\ v = enc_uint 16 b) /\
      sum_by snd l < 2 ^ 128 /\ s = enc_str (sk0 0) +:+ enc_uint 16 (sum_by snd l) +:+ rest.
Proof. exact c98_supply. Qed.
Print Assumptions C98_supply.

(** [few_minters] holds whenever there are fewer than 2^32 calls *)
Theorem C98_few : forall self tr, N.of_nat (length tr) < 2 ^ 32 -> few_minters self tr.
Proof. exact few_if. Qed.
Print Assumptions C98_few.

(** ** A case *)
Definition tcx (p : string) (d : N) : ctx := mkCtx p p d 0 (fun _ => None) (fun _ => None).
Definition MPDAO : string := "mpdao.near".
Definition tr_tok : list tbcall :=
  [ (tcx "a.near" 1, None, "ft_mint", "{""amount"":""5""}");
    (tcx MPDAO 0, None, "new_default_meta", "{""owner_id"":""dao.near"",""total_supply"":""1000""}");
    (tcx "eve.near" 0, None, "new_default_meta", "{""owner_id"":""eve.near"",""total_supply"":""9""}");
    (tcx "bob.near" 1300000000000000000000, None, "storage_deposit", "{}");
    (tcx "bob.near" 0, None, "storage_deposit", "{""account_id"":""eve.near""}");
    (tcx "dao.near" 1250000000000000000000, None, "storage_deposit", "{""registration_only"":true,""account_id"":""vote.near""}");
    (tcx "dao.near" 1, None, "ft_transfer", " { ""amount"" : ""300"", ""receiver_id"" : ""bob.near"", ""memo"":null } ");
    (tcx "bob.near" 1, None, "ft_transfer_call", "{""receiver_id"":""vote.near"",""amount"":""100"",""msg"":""30""}");
    (tcx "eve.near" 0, Some (Some """40"""), "ft_resolve_transfer", "{""sender_id"":""bob.near"",""receiver_id"":""vote.near"",""amount"":""100""}");
    (tcx MPDAO 0, Some (Some """40"""), "ft_resolve_transfer", "{""sender_id"":""bob.near"",""receiver_id"":""vote.near"",""amount"":""100""}");
    (tcx "bob.near" 1, None, "ft_transfer", "{""receiver_id"":""dao.near"",""amount"":""-1""}");
    (tcx "dao.near" 1, None, "add_minter", "{""account_id"":""bob.near""}");
    (tcx "eve.near" 0, None, "assert_minter", "{""account_id"":""bob.near""}");
    (tcx "eve.near" 0, None, "assert_minter", "{""account_id"":""eve.near""}");
    (tcx "bob.near" 1, None, "ft_mint", "{""amount"":""7"",""memo"":""more""}");
    (tcx "vote.near" 1, None, "storage_unregister", "{}");
    (tcx "vote.near" 1, None, "storage_unregister", "{""force"":true}");
    (tcx "vote.near" 1, None, "storage_unregister", "{""force"":true}");
    (tcx "eve.near" 0, None, "ft_total_supply", "");
    (tcx "eve.near" 0, None, "ft_balance_of", "{""account_id"":""bob.near""}");
    (tcx "eve.near" 0, None, "storage_balance_of", "{""account_id"":""vote.near""}");
    (tcx "eve.near" 0, None, "storage_balance_of", "{""account_id"":""bob.near""}");
    (tcx "eve.near" 0, None, "get_minters", "{}") ].
Example C98_case_few : few_minters MPDAO tr_tok.
Proof. apply few_if. vm_compute. reflexivity. Qed.
Definition said (s : string) : option tout := Some (s, [], []).
Example C98_case_gives :
  tok_gives MPDAO ∅ tr_tok =
  [ None; said ""; None;
    Some ("{""total"":""1250000000000000000000"",""available"":""0""}", [], [("bob.near", 50000000000000000000)]); None;
    said "{""total"":""1250000000000000000000"",""available"":""0""}"; said "";
    Some ("", [OnTransfer "bob.near" "vote.near" 100 "30"], []); None; said """60"""; None; said ""; said ""; None; said ""; None;
    Some ("true", [], [("vote.near", 1250000000000000000001)]); said "false"; said """947"""; said """247"""; said "null";
    said "{""total"":""1250000000000000000000"",""available"":""0""}"; said "[""bob.near""]" ].
Proof. vm_compute. reflexivity. Qed.
Example C98_case_bytes :
  length (map_to_list (tb_run MPDAO tr_tok)) = 4%nat /\
  tb_run MPDAO tr_tok !! (sk0 0 +:+ enc_str "bob.near") = Some (enc_uint 16 247) /\ tb_run MPDAO tr_tok !! (sk0 0 +:+ enc_str "vote.near") = None /\
  (exists rest, tb_run MPDAO tr_tok !! "STATE" = Some (enc_str (sk0 0) +:+ enc_uint 16 947 +:+ rest)).
Proof.
  split; [vm_compute; reflexivity|]. split; [vm_compute; reflexivity|]. split; [vm_compute; reflexivity|].
  exists (enc_uint 8 125 +:+ enc_str (sk0 1) +:+ enc_str "dao.near" +:+ enc_ids ["bob.near"]). vm_compute. reflexivity.
Qed.
