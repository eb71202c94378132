(** Props_VoteText.v -- C101: the voting contract from the text of a call to the bytes in storage. *)

From Verif Require Import VoteTextProofs MVView MVRefuted Props_MVBytes.
Import MetaVote MVBytes MVBytesSpec VoteTextSpec.

(** Whatever texts are sent, by whom and in which order: what the account gives, starting without storage, is a history of the contract of
    MetaVote.v. *)
Theorem C101_calls : forall H self tr, usual_texts H tr -> exists s, vote_history self tr s (vt_gives H self ∅ tr).
Proof. exact c101_calls. Qed.
Print Assumptions C101_calls.

(** and this is the only one: the texts determine the state and the transfers *)
Theorem C101_determined : forall self tr s outs s' outs', vote_history self tr s outs -> vote_history self tr s' outs' -> s = s' /\ outs = outs'.
Proof. exact c101_once. Qed.
Print Assumptions C101_determined.

(** the bytes on disk are those of that state; before [new] is accepted there are none *)
Theorem C101_records :
  forall H self tr s outs, usual_texts H tr -> vote_history self tr (Some s) outs ->
    let st := vt_run H self tr in
    st !! "STATE" = Some (vote_bytes s) /\
    stored st (enc_uint 1 2) (map (fun e => (enc_str e.1, voter_bytes H e.1 e.2)) (voters s)) /\
    stored st (enc_uint 1 3) (map (fun e => (enc_str e.1, map_bytes (tally_of H e.1) (length e.2))) (votes s)) /\
    stored st (enc_uint 1 6) (map (fun e => (enc_str e.1, enc_uint 16 e.2)) (claim_mp s)) /\
    stored st (enc_uint 1 7) (map (fun e => (enc_str e.1, enc_uint 16 e.2)) (claim_st s)) /\
    (forall who v i p, In (who, v) (voters s) -> v_lps v !! i = Some p -> st !! (positions_of H who +:+ enc_uint 8 (N.of_nat i)) = Some (position_bytes p)) /\
    (forall addr m, In (addr, m) (votes s) -> stored st (tally_of H addr) (map (fun e => (enc_str e.1, enc_uint 16 e.2)) m)).
Proof. exact c101_records. Qed.
Print Assumptions C101_records.
Theorem C101_before_new : forall H self tr outs, usual_texts H tr -> vote_history self tr None outs -> vt_run H self tr = ∅.
Proof. exact c101_before. Qed.
Print Assumptions C101_before_new.

(** every state reached by texts is one that typed calls reach from [mv_new], and its bytes are those that the typed calls write: what the
    claims about the voting contract say of reachable states, C100's about bytes among them, holds here *)
Theorem C101_reached :
  forall H self tr s outs, usual_texts H tr -> vote_history self tr (Some s) outs ->
    exists all before l a s0 st0, read_off tr all /\ all = before ++ l /\ i_self a = self /\ usual_init a /\ usual_calls H l /\
      mv_new a = Ok s0 /\ xb_new ∅ a = Ok st0 /\ s = run s0 l /\ vt_run H self tr = xb_run H self st0 l.
Proof. exact c101_meaning. Qed.
Print Assumptions C101_reached.

(** ** A case *)
Definition vt (from : string) (day : N) (m a : string) : vcall := mkVcall from from 0 (day * 86400000 * 1000000) None m a.
Definition vt1 (from : string) (day : N) (m a : string) : vcall := mkVcall from from 1 (day * 86400000 * 1000000) None m a.
Definition cb (from : string) (ok : bool) (day : N) (m a : string) : vcall := mkVcall from "b.near" 0 (day * 86400000 * 1000000) (Some ok) m a.
Definition new_text (who : string) : string :=
  "{""owner_id"":""" +:+ who +:+ """,""operator_id"":""op.near"",""min_unbond_period"":30,""max_unbond_period"":300,""min_deposit_amount"":""1000000""," +:+
  " ""max_locking_positions"":20,""max_voting_positions"":3,""mpdao_token_contract_address"":""mpdao.near"",""stnear_token_contract_address"":""stnear.near""," +:+
  " ""registration_cost"":""7"",""prev_governance_contract"":""old.near""}".
Definition tr_text : list vcall :=
  [ vt "b.near" 1 "unlock_position" "{""index"":0}";
    vt1 "mv.near" 1 "new" (new_text "own.near");
    vt "mv.near" 1 "new" "{""owner_id"":""own.near""}";
    vt "mv.near" 1 "new" (new_text "own.near");
    vt "eve.near" 1 "new" (new_text "eve.near");
    vt "mpdao.near" 2 "ft_on_transfer" "{""sender_id"":""b.near"",""amount"":""5000000"",""msg"":""60""}";
    vt "mpdao.near" 2 "ft_on_transfer" "{ ""msg"" : ""[\""c.near\"", 90]"", ""amount"" : ""2000000"", ""sender_id"" : ""own.near"" }";
    vt "stnear.near" 3 "ft_on_transfer" "{""sender_id"":""own.near"",""amount"":""700000000000000000000"",""msg"":""for-claims:[[\""b.near\"",5],[\""c.near\"",2]]""}";
    vt "b.near" 4 "vote" "{""voting_power"":""40"",""contract_address"":""meta-apps"",""votable_object_id"":""app1""}";
    vt "b.near" 4 "vote" "{""voting_power"":40,""contract_address"":""meta-apps"",""votable_object_id"":""app1""}";
    vt "c.near" 4 "vote" "[""30"",""meta-apps"",""app2""]";
    vt "b.near" 5 "claim_stnear" "{""amount"":""500000000000000000000""}";
    cb "eve.near" false 5 "after_transfer_stnear_callback" "{""source"":""b.near"",""amount"":""500000000000000000000""}";
    vt "mv.near" 5 "after_transfer_stnear_callback" "{""source"":""b.near"",""amount"":""500000000000000000000""}";
    cb "mv.near" false 5 "after_transfer_stnear_callback" "{""source"":""b.near"",""amount"":""500000000000000000000""}";
    vt "b.near" 6 "unvote" "{""contract_address"":""meta-apps"",""votable_object_id"":""app1"",""more"":[{}]}";
    vt "b.near" 6 "unlock_position" "{""index"":0}";
    vt "b.near" 70 "withdraw_all" "";
    vt1 "b.near" 70 "withdraw_all" "";
    cb "mv.near" true 70 "after_transfer_mpdao_callback" "{""voter_id"":""b.near"",""amount"":""5000000""}" ].
Example C101_case_usual : usual_texts toy tr_text.
Proof. apply usual_texts_if; [exact toy_32|vm_compute; reflexivity..]. Qed.
Example C101_case_gives :
  vt_gives toy "mv.near" ∅ tr_text =
  [ None; None; None; Some []; None; Some []; Some []; Some []; Some []; None; Some []; Some [PaySt "stnear.near" "b.near" "b.near" 500000000000000000000]; None; None;
    Some []; Some []; Some []; None; Some [PayMp "b.near" 5000000]; Some [] ].
Proof. vm_compute. reflexivity. Qed.
(** the state these texts made *)
Example C101_case_history : exists s outs, vote_history "mv.near" tr_text (Some s) outs.
Proof.
  destruct (C101_calls toy "mv.near" tr_text C101_case_usual) as ([s|] & Hh); [eauto|].
  pose proof (C101_before_new toy "mv.near" tr_text _ C101_case_usual Hh) as E. apply (f_equal (fun m => m !! "STATE")) in E. vm_compute in E. discriminate E.
Qed.
Example C101_case_bytes :
  let st := vt_run toy "mv.near" tr_text in
  st !! (positions_of toy "c.near" +:+ enc_uint 8 0) = Some (enc_uint 16 2000000 +:+ enc_uint 2 90 +:+ enc_uint 16 3000000000000000000000000 +:+ enc_uint 1 0) /\
  st !! (tally_of toy "meta-apps" +:+ "v" +:+ enc_uint 8 0) = Some (enc_uint 16 30) /\
  st !! (enc_uint 1 7 +:+ "v" +:+ enc_uint 8 0) = Some (enc_uint 16 200000000000000000000) /\
  st !! (enc_uint 1 2 +:+ "i" +:+ enc_str "b.near") = None.
Proof. vm_compute. auto. Qed.
