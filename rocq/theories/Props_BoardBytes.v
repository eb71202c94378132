(** Props_BoardBytes.v -- C99: the proposal contract, from the text of a call to the bytes in storage. *)

From Verif Require Import EntryProofs BoardBytesProofs.
Import Mpip BoardBytes BoardBytesSpec.

(** Whatever texts are sent to the account, by whom and in which order, the contract on bytes accepts the calls the contract of Mpip.v
    accepts, returns its texts and issues its promises and payments. *)
Theorem C99_calls : forall H self tr, usual H tr -> exists x, board_history self tr x (board_gives H self ∅ tr).
Proof. exact c99_history. Qed.
Print Assumptions C99_calls.

(** and these are no others: the texts determine the state and what is given *)
Theorem C99_determined : forall self tr x outs x' outs', board_history self tr x outs -> board_history self tr x' outs' -> x = x' /\ outs = outs'.
Proof. exact c99_once. Qed.
Print Assumptions C99_determined.

(** the bytes on disk: the record of the contract, and the entries of its six kinds of maps *)
Theorem C99_records :
  forall H self tr s outs, usual H tr -> board_history self tr (Some s) outs ->
    let st := bb_run H self tr in
    st !! "STATE" = Some (board_bytes s) /\
    stored st (enc_uint 1 0) (map (fun e => (enc_uint 4 e.1, proposal_bytes e.2)) (m_proposals s)) /\
    stored st (enc_uint 1 2) (map (fun e => (enc_uint 4 e.1, tally_bytes H e.1 e.2)) (m_votes s)) /\
    stored st (enc_uint 1 3) (map (fun e => (enc_str e.1, map_bytes (votes_of H e.1) (length e.2))) (m_voters s)) /\
    stored st (enc_uint 1 4) (map (fun e => (enc_str e.1, numbers_bytes e.2)) (m_proposers s)) /\
    (forall id v, In (id, v) (m_votes s) -> stored st (ballots_of H id) (map (fun e => (enc_str e.1, ballot_bytes e.2)) (pv_voted v))) /\
    (forall a l, In (a, l) (m_voters s) -> stored st (votes_of H a) (map (fun e => (enc_uint 4 e.1, ballot_bytes e.2)) l)).
Proof. exact c99_records. Qed.
Print Assumptions C99_records.

(** nothing else is in the storage, and nothing at all before [new] *)
Theorem C99_nothing_else :
  forall H self tr s outs, usual H tr -> board_history self tr (Some s) outs ->
    forall key, is_Some (bb_run H self tr !! key) ->
      key = "STATE" \/ of_map (enc_uint 1 0) (map (fun e => enc_uint 4 e.1) (m_proposals s)) key \/ of_map (enc_uint 1 2) (map (fun e => enc_uint 4 e.1) (m_votes s)) key \/
      of_map (enc_uint 1 3) (map (fun e => enc_str e.1) (m_voters s)) key \/ of_map (enc_uint 1 4) (map (fun e => enc_str e.1) (m_proposers s)) key \/
      (exists id v, In (id, v) (m_votes s) /\ of_map (ballots_of H id) (map (fun e => enc_str e.1) (pv_voted v)) key) \/
      (exists a l, In (a, l) (m_voters s) /\ of_map (votes_of H a) (map (fun e => enc_uint 4 e.1) l) key).
Proof. exact c99_nothing_else. Qed.
Print Assumptions C99_nothing_else.
Theorem C99_before_new : forall H self tr outs, usual H tr -> board_history self tr None outs -> bb_run H self tr = ∅.
Proof. exact c99_before. Qed.
Print Assumptions C99_before_new.

(** if the callbacks answer questions that were asked, every state reached by texts is one that the typed calls and answers reach from
    [mpip_new]: what the claims about proposals say of those holds of the bytes *)
Theorem C99_reached :
  forall self tr s pend, board_driven self tr (Some s) pend ->
    (exists outs, board_history self tr (Some s) outs) /\
    exists x s0 evs, mi_self x = self /\ mpip_new x = Ok s0 /\ Mpip.wrun (Mpip.winit s0) evs = Mpip.mkWorld s pend /\ (length evs < length tr)%nat.
Proof. intros self tr s pend HD. exact (conj (driven_history _ _ _ _ HD) (c99_reached _ _ _ _ HD)). Qed.
Print Assumptions C99_reached.

(** ** A case *)
Definition bcx (p : string) (d ms : N) : ctx := mkCtx p p d (ms * 1000000) (fun _ => None) (fun _ => None).
Definition bk (signer : string) (ms : N) : ctx := mkCtx "mpip.near" signer 0 (ms * 1000000) (fun _ => None) (fun _ => None).
(** 32 bytes that tell short names apart *)
Fixpoint pad (n : nat) (s : string) : string := match n with O => "" | S n => match s with String a s => String a (pad n s) | EmptyString => String "." (pad n "") end end.
Definition toy (s : string) : string := pad 32 s.
Lemma toy_32 s : String.length (toy s) = 32%nat.
Proof. assert (K : forall n s, String.length (pad n s) = n) by (induction n; intros [|a t]; cbn [pad String.length]; auto). apply K. Qed.
Definition power (n : string) : string :=
  "[{""index"":0,""amount"":""1"",""locking_period"":90,""voting_power"":""" +:+ n +:+ """,""unlocking_started_at"":null,""is_unlocked"":false,""is_unlocking"":false,""is_locked"":true}]".
Definition tr_board : list bbcall :=
  [ (bcx "a.near" 0 1, None, "get_last_proposal_id", "{}");
    (bcx "mpip.near" 0 1, None, "new", "{""admin_id"":""admin.near"",""operator_id"":""op.near"",""meta_token_contract_address"":""meta.near"",""meta_vote_contract_address"":""vote.near"",""voting_period"":""1000"",""min_voting_power_amount"":""50"",""mpip_storage_near"":""7"",""quorum_floor"":5000}");
    (bcx "eve.near" 0 1, None, "new", "{""admin_id"":""eve.near"",""operator_id"":""op.near"",""meta_token_contract_address"":""meta.near"",""meta_vote_contract_address"":""vote.near"",""voting_period"":""1000"",""min_voting_power_amount"":""50"",""mpip_storage_near"":""7"",""quorum_floor"":5000}");
    (bcx "a.near" 6 2, None, "create_proposal", "{""title"":""T"",""short_description"":""S"",""body"":""B"",""data"":"""",""extra"":""""}");
    (bcx "a.near" 7 2, None, "create_proposal", "{""title"":""T"",""short_description"":""S"",""body"":""B"",""data"":"""",""extra"":""""}");
    (bcx "eve.near" 0 2, Some (Some (power "60")), "create_proposal_callback", "{""title"":""T"",""short_description"":""S"",""body"":""B"",""data"":"""",""extra"":""""}");
    (bk "a.near" 3, Some (Some (power "60")), "create_proposal_callback", "{""title"":""T"",""short_description"":""S"",""body"":""B"",""data"":"""",""extra"":""""}");
    (bcx "a.near" 0 3, None, "update_proposal", "[0,""New"",""S"",""B"","""",""""]");
    (bcx "op.near" 0 4, None, "start_voting_period", "{""mpip_id"":0}");
    (bk "op.near" 5, Some (Some """100"""), "start_voting_period_callback", "{""mpip_id"":0}");
    (bcx "b.near" 0 6, None, "vote_proposal", "{""vote"":""For"",""memo"":""yes"",""mpip_id"":0}");
    (bk "b.near" 7, Some (Some (power "55")), "vote_proposal_callback", "{""mpip_id"":0,""voter_id"":""b.near"",""vote_type"":""For"",""memo"":""yes""}");
    (bcx "c.near" 0 6, None, "vote_proposal", "{""vote"":""Against"",""memo"":"""",""mpip_id"":0}");
    (bk "c.near" 7, Some (Some (power "20")), "vote_proposal_callback", "{""mpip_id"":0,""voter_id"":""c.near"",""vote_type"":""Against"",""memo"":""""}");
    (bcx "b.near" 0 8, None, "vote_proposal", "{""vote"":""For"",""memo"":""yes"",""mpip_id"":0}");
    (bcx "c.near" 0 8, None, "remove_vote_proposal", "{""mpip_id"":0}");
    (bcx "c.near" 0 8, None, "get_proposal_votes", "{""mpip_id"":0}");
    (bcx "c.near" 0 8, None, "get_total_voters", "");
    (bcx "c.near" 0 1006, None, "get_proposal_state", "{""mpip_id"":0}");
    (bcx "admin.near" 0 9, None, "pay_to_account", "{""to"":""a.near"",""amount"":""3""}");
    (bcx "op.near" 0 9, None, "pay_to_account", "{""to"":""a.near"",""amount"":""3""}") ].
Example C99_case_usual : usual toy tr_board.
Proof. apply usual_if; [exact toy_32|vm_compute; reflexivity..]. Qed.
Definition ok (s : string) : option bout := Some (s, ONone).
Definition ask (signer : string) (q : question) (k : pkind) : option bout := Some ("", OAsk (mkPending signer "vote.near" q k)).
Example C99_case_gives :
  board_gives toy "mpip.near" ∅ tr_board =
  [ None; ok ""; None; None; ask "a.near" (AskPositions "a.near") (KCreate (mkContent "T" "S" "B" "" "")); None; ok "0"; ok "";
    ask "op.near" AskTotal (KStart 0); ok ""; ask "b.near" (AskPositions "b.near") (KVote 0 "b.near" VFor "yes"); ok "";
    ask "c.near" (AskPositions "c.near") (KVote 0 "c.near" VAgainst ""); ok ""; None; ok "";
    ok "{""for_votes"":""55"",""against_votes"":""0"",""abstain_votes"":""0"",""has_voted"":[{""mpip_id"":0,""voter_id"":""b.near"",""vote_type"":""For"",""voting_power"":""55"",""memo"":""yes""}]}";
    ok """1"""; ok """Accepted"""; Some ("", OPay "a.near" 3); None ].
Proof. vm_compute. reflexivity. Qed.
Definition p0 : mpip := mkMpip 0 (mkContent "New" "S" "B" "" "") "a.near" (Some 5) (Some 1005) false false false (Some 50).
Example C99_case_bytes :
  let st := bb_run toy "mpip.near" tr_board in
  st !! (enc_uint 1 0 +:+ "v" +:+ enc_uint 8 0) = Some (proposal_bytes p0) /\
  st !! (ballots_of toy 0 +:+ "v" +:+ enc_uint 8 0) = Some (ballot_bytes (mkMvote 0 VFor 55 "yes")) /\
  st !! (ballots_of toy 0 +:+ "i" +:+ enc_str "c.near") = None /\
  st !! (votes_of toy "b.near" +:+ "k" +:+ enc_uint 8 0) = Some (enc_uint 4 0).
Proof. vm_compute. auto. Qed.
(** the record of the contract and three for each of the six entries: the vote taken back left nothing *)
Example C99_case_all : length (map_to_list (bb_run toy "mpip.near" tr_board)) = 19%nat.
Proof. vm_compute. reflexivity. Qed.
Lemma not_back m a : is_back m = false -> forall k, ~ back_means m a k.
Proof. intros E k Hk. apply back_name in Hk as [_ B]. congruence. Qed.
Example C99_case_driven :
  exists s, board_driven "mpip.near" (map (fun i => default (bcx "" 0 0, None, "", "") (tr_board !! i)) [1; 4; 6; 8]%nat) (Some s)
              [mkPending "op.near" "vote.near" AskTotal (KStart 0)] /\ length (m_proposals s) = 1%nat.
Proof.
  eexists. split.
  - change (map _ _) with (((([] ++ [default (bcx "" 0 0, None, "", "") (tr_board !! 1%nat)]) ++ [default (bcx "" 0 0, None, "", "") (tr_board !! 4%nat)]) ++
              [default (bcx "" 0 0, None, "", "") (tr_board !! 6%nat)]) ++ [default (bcx "" 0 0, None, "", "") (tr_board !! 8%nat)]).
    cbn [tr_board lookup list_lookup default].
    eapply (bd_call _ _ _ [] _ _ _ _ _ ("", OAsk _)); [eapply (bd_back _ _ _ [_] _ _ _ _ 0%nat); [eapply (bd_call _ _ _ [] _ _ _ _ _ ("", OAsk _)); [eapply (bd_call _ _ _ [] _ _ _ _ _ ("", ONone)); [apply bd_nil|apply not_back; reflexivity|]|apply not_back; reflexivity|]|reflexivity| | |]|apply not_back; reflexivity|].
    + eapply ba_new; [eapply (binit_iff "mpip.near"); vm_compute; reflexivity|reflexivity|reflexivity|vm_compute; reflexivity].
    + eapply ba_op; [eapply board_iff; vm_compute; reflexivity|vm_compute; reflexivity].
    + apply back_iff. vm_compute. reflexivity.
    + reflexivity.
    + eapply ba_back; [apply back_iff; vm_compute; reflexivity|reflexivity|reflexivity|vm_compute; reflexivity].
    + eapply ba_op; [eapply board_iff; vm_compute; reflexivity|vm_compute; reflexivity].
  - reflexivity.
Qed.
