(** Props_MVAsk.v -- C102: the views of the voting contract on the bytes in storage. *)

From Verif Require Import MVAskText MVWitness MVRefuted Props_MVBytes Props_VoteText.
Import MetaVote MVBytes MVBytesSpec MVAsk MVAskSpec VoteTextSpec.

(** After any history, every view that reads the bytes gives the answer of the view on the state, or panics where it does. *)
Theorem C102_views :
  forall H a tr s0 st0 now q, usual_init a -> usual_calls H tr -> mv_new a = Ok s0 -> xb_new ∅ a = Ok st0 -> usual_question H tr q ->
    same_answer (xb_ask H now (xb_run H (i_self a) st0 tr) q) (mv_answer now (run s0 tr) q).
Proof. exact c102_views. Qed.
Print Assumptions C102_views.

(** From text to text: the question under each of its names, for whatever text gives its parameters, is answered with the text of C96. *)
Theorem C102_questions :
  forall H a tr s0 st0 now q m x, usual_init a -> usual_calls H tr -> mv_new a = Ok s0 -> xb_new ∅ a = Ok st0 -> usual_question H tr q ->
    mvq_typed q -> In m (mv_asked q).1 -> reads_as (mvq_params q) x (mv_asked q).2 ->
    same_answer (xb_reads H now (xb_run H (i_self a) st0 tr) m x) (mv_reply now (run s0 tr) q).
Proof. exact c102_questions. Qed.
Print Assumptions C102_questions.

(** Nothing else is answered, and nothing is before [new]. *)
Theorem C102_answers :
  forall H now st m x t, xb_reads H now st m x = Ok t ->
    exists q, mvq_typed q /\ In m (mv_asked q).1 /\ reads_as (mvq_params q) x (mv_asked q).2.
Proof. exact c102_answers. Qed.
Print Assumptions C102_answers.
Theorem C102_before_new : forall H now m x, exists e, xb_reads H now ∅ m x = Panic e.
Proof. exact c102_no_text. Qed.
Print Assumptions C102_before_new.

(** The account of C101: after any texts, the views are answered with the texts for the state that these texts make. *)
Theorem C102_account :
  forall H self tr s outs now q m x, usual_texts H tr -> vote_history self tr (Some s) outs ->
    Forall MVBytesSpec.short (MVAskSpec.asked q) -> (forall v y, In v (about q) -> hashed_text tr y -> H y = H v -> y = v) ->
    mvq_typed q -> In m (mv_asked q).1 -> reads_as (mvq_params q) x (mv_asked q).2 ->
    same_answer (xb_reads H now (vt_run H self tr) m x) (mv_reply now s q).
Proof. exact c102_account. Qed.
Print Assumptions C102_account.

(** ** Cases: the history of Props_MVBytes.v, 303 days after the start *)
Definition st_end : gmap string string := xb_run toy "mv.near" st0 tr_disk.
Definition now_end : N := 303 * 86400000.
Definition read_end (m x : string) : res string := xb_reads toy now_end st_end m x.
(** a voter, one who never was, an object, a delegate, and pages *)
Definition questions : list mvq :=
  [ QOwner; QInfo; QVotersCount; QVoter "a.near"; QVoter "zed.near"; QVoters 0 10; QVoters 1 1; QBalance "a.near"; QBalance "zed.near"; QLocked "a.near"; QUnlocking "b.near";
    QAvailable "0xabc.evmp.near"; QUsed "a.near"; QUsed "zed.near"; QPositions "a.near"; QPosition 1 "a.near"; QPosition 9 "a.near"; QTotalVotes "meta-apps" "app1"; QTotalVotes "x" "y";
    QByApp "meta-apps"; QByApp "x"; QByContract "meta-apps"; QByVoter "a.near"; QByVoter "zed.near"; QForObject "a.near" "meta-apps" "app1"; QForObject "zed.near" "meta-apps" "app1";
    QClaims 0 5; QStClaims 0 5; QClaimMp "c.near"; QRegistered "a.near"; QRegistered "zed.near"; QAirdrop "a.near"; QAirdrop "zed.near"; QAirdrops 0 9; QHold;
    QPre "0xabc"; QDelegating "a.near"; QDelegates 0 3; QDelegates 7 3; QDelegate "0xabc"; QSignature "0xabc"; QSignature "0xdef" ].
Definition apartb (tr : list call) (q : mvq) : bool :=
  forallb (fun s => N.of_nat (String.length s) <? 2 ^ 32) (MVAskSpec.asked q) &&
  forallb (fun v => forallb (fun x => forallb (fun y => negb (String.eqb (toy y) (toy v)) || String.eqb y v) (MVBytesSpec.named x)) tr) (about q).
Lemma apartb_ok tr q : apartb tr q = true -> usual_question toy tr q.
Proof.
  unfold apartb. rewrite andb_true_iff, !forallb_forall. intros [A B]. split.
  - apply List.Forall_forall. intros s Hs. apply N.ltb_lt, A, Hs.
  - intros v y Hv (x & Hx & Hy) E. specialize (B _ Hv). rewrite forallb_forall in B. specialize (B _ Hx). rewrite forallb_forall in B. specialize (B _ Hy).
    rewrite E, String.eqb_refl in B. apply String.eqb_eq. exact B.
Qed.
Example C102_case_usual : Forall (usual_question toy tr_disk) questions.
Proof. apply List.Forall_forall. intros q Hq. apply apartb_ok. revert q Hq. apply forallb_forall. vm_compute. reflexivity. Qed.
Example C102_case_answers : map (xb_ask toy now_end st_end) questions = map (mv_answer now_end (run s0 tr_disk)) questions.
Proof. vm_compute. reflexivity. Qed.
Example C102_case_texts :
  read_end "get_votes_by_app" "{""app_or_contract_address"":""meta-apps""}" = Ok "[[""app1"",""40000000000000000000000000""],[""app9"",""5""]]" /\
  read_end "get_delegates" "{""from_index"":0,""limit"":3}" = Ok "[[""a.near"",[""0xabc""]]]" /\
  read_end "get_used_voting_power" "{""voter_id"":""a.near""}" = Ok """50000000000000000000000000""" /\
  read_end "get_balance" "{""voter_id"":""zed.near""}" = Ok """0""" /\
  read_end "get_airdrop_account" "{""account_id"":""zed.near""}" = Panic "unwrap on None" /\
  read_end "get_balance" "{}" = Panic "Failed to deserialize input from JSON.".
Proof. vm_compute. auto 10. Qed.
(** the texts of C101's case *)
Example C102_case_account :
  let read := xb_reads toy (70 * 86400000) (vt_run toy "mv.near" tr_text) in
  read "get_voters_count" "" = Ok """1""" /\
  read "get_votes_by_voter" "[""c.near""]" = Ok "[{""votable_contract"":""meta-apps"",""id"":""app2"",""current_votes"":""30""}]" /\
  read "get_stnear_claims" "{""limit"":9,""from_index"":0}" = Ok "[[""c.near"",""200000000000000000000""],[""b.near"",""500000000000000000000""]]" /\
  read "get_owner_id" "{}" = Ok """own.near""".
Proof. vm_compute. auto 10. Qed.
