(** Props_MVBytes.v -- C100: the voting contract on the bytes in storage. *)

From Verif Require Import MVBytesProofs MVView MVWitness MVRefuted Props_Sized.
Import MetaVote MVSpecSized MVBytes MVBytesSpec.

(** [new] writes the storage exactly when MetaVote.v accepts its parameters. *)
Theorem C100_new : forall a, usual_init a -> (exists st0, xb_new ∅ a = Ok st0) <-> (exists s0, mv_new a = Ok s0).
Proof. exact c100_new. Qed.
Print Assumptions C100_new.

(** Whatever is called afterwards, by whom and in which order, callbacks included: the contract on bytes accepts the calls MetaVote.v
    accepts and sends the same transfers. *)
Theorem C100_calls :
  forall H a tr s0 st0, usual_init a -> usual_calls H tr -> mv_new a = Ok s0 -> xb_new ∅ a = Ok st0 ->
    xb_gives H (i_self a) st0 tr = mv_gives s0 tr.
Proof. exact c100_calls. Qed.
Print Assumptions C100_calls.

(** The bytes on disk after any history: the record of the contract, the entries of its maps, the positions, and the votes. *)
Theorem C100_records :
  forall H a tr s0 st0, usual_init a -> usual_calls H tr -> mv_new a = Ok s0 -> xb_new ∅ a = Ok st0 ->
    let s := run s0 tr in let st := xb_run H (i_self a) st0 tr in
    st !! "STATE" = Some (vote_bytes s) /\
    stored st (enc_uint 1 2) (map (fun e => (enc_str e.1, voter_bytes H e.1 e.2)) (voters s)) /\
    stored st (enc_uint 1 3) (map (fun e => (enc_str e.1, map_bytes (tally_of H e.1) (length e.2))) (votes s)) /\
    stored st (enc_uint 1 6) (map (fun e => (enc_str e.1, enc_uint 16 e.2)) (claim_mp s)) /\
    stored st (enc_uint 1 7) (map (fun e => (enc_str e.1, enc_uint 16 e.2)) (claim_st s)) /\
    stored st (enc_uint 1 8) (map (fun e => (enc_str e.1, enc_str e.2)) (user_data s)) /\
    stored st (enc_uint 1 9) (map (fun e => (enc_str e.1, strings_bytes e.2)) (evm_delegates s)) /\
    (forall e, st !! (enc_uint 1 10 +:+ enc_str e) = signed_bytes <$> evm_sigs s !! e) /\
    (forall e, st !! (enc_uint 1 11 +:+ enc_str e) = signed_bytes <$> evm_pre s !! e) /\
    (forall who v i p, In (who, v) (voters s) -> v_lps v !! i = Some p -> st !! (positions_of H who +:+ enc_uint 8 (N.of_nat i)) = Some (position_bytes p)) /\
    (forall addr m, In (addr, m) (votes s) -> stored st (tally_of H addr) (map (fun e => (enc_str e.1, enc_uint 16 e.2)) m)) /\
    (forall who v addr h, In (who, v) (voters s) -> uget (hp_vp s) (v_vp v) addr = Ok (Some h) ->
       entry_at st (ballot_of H who) (h_len (v_vp v)) (enc_str addr) (map_bytes (objects_of H (h_pref h)) (h_len h)) /\
       forall obj n, uget (hp_vv s) h obj = Ok (Some n) -> entry_at st (objects_of H (h_pref h)) (h_len h) (enc_str obj) (enc_uint 16 n)).
Proof. exact c100_records. Qed.
Print Assumptions C100_records.

(** If no two (voter, address) pairs join to the same text, the votes of a voter are stored as a map from addresses to maps from objects to
    power, under the hash of voter-address, and they are the ones get_votes_for_object shows. *)
Theorem C100_ballots :
  forall H a tr s0 st0, usual_init a -> usual_calls H tr -> MVSpec.collision_free tr -> mv_new a = Ok s0 -> xb_new ∅ a = Ok st0 ->
    let s := run s0 tr in let st := xb_run H (i_self a) st0 tr in
    forall who v, In (who, v) (voters s) ->
    exists L : list (string * list (string * N)), length L = h_len (v_vp v) /\
      stored st (ballot_of H who) (map (fun e => (enc_str e.1, map_bytes (objects_of H (who +:+ "-" +:+ e.1)) (length e.2))) L) /\
      forall addr m, In (addr, m) L ->
        stored st (objects_of H (who +:+ "-" +:+ addr)) (map (fun e => (enc_str e.1, enc_uint 16 e.2)) m) /\
        forall obj n, In (obj, n) m -> get_votes_for_object s who addr obj = Ok n.
Proof. exact c100_ballots. Qed.
Print Assumptions C100_ballots.

(** [new] is accepted once, and nothing is before it. *)
Theorem C100_once :
  forall H a tr s0 st0 a', usual_init a -> usual_calls H tr -> mv_new a = Ok s0 -> xb_new ∅ a = Ok st0 ->
    exists e, xb_new (xb_run H (i_self a) st0 tr) a' = Panic e.
Proof. exact c100_once. Qed.
Print Assumptions C100_once.
Theorem C100_before_new : forall H self c o, exists e, xb_call H self ∅ c o = Panic e.
Proof. exact c100_before. Qed.
Print Assumptions C100_before_new.

(** Nothing the contract remembers is missing in its storage: two histories that left the same bytes have the same future. *)
Theorem C100_future :
  forall H a a' tr tr' more s0 s0' st0 st0', usual_init a -> usual_init a' -> i_self a = i_self a' ->
    usual_calls H (tr ++ more) -> usual_calls H (tr' ++ more) ->
    mv_new a = Ok s0 -> xb_new ∅ a = Ok st0 -> mv_new a' = Ok s0' -> xb_new ∅ a' = Ok st0' ->
    xb_run H (i_self a) st0 tr = xb_run H (i_self a') st0' tr' ->
    mv_gives (run s0 tr) more = mv_gives (run s0' tr') more.
Proof. exact c100_future. Qed.
Print Assumptions C100_future.

(** ** A case *)
(** 32 bytes that tell short names apart *)
Fixpoint pad (n : nat) (s : string) : string := match n with O => "" | S n => match s with String a s => String a (pad n s) | EmptyString => String "." (pad n "") end end.
Definition toy (s : string) : string := pad 32 s.
Lemma toy_32 s : String.length (toy s) = 32%nat.
Proof. assert (K : forall n s, String.length (pad n s) = n) by (induction n; intros [|a t]; cbn [pad String.length]; auto). apply K. Qed.
(** the history of MVWitness.v; refused calls, airdrop data, delegation, and the answers to transfers *)
Definition tr_disk : list call :=
  tr_demo ++
  [ usr "b.near" (301 * DAY) (Vote (M 1000000) "meta-apps" "app1"); usr "eve.near" (301 * DAY) (SetOwner "eve.near");
    (cx "a.near" 7 (301 * DAY), UpdateAirdrop "data"); usr "a.near" (301 * DAY) (UpdateAirdrop "data");
    usr "opr.near" (301 * DAY) (OpMultiSetAirdrop [("b.near", "bdata"); ("a.near", "adata")]);
    usr "opr.near" (302 * DAY) (SetLockIn (400 * DAY) 7 (Some "launches"));
    usr "a.near" (302 * DAY) (PreDelegate "0xabc" "sig"); usr1 "a.near" (302 * DAY) (PreDelegate "0xabc" "sig");
    usr1 "opr.near" (303 * DAY) (OpConfirm "0xabc"); usr "a.near" (303 * DAY) (VoteDelegated "0xabc" 5 "meta-apps" "app9");
    usr "eve.near" (303 * DAY) (AfterMp "a.near" (M 4) false); usr "mv.near" (303 * DAY) (AfterMp "a.near" (M 4) false) ].
Definition st0 : gmap string string := match xb_new ∅ ia with Ok st => st | Panic _ => ∅ end.
Example C100_case_new : usual_init ia /\ mv_new ia = Ok s0 /\ xb_new ∅ ia = Ok st0.
Proof. split; [repeat constructor|]. split; [exact s0_ok|]. vm_compute. reflexivity. Qed.
Example C100_case_usual : usual_calls toy tr_disk.
Proof. apply usual_calls_if; [exact toy_32|apply szb_all; vm_compute; reflexivity|vm_compute; reflexivity..]. Qed.
Example C100_case_gives :
  xb_gives toy "mv.near" st0 tr_disk = mv_gives s0 tr_disk /\
  drop 19 (xb_gives toy "mv.near" st0 tr_disk) =
  [ Some [PayMp "b.near" (M 70)]; Some []; Some [PayMp "a.near" (M 4)]; None; None; Some []; None; Some []; Some []; None; Some []; Some []; Some []; None; Some [] ].
Proof. split; vm_compute; reflexivity. Qed.
Example C100_case_bytes :
  let st := xb_run toy "mv.near" st0 tr_disk in
  st !! (positions_of toy "a.near" +:+ enc_uint 8 1) = Some (enc_uint 16 (M 35) +:+ enc_uint 2 300 +:+ enc_uint 16 (V 175) +:+ enc_uint 1 0) /\
  st !! (enc_uint 1 2 +:+ "v" +:+ enc_uint 8 1) =
    Some (enc_uint 16 0 +:+ vector_bytes (positions_of toy "0xabc.evmp.near") 2 +:+ enc_uint 16 (V 13 - 5) +:+ map_bytes (ballot_of toy "0xabc.evmp.near") 1) /\
  st !! (ballot_of toy "a.near" +:+ "v" +:+ enc_uint 8 0) = Some (map_bytes (objects_of toy "a.near-meta-apps") 1) /\
  st !! (objects_of toy "a.near-meta-apps" +:+ "v" +:+ enc_uint 8 0) = Some (enc_uint 16 (V 40)) /\
  st !! (tally_of toy "meta-apps" +:+ "v" +:+ enc_uint 8 1) = Some (enc_uint 16 5) /\
  st !! (enc_uint 1 9 +:+ "v" +:+ enc_uint 8 0) = Some (enc_uint 4 1 +:+ enc_str "0xabc") /\
  st !! (enc_uint 1 10 +:+ enc_str "0xabc") = Some (enc_str "a.near" +:+ enc_str "sig") /\
  st !! (enc_uint 1 11 +:+ enc_str "0xabc") = None.
Proof. vm_compute. auto 10. Qed.
Example C100_case_ballots : MVSpec.collision_free tr_disk /\ get_votes_for_object (run s0 tr_disk) "a.near" "meta-apps" "app1" = Ok (V 40).
Proof. split; [MVRefuted.cf_tac|vm_compute; reflexivity]. Qed.
(** the record of the contract, 4 positions, a confirmed delegation, and three records for each of the 18 entries of maps: here removals left
    nothing behind *)
Example C100_case_all : length (map_to_list (xb_run toy "mv.near" st0 tr_disk)) = 60%nat.
Proof. vm_compute. reflexivity. Qed.
(** two histories that leave the same bytes: the order of two changes by the owner, and a call that is refused *)
Definition tr_one : list call := [ usr1 "own.near" DAY (SetPrevGov "gov.near"); usr1 "own.near" DAY (SetOperator "opr.near") ].
Definition tr_two : list call := [ usr1 "own.near" DAY (SetOperator "opr.near"); usr "eve.near" DAY (SetOwner "eve.near"); usr1 "own.near" (2 * DAY) (SetPrevGov "gov.near") ].
Example C100_case_future :
  usual_calls toy (tr_one ++ tr_disk) /\ usual_calls toy (tr_two ++ tr_disk) /\ mv_gives s0 tr_one = [Some []; Some []] /\
  mv_gives s0 tr_two = [Some []; None; Some []] /\ xb_run toy "mv.near" st0 tr_one = xb_run toy "mv.near" st0 tr_two /\
  xb_run toy "mv.near" st0 tr_one <> st0.
Proof.
  split; [apply usual_calls_if; [exact toy_32|apply szb_all; vm_compute; reflexivity|vm_compute; reflexivity..]|].
  split; [apply usual_calls_if; [exact toy_32|apply szb_all; vm_compute; reflexivity|vm_compute; reflexivity..]|].
  split; [vm_compute; reflexivity|]. split; [vm_compute; reflexivity|]. split; [refine (bool_decide_unpack _ _); vm_compute; exact I|].
  intros E. apply (f_equal (fun m => m !! "STATE")) in E. vm_compute in E. discriminate E.
Qed.
