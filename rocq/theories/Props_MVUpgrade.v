(** Props_MVUpgrade.v -- C103: the upgrade of the voting contract on the bytes in storage. *)

From Verif Require Import MVUpgradeText MVBytesProofs MVView MVWitness Props_Sized Props_MVBytes Props_VoteText Props_MVAsk.
Import MetaVote MVSpecSized MVBytes MVBytesSpec VoteTextSpec MVAsk MVAskSpec MVUpgrade MVUpgradeSpec.

(** Take the storage after any history and put the record of the version before in place of STATE.  migrate() by the contract account
    writes that record anew and touches no other; the calls made afterwards do, and the views answer, what they would for the same
    accounts, positions, votes and claims with no filters set; and no second migrate() is accepted, whatever was called in between. *)
Theorem C103_upgrade :
  forall H a tr more s0 st0 c, usual_init a -> usual_calls H (tr ++ more) -> mv_new a = Ok s0 -> xb_new ∅ a = Ok st0 ->
    c_deposit c = 0 -> c_pred c = i_self a ->
    let s := run s0 tr in let old := outdated s (xb_run H (i_self a) st0 tr) in
    exists st', xb_migrate (i_self a) old c = Ok st' /\
      st' !! "STATE" = Some (vote_bytes (unlocked s)) /\ (forall k, k <> "STATE" -> st' !! k = old !! k) /\
      xb_gives H (i_self a) st' more = mv_gives (unlocked s) more /\
      (forall now q, usual_question H (tr ++ more) q -> same_answer (xb_ask H now (xb_run H (i_self a) st' more) q) (mv_answer now (run (unlocked s) more) q)) /\
      (forall c', exists e, xb_migrate (i_self a) (xb_run H (i_self a) st' more) c' = Panic e).
Proof. exact c103_upgrade. Qed.

(** If no call set filters, the bytes after the upgrade are those the present version would have written all along. *)
Theorem C103_seamless :
  forall H a tr s0 st0 c, usual_init a -> usual_calls H tr -> Forall no_filter tr -> mv_new a = Ok s0 -> xb_new ∅ a = Ok st0 ->
    c_deposit c = 0 -> c_pred c = i_self a ->
    xb_migrate (i_self a) (outdated (run s0 tr) (xb_run H (i_self a) st0 tr)) c = Ok (xb_run H (i_self a) st0 tr).
Proof. exact c103_seamless. Qed.

(** Until migrate() is called, the present version refuses every call and every question, and [new] too. *)
Theorem C103_before :
  forall H a tr s0 st0, usual_init a -> usual_calls H tr -> mv_new a = Ok s0 -> xb_new ∅ a = Ok st0 ->
    let old := outdated (run s0 tr) (xb_run H (i_self a) st0 tr) in
    (forall self c o, exists e, xb_call H self old c o = Panic e) /\
    (forall now q, exists e, xb_ask H now old q = Panic e) /\
    (forall a', exists e, xb_new old a' = Panic e).
Proof. exact c103_before. Qed.

(** On any storage, only the contract account upgrades, without a deposit; an empty storage is not upgraded. *)
Theorem C103_only_self : forall self st c st', xb_migrate self st c = Ok st' -> c_pred c = self /\ c_deposit c = 0.
Proof. exact c103_only_self. Qed.
Theorem C103_before_new : forall self c, exists e, xb_migrate self ∅ c = Panic e.
Proof. exact c103_before_new. Qed.

(** The account of C101, whose history is one of texts: the upgrade, the views asked by texts after it, and, if no filters are set, the same
    bytes again, so that the texts sent later find what C101 says. *)
Theorem C103_account :
  forall H self tr s outs c, usual_texts H tr -> vote_history self tr (Some s) outs -> c_deposit c = 0 -> c_pred c = self ->
    let old := outdated s (vt_run H self tr) in
    exists st', xb_migrate self old c = Ok st' /\ st' !! "STATE" = Some (vote_bytes (unlocked s)) /\ (forall k, k <> "STATE" -> st' !! k = old !! k) /\
      (forall now q m x, Forall MVBytesSpec.short (MVAskSpec.asked q) -> (forall v y, In v (about q) -> hashed_text tr y -> H y = H v -> y = v) ->
        mvq_typed q -> In m (mv_asked q).1 -> reads_as (mvq_params q) x (mv_asked q).2 -> same_answer (xb_reads H now st' m x) (mv_reply now (unlocked s) q)) /\
      (lock_end s = 0 -> lock_addr s = None -> lock_id s = 0 -> st' = vt_run H self tr).
Proof. exact c103_account. Qed.

(** ** A case *)
(** the history of Props_MVBytes.v, which sets filters; then a vote for the address they were on, a payment, and a refused call *)
Definition st_old : gmap string string := outdated (run s0 tr_disk) st_end.
Definition st_up : gmap string string := match xb_migrate "mv.near" st_old (cx "mv.near" 0 (303 * DAY)) with Ok st => st | Panic _ => ∅ end.
Definition tr_after : list call :=
  [ usr "b.near" (304 * DAY) (WithdrawAll); usr "a.near" (304 * DAY) (Unvote "meta-apps" "app1"); usr "a.near" (304 * DAY) (Vote (V 3) "launches" "launch #7 x");
    usr "a.near" (304 * DAY) (Unvote "launches" "launch #7 x"); usr1 "a.near" (305 * DAY) (WithdrawAll); usr "eve.near" (305 * DAY) (SetOwner "eve.near") ].
Example C103_case_usual : usual_calls toy (tr_disk ++ tr_after).
Proof. apply usual_calls_if; [exact toy_32|apply szb_all; vm_compute; reflexivity|vm_compute; reflexivity..]. Qed.
(** with the filters the unvote would be refused *)
Example C103_case_after :
  mv_gives (run s0 tr_disk) tr_after = [None; Some []; Some []; None; Some [PayMp "a.near" (M 15)]; None] /\
  mv_gives (unlocked (run s0 tr_disk)) tr_after = [None; Some []; Some []; Some []; Some [PayMp "a.near" (M 15)]; None] /\
  xb_gives toy "mv.near" st_up tr_after = mv_gives (unlocked (run s0 tr_disk)) tr_after.
Proof. split; [|split]; vm_compute; reflexivity. Qed.
Example C103_case_views :
  Forall (usual_question toy (tr_disk ++ tr_after)) questions /\
  map (xb_ask toy now_end (xb_run toy "mv.near" st_up tr_after)) questions = map (mv_answer now_end (run (unlocked (run s0 tr_disk)) tr_after)) questions.
Proof.
  split; [apply List.Forall_forall; intros q Hq; apply apartb_ok; revert q Hq; apply forallb_forall; vm_compute; reflexivity|vm_compute; reflexivity].
Qed.
(** the record of the contract is 11 bytes longer than before: a u64, the tag of an Option, a u16 *)
Example C103_case_bytes :
  (String.length <$> st_old !! "STATE") = Some 397%nat /\ (String.length <$> st_up !! "STATE") = Some 408%nat /\
  delete "STATE" st_up = delete "STATE" st_old.
Proof. split; [|split]; [vm_compute; reflexivity..|]. refine (bool_decide_unpack _ _). vm_compute. exact I. Qed.
Example C103_case_refused :
  xb_call toy "mv.near" st_old (cx "own.near" 1 (304 * DAY)) (SetOwner "b.near") = Panic "Cannot deserialize the contract state." /\
  xb_migrate "mv.near" st_old (cx "own.near" 0 (303 * DAY)) = Panic "Method is private" /\
  xb_migrate "mv.near" st_up (cx "mv.near" 0 (303 * DAY)) = Panic "Cannot deserialize the contract state.".
Proof. split; [|split]; vm_compute; reflexivity. Qed.
(** a history without filters: the bytes are back *)
Example C103_case_seamless :
  usual_calls toy tr_demo /\ Forall no_filter tr_demo /\
  xb_migrate "mv.near" (outdated (run s0 tr_demo) (xb_run toy "mv.near" st0 tr_demo)) (cx "mv.near" 0 (303 * DAY)) = Ok (xb_run toy "mv.near" st0 tr_demo).
Proof.
  assert (U : usual_calls toy tr_demo) by (apply usual_calls_if; [exact toy_32|apply szb_all; vm_compute; reflexivity|vm_compute; reflexivity..]).
  assert (F : Forall no_filter tr_demo) by (unfold tr_demo; repeat (constructor; [exact I|]); constructor).
  split; [exact U|]. split; [exact F|]. destruct C100_case_new as (a & b & c). exact (c103_seamless toy ia tr_demo s0 st0 (cx "mv.near" 0 (303 * DAY)) a U F b c eq_refl eq_refl).
Qed.

(** the texts of C101's case: without its last 11 bytes, STATE is the old record *)
Example C103_case_account :
  let st := vt_run toy "mv.near" tr_text in
  let b := default "" (st !! "STATE") in
  let old := <["STATE" := String.substring 0 (String.length b - 11) b]> st in
  match xb_migrate "mv.near" old (cx "mv.near" 0 (71 * DAY)) with Ok st' => bool_decide (st' = st) | Panic _ => false end = true /\
  xb_reads toy (71 * 86400000) old "get_owner_id" "{}" = Panic "Cannot deserialize the contract state." /\
  xb_reads toy (71 * 86400000) st "get_owner_id" "{}" = Ok """own.near""".
Proof. split; [|split]; vm_compute; reflexivity. Qed.

Print Assumptions C103_upgrade.
Print Assumptions C103_seamless.
Print Assumptions C103_before.
Print Assumptions C103_only_self.
Print Assumptions C103_before_new.
Print Assumptions C103_account.
