(** AskProofs.v -- C96: every question is refused or a typed question, and is answered with the text of what the contract holds; the
    text can be read as the declared type, and it tells what the contract holds. *)

From Verif Require Export AskSpec.
From Verif Require Import WireProofs MVSized MVSpecSized MpipSized SysProofs PostProofs EntryProofs.
From RecordUpdate Require Import RecordUpdate.
Import World.

(** ** Questions *)
Ltac asked H := unfold ask0, ask_s, ask_a, ask_n, ask_page in H; entries H; try discriminate H; parsed2 H; injection H as <-.
Ltac said := unfold only, from_to; reads.
Lemma mvq_sound m a q : enter mv_views m a = Some q -> mvq_typed q /\ In m (mv_asked q).1 /\ reads_as (mvq_params q) a (mv_asked q).2.
Proof.
  unfold enter, mv_views. intros H. asked H; (split; [cbn [mvq_typed]; unfold two_u32; parts|split; [cbn; tauto|]]);
    cbn [mvq_params mv_asked snd]; unfold paging; said.
Qed.
Lemma boardq_sound m a q : enter board_views m a = Some q -> boardq_typed q /\ m = (board_asked q).1 /\ reads_as (boardq_params q) a (board_asked q).2.
Proof.
  unfold enter, board_views. intros H. asked H; (split; [cbn [boardq_typed]; unfold two_u32; parts|split; [reflexivity|]]);
    cbn [boardq_params board_asked snd]; unfold paging; said.
Qed.
Lemma tokq_sound m a q : enter tok_views m a = Some q -> tokq_typed q /\ m = (tok_asked q).1 /\ reads_as (tokq_params q) a (tok_asked q).2.
Proof.
  unfold enter, tok_views. intros H. asked H; (split; [cbn [tokq_typed]; parts|split; [reflexivity|]]); cbn [tokq_params tok_asked snd]; said.
Qed.
Lemma kvq_sound m a q : enter kv_views m a = Some q -> kvq_typed q /\ m = (kv_asked q).1 /\ reads_as (kvq_params q) a (kv_asked q).2.
Proof.
  unfold enter, kv_views. intros H. asked H; (split; [cbn [kvq_typed]; unfold two_u32; parts|split; [reflexivity|]]);
    cbn [kvq_params kv_asked snd]; unfold paging; said.
Qed.
Lemma mvq_complete m a q : mvq_typed q -> In m (mv_asked q).1 -> reads_as (mvq_params q) a (mv_asked q).2 -> enter mv_views m a = Some q.
Proof.
  intros Ht Hm Ha. transitivity (enter mv_views m (mv_asked q).2).
  { destruct q; cbn [mv_asked fst snd In] in *; repeat match type of Hm with _ \/ _ => destruct Hm as [Hm|Hm] end; try contradiction; subst m;
      (eapply enter_says; [reflexivity|exact Ha]). }
  clear Ha. revert Ht Hm. intros Ht. destruct q; cbn [mv_asked mvq_typed fst snd In] in *; intros Hm; unfold two_u32 in *; split_all;
    repeat match type of Hm with _ \/ _ => destruct Hm as [Hm|Hm] end; try contradiction; subst m; unfold only, from_to; try reflexivity; given.
Qed.
Lemma boardq_complete a q : boardq_typed q -> reads_as (boardq_params q) a (board_asked q).2 -> enter board_views (board_asked q).1 a = Some q.
Proof.
  intros Ht Ha. transitivity (enter board_views (board_asked q).1 (board_asked q).2).
  { destruct q; cbn [board_asked fst snd] in *; (eapply enter_says; [reflexivity|exact Ha]). }
  clear Ha. destruct q; cbn [board_asked boardq_typed fst snd] in *; unfold two_u32 in *; split_all; unfold only, from_to; try reflexivity; given.
Qed.
Lemma tokq_complete a q : tokq_typed q -> reads_as (tokq_params q) a (tok_asked q).2 -> enter tok_views (tok_asked q).1 a = Some q.
Proof.
  intros Ht Ha. transitivity (enter tok_views (tok_asked q).1 (tok_asked q).2).
  { destruct q; cbn [tok_asked fst snd] in *; (eapply enter_says; [reflexivity|exact Ha]). }
  clear Ha. destruct q; cbn [tok_asked tokq_typed fst snd] in *; unfold only; try reflexivity; given. Qed.
Lemma kvq_complete a q : kvq_typed q -> reads_as (kvq_params q) a (kv_asked q).2 -> enter kv_views (kv_asked q).1 a = Some q.
Proof.
  intros Ht Ha. transitivity (enter kv_views (kv_asked q).1 (kv_asked q).2).
  { destruct q; cbn [kv_asked fst snd] in *; (eapply enter_says; [reflexivity|exact Ha]). }
  clear Ha. destruct q; cbn [kv_asked kvq_typed fst snd] in *; unfold two_u32 in *; split_all; unfold only, from_to; try reflexivity; given. Qed.

(** ** Answers *)
Lemma obj_write l k : shows l k -> obj l = write (VRec k). Proof. apply obj_args. Qed.
Lemma w_oarr {A} (f : A -> string) (g : A -> val) l : (forall x, f x = write (g x)) -> arr f l = write (items g l).
Proof. apply w_arr. Qed.
Lemma w_oopt {A} (f : A -> string) (g : A -> val) o : (forall x, f x = write (g x)) -> or_null f o = write (opt g o).
Proof. intros H. destruct o; [apply H|reflexivity]. Qed.
Lemma w_both {A B} (f : A -> string) (g : B -> string) (f' : A -> val) (g' : B -> val) p :
  (forall x, f x = write (f' x)) -> (forall x, g x = write (g' x)) -> both f g p = write (pair_val f' g' p).
Proof. intros H1 H2. unfold both, pair_val. apply w_two; [apply H1|apply H2]. Qed.
Create HintDb wr.
Ltac wr := first
  [ apply w_big | apply w_idx | apply w_bool | apply w_oopt; intros ?; wr | apply w_oarr; intros ?; wr | apply w_both; intros ?; wr
  | apply w_two; wr | solve [eauto 1 with wr] | apply w_str | apply w_num ].
Ltac fields := apply obj_write; repeat (apply shows_cons; [reflexivity|wr|]); apply shows_nil.
Lemma w_pos j : position_text j = write (pos_val j).
Proof.
  unfold position_text, pos_val. apply obj_write. apply shows_cons; [reflexivity|reflexivity|]. do 3 (apply shows_cons; [reflexivity|wr|]).
  apply shows_cons; [reflexivity|destruct (j_unl j); reflexivity|]. repeat (apply shows_cons; [reflexivity|wr|]). apply shows_nil.
Qed.
#[local] Hint Resolve w_pos : wr.
Lemma w_vote t : vote_text t = write (vote_val t). Proof. fields. Qed.
Lemma w_object t : object_text t = write (object_val t). Proof. fields. Qed.
#[local] Hint Resolve w_vote w_object : wr.
Lemma w_voter j : voter_text j = write (voter_val j). Proof. unfold voter_text, voter_val. fields. Qed.
#[local] Hint Resolve w_voter : wr.
Lemma w_info s : info_text s = write (info_val (get_contract_info s)). Proof. unfold info_text, info_val. fields. Qed.
Definition written (r : res val) : res string := v ← r; Ok (write v).
Lemma w_told {A} (f : A -> string) (g : A -> val) (r : res A) : (forall x, f x = write (g x)) -> written (x ← r; Ok (g x)) = told f r.
Proof. intros H. destruct r as [x|m]; [|reflexivity]. cbn. rewrite H. reflexivity. Qed.
Lemma w_ok t v : t = write v -> written (Ok v) = Ok t. Proof. intros ->. reflexivity. Qed.
Lemma mv_written now s q : written (mv_answer now s q) = mv_reply now s q.
Proof.
  destruct q; cbn [mv_answer mv_reply]; unfold in_big, page, paged, amounts, texts; try (apply w_ok; wr; fail); try (apply w_told; intros ?; wr; fail).
  - apply w_ok, w_info.
  - apply w_ok. cbn [write map]. unfold commas. cbn [String.concat]. rewrite <- (w_oopt quote VStr (lock_addr s)) by reflexivity. rewrite ?append_assoc. reflexivity.
Qed.
Lemma w_vt (t : vote_type) : match t with VAgainst => """Against""" | VFor => """For""" | VAbstain => """Abstain""" end = write (vote_type_val t).
Proof. destruct t; reflexivity. Qed.
Lemma w_state t : state_text t = write (state_val t). Proof. destruct t; reflexivity. Qed.
#[local] Hint Resolve w_vt w_state : wr.
Lemma w_ballot j : ballot_text j = write (ballot_val j). Proof. unfold ballot_text, ballot_val. fields. Qed.
Lemma w_proposal p : proposal_text p = write (proposal_val p). Proof. unfold proposal_text, proposal_val, content_text. cbv zeta. cbn [app]. fields. Qed.
#[local] Hint Resolve w_ballot w_proposal : wr.
Lemma board_written c s q : written (board_answer c s q) = board_reply c s q.
Proof.
  destruct q; cbn [board_answer board_reply]; unfold page, paged; cbv zeta; try (apply w_ok; wr; fail); try (apply w_told; intros ?; wr; fail).
  - apply w_ok. unfold votes_val, get_proposal_votes. cbv zeta. fields.
  - apply w_ok. fields.
Qed.
Lemma tok_written t q : written (tok_answer t q) = Ok (tok_reply t q).
Proof.
  destruct q; cbn [tok_answer tok_reply]; apply w_ok; try (wr; fail).
  - unfold t_bounds. cbn [fst snd opt]. apply obj_write. apply shows_cons; [reflexivity|wr|]. apply shows_cons; [reflexivity|apply w_big|]. apply shows_nil.
  - unfold t_registered, t_storage_balance_of. destruct (om_get _ _); [|reflexivity]. cbn [opt write]. change (write (VSome ?v)) with (write v). fields.
Qed.
Lemma kv_written s q : written (kv_answer s q) = kv_reply s q.
Proof. destruct q; cbn [kv_answer kv_reply]; unfold page, paged, texts; try (apply w_ok; wr; fail); try (apply w_told; intros ?; wr; fail). Qed.

Lemma ask_some {Q} (views : list (string * method Q)) answer m a q : enter views m a = Some q -> ask views answer m a = written (answer q).
Proof. intros H. unfold ask. rewrite H. reflexivity. Qed.
Lemma ask_none {Q} (views : list (string * method Q)) answer m a : enter views m a = None -> exists e, ask views answer m a = Panic e.
Proof. intros H. unfold ask. rewrite H. cbn. eauto. Qed.
