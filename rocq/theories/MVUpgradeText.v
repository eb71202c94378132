(** MVUpgradeText.v -- for C103: the upgrade after a history of texts. *)

From Verif Require Export MVUpgradeProofs MVAskText.
From Verif Require Import AskMv AskProofs MVSim.
Import MetaVote MVBytes MVBytesSpec VoteTextSpec MVAsk MVAskSpec MVUpgrade MVUpgradeSpec.

Lemma c103_account H self tr s outs c : usual_texts H tr -> vote_history self tr (Some s) outs -> c_deposit c = 0 -> c_pred c = self ->
  let old := outdated s (vt_run H self tr) in
  exists st', xb_migrate self old c = Ok st' /\ st' !! "STATE" = Some (vote_bytes (unlocked s)) /\ (forall k, k <> "STATE" -> st' !! k = old !! k) /\
    (forall now q m x, Forall MVBytesSpec.short (asked q) -> (forall v y, In v (about q) -> hashed_text tr y -> H y = H v -> y = v) ->
      mvq_typed q -> In m (mv_asked q).1 -> reads_as (mvq_params q) x (mv_asked q).2 -> same_answer (xb_reads H now st' m x) (mv_reply now (unlocked s) q)) /\
    (lock_end s = 0 -> lock_addr s = None -> lock_id s = 0 -> st' = vt_run H self tr).
Proof.
  intros U Hh Hd Hp old. destruct (c101_meaning H self tr s outs U Hh) as (all & before & l & a & s0 & st0 & R & -> & <- & Ui & Uc & E & E0 & Es & Ev).
  assert (Uc' : usual_calls H (l ++ [])) by (rewrite app_nil_r; exact Uc).
  destruct (c103_upgrade H a l [] s0 st0 c Ui Uc' E E0 Hd Hp) as (st' & A & B & C & _ & D & _). rewrite <- Es, <- Ev in *. fold old in A, C.
  exists st'. split; [exact A|]. split; [exact B|]. split; [exact C|]. split.
  - intros now q m x Qt Qa Ht Hm Hr.
    assert (Uq : usual_question H (l ++ []) q).
    { split; [exact Qt|]. rewrite app_nil_r. intros v y Hv (z & Hz & Hy) Eq. apply (Qa v y Hv); [|exact Eq].
      destruct (off_in _ _ z R) as (w & o & A' & B' & ->); [apply in_or_app; right; exact Hz|]. exists w, o. auto. }
    pose proof (D now q Uq) as S. change (xb_run H (i_self a) st' []) with st' in S. change (run (unlocked s) []) with (unlocked s) in S.
    rewrite <- (c96_mv_asked now (unlocked s) q m x Ht Hm Hr). unfold xb_reads, mv_view, ask. rewrite (mvq_complete _ _ _ Ht Hm Hr). cbn [expect mbind res_bind].
    destruct (xb_ask _ _ _ q), (mv_answer _ _ q); cbn in *; congruence || exact I || contradiction.
  - intros l1 l2 l3. apply map_eq. intros k. destruct (decide (k = "STATE")) as [->|Hk].
    + rewrite B. destruct (c100_records H a l s0 st0 Ui Uc E E0) as (K & _). rewrite <- Es, <- Ev in K. rewrite K. f_equal. unfold vote_bytes, unlocked. cbn. rewrite l1, l2, l3. reflexivity.
    + rewrite (C k Hk). unfold old, outdated. apply lookup_insert_ne. congruence.
Qed.
