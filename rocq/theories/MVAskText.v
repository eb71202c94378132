(** MVAskText.v -- for C102: the views after a history of texts. *)

From Verif Require Export MVAskProofs VoteTextProofs.
Import MetaVote MVBytes MVBytesSpec VoteTextSpec MVAsk MVAskSpec.

Lemma off_in tr l z : read_off tr l -> In z l -> exists x o, In x tr /\ means x o /\ z = (vctx x, o).
Proof.
  intros R. induction R as [|x tr o l M R IH|x tr l M R IH]; [intros []| |].
  - intros [<-|Hz]; [exists x, o; split; [left; reflexivity|auto]|]. destruct (IH Hz) as (y & o' & A & B). exists y, o'. split; [right; exact A|exact B].
  - intros Hz. destruct (IH Hz) as (y & o' & A & B). exists y, o'. split; [right; exact A|exact B].
Qed.
Lemma c102_account H self tr s outs now q m x : usual_texts H tr -> vote_history self tr (Some s) outs ->
  Forall MVBytesSpec.short (asked q) -> (forall v y, In v (about q) -> hashed_text tr y -> H y = H v -> y = v) ->
  mvq_typed q -> In m (mv_asked q).1 -> reads_as (mvq_params q) x (mv_asked q).2 ->
  same_answer (xb_reads H now (vt_run H self tr) m x) (mv_reply now s q).
Proof.
  intros U Hh Qt Qa Ht Hm Hr. destruct (c101_meaning H self tr s outs U Hh) as (all & before & l & a & s0 & st0 & R & -> & <- & Ui & Uc & E & E0 & -> & ->).
  apply c102_questions; try assumption. split; [exact Qt|]. intros v y Hv (z & Hz & Hy) Eq. apply (Qa v y Hv); [|exact Eq].
  destruct (off_in _ _ z R) as (w & o & A & B & ->); [apply in_or_app; right; exact Hz|]. exists w, o. auto.
Qed.
