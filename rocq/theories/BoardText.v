(** BoardText.v -- for C99: what the texts sent to the proposal contract mean. *)

From Verif Require Export BoardBytesSpec.
From Verif Require Import FlatProofs WireProofs EntryProofs AskProofs KVBytesProofs.
From RecordUpdate Require Import RecordUpdate.
Import FlatProofs Mpip BoardBytes KVBytesSpec BoardBytesSpec.

Definition binit_tbl (self : string) : list (string * method minit) :=
  [("new", (INIT, fun vs => match vs with
     | [VStr x; VStr o; VStr t; VStr v; VBig p; VBig vp; VBig s; VNum f] => Some (mkMinit self x o t v p vp s f) | _ => None end))].
Definition back_tbl : list (string * method pkind) :=
  [("start_voting_period_callback", ([("mpip_id", U32)], fun vs => match vs with [VNum id] => Some (KStart id) | _ => None end));
   ("create_proposal_callback", ([("title", TStr); ("short_description", TStr); ("body", TStr); ("data", TStr); ("extra", TStr)],
     fun vs => match vs with [VStr t; VStr s; VStr b; VStr d; VStr e] => Some (KCreate (mkContent t s b d e)) | _ => None end));
   ("vote_proposal_callback", ([("mpip_id", U32); ("voter_id", TAcc); ("vote_type", TEnum ["Against"; "For"; "Abstain"]); ("memo", TStr)],
     fun vs => match vs with [VNum id; VStr v; VStr t; VStr memo] => vt ← read_vote t; Some (KVote id v vt memo) | _ => None end))].
Lemma binit_read self a : enter (binit_tbl self) "new" a =
  match read_args INIT a with Some vs => match vs with [VStr x; VStr o; VStr t; VStr v; VBig p; VBig vp; VBig s; VNum f] => Some (mkMinit self x o t v p vp s f) | _ => None end | None => None end.
Proof. reflexivity. Qed.
Lemma binit_iff self m a x : enter (binit_tbl self) m a = Some x <-> binit_means m a x /\ mi_self x = self.
Proof.
  split.
  - unfold enter, binit_tbl, INIT. intros H. entries H; try discriminate H. parsed2 H. injection H as <-. backed.
    split; [|reflexivity]. unfold binit_means, sized_args. cbn [mi_admin mi_operator mi_token mi_vote mi_period mi_min_vp mi_storage mi_floor].
    repeat (split; [assumption|]). split; [repeat (split; [assumption|]); assumption|]. split; [reflexivity|]. reads.
  - destruct x as [sf x o t v p vp s f]. intros [(H1 & H2 & H3 & H4 & (H5 & H6 & H7 & H8) & -> & Hr) Es]. cbn [mi_self mi_admin mi_operator mi_token mi_vote mi_period mi_min_vp mi_storage mi_floor] in *. subst sf.
    assert (E : enter (binit_tbl self) "new" (obj [("admin_id", quote x); ("operator_id", quote o); ("meta_token_contract_address", quote t);
          ("meta_vote_contract_address", quote v); ("voting_period", big p); ("min_voting_power_amount", big vp);
          ("mpip_storage_near", big s); ("quorum_floor", pretty f)]) = Some (mkMinit self x o t v p vp s f)) by (unfold INIT in *; given).
    rewrite <- E. eapply enter_says; [reflexivity|exact Hr].
Qed.
Definition kind_obj (k : pkind) : string :=
  match k with
  | KStart id => obj [("mpip_id", pretty id)]
  | KCreate ct => obj (content_text ct)
  | KVote id v vt memo => obj [("mpip_id", pretty id); ("voter_id", quote v);
      ("vote_type", match vt with VAgainst => """Against""" | VFor => """For""" | VAbstain => """Abstain""" end); ("memo", quote memo)]
  end.
Lemma kind_is k : (text_kind k).2 = kind_obj k.
Proof. destruct k as [id|ct|id v vt memo]; cbn [text_kind snd kind_obj]; unfold obj, content_text; cbn [map String.concat fst snd]; rewrite ?sapp_assoc; reflexivity. Qed.
Lemma back_iff m a k : enter back_tbl m a = Some k <-> back_means m a k.
Proof.
  unfold back_means. rewrite kind_is. split.
  - unfold enter, back_tbl. intros H. entries H; try discriminate H; parsed2 H;
    try match type of H with context [read_vote ?s] => destruct (read_vote s) as [v|] eqn:Ev; [|discriminate H]; apply read_vote_name in Ev; subst s; cbn [mbind option_bind] in H end;
    injection H as <-; (split; [cbn [kind_typed]; parts|]); (split; [reflexivity|]); cbn [kind_params kind_obj content_text ct_title ct_short ct_body ct_data ct_extra];
    first [reads|destruct v; cbn [vote_name] in *; reads_known].
  - intros (Ht & -> & Hr). transitivity (enter back_tbl (text_kind k).1 (kind_obj k)).
    { destruct k; (eapply enter_says; [reflexivity|exact Hr]). }
    clear Hr. destruct k as [id|[t s b d e]|id v vt memo]; cbn [text_kind fst kind_obj kind_typed] in *; unfold content_text; cbn [ct_title ct_short ct_body ct_data ct_extra]; split_all; [given|given|].
    destruct vt; (eapply enter_ok; [reflexivity|apply shows_cons; [reflexivity|wrote|]; apply shows_cons; [reflexivity|wrote|]; eapply shows_cons; [reflexivity| |apply shows_cons; [reflexivity|wrote|apply shows_nil]]| | |]);
    [exact (w_str "Against")|discriminate| |reflexivity|exact (w_str "For")|discriminate| |reflexivity|exact (w_str "Abstain")|discriminate| |reflexivity];
    (apply has_rec; [refine (bool_decide_unpack _ _); exact I|]; constructor; [split; [reflexivity|constructor; assumption]|]; constructor; [split; [reflexivity|constructor; assumption]|];
     constructor; [split; [reflexivity|constructor; cbn; tauto]|]; constructor; [split; [reflexivity|constructor]|constructor]).
Qed.
Lemma boardq_iff m a q : enter board_views m a = Some q <-> boardq_means m a q.
Proof. split; [apply boardq_sound|]. intros (Ht & -> & Hr). apply boardq_complete; assumption. Qed.

(** ** Which texts do not mean two things *)
Definition is_back (m : string) : bool :=
  bool_decide (m = "start_voting_period_callback") || bool_decide (m = "create_proposal_callback") || bool_decide (m = "vote_proposal_callback").
Lemma read_back_is m a : read_back (mkReceipt "" "" m a 0 "" None None) = if is_back m then Some (enter back_tbl m a) else None.
Proof.
  unfold read_back, is_back. cbn [rc_method rc_args]. cbv zeta.
  destruct (bool_decide_reflect (m = "start_voting_period_callback")) as [->|N1]; [reflexivity|].
  destruct (bool_decide_reflect (m = "create_proposal_callback")) as [->|N2]; [reflexivity|].
  destruct (bool_decide_reflect (m = "vote_proposal_callback")) as [->|N3]; reflexivity.
Qed.
Lemma back_name m a k : back_means m a k -> m <> "new" /\ is_back m = true.
Proof. intros (_ & -> & _). destruct k; cbn; split; first [discriminate|reflexivity]. Qed.
Lemma op_name m a o : board_means m a o -> m <> "new" /\ is_back m = false.
Proof. intros (_ & -> & _). destruct o; cbn; split; first [discriminate|reflexivity]. Qed.
Lemma view_name m a q : boardq_means m a q -> m <> "new" /\ is_back m = false.
Proof. intros (_ & -> & _). destruct q; cbn; split; first [discriminate|reflexivity]. Qed.
Lemma op_not_view m a o q : board_means m a o -> boardq_means m a q -> False.
Proof. intros (_ & -> & _) (_ & E & _). destruct o, q; cbn in *; discriminate E. Qed.
