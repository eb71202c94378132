(** AskMv.v -- C96 for the voting contract: the answers have the declared types and tell what the contract holds. *)

From Verif Require Export AskProofs.
From Verif Require Import WireProofs MVSized MVSpecSized MVIso MVVoteViews PostProofs EntryProofs.
Import World.

(** ** Same answer, same value *)
Global Instance VNum_inj : Inj (=) (=) VNum. Proof. intros x y [= ->]. reflexivity. Qed.
Global Instance VBig_inj : Inj (=) (=) VBig. Proof. intros x y [= ->]. reflexivity. Qed.
Global Instance VStr_inj : Inj (=) (=) VStr. Proof. intros x y [= ->]. reflexivity. Qed.
Global Instance VBool_inj : Inj (=) (=) VBool. Proof. intros x y [= ->]. reflexivity. Qed.
Global Instance opt_inj {A} (f : A -> val) : Inj (=) (=) f -> Inj (=) (=) (opt f).
Proof. intros H [x|] [y|] E; cbn in E; try discriminate; [injection E as E; f_equal; apply H; exact E|reflexivity]. Qed.
Global Instance items_inj {A} (f : A -> val) : Inj (=) (=) f -> Inj (=) (=) (items f).
Proof.
  intros H l k E. injection E as E. revert k E. induction l as [|x l IH]; intros [|y k] E; try discriminate; [reflexivity|].
  cbn in E. injection E as E1 E2. apply H in E1 as ->. f_equal. apply IH. exact E2.
Qed.
Global Instance pair_inj {A B} (f : A -> val) (g : B -> val) : Inj (=) (=) f -> Inj (=) (=) g -> Inj (=) (=) (pair_val f g).
Proof. intros Hf Hg [a b] [a' b'] E. unfold pair_val in E. cbn [fst snd] in E. injection E as E1 E2. f_equal; [apply Hf; exact E1|apply Hg; exact E2]. Qed.
Lemma opt_num_inj o o' : opt_num o = opt_num o' -> o = o'. Proof. destruct o, o'; cbn; congruence. Qed.
Global Instance pos_inj : Inj (=) (=) pos_val.
Proof.
  intros [i1 a1 d1 v1 u1 x1 y1 z1] [i2 a2 d2 v2 u2 x2 y2 z2] E. unfold pos_val in E. cbn in E. injection E as E1 -> -> -> E2 -> -> ->.
  apply Nat2N.inj in E1 as ->. apply opt_num_inj in E2 as ->. reflexivity.
Qed.
Global Instance vote_inj : Inj (=) (=) vote_val.
Proof. intros [[a b] n] [[a' b'] n'] E. unfold vote_val in E. cbn in E. injection E as -> -> ->. reflexivity. Qed.
Global Instance object_inj : Inj (=) (=) object_val.
Proof. intros [[a b] n] [[a' b'] n'] E. unfold object_val in E. cbn in E. injection E as -> -> ->. reflexivity. Qed.
Global Instance voter_inj : Inj (=) (=) voter_val.
Proof.
  intros [i b l a v] [i' b' l' a' v'] E. unfold voter_val in E. cbn [vj_id vj_balance vj_lps vj_avail vj_votes] in E.
  assert (E1 : items pos_val l = items pos_val l') by congruence. assert (E2 : items vote_val v = items vote_val v') by congruence.
  apply (inj (items pos_val)) in E1 as ->. apply (inj (items vote_val)) in E2 as ->. injection E as -> -> ->. reflexivity.
Qed.
Global Instance info_inj : Inj (=) (=) info_val.
Proof.
  intros [] [] E. unfold info_val, count in E. cbn in E. injection E as ? ? E1 ? ? ? ? ? ? ? ? ? ? ? ? ? E2. apply Nat2N.inj in E1, E2. subst. reflexivity.
Qed.
Global Instance count_inj : Inj (=) (=) (fun n : nat => VBig (N.of_nat n)). Proof. intros x y [= E]. apply Nat2N.inj in E. exact E. Qed.
Lemma same_ok {A} (g : A -> val) x y v : Inj (=) (=) g -> Ok (g x) = Ok v -> Ok (g y) = Ok v -> x = y.
Proof. intros H E1 E2. apply H. congruence. Qed.
Lemma same_bind {A} (g : A -> val) (r r' : res A) v : Inj (=) (=) g -> (x ← r; Ok (g x)) = Ok v -> (x ← r'; Ok (g x)) = Ok v -> r = r'.
Proof. intros H E1 E2. apply bind_Ok in E1 as (x & -> & E1). apply bind_Ok in E2 as (y & -> & E2). f_equal. exact (same_ok g x y v H E1 E2). Qed.
Lemma mv_answers_same now s now' s' q v : mv_answer now s q = Ok v -> mv_answer now' s' q = Ok v -> mv_same now s now' s' q.
Proof.
  destruct q; cbn [mv_answer mv_same]; unfold in_big, page, paged, amounts, texts; intros E1 E2;
    try (eapply (same_ok VStr); [apply _|exact E1|exact E2]; fail); try (eapply (same_ok VBig); [apply _|exact E1|exact E2]; fail);
    try (eapply same_bind; [|exact E1|exact E2]; apply _; fail).
  - eapply (same_ok info_val); [apply _|exact E1|exact E2].
  - eapply (same_ok (fun n => VBig (N.of_nat n))); [apply _|exact E1|exact E2].
  - eapply (same_ok (pair_val VNum VNum)); [apply _|exact E1|exact E2].
  - eapply (same_ok (items pos_val)); [apply _|exact E1|exact E2].
  - eapply (same_ok (opt pos_val)); [apply _|exact E1|exact E2].
  - eapply (same_ok (items (pair_val VStr VBig))); [apply _|exact E1|exact E2].
  - eapply (same_ok (items object_val)); [apply _|exact E1|exact E2].
  - eapply (same_ok VBool); [apply _|exact E1|exact E2].
  - destruct (get_lock_in_vote_filters s) as [[t a] i], (get_lock_in_vote_filters s') as [[t' a'] i'].
    assert (E : VList [VNum t; opt VStr a; VNum i] = VList [VNum t'; opt VStr a'; VNum i']) by congruence.
    assert (Ea : opt VStr a = opt VStr a') by congruence. apply (inj (opt VStr)) in Ea as ->. congruence.
  - eapply (same_ok (opt (pair_val VStr VStr))); [apply _|exact E1|exact E2].
  - eapply (same_ok (items VStr)); [apply _|exact E1|exact E2].
  - eapply (same_ok (opt VStr)); [apply _|exact E1|exact E2].
Qed.

(** ** The declared types *)
Lemma has_items {A} t (g : A -> val) l : (forall x, In x l -> has t (g x)) -> has (TVec t) (items g l).
Proof. intros H. constructor. apply List.Forall_forall. intros v Hv. apply in_map_iff in Hv as (x & <- & Hx). apply H. exact Hx. Qed.
Lemma has_opt {A} t (g : A -> val) o : plain t -> (forall x, o = Some x -> has t (g x)) -> has (TOpt t) (opt g o).
Proof. intros Hp H. destruct o; constructor; auto. Qed.
Lemma has_pair {A B} t u (f : A -> val) (g : B -> val) p : has t (f p.1) -> has u (g p.2) -> has (TTup [t; u]) (pair_val f g p).
Proof. intros H1 H2. repeat constructor; assumption. Qed.
Lemma has_texts l : has (TVec (TTup [TStr; TStr])) (texts l).
Proof. apply has_items. intros x _. apply has_pair; constructor. Qed.
Lemma has_strs l : has (TVec TStr) (items VStr l).
Proof. apply has_items. intros x _. constructor. Qed.
Lemma vec_elems_in {A} (cells : gmap nat A) len l x : vec_elems cells len = Ok l -> In x l -> exists i, cells !! i = Some x.
Proof.
  intros H Hx. destruct (mapMr_In _ _ _ _ H Hx) as (i & _ & E). exists i. destruct (cells !! i); [congruence|discriminate].
Qed.
Lemma map_page_get {V} (m : omap_t string V) i j l x : map_page m i j = Ok l -> In x l -> om_get m x.1 = Some x.2.
Proof.
  intros H Hx. destruct (mapMr_In _ _ _ _ H Hx) as (k & _ & E). apply bind_Ok in E as (key & _ & E). apply bind_Ok in E as (v & E1 & E).
  injection E as <-. apply expect_Ok in E1. exact E1.
Qed.
Lemma vote_has t : U t.2 -> has VOTE (vote_val t).
Proof. intros H. unfold VOTE, vote_val. typ; exact H. Qed.
Lemma object_has t : U t.2 -> has OBJECT (object_val t).
Proof. intros H. unfold OBJECT, object_val. typ; exact H. Qed.
Lemma voter_votes_ok s v l t : OK s -> voter_votes s v = Ok l -> In t l -> U t.2.
Proof.
  intros H E Ht. unfold voter_votes in E. apply bind_Ok in E as (addrs & _ & E). apply bind_Ok in E as (ls & E1 & E). injection E as <-.
  apply in_concat in Ht as (l1 & Hl & Ht). destruct (mapMr_In _ _ _ _ E1 Hl) as (a & _ & Ea). apply bind_Ok in Ea as (oh & _ & Ea).
  apply bind_Ok in Ea as (h & _ & Ea). apply bind_Ok in Ea as (objs & _ & Ea). destruct (mapMr_In _ _ _ _ Ea Ht) as (o & _ & Eo).
  apply bind_Ok in Eo as (ox & Eo & Ex). apply bind_Ok in Ex as (x & Ex & E). injection E as <-. apply expect_Ok in Ex. subst ox. exact (okh_get _ _ _ _ (ok_vv s H) Eo).
Qed.
Lemma by_voter_ok s v l t : OK s -> get_votes_by_voter s v = Ok l -> In t l -> U t.2.
Proof.
  intros H E Ht. unfold get_votes_by_voter in E. cbv zeta in E. apply bind_Ok in E as (addrs & _ & E). apply bind_Ok in E as (ls & E1 & E). injection E as <-.
  apply (Permutation_in _ (sort_by_perm (fun t => t.2) _)) in Ht.
  apply in_concat in Ht as (l1 & Hl & Ht). destruct (mapMr_In _ _ _ _ E1 Hl) as (a & _ & Ea). apply bind_Ok in Ea as (oh & _ & Ea).
  apply bind_Ok in Ea as (h & _ & Ea). apply bind_Ok in Ea as (ents & Ee & Ea). injection Ea as <-. apply in_map_iff in Ht as ([o x] & <- & Ht). cbn [snd].
  unfold uentries in Ee. apply bind_Ok in Ee as (ks & _ & Ee). apply bind_Ok in Ee as (vs & Ev & Ee). injection Ee as <-.
  apply in_combine_r in Ht. destruct (vec_elems_in _ _ _ _ Ev Ht) as (i & Hi). exact (ok_vv s H _ _ _ Hi).
Qed.
Section in_state.
Context (now : N) (s : state) (HS : OK s) (HC : countable s)
  (HP : forall t w, Forall lpj_ok (get_all_locking_positions t s w)).
Lemma positions_has v : has (TVec POSITION) (items pos_val (get_all_locking_positions now s v)).
Proof. apply has_items. intros j Hj. apply pos_has. specialize (HP now v). rewrite List.Forall_forall in HP. exact (HP j Hj). Qed.
Lemma voter_has vid v j : om_get (voters s) vid = Some v -> voter_to_json now s vid v = Ok j -> has VOTER (voter_val j).
Proof.
  intros E H. unfold voter_to_json in H. apply bind_Ok in H as (vts & Hv & H). injection H as <-.
  destruct (okv_some s vid v HS E) as (V1 & V2 & _). pose proof (positions_has vid) as P. unfold get_all_locking_positions, get_voter in P. rewrite E in P. cbn [default] in P.
  unfold VOTER, voter_val. cbn [vj_id vj_balance vj_lps vj_avail vj_votes]. apply has_rec; [refine (bool_decide_unpack _ _); exact I|].
  constructor; [split; [reflexivity|constructor]|]. constructor; [split; [reflexivity|constructor; exact V1]|]. constructor; [split; [reflexivity|exact P]|].
  constructor; [split; [reflexivity|constructor; exact V2]|]. constructor; [split; [reflexivity|]|constructor].
  apply has_items. intros t Ht. apply vote_has. exact (voter_votes_ok s v vts t HS Hv Ht).
Qed.
Lemma nobody_has v : has VOTER (voter_val (mkVoterJson v 0 [] 0 [])).
Proof. unfold VOTER, voter_val, items. cbn [vj_id vj_balance vj_lps vj_avail vj_votes map]. typ; first [constructor; fail|reflexivity]. Qed.
Lemma amounts_has m i j l : om_all U m -> map_page m i j = Ok l -> has (TVec (TTup [TStr; U128])) (amounts l).
Proof.
  intros Hm H. apply has_items. intros x Hx. apply has_pair; constructor. exact (om_all_get U m _ _ Hm (map_page_get _ _ _ _ _ H Hx)).
Qed.
Lemma by_app_ok a x : In x (get_votes_by_app s a) -> U x.2.
Proof. intros Hx. pose proof (om_all_inner (votes s) a (ok_votes s HS)) as A. unfold om_all in A. rewrite List.Forall_forall in A. exact (A x Hx). Qed.
Lemma big_has (r : res N) v : (forall n, r = Ok n -> U n) -> in_big r = Ok v -> has U128 v.
Proof. intros H E. apply bind_Ok in E as (n & E1 & E). injection E as <-. constructor. exact (H n E1). Qed.
Lemma mv_has q v : mv_answer now s q = Ok v -> has (mv_type q) v.
Proof.
  destruct q; cbn [mv_answer mv_type]; unfold page; intros E.
  - injection E as <-. constructor.
  - injection E as <-. constructor.
  - injection E as <-. unfold INFO, info_val, get_contract_info, count. cbn [ci_owner ci_operator ci_voter_count ci_min_unbond ci_max_unbond ci_min_deposit ci_max_lps
      ci_max_vps ci_mpdao ci_stnear ci_reg_cost ci_prev_gov ci_accum_mp ci_uncl_mp ci_accum_st ci_uncl_st ci_delegates].
    typ; [apply HC|apply (ok_min s HS)|apply (ok_max s HS)|apply (ok_dep s HS)|apply (ok_lps s HS)|apply (ok_vps s HS)|apply (ok_reg s HS)|apply (ok_amp s HS)
      |apply (ok_ump s HS)|apply (ok_ast s HS)|apply (ok_ust s HS)|apply HC].
  - injection E as <-. constructor. apply HC.
  - injection E as <-. constructor. apply (ok_total s HS).
  - apply bind_Ok in E as (j & Ej & E). injection E as <-. unfold get_voter_info in Ej. destruct (om_get (voters s) v0) as [w|] eqn:Ew; [exact (voter_has _ _ _ Ew Ej)|].
    injection Ej as <-. apply nobody_has.
  - apply bind_Ok in E as (l & El & E). injection E as <-. apply has_items. intros j Hj. destruct (mapMr_In _ _ _ _ El Hj) as (i & _ & Ei).
    apply bind_Ok in Ei as (k & _ & Ei). apply bind_Ok in Ei as (w & Ew & Ei). apply expect_Ok in Ew. exact (voter_has _ _ _ Ew Ei).
  - eapply big_has; [|exact E]. intros n H. unfold get_balance in H. cbv zeta in H. rinv. assumption.
  - injection E as <-. constructor. apply (om_all_default _ _ (ok_mp s HS)).
  - injection E as <-. constructor. apply (om_all_default _ _ (ok_st s HS)).
  - apply bind_Ok in E as (l & El & E). injection E as <-. exact (amounts_has _ _ _ _ (ok_st s HS) El).
  - apply bind_Ok in E as (l & El & E). injection E as <-. exact (amounts_has _ _ _ _ (ok_mp s HS) El).
  - eapply big_has; [|exact E]. intros n H. apply sum128_Ok in H as [-> H]. exact H.
  - eapply big_has; [|exact E]. intros n H. apply sum128_Ok in H as [-> H]. exact H.
  - injection E as <-. constructor. apply (okv_get s v0 HS).
  - eapply big_has; [|exact E]. intros n H. pose proof (ok_used s v0) as K. unfold used_or0 in K. rewrite H in K. exact K.
  - injection E as <-. apply has_pair; constructor; [apply (ok_min s HS)|apply (ok_max s HS)].
  - injection E as <-. apply positions_has.
  - injection E as <-. apply has_opt; [exact I|]. intros j Hj. apply pos_has. specialize (HP now v0). rewrite List.Forall_forall in HP. apply HP. apply elem_of_list_In.
    apply elem_of_list_lookup. exists (N.to_nat i). unfold get_all_locking_positions. rewrite list_lookup_imap. exact Hj.
  - injection E as <-. constructor. unfold get_total_votes. destruct (om_get (votes s) addr) as [m|] eqn:Em; [|reflexivity].
    apply om_all_default. exact (om_all_get _ _ _ _ (ok_votes s HS) Em).
  - injection E as <-. apply has_items. intros x Hx. apply has_pair; constructor. exact (by_app_ok _ _ Hx).
  - injection E as <-. apply has_items. intros x Hx. apply object_has. apply (Permutation_in _ (sort_by_perm (fun t => t.2) _)) in Hx.
    apply in_map_iff in Hx as (y & <- & Hy). exact (by_app_ok _ _ Hy).
  - apply bind_Ok in E as (l & El & E). injection E as <-. apply has_items. intros x Hx. apply object_has. exact (by_voter_ok s v0 l x HS El Hx).
  - eapply big_has; [|exact E]. intros n H. unfold get_votes_for_object in H. cbv zeta in H. apply bind_Ok in H as (oh & _ & H). destruct oh as [h|]; [|injection H as <-; reflexivity].
    apply bind_Ok in H as (o & Ho & H). injection H as <-. destruct o as [x|]; [exact (okh_get _ _ _ _ (ok_vv s HS) Ho)|reflexivity].
  - injection E as <-. constructor. apply (ok_ump s HS).
  - injection E as <-. constructor. apply (ok_amp s HS).
  - injection E as <-. constructor. apply (ok_reg s HS).
  - injection E as <-. constructor.
  - apply bind_Ok in E as (l & El & E). injection E as <-. constructor.
  - apply bind_Ok in E as (l & El & E). injection E as <-. apply has_texts.
  - unfold get_lock_in_vote_filters in E. injection E as <-. constructor. constructor; [constructor; apply (ok_end s HS)|]. constructor; [|constructor; [constructor; apply (ok_id s HS)|constructor]].
    apply has_opt; [exact I|]. intros x _. constructor.
  - injection E as <-. apply has_opt; [exact I|]. intros x _. apply has_pair; constructor.
  - injection E as <-. apply has_strs.
  - apply bind_Ok in E as (l & El & E). injection E as <-. apply has_items. intros x _. apply has_pair; [constructor|apply has_strs].
  - injection E as <-. apply has_opt; [exact I|]. intros x _. constructor.
  - apply bind_Ok in E as (l & El & E). injection E as <-. apply has_pair; constructor.
Qed.
End in_state.

(** ** The claims *)
Lemma written_Ok r t : written r = Ok t -> exists v, r = Ok v /\ t = write v.
Proof. intros H. apply bind_Ok in H as (v & -> & H). injection H as <-. eauto. Qed.
Lemma c96_mv_answered now s m a t : mv_view now s m a = Ok t -> exists q, mvq_typed q /\ In m (mv_asked q).1 /\ reads_as (mvq_params q) a (mv_asked q).2 /\ mv_reply now s q = Ok t.
Proof.
  intros H. unfold mv_view in H. destruct (enter mv_views m a) as [q|] eqn:E.
  - rewrite (ask_some _ _ _ _ _ E), mv_written in H. destruct (mvq_sound _ _ _ E) as (H1 & H2 & H3). eauto.
  - destruct (ask_none mv_views (mv_answer now s) m a E) as (e & H'). congruence.
Qed.
Lemma c96_mv_asked now s q m a : mvq_typed q -> In m (mv_asked q).1 -> reads_as (mvq_params q) a (mv_asked q).2 -> mv_view now s m a = mv_reply now s q.
Proof. intros H1 H2 H3. unfold mv_view. rewrite (ask_some _ _ _ _ _ (mvq_complete _ _ _ H1 H2 H3)). apply mv_written. Qed.
Lemma mv_reply_has a s0 tr now q t : mv_new a = Ok s0 -> Forall sized_call tr -> countable (run s0 tr) -> mv_reply now (run s0 tr) q = Ok t ->
  exists v, mv_answer now (run s0 tr) q = Ok v /\ t = write v /\ json (mv_type q) t = Some v.
Proof.
  intros H0 Ht Hc H. rewrite <- mv_written in H. apply written_Ok in H as (v & Hv & ->). exists v. split; [exact Hv|]. split; [reflexivity|].
  apply json_ok. apply (mv_has now (run s0 tr) (ok_run a s0 tr H0 Ht) Hc); [|exact Hv]. intros n w. exact (positions_ok a s0 tr n w H0 Ht).
Qed.
Lemma c96_mv_readable a s0 tr now q t : mv_new a = Ok s0 -> Forall sized_call tr -> countable (run s0 tr) -> mv_reply now (run s0 tr) q = Ok t ->
  exists v, json (mv_type q) t = Some v.
Proof. intros H0 Ht Hc H. destruct (mv_reply_has a s0 tr now q t H0 Ht Hc H) as (v & _ & _ & E). eauto. Qed.
Lemma c96_mv_tells a s0 tr now a' s0' tr' now' q t :
  mv_new a = Ok s0 -> Forall sized_call tr -> countable (run s0 tr) -> mv_new a' = Ok s0' -> Forall sized_call tr' -> countable (run s0' tr') ->
  mv_reply now (run s0 tr) q = Ok t -> mv_reply now' (run s0' tr') q = Ok t -> mv_same now (run s0 tr) now' (run s0' tr') q.
Proof.
  intros H0 Ht Hc H0' Ht' Hc' H H'. destruct (mv_reply_has a s0 tr now q t H0 Ht Hc H) as (v & Hv & _ & E).
  destruct (mv_reply_has a' s0' tr' now' q t H0' Ht' Hc' H') as (v' & Hv' & _ & E'). rewrite E in E'. injection E' as <-.
  exact (mv_answers_same _ _ _ _ _ _ Hv Hv').
Qed.
