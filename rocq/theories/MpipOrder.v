(** MpipOrder.v -- proofs for C95. *)

From Verif Require Import MpipStep2 MpipLife.
From Verif Require Export MpipSpecOrder.

(** ** Places in a list *)
Section places.
  Context {A : Type} (f : A -> bool).
  Lemma place_none l : forall k, place f k l = None -> List.filter f l !! k = None.
  Proof.
    induction l as [|x l IH]; intros k; [intros _; apply lookup_nil|]. cbn [place List.filter]. destruct (f x).
    - destruct k as [|k]; [discriminate|]. intros H. destruct (place f k l) eqn:E; [discriminate|]. cbn. apply IH. exact E.
    - intros H. destruct (place f k l) eqn:E; [discriminate|]. apply IH. exact E.
  Qed.
  Lemma place_some l : forall k i, place f k l = Some i ->
    exists x, l !! i = Some x /\ f x = true /\ List.filter f l !! k = Some x /\
      List.filter f (delete i l) = delete k (List.filter f l) /\
      (forall g, g x = false -> List.filter g (delete i l) = List.filter g l).
  Proof.
    induction l as [|x l IH]; intros k i; [discriminate|]. cbn [place List.filter]. destruct (f x) eqn:Ef.
    - destruct k as [|k].
      + intros [= <-]. exists x. repeat match goal with |- _ /\ _ => split end; auto. intros g Hg. cbn [List.filter]. rewrite Hg. reflexivity.
      + intros H. destruct (place f k l) as [j|] eqn:E; [|discriminate]. injection H as <-.
        destruct (IH _ _ E) as (y & H1 & H2 & H3 & H4 & H5). exists y. repeat match goal with |- _ /\ _ => split end; auto.
        * change (delete (S j) (x :: l)) with (x :: delete j l). cbn [List.filter]. rewrite Ef, H4. reflexivity.
        * intros g Hg. change (delete (S j) (x :: l)) with (x :: delete j l). cbn [List.filter]. rewrite (H5 g Hg). reflexivity.
    - intros H. destruct (place f k l) as [j|] eqn:E; [|discriminate]. injection H as <-.
      destruct (IH _ _ E) as (y & H1 & H2 & H3 & H4 & H5). exists y. repeat match goal with |- _ /\ _ => split end; auto.
      + change (delete (S j) (x :: l)) with (x :: delete j l). cbn [List.filter]. rewrite Ef. exact H4.
      + intros g Hg. change (delete (S j) (x :: l)) with (x :: delete j l). cbn [List.filter]. rewrite (H5 g Hg). reflexivity.
  Qed.
End places.

(** ** What an event does, as read from the board *)
Record result := mkResult {
  r_ballot : option (N * option mvote); r_more : option (N * vote_type * N); r_less : option (N * vote_type * N);
  r_wait : list pending; r_ok : bool }.
Definition amount (x : option (N * vote_type * N)) (id : N) (t : vote_type) : N :=
  match x with Some (i, u, n) => if decide (i = id /\ u = t) then n else 0 | None => 0 end.
Definition nothing (q : list pending) : result := mkResult None None None q false.

Definition yields (B : board) (e : bev) (R : result) : Prop :=
  let q := waiting (actor e) B in
  match e with
  | BVote c id vt memo =>
      let p := mkPending (c_signer c) (b_source B) (AskPositions (c_pred c)) (KVote id (c_pred c) vt memo) in
      (may c B (VoteProposal id vt memo) /\ R = mkResult None None None (q ++ [p]) true) \/
      (~ may c B (VoteProposal id vt memo) /\ R = nothing q)
  | BRemove c id =>
      (may c B (RemoveVoteProposal id) /\ exists u, b_ballot B id (c_pred c) = Some u /\
         R = mkResult (Some (id, None)) None (Some (id, vt_type u, vt_power u)) q true) \/
      (~ may c B (RemoveVoteProposal id) /\ R = nothing q)
  | BCounted v k ts a =>
      match q !! k with
      | None => R = nothing q
      | Some p =>
          match pd_kind p with
          | KVote id _ vt memo =>
              (exists n, says p a n /\ 0 < n /\
                 R = mkResult (Some (id, Some (mkMvote id vt n memo))) (Some (id, vt, n)) None (delete k q) true) \/
              ((forall n, says p a n -> ~ 0 < n) /\ R = nothing (delete k q))
          | _ => False
          end
      end
  end.

Definition applied (v : string) (R : result) (B M : board) : Prop :=
  settings M = settings B /\ (forall id, b_prop M id = b_prop B id) /\ (forall a, b_made M a = b_made B a) /\
  (forall id t, amount (r_less R) id t <= b_tally B id t /\
     b_tally M id t = b_tally B id t + amount (r_more R) id t - amount (r_less R) id t) /\
  (forall id u, b_ballot M id u =
     match r_ballot R with Some (i, x) => if decide (i = id /\ u = v) then x else b_ballot B id u | None => b_ballot B id u end) /\
  waiting v M = r_wait R /\ (forall u, u <> v -> waiting u M = waiting u B) /\
  List.filter no_vote (b_wait M) = List.filter no_vote (b_wait B).

(** boards alike for [v] *)
Definition like_for (v : string) (B C : board) : Prop :=
  b_source B = b_source C /\ (forall id, b_prop B id = b_prop C id) /\ (forall id, b_ballot B id v = b_ballot C id v) /\
  waiting v B = waiting v C.

Lemma may_like c o B C : like_for (c_pred c) B C ->
  match o with VoteProposal _ _ _ | RemoveVoteProposal _ => True | _ => False end -> may c B o -> may c C o.
Proof.
  intros (_ & Hp & Hb & _) Ho. destruct o; try contradiction; cbn [may]; rewrite Hb;
    intros (H1 & H2 & p & H3 & H4); (split; [exact H1|split; [exact H2|exists p; rewrite <- Hp; auto]]).
Qed.
Lemma like_sym v B C : like_for v B C -> like_for v C B.
Proof. intros (H1 & H2 & H3 & H4). unfold like_for. repeat match goal with |- _ /\ _ => split end; intros; symmetry; auto. Qed.
Lemma like_refl v B : like_for v B B.
Proof. unfold like_for. repeat match goal with |- _ /\ _ => split end; auto. Qed.

Lemma yields_local B C e R : like_for (actor e) B C -> yields B e R -> yields C e R.
Proof.
  intros H. destruct e as [c id vt memo|c id|v k ts a]; cbn [actor yields] in *.
  - pose proof H as (H1 & H2 & H3 & H4). rewrite <- H1, <- H4. intros [[Hm HR]|[Hm HR]]; [left|right]; (split; [|exact HR]).
    + revert Hm. apply may_like; [exact H|exact I].
    + intros X. apply Hm. revert X. apply may_like; [apply like_sym; exact H|exact I].
  - pose proof H as (H1 & H2 & H3 & H4). rewrite <- H4. intros [[Hm HR]|[Hm HR]]; [left|right]; (split; [| ]).
    + revert Hm. apply may_like; [exact H|exact I].
    + destruct HR as (u & Hu & HR). exists u. split; [rewrite <- H3; exact Hu|exact HR].
    + intros X. apply Hm. revert X. apply may_like; [apply like_sym; exact H|exact I].
    + exact HR.
  - destruct H as (H1 & H2 & H3 & H4). rewrite <- H4. auto.
Qed.

Lemma yields_fun B e R R' : yields B e R -> yields B e R' -> R = R'.
Proof.
  destruct e as [c id vt memo|c id|v k ts a]; cbn [yields].
  - intros [[H ->]|[H ->]] [[H' ->]|[H' ->]]; tauto || reflexivity.
  - intros [[H (u & Hu & ->)]|[H ->]] [[H' (u' & Hu' & ->)]|[H' ->]]; try tauto. rewrite Hu in Hu'. injection Hu' as <-. reflexivity.
  - destruct (_ !! k) as [p|]; [|intros -> ->; reflexivity]. destruct (pd_kind p); try contradiction.
    intros [(n & H1 & H2 & ->)|[H ->]] [(n' & H1' & H2' & ->)|[H' ->]].
    + rewrite (says_fun _ _ _ _ H1 H1'). reflexivity.
    + destruct (H' _ H1 H2).
    + destruct (H _ H1' H2').
    + reflexivity.
Qed.

(** ** One event *)
Lemma same_applied v R B X M : same M X -> applied v R B X -> applied v R B M.
Proof.
  intros HS (H1 & H2 & H3 & H4 & H5 & H6 & H7 & H8). pose proof (fixed_eq _ _ HS) as HF. destruct HS as (_ & S2 & S3 & S4 & S5).
  destruct HF as (F1 & F2 & F3 & F4 & F5 & F6 & F7 & F8 & F9 & F10 & F11 & F12 & F13 & F14 & F15).
  unfold applied, waiting in *. rewrite F15. repeat match goal with |- _ /\ _ => split end; auto.
  - rewrite <- H1. unfold settings. congruence.
  - intros id. rewrite S2. apply H2.
  - intros a. rewrite S3. apply H3.
  - intros id t. rewrite S4. apply H4.
  - intros id u. rewrite S5. apply H5.
Qed.
Lemma applied_nothing v B : applied v (nothing (waiting v B)) B B.
Proof.
  unfold applied, nothing. cbn [r_more r_less r_ballot r_wait amount]. repeat match goal with |- _ /\ _ => split end; auto.
  intros id t. lia.
Qed.
Lemma about_vote v p : about v p = true -> exists id vt memo, pd_kind p = KVote id v vt memo.
Proof.
  unfold about. destruct (pd_kind p) as [| |id u vt memo]; [discriminate..|]. intros H. apply bool_decide_eq_true in H as ->. eauto.
Qed.
Lemma no_vote_about v p : about v p = true -> no_vote p = false.
Proof. intros H. apply about_vote in H as (id & vt & memo & H). unfold no_vote. rewrite H. reflexivity. Qed.
Lemma about_other u v p : about v p = true -> u <> v -> about u p = false.
Proof. intros H N. apply about_vote in H as (id & vt & memo & H). unfold about. rewrite H. apply bool_decide_eq_false. congruence. Qed.

Lemma props_vote c s id vt memo s' o : mcall c s (VoteProposal id vt memo) = Ok (s', o) -> s' = s.
Proof. cbn [mcall]. unfold vote_proposal. intros H. rinv. reflexivity. Qed.
Lemma props_remove c s id s' o : mcall c s (RemoveVoteProposal id) = Ok (s', o) -> m_proposals s' = m_proposals s.
Proof. cbn [mcall]. unfold remove_vote_proposal. intros H. rinv. reflexivity. Qed.
Lemma props_back s id v vt memo a s' : vote_callback s id v vt memo a = Ok s' -> m_proposals s' = m_proposals s.
Proof. unfold vote_callback. intros H. rinv. reflexivity. Qed.

Lemma few_bstep w e : few_proposals (w_m w) -> few_proposals (w_m (bstep w e)).
Proof.
  intros H. assert (E : n_proposals (w_m (bstep w e)) = n_proposals (w_m w)); [|unfold few_proposals; rewrite E; exact H].
  unfold n_proposals, bstep. destruct e as [c id vt memo|c id|v k ts a]; cbn [event wstep].
  - destruct (mcall _ _ _) as [[s' o]|] eqn:E; [|reflexivity]. apply props_vote in E as ->. destruct o; reflexivity.
  - destruct (mcall _ _ _) as [[s' o]|] eqn:E; [|reflexivity]. apply props_remove in E. destruct o; cbn [w_m]; rewrite E; reflexivity.
  - destruct (place _ _ _) as [i|] eqn:E; [|reflexivity]. cbn [option_bind mbind wstep]. destruct (place_some _ _ _ _ E) as (p & E1 & E2 & _).
    rewrite E1. cbn [w_m]. apply about_vote in E2 as (id & vt & memo & E2). rewrite E2. cbn [mcallback].
    destruct (vote_callback _ _ _ _ _ _) as [s'|] eqn:Ec; [|reflexivity]. apply props_back in Ec. rewrite Ec. reflexivity.
Qed.
Lemma reach_bstep w tr e : mreach w tr -> exists tr', mreach (bstep w e) tr'.
Proof.
  intros H. unfold bstep. destruct (event w e) as [x|]; [|eauto]. exists (tr ++ [x]). apply mreach_snoc. exact H.
Qed.

Definition call_reply (w : world) (e : bev) : option bool :=
  match event w e with
  | Some (MCall c o) => Some (match mcall c (w_m w) o with Ok _ => true | Panic _ => false end)
  | _ => None
  end.
Definition is_call (e : bev) : bool := match e with BCounted _ _ _ _ => false | _ => true end.

Lemma filter_snoc {A} (f : A -> bool) l x : List.filter f (l ++ [x]) = if f x then List.filter f l ++ [x] else List.filter f l.
Proof. rewrite List.filter_app. cbn [List.filter]. destruct (f x); [reflexivity|apply app_nil_r]. Qed.

Lemma step_yields w tr e : mreach w tr -> few_proposals (w_m w) -> (forall id t, b_tally (observe w) id t + said e < 2 ^ 128) ->
  exists R, yields (observe w) e R /\ applied (actor e) R (observe w) (observe (bstep w e)) /\
    (forall id t, amount (r_more R) id t <= said e) /\ call_reply w e = if is_call e then Some (r_ok R) else None.
Proof.
  intros HR HF Hroom. pose proof (few_bstep w e HF) as HF'. unfold bstep in *.
  destruct e as [c id vt memo|c id|v k ts a]; cbn [event actor yields is_call call_reply] in *.
  - pose proof (c73_step _ _ _ HR HF') as M. pose proof (proj1 (c73_result _ _ c (VoteProposal id vt memo) HR HF)) as Hok.
    unfold moves in M. destruct M as [[Hm M]|[Hm M]].
    + eexists. split; [left; split; [exact Hm|reflexivity]|]. split; [|split].
      * cbn [after asks] in M. eapply same_applied; [exact M|]. unfold applied. cbn [r_more r_less r_ballot r_wait amount].
        set (p := mkPending _ _ _ _). unfold waiting. cbn [b_wait set].
        assert (Ha : about (c_pred c) p = true) by (apply bool_decide_eq_true; reflexivity).
        repeat match goal with |- _ /\ _ => split end; try reflexivity.
        -- intros id' t'. split; [lia|]. rewrite N.add_0_r, N.sub_0_r. reflexivity.
        -- change (b_wait (observe w <| b_wait := b_wait (observe w) ++ [p] |>)) with (b_wait (observe w) ++ [p]).
           rewrite filter_snoc, Ha. reflexivity.
        -- intros u Hu. change (b_wait (observe w <| b_wait := b_wait (observe w) ++ [p] |>)) with (b_wait (observe w) ++ [p]).
           rewrite filter_snoc, (about_other u _ p Ha Hu). reflexivity.
        -- change (b_wait (observe w <| b_wait := b_wait (observe w) ++ [p] |>)) with (b_wait (observe w) ++ [p]).
           rewrite filter_snoc, (no_vote_about _ p Ha). reflexivity.
      * intros id' t'. cbn [r_more amount]. lia.
      * apply Hok in Hm as [r Hr]. unfold call_reply. cbn [event]. rewrite Hr. reflexivity.
    + eexists. split; [right; split; [exact Hm|reflexivity]|]. split; [|split].
      * eapply same_applied; [exact M|]. apply applied_nothing.
      * intros id' t'. cbn. lia.
      * unfold call_reply. cbn [event]. destruct (mcall _ _ _) as [r|] eqn:E; [|reflexivity]. destruct Hm. apply Hok. eauto.
  - pose proof (c73_step _ _ _ HR HF') as M. pose proof (proj1 (c73_result _ _ c (RemoveVoteProposal id) HR HF)) as Hok.
    unfold moves in M. destruct M as [[Hm M]|[Hm M]].
    + cbn [after] in M. destruct M as (u & Hu & Hle & M). eexists.
      split; [left; split; [exact Hm|exists u; split; [exact Hu|reflexivity]]|]. split; [|split].
      * eapply same_applied; [exact M|]. unfold applied. cbn [r_more r_less r_ballot r_wait amount].
        repeat match goal with |- _ /\ _ => split end; try reflexivity.
        -- intros id' t'. rewrite N.add_0_r. unfold set_ballot, recount. cbn [b_tally set]. unfold put. split.
           ++ destruct (decide (id = id' /\ vt_type u = t')) as [[<- <-]|]; [exact Hle|lia].
           ++ destruct (decide (id' = id)) as [->|N1]; [destruct (decide (t' = vt_type u)) as [->|N2]|];
                [rewrite decide_True by auto|rewrite decide_False by (intros [? ?]; congruence)|rewrite decide_False by (intros [? ?]; congruence)]; try reflexivity;
                symmetry; apply N.sub_0_r.
        -- intros id' x. unfold set_ballot, recount. cbn [b_ballot set]. unfold put.
           destruct (decide (id' = id)) as [->|N1]; [destruct (decide (x = c_pred c)) as [->|N2]|];
                [rewrite decide_True by auto|rewrite decide_False by (intros [? ?]; congruence)|rewrite decide_False by (intros [? ?]; congruence)]; reflexivity.
      * intros id' t'. cbn [r_more amount]. lia.
      * apply Hok in Hm as [r Hr]. unfold call_reply. cbn [event]. rewrite Hr. reflexivity.
    + eexists. split; [right; split; [exact Hm|reflexivity]|]. split; [|split].
      * eapply same_applied; [exact M|]. apply applied_nothing.
      * intros id' t'. cbn. lia.
      * unfold call_reply. cbn [event]. destruct (mcall _ _ _) as [r|] eqn:E; [|reflexivity]. destruct Hm. apply Hok. eauto.
  - destruct (place _ _ _) as [i|] eqn:E; cbn [option_bind mbind] in *.
    2: { apply place_none in E. exists (nothing (waiting v (observe w))). split; [|split; [|split]].
         - change (waiting v (observe w)) with (List.filter (about v) (w_pend w)). rewrite E. reflexivity.
         - apply applied_nothing.
         - intros id' t'. cbn. lia.
         - unfold call_reply. cbn [event]. destruct (place _ _ _); reflexivity. }
    assert (Hrep : call_reply w (BCounted v k ts a) = None) by (unfold call_reply; cbn [event]; rewrite E; reflexivity).
    pose proof (c73_step _ _ _ HR HF') as M. unfold moves in M. destruct (place_some _ _ _ _ E) as (p & E1 & E2 & E3 & E4 & E5).
    change (b_wait (observe w)) with (w_pend w) in M. rewrite E1 in M. cbv zeta in M.
    change (waiting v (observe w)) with (List.filter (about v) (w_pend w)). rewrite E3.
    pose proof (about_vote _ _ E2) as (id & vt & memo & Ek). rewrite Ek.
    set (B0 := observe w <| b_wait := delete i (w_pend w) |>) in *.
    assert (W0 : waiting v B0 = delete k (List.filter (about v) (w_pend w))) by exact E4.
    assert (W1 : forall u, u <> v -> waiting u B0 = waiting u (observe w)) by (intros u Hu; apply E5, (about_other u v p E2 Hu)).
    assert (W2 : List.filter no_vote (b_wait B0) = List.filter no_vote (b_wait (observe w))) by (apply E5, (no_vote_about v p E2)).
    assert (NO : (forall n, says p a n -> ~ 0 < n) -> same (observe (wstep w (MAnswer i ts a))) B0 ->
      exists R, ((exists n, says p a n /\ 0 < n /\ R = mkResult (Some (id, Some (mkMvote id vt n memo))) (Some (id, vt, n)) None
                   (delete k (List.filter (about v) (w_pend w))) true) \/
                 (forall n, says p a n -> ~ 0 < n) /\ R = nothing (delete k (List.filter (about v) (w_pend w)))) /\
        applied v R (observe w) (observe (wstep w (MAnswer i ts a))) /\
        (forall id0 t, amount (r_more R) id0 t <= said (BCounted v k ts a)) /\
        call_reply w (BCounted v k ts a) = None).
    { intros Hn Hs. eexists. split; [right; split; [exact Hn|reflexivity]|]. split; [|split; [intros; cbn; lia|exact Hrep]].
      eapply same_applied; [exact Hs|]. unfold applied, nothing. cbn [r_more r_less r_ballot r_wait amount].
      repeat match goal with |- _ /\ _ => split end; try reflexivity; auto. intros id' t'. split; [lia|]. rewrite N.add_0_r, N.sub_0_r. reflexivity. }
    destruct M as [(n & H1 & H2 & M)|[H1 M]].
    + unfold accepts in H2. rewrite Ek in H2. destruct H2 as [H2 H3]. eexists. split; [left; exists n; split; [exact H1|split; [exact H2|reflexivity]]|].
      split; [|split; [|exact Hrep]].
      * eapply same_applied; [exact M|]. unfold done. rewrite Ek. unfold applied. cbn [r_more r_less r_ballot r_wait amount].
        repeat match goal with |- _ /\ _ => split end; try reflexivity; auto.
        -- intros id' t'. split; [lia|]. rewrite N.sub_0_r. unfold set_ballot, recount. cbn [b_tally set]. unfold put.
           destruct (decide (id' = id)) as [->|N1]; [destruct (decide (t' = vt)) as [->|N2]|];
             [rewrite decide_True by auto|rewrite decide_False by (intros [? ?]; congruence)|rewrite decide_False by (intros [? ?]; congruence)]; try reflexivity;
             symmetry; apply N.add_0_r.
        -- intros id' x. unfold set_ballot, recount. cbn [b_ballot set]. unfold put.
           destruct (decide (id' = id)) as [->|N1]; [destruct (decide (x = v)) as [->|N2]|];
                [rewrite decide_True by auto|rewrite decide_False by (intros [? ?]; congruence)|rewrite decide_False by (intros [? ?]; congruence)]; reflexivity.
      * intros id' t'. cbn [r_more amount]. destruct (decide _); [|lia]. unfold says in H1. rewrite Ek in H1.
        destruct H1 as (t & l & -> & _ & -> & _). cbn [said]. lia.
    + apply NO; [|exact M]. intros n Hs Hn. apply (H1 n Hs). unfold accepts. rewrite Ek. split; [exact Hn|].
      specialize (Hroom id vt). unfold says in Hs. rewrite Ek in Hs. destruct Hs as (t & l & -> & _ & -> & _). exact Hroom.
Qed.

(** ** Sequences *)
Definition wok (w : world) : Prop := (exists tr, mreach w tr) /\ few_proposals (w_m w).
Lemma wok_step w e : wok w -> wok (bstep w e).
Proof. intros [[tr H] F]. split; [eapply reach_bstep, H|apply few_bstep, F]. Qed.
Lemma step_at w e l : wok w -> room (observe w) (e :: l) ->
  exists R, yields (observe w) e R /\ applied (actor e) R (observe w) (observe (bstep w e)) /\
    call_reply w e = (if is_call e then Some (r_ok R) else None) /\ room (observe (bstep w e)) l.
Proof.
  intros [[tr H] F] Hr. unfold room in Hr. setoid_rewrite sum_by_cons in Hr.
  destruct (step_yields w tr e H F) as (R & H1 & H2 & H3 & H4); [intros id t; specialize (Hr id t); lia|].
  exists R. repeat match goal with |- _ /\ _ => split end; auto. intros id t. specialize (Hr id t). specialize (H3 id t).
  destruct H2 as (_ & _ & _ & H2 & _). destruct (H2 id t) as [_ ->]. lia.
Qed.
Lemma replies_cons v w e l : replies v w (e :: l) =
  if decide (actor e = v) then match call_reply w e with Some b => b :: replies v (bstep w e) l | None => replies v (bstep w e) l end
  else replies v (bstep w e) l.
Proof.
  cbn [replies]. destruct (decide _); [|reflexivity]. unfold call_reply. destruct (event w e) as [[]|]; reflexivity.
Qed.

Lemma alike_refl B : alike B B.
Proof. unfold alike. repeat match goal with |- _ /\ _ => split end; auto. Qed.
Lemma alike_sym B C : alike B C -> alike C B.
Proof. unfold alike. intros (H1 & H2 & H3 & H4 & H5 & H6 & H7). repeat match goal with |- _ /\ _ => split end; intros; symmetry; auto. Qed.
Lemma alike_trans B C D : alike B C -> alike C D -> alike B D.
Proof.
  unfold alike. intros (H1 & H2 & H3 & H4 & H5 & H6 & H7) (G1 & G2 & G3 & G4 & G5 & G6 & G7).
  repeat match goal with |- _ /\ _ => split end; intros; etransitivity; eauto.
Qed.
Lemma source_eq B C : settings B = settings C -> b_source B = b_source C.
Proof. unfold settings. intros H. injection H. auto. Qed.
Lemma alike_like v B C : alike B C -> like_for v B C.
Proof. intros (H1 & H2 & H3 & H4 & H5 & H6 & H7). unfold like_for. repeat match goal with |- _ /\ _ => split end; auto. apply source_eq, H1. Qed.
Lemma applied_alike v R B C B' C' : alike B C -> applied v R B B' -> applied v R C C' -> alike B' C'.
Proof.
  intros (H1 & H2 & H3 & H4 & H5 & H6 & H7) (P1 & P2 & P3 & P4 & P5 & P6 & P7 & P8) (Q1 & Q2 & Q3 & Q4 & Q5 & Q6 & Q7 & Q8).
  unfold alike. repeat match goal with |- _ /\ _ => split end.
  - congruence.
  - intros. rewrite P2, Q2. auto.
  - intros. rewrite P3, Q3. auto.
  - intros id t. rewrite (proj2 (P4 id t)), (proj2 (Q4 id t)), H4. reflexivity.
  - intros id u. rewrite P5, Q5, H5. reflexivity.
  - intros u. destruct (decide (u = v)) as [->|N]; [congruence|]. rewrite P7, Q7 by exact N. apply H6.
  - congruence.
Qed.
Lemma room_alike B C l : alike B C -> room B l -> room C l.
Proof. intros (_ & _ & _ & H & _) Hr id t. rewrite <- H. apply Hr. Qed.

(** the same event from boards alike *)
Lemma step_cong w1 w2 e l : wok w1 -> wok w2 -> alike (observe w1) (observe w2) -> room (observe w1) (e :: l) ->
  alike (observe (bstep w1 e)) (observe (bstep w2 e)) /\ call_reply w1 e = call_reply w2 e /\ room (observe (bstep w1 e)) l.
Proof.
  intros K1 K2 A Hr. pose proof (room_alike _ _ _ A Hr) as Hr2.
  destruct (step_at w1 e l K1 Hr) as (R & H1 & H2 & H3 & H4). destruct (step_at w2 e l K2 Hr2) as (R' & G1 & G2 & G3 & G4).
  assert (R' = R) as ->. { eapply yields_fun; [exact G1|]. eapply yields_local; [|exact H1]. apply alike_like, A. }
  split; [|split; [|exact H4]].
  - eapply applied_alike; [exact A|exact H2|exact G2].
  - rewrite H3, G3. reflexivity.
Qed.
Lemma run_cong l : forall w1 w2, wok w1 -> wok w2 -> alike (observe w1) (observe w2) -> room (observe w1) l ->
  alike (observe (brun w1 l)) (observe (brun w2 l)) /\ forall v, replies v w1 l = replies v w2 l.
Proof.
  induction l as [|e l IH]; intros w1 w2 K1 K2 A Hr; [split; [exact A|reflexivity]|].
  destruct (step_cong w1 w2 e l K1 K2 A Hr) as (A' & E & Hr').
  destruct (IH (bstep w1 e) (bstep w2 e) (wok_step _ _ K1) (wok_step _ _ K2) A' Hr') as [H1 H2].
  split; [exact H1|]. intros v. rewrite !replies_cons, E, H2. reflexivity.
Qed.

(** events of different voters *)
Lemma applied_like v u R B B' : u <> v -> applied v R B B' -> like_for u B B'.
Proof.
  intros N (P1 & P2 & P3 & P4 & P5 & P6 & P7 & P8). unfold like_for. repeat match goal with |- _ /\ _ => split end.
  - symmetry. apply source_eq, P1.
  - intros. rewrite P2. reflexivity.
  - intros id. rewrite P5. destruct (r_ballot R) as [[i x]|]; [|reflexivity]. rewrite decide_False by (intros [_ ?]; congruence). reflexivity.
  - symmetry. apply P7, N.
Qed.
Lemma swap w e f l : wok w -> actor e <> actor f -> room (observe w) (e :: f :: l) ->
  alike (observe (bstep (bstep w e) f)) (observe (bstep (bstep w f) e)) /\
  call_reply (bstep w e) f = call_reply w f /\ call_reply (bstep w f) e = call_reply w e.
Proof.
  intros K N Hr.
  assert (Hr' : room (observe w) (f :: e :: l)).
  { intros id t. specialize (Hr id t). rewrite !sum_by_cons in *. lia. }
  destruct (step_at w e (f :: l) K Hr) as (R & H1 & H2 & H3 & H4).
  destruct (step_at (bstep w e) f l (wok_step _ _ K) H4) as (S & I1 & I2 & I3 & I4).
  destruct (step_at w f (e :: l) K Hr') as (S' & J1 & J2 & J3 & J4).
  destruct (step_at (bstep w f) e l (wok_step _ _ K) J4) as (R' & L1 & L2 & L3 & L4).
  assert (S' = S) as ->.
  { eapply yields_fun; [|exact I1]. eapply yields_local; [|exact J1]. eapply applied_like; [|exact H2]. auto. }
  assert (R' = R) as ->.
  { eapply yields_fun; [exact L1|]. eapply yields_local; [|exact H1]. eapply applied_like; [|exact J2]. auto. }
  split; [|rewrite I3, J3, L3, H3; auto].
  destruct H2 as (A1 & A2 & A3 & A4 & A5 & A6 & A7 & A8). destruct I2 as (B1 & B2 & B3 & B4 & B5 & B6 & B7 & B8).
  destruct J2 as (C1 & C2 & C3 & C4 & C5 & C6 & C7 & C8). destruct L2 as (D1 & D2 & D3 & D4 & D5 & D6 & D7 & D8).
  unfold alike. repeat match goal with |- _ /\ _ => split end.
  - congruence.
  - intros. rewrite B2, A2, D2, C2. reflexivity.
  - intros. rewrite B3, A3, D3, C3. reflexivity.
  - intros id t. destruct (A4 id t) as [U1 U2], (B4 id t) as [V1 V2], (C4 id t) as [W1 W2], (D4 id t) as [X1 X2]. lia.
  - intros id u. rewrite B5, A5, D5, C5. destruct (r_ballot R) as [[i x]|], (r_ballot S) as [[j y]|]; try reflexivity.
    destruct (decide (j = id /\ u = actor f)) as [[-> ->]|]; [|reflexivity]. rewrite decide_False by (intros [_ ?]; congruence). reflexivity.
  - intros u. destruct (decide (u = actor e)) as [->|N1].
    + rewrite (B7 _ N), A6, D6. reflexivity.
    + destruct (decide (u = actor f)) as [->|N2]; [rewrite B6, (D7 _ N1), C6; reflexivity|].
      rewrite (B7 _ N2), (A7 _ N1), (D7 _ N1), (C7 _ N2). reflexivity.
  - congruence.
Qed.

Lemma room_perm B l l' : l ≡ₚ l' -> room B l -> room B l'.
Proof.
  intros HP H id t. specialize (H id t). enough (sum_by said l' = sum_by said l) by lia. clear H.
  induction HP; rewrite ?sum_by_cons in *; lia.
Qed.
Lemma brun_app w l1 l2 : brun w (l1 ++ l2) = brun (brun w l1) l2.
Proof. apply fold_left_app. Qed.

(** an event goes before those of others *)
Lemma to_front e q p : forall w, wok w -> Forall (fun f => actor f <> actor e) p -> room (observe w) (p ++ e :: q) ->
  alike (observe (brun w (p ++ e :: q))) (observe (brun w (e :: p ++ q))) /\
  forall v, replies v w (p ++ e :: q) = replies v w (e :: p ++ q).
Proof.
  induction p as [|f p IH]; intros w K HF Hr; [split; [apply alike_refl|reflexivity]|].
  inversion_clear HF as [|? ? N HF']. cbn [app] in *.
  destruct (step_at w f (p ++ e :: q) K Hr) as (R & _ & _ & _ & Hr1).
  destruct (IH (bstep w f) (wok_step _ _ K) HF' Hr1) as [A1 A2].
  assert (Hr2 : room (observe w) (f :: e :: p ++ q)).
  { eapply room_perm; [|exact Hr]. constructor. symmetry. apply Permutation_middle. }
  destruct (swap w f e (p ++ q) K N Hr2) as (S1 & S2 & S3).
  destruct (step_at w f (e :: p ++ q) K Hr2) as (R2 & _ & _ & _ & Hr3).
  destruct (step_at (bstep w f) e (p ++ q) (wok_step _ _ K) Hr3) as (R3 & _ & _ & _ & Hr4).
  destruct (run_cong (p ++ q) (bstep (bstep w f) e) (bstep (bstep w e) f)) as [B1 B2]; auto using wok_step.
  split.
  - change (brun w (f :: p ++ e :: q)) with (brun (bstep w f) (p ++ e :: q)). eapply alike_trans; [exact A1|]. exact B1.
  - intros v. rewrite replies_cons, A2, !replies_cons, S2, S3, B2.
    destruct (decide (actor f = v)) as [E1|]; destruct (decide (actor e = v)) as [E2|]; try reflexivity. congruence.
Qed.

Lemma own_cons v e l : own v (e :: l) = if decide (actor e = v) then e :: own v l else own v l.
Proof. unfold own. cbn [List.filter]. destruct (decide (actor e = v)); [rewrite bool_decide_true|rewrite bool_decide_false]; auto. Qed.
Lemma own_app v l l' : own v (l ++ l') = own v l ++ own v l'.
Proof. unfold own. apply List.filter_app. Qed.
Lemma own_first l : forall v e r, own v l = e :: r ->
  exists p q, l = p ++ e :: q /\ Forall (fun f => actor f <> v) p /\ actor e = v /\ own v q = r.
Proof.
  induction l as [|f l IH]; intros v e r H; [discriminate|]. rewrite own_cons in H. destruct (decide (actor f = v)) as [E|N].
  - injection H as <- <-. exists [], l. auto.
  - destruct (IH v e r H) as (p & q & -> & HF & He & Hq). exists (f :: p), q. auto.
Qed.
Lemma own_others v p : Forall (fun f => actor f <> v) p -> own v p = [].
Proof. induction 1 as [|f p N H IH]; [reflexivity|]. rewrite own_cons, decide_False by exact N. exact IH. Qed.

Lemma perm_own l : forall l', (forall v, own v l = own v l') -> l ≡ₚ l'.
Proof.
  induction l as [|e l IH]; intros l' H.
  - destruct l' as [|f l']; [constructor|]. specialize (H (actor f)). rewrite own_cons, decide_True in H by reflexivity. discriminate.
  - pose proof (H (actor e)) as He. rewrite own_cons, decide_True in He by reflexivity. symmetry in He.
    destruct (own_first _ _ _ _ He) as (p & q & -> & HF & _ & Hq). rewrite <- Permutation_middle. constructor. apply IH. intros v.
    specialize (H v). rewrite own_cons, !own_app, own_cons in *. destruct (decide (actor e = v)) as [E|N].
    + subst v. rewrite (own_others _ _ HF) in *. cbn [app] in *. congruence.
    + exact H.
Qed.

Lemma reorder l : forall l' w1 w2, wok w1 -> wok w2 -> alike (observe w1) (observe w2) -> room (observe w1) l ->
  (forall v, own v l = own v l') ->
  alike (observe (brun w1 l)) (observe (brun w2 l')) /\ forall v, replies v w1 l = replies v w2 l'.
Proof.
  induction l as [|e l IH]; intros l' w1 w2 K1 K2 A Hr H.
  - destruct l' as [|f l']; [split; [exact A|reflexivity]|]. specialize (H (actor f)). rewrite own_cons, decide_True in H by reflexivity. discriminate.
  - pose proof (perm_own _ _ H) as HP. pose proof (H (actor e)) as He. rewrite own_cons, decide_True in He by reflexivity. symmetry in He.
    destruct (own_first _ _ _ _ He) as (p & q & -> & HF & _ & Hq).
    pose proof (room_perm _ _ _ HP (room_alike _ _ _ A Hr)) as Hr2.
    destruct (to_front e q p w2 K2 HF Hr2) as [F1 F2].
    destruct (step_cong w1 w2 e l K1 K2 A Hr) as (A' & E & Hr').
    destruct (IH (p ++ q) (bstep w1 e) (bstep w2 e)) as [I1 I2]; auto using wok_step.
    { intros v. specialize (H v). rewrite own_cons, !own_app, own_cons in *. destruct (decide (actor e = v)) as [Ev|N]; [|exact H].
      subst v. rewrite (own_others _ _ HF) in *. cbn [app] in *. congruence. }
    split.
    + eapply alike_trans; [exact I1|]. apply alike_sym. exact F1.
    + intros v. rewrite F2, !replies_cons, E, I2. reflexivity.
Qed.

Lemma c95_reorder w tr l l' : mreach w tr -> few_proposals (w_m w) -> room (observe w) l -> (forall v, own v l = own v l') ->
  alike (observe (brun w l)) (observe (brun w l')) /\ forall v, replies v w l = replies v w l'.
Proof. intros H F. apply reorder; [split; eauto..|apply alike_refl]. Qed.

(** ** One voter alone *)
Lemma like_step v w1 w2 e l l' : wok w1 -> wok w2 -> like_for v (observe w1) (observe w2) -> actor e = v ->
  room (observe w1) (e :: l) -> room (observe w2) (e :: l') ->
  like_for v (observe (bstep w1 e)) (observe (bstep w2 e)) /\ call_reply w1 e = call_reply w2 e.
Proof.
  intros K1 K2 A <- Hr Hr2.
  destruct (step_at w1 e l K1 Hr) as (R & H1 & H2 & H3 & H4). destruct (step_at w2 e l' K2 Hr2) as (R' & G1 & G2 & G3 & G4).
  assert (R' = R) as ->. { eapply yields_fun; [exact G1|]. eapply yields_local; [|exact H1]. exact A. }
  split; [|rewrite H3, G3; reflexivity].
  destruct A as (A1 & A2 & A3 & A4). destruct H2 as (P1 & P2 & _ & _ & P5 & P6 & _). destruct G2 as (Q1 & Q2 & _ & _ & Q5 & Q6 & _).
  unfold like_for. repeat match goal with |- _ /\ _ => split end.
  - rewrite (source_eq _ _ P1), (source_eq _ _ Q1). exact A1.
  - intros. rewrite P2, Q2. apply A2.
  - intros id. rewrite P5, Q5, A3. reflexivity.
  - congruence.
Qed.
Lemma like_trans v B C D : like_for v B C -> like_for v C D -> like_for v B D.
Proof.
  unfold like_for. intros (H1 & H2 & H3 & H4) (G1 & G2 & G3 & G4).
  repeat match goal with |- _ /\ _ => split end; intros; etransitivity; eauto.
Qed.
Lemma private l v : forall w1 w2, wok w1 -> wok w2 -> like_for v (observe w1) (observe w2) ->
  room (observe w1) l -> room (observe w2) (own v l) ->
  like_for v (observe (brun w1 l)) (observe (brun w2 (own v l))) /\ replies v w1 l = replies v w2 (own v l).
Proof.
  induction l as [|e l IH]; intros w1 w2 K1 K2 A Hr Hr2; [split; [exact A|reflexivity]|].
  rewrite own_cons in *. destruct (decide (actor e = v)) as [E|N].
  - destruct (like_step v w1 w2 e l (own v l) K1 K2 A E Hr Hr2) as [A' Er].
    destruct (step_at w1 e l K1 Hr) as (_ & _ & _ & _ & Hr1). destruct (step_at w2 e (own v l) K2 Hr2) as (_ & _ & _ & _ & Hr3).
    destruct (IH (bstep w1 e) (bstep w2 e)) as [I1 I2]; auto using wok_step. split; [exact I1|].
    rewrite !replies_cons, !decide_True by exact E. rewrite Er, I2. reflexivity.
  - destruct (step_at w1 e l K1 Hr) as (R & _ & H2 & _ & Hr1).
    destruct (IH (bstep w1 e) w2) as [I1 I2]; auto using wok_step.
    { eapply like_trans; [|exact A]. apply like_sym. eapply applied_like; [|exact H2]. auto. }
    split; [exact I1|]. rewrite replies_cons, decide_False by exact N. exact I2.
Qed.
Lemma own_sum v l : sum_by said (own v l) <= sum_by said l.
Proof. induction l as [|e l IH]; [reflexivity|]. rewrite own_cons. destruct (decide _); rewrite !sum_by_cons; lia. Qed.
Lemma c95_private w tr l v : mreach w tr -> few_proposals (w_m w) -> room (observe w) l ->
  let B := observe (brun w l) in
  let C := observe (brun w (own v l)) in
  (forall id, b_ballot B id v = b_ballot C id v) /\ waiting v B = waiting v C /\ replies v w l = replies v w (own v l).
Proof.
  intros H F Hr. assert (K : wok w) by (split; eauto).
  destruct (private l v w w K K (like_refl v _) Hr) as [(_ & _ & H1 & H2) H3]; [|auto].
  intros id t. specialize (Hr id t). pose proof (own_sum v l). lia.
Qed.

(** ** What is reported *)
Lemma mpip_seen w id p : get_mpip (w_m w) id = Ok p <-> b_prop (observe w) id = Some p.
Proof. cbn [observe b_prop]. unfold get_proposal. destruct (get_mpip _ _); split; congruence. Qed.
Lemma alike_state w1 w2 now id : alike (observe w1) (observe w2) -> 
  get_proposal_state now (w_m w1) id = get_proposal_state now (w_m w2) id.
Proof.
  intros (_ & H2 & _ & H4 & _). specialize (H2 id).
  assert (T : forall t, tally (w_m w1) id t = tally (w_m w2) id t) by (intros t; apply (H4 id t)).
  pose proof (T VFor) as T1. pose proof (T VAgainst) as T2. pose proof (T VAbstain) as T3. unfold tally, get_proposal_votes in T1, T2, T3.
  assert (E : get_mpip (w_m w1) id = get_mpip (w_m w2) id).
  { cbn [observe b_prop] in H2. unfold get_proposal in H2.
    destruct (get_mpip (w_m w1) id) eqn:E1, (get_mpip (w_m w2) id) eqn:E2; try congruence.
    unfold get_mpip, expect in E1, E2. destruct (om_get _ _), (om_get _ _) in E1, E2; congruence. }
  unfold get_proposal_state, is_quorum_reached, get_proposal_vote_succeeded. rewrite E, T1, T2, T3. reflexivity.
Qed.
Lemma c95_state w tr l l' now id : mreach w tr -> few_proposals (w_m w) -> room (observe w) l -> (forall v, own v l = own v l') ->
  get_proposal_state now (w_m (brun w l)) id = get_proposal_state now (w_m (brun w l')) id.
Proof. intros H F Hr Ho. apply alike_state. apply (c95_reorder w tr l l' H F Hr Ho). Qed.
