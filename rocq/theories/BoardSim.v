(** BoardSim.v -- for C99: the methods of the proposal contract on bytes do what those of Mpip.v do. *)

From Verif Require Export BoardStore.
From Verif Require Import FlatProofs WireProofs EntryProofs AskProofs KVBytesProofs MpipSized PostProofs.
Import FlatProofs Mpip MpipSized BoardBytes BoardStore KVBytesProofs.

(** ** Results that go together *)
Definition sim {A B} (R : A -> B -> Prop) (x : res A) (y : res B) : Prop :=
  match x with Ok a => exists b, y = Ok b /\ R a b | Panic _ => exists e, y = Panic e end.
Lemma sim_same {A B C} (R : A -> B -> Prop) (x : res C) (f : C -> res A) (g : C -> res B) :
  (forall u, x = Ok u -> sim R (f u) (g u)) -> sim R (x ≫= f) (x ≫= g).
Proof. intros F. destruct x as [u|e]; [exact (F u eq_refl)|]. cbn. eauto. Qed.
Lemma sim_ok {A B} (R : A -> B -> Prop) a b : R a b -> sim R (Ok a) (Ok b).
Proof. cbn. eauto. Qed.

(** ** Sizes: [n] calls have been made *)
Record bd (n : nat) (s : mstate) : Prop := {
  bd1 : (length (m_proposals s) <= n)%nat; bd2 : (length (m_votes s) <= n)%nat; bd3 : (length (m_voters s) <= n)%nat; bd4 : (length (m_proposers s) <= n)%nat;
  bd5 : forall id, (length (pv_voted (get_pvote s id)) <= n)%nat; bd6 : forall a, (length (get_mvoter s a) <= n)%nat; bd7 : forall a, (length (get_proposer s a) <= n)%nat }.
Lemma bd_more n s : bd n s -> bd (S n) s.
Proof. intros [b1 b2 b3 b4 b5 b6 b7]. constructor; try lia; intros x; [specialize (b5 x)|specialize (b6 x)|specialize (b7 x)]; lia. Qed.
Lemma few_small n k : N.of_nat n < 2 ^ 32 -> (k <= n)%nat -> small k.
Proof. intros L Hk. unfold small, U64_SIZE. change (2 ^ 32) with 4294967296 in L. lia. Qed.

(** what a call may hold *)
Definition short_content (ct : content) : Prop := okcontent ct.
Definition short_mop (o : mop) : Prop :=
  match o with CreateProposal ct | UpdateProposal _ ct => okcontent ct | VoteProposal _ _ memo => str_fits memo | _ => True end.
Definition short_kind (k : pkind) : Prop :=
  match k with KCreate ct => okcontent ct | KVote _ _ _ memo => str_fits memo | KStart _ => True end.
Definition caller_ok (c : ctx) : Prop := account_id (c_pred c) /\ account_id (c_signer c) /\ fits64 (c_ts c).

Section Sim.
Variables (H : string -> string) (NM : string -> Prop).
Hypothesis H32 : hash32 H.
Hypothesis Hinj : forall x y, NM x -> NM y -> H x = H y -> x = y.
Notation Maps := (Maps H NM). Notation At := (At H NM). Notation tbv := (tbv H). Notation tbm := (tbm H).

Definition Good (n : nat) (st : flat) (s : mstate) : Prop := Maps st s /\ Root s /\ bd n s.
Definition after (n : nat) (x : mstate * mout) (y : flat * broot * mout) : Prop := y.1.2 = broot_of x.1 /\ y.2 = x.2 /\ Good n y.1.1 x.1.
Definition after_b (n : nat) (x : mstate) (y : flat * broot) : Prop := y.2 = broot_of x /\ Good n y.1 x.

Lemma good_more n st s : Good n st s -> Good (S n) st s.
Proof using. intros (M & R & b). exact (conj M (conj R (bd_more _ _ b))). Qed.
Lemma mpip_ok st s id p : Maps st s -> get_mpip s id = Ok p -> fits32 id /\ okmpip p.
Proof using. intros M E. apply expect_Ok in E. exact (all_get _ _ _ _ (t_all _ _ _ _ _ _ (at1 _ _ _ _ _ _ _ _ _ M)) E). Qed.
Lemma put_mpip n st s id p : Good n st s -> N.of_nat (S n) < 2 ^ 32 -> fits32 id -> okmpip p ->
  exists st', bb_put_mpip st (broot_of s) id p = Ok (st', broot_of (s <| m_proposals := om_set (m_proposals s) id p |>)) /\
    Good (S n) st' (s <| m_proposals := om_set (m_proposals s) id p |>).
Proof using.
  intros (M & R & b) L Li Lp. pose proof (bd1 _ _ b) as B1. pose proof (olen_set (m_proposals s) id p) as Ol.
  assert (Hs : small (length (om_set (m_proposals s) id p))) by (apply (few_small (S n)); [exact L|lia]).
  destruct (uput_1 H NM _ _ _ _ _ _ _ id p M (conj Li Lp) Hs) as (st' & E & M'). exists st'. unfold bb_put_mpip. cbn [broot_of bo_props]. rewrite E. cbn [mbind res_bind].
  split; [reflexivity|]. split; [exact M'|]. split; [destruct R; constructor; assumption|]. apply bd_more in b as [b1 b2 b3 b4 b5 b6 b7]. constructor; try assumption. cbn [m_proposals set]. lia.
Qed.

(** ** Ballots *)
Lemma add_sim id v vt n : bb_add (tbv id v) vt n = (x ← add_tally v vt n; Ok (tbv id x)).
Proof using. destruct vt; cbn [bb_add add_tally]; cbn [BoardStore.tbv v_for v_against v_abstain v_voted]; [destruct (add128 (pv_against v) n)|destruct (add128 (pv_for v) n)|destruct (add128 (pv_abstain v) n)]; reflexivity. Qed.
Lemma sub_sim id v vt n : bb_sub (tbv id v) vt n = (x ← sub_tally v vt n; Ok (tbv id x)).
Proof using. destruct vt; cbn [bb_sub sub_tally]; cbn [BoardStore.tbv v_for v_against v_abstain v_voted]; [destruct (sub128 (pv_against v) n)|destruct (sub128 (pv_for v) n)|destruct (sub128 (pv_abstain v) n)]; reflexivity. Qed.
Definition fits3 (v : pvote) : Prop := fits128 (pv_for v) /\ fits128 (pv_against v) /\ fits128 (pv_abstain v).
Lemma add_fits v vt n v' : fits3 v -> add_tally v vt n = Ok v' -> fits3 v' /\ pv_voted v' = pv_voted v.
Proof using. intros (H1 & H2 & H3) E. unfold add_tally in E. destruct vt; apply bind_Ok in E as (x & Ex & E); apply add128_Ok in Ex as [-> Ex]; injection E as <-; (split; [|reflexivity]); repeat split; assumption. Qed.
Lemma sub_fits v vt n v' : fits3 v -> sub_tally v vt n = Ok v' -> fits3 v' /\ pv_voted v' = pv_voted v.
Proof using.
  intros (H1 & H2 & H3) E. unfold fits3, fits128 in *. unfold sub_tally in E.
  destruct vt; apply bind_Ok in E as (x & Ex & E); apply sub128_Ok in Ex as [-> Ex]; injection E as <-; (split; [|reflexivity]); cbn [pv_for pv_against pv_abstain set]; repeat split; try assumption; lia.
Qed.
Lemma pvote_fits st s id : Maps st s -> fits3 (get_pvote s id).
Proof using.
  intros M. unfold get_pvote. destruct (om_get (m_votes s) id) as [v|] eqn:E; [|repeat split].
  destruct (all_get _ _ _ _ (t_all _ _ _ _ _ _ (at2 _ _ _ _ _ _ _ _ _ M)) E) as (_ & _ & V1 & V2 & V3 & _). repeat split; assumption.
Qed.
Lemma pvote_set s votes id v1 voters j : votes = om_set (m_votes s) id v1 ->
  get_pvote (s <| m_votes := votes |> <| m_voters := voters |>) j = if decide (j = id) then v1 else get_pvote s j.
Proof using. intros ->. unfold get_pvote. cbn [m_votes set]. destruct (decide (j = id)) as [->|N]; [rewrite om_get_set_eq; reflexivity|rewrite om_get_set_ne by congruence; reflexivity]. Qed.
Lemma vote_sim n st s id voter vt memo a : Good n st s -> N.of_nat (S n) < 2 ^ 32 -> fits32 id -> account_id voter -> str_fits memo -> NM (pretty id) -> NM voter ->
  sim (after_b (S n)) (vote_callback s id voter vt memo a) (bb_vote_callback H st (broot_of s) id voter vt memo a).
Proof using H32 Hinj.
  intros (M & R & b) L Li Lv Lm Ni Nv. pose proof b as [b1 b2 b3 b4 b5 b6 b7]. unfold vote_callback, bb_vote_callback. apply sim_same; intros vp Ep. apply power_fits in Ep.
  rewrite (r_voter _ _ H32 _ _ _ M Lv). cbn [mbind res_bind]. apply sim_same; intros _ _. rewrite (r_pvote _ _ H32 _ _ _ M Li). cbn [mbind res_bind]. cbv zeta.
  set (u := mkMvote id vt vp memo). assert (Lu : okvote u) by (repeat split; assumption). set (v := get_pvote s id).
  assert (Z5 : small (length (om_set (pv_voted v) voter u))). { apply (few_small (S n)); [exact L|]. pose proof (olen_set (pv_voted v) voter u). specialize (b5 id). fold v in b5. lia. }
  destruct (uput_5 H NM H32 Hinj _ _ _ _ _ _ _ id voter u M Ni (conj Lv Lu) Z5) as (st1 & E1 & M1). cbn [BoardStore.tbv v_voted v_for v_against v_abstain]. cbv beta in E1. fold v in E1. rewrite E1. cbn [mbind res_bind].
  change (mkBpv (pv_for v) (pv_against v) (pv_abstain v) (hd (PV H id) (length (om_set (pv_voted v) voter u)))) with (tbv id (v <| pv_voted := om_set (pv_voted v) voter u |>)).
  rewrite add_sim. destruct (add_tally _ vt vp) as [v1|e] eqn:Ea; [|cbn; eauto]. cbn [mbind res_bind].
  assert (F0 : fits3 (v <| pv_voted := om_set (pv_voted v) voter u |>)) by exact (pvote_fits _ _ id M).
  destruct (add_fits _ _ _ _ F0 Ea) as [(V1 & V2 & V3) Ev]. cbn [pv_voted set] in Ev.
  assert (Z2 : small (length (om_set (m_votes s) id v1))). { apply (few_small (S n)); [exact L|]. pose proof (olen_set (m_votes s) id v1). lia. }
  assert (K2 : W2 NM id v1). { split; [exact Li|]. split; [exact Ni|]. split; [exact V1|]. split; [exact V2|]. split; [exact V3|]. rewrite Ev. exact Z5. }
  destruct (uput_2 H NM H32 _ _ _ _ _ _ _ id v1 M1 K2 Z2) as (st2 & E2 & M2). cbn [broot_of bo_ballots]. rewrite E2. cbn [mbind res_bind].
  assert (Z6 : small (length (om_set (get_mvoter s voter) id u))). { apply (few_small (S n)); [exact L|]. pose proof (olen_set (get_mvoter s voter) id u). specialize (b6 voter). lia. }
  destruct (uput_6 H NM H32 Hinj _ _ _ _ _ _ _ voter id u M2 Nv (conj Li (conj Ni Lu)) Z6) as (st3 & E3 & M3). unfold BoardStore.tbm at 1. rewrite E3. cbn [mbind res_bind].
  set (m' := om_set (get_mvoter s voter) id u) in *.
  assert (Z3 : small (length (om_set (m_voters s) voter m'))). { apply (few_small (S n)); [exact L|]. pose proof (olen_set (m_voters s) voter m'). lia. }
  destruct (uput_3 H NM H32 _ _ _ _ _ _ _ voter m' M3 (conj Lv (conj Nv Z6)) Z3) as (st4 & E4 & M4). cbn [broot_of bo_voters]. change (hd (PM H voter) (length m')) with (tbm voter m'). rewrite E4. cbn [mbind res_bind].
  apply sim_ok. split; [reflexivity|]. split; [|split].
  - eapply (at_ext H NM); [| |exact M4].
    + intros j. rewrite (pvote_set s _ id v1 _ j eq_refl). unfold upd. destruct (decide (j = id)) as [->|]; [rewrite Ev; reflexivity|reflexivity].
    + intros w. unfold upd, get_mvoter. cbn [m_voters set]. destruct (decide (w = voter)) as [->|Nw]; [rewrite om_get_set_eq; reflexivity|rewrite om_get_set_ne by congruence; reflexivity].
  - destruct R; constructor; assumption.
  - constructor; try assumption; try (cbn [m_proposals m_proposers set]; lia).
    + cbn [m_votes set]. pose proof (olen_set (m_votes s) id v1). lia.
    + cbn [m_voters set]. pose proof (olen_set (m_voters s) voter m'). lia.
    + intros j. rewrite (pvote_set s _ id v1 _ j eq_refl). destruct (decide (j = id)) as [->|]; [|specialize (b5 j); lia]. rewrite Ev. pose proof (olen_set (pv_voted v) voter u). specialize (b5 id). fold v in b5. lia.
    + intros w. unfold get_mvoter at 1. cbn [m_voters set]. destruct (decide (w = voter)) as [->|Nw].
      * rewrite om_get_set_eq. change (length m' <= S n)%nat. pose proof (olen_set (get_mvoter s voter) id u). specialize (b6 voter). unfold m'. lia.
      * rewrite om_get_set_ne by congruence. fold (get_mvoter s w). specialize (b6 w). lia.
    + intros w. specialize (b7 w). change (length (get_proposer s w) <= S n)%nat. lia.
Qed.
Lemma remove_sim n st s c id : Good n st s -> N.of_nat (S n) < 2 ^ 32 -> fits32 id -> account_id (c_pred c) ->
  sim (after (S n)) (remove_vote_proposal c s id) (bb_remove_vote H c st (broot_of s) id).
Proof using H32 Hinj.
  intros (M & R & b) L Li Lp. pose proof b as [b1 b2 b3 b4 b5 b6 b7]. unfold remove_vote_proposal, bb_remove_vote. apply sim_same; intros _ _.
  rewrite (r_on_voting _ _ _ _ _ _ M Li), (r_has_voted _ _ H32 _ _ _ _ M Li Lp). apply sim_same; intros _ _. cbn [mbind res_bind]. apply sim_same; intros w0 Eh. apply require_Ok in Eh.
  destruct (has_named _ _ _ _ _ _ M Eh) as (Np & _ & Ni). rewrite (r_pvote _ _ H32 _ _ _ M Li). cbn [mbind res_bind]. rewrite (r_voted _ _ _ _ _ _ M Ni Lp). cbn [mbind res_bind]. cbv zeta.
  apply sim_same; intros u Eu. apply expect_Ok in Eu. rewrite (r_voter _ _ H32 _ _ _ M Lp). cbn [mbind res_bind]. rewrite sub_sim. set (v := get_pvote s id) in *.
  destruct (sub_tally v (vt_type u) (vt_power u)) as [v1|e] eqn:Es; [|cbn; eauto]. cbn [mbind res_bind].
  destruct (sub_fits _ _ _ _ (pvote_fits _ _ id M) Es) as [(V1 & V2 & V3) Ev]. cbn [BoardStore.tbv v_voted v_for v_against v_abstain]. fold v in Ev. rewrite Ev.
  destruct (udel_5 H NM H32 Hinj _ _ _ _ _ _ _ id (c_pred c) M Ni Lp) as (st1 & E1 & M1). cbv beta in E1. fold v in E1. rewrite E1. cbn [mbind res_bind].
  pose proof (olen_remove (pv_voted v) (c_pred c)) as O5. pose proof (b5 id) as B5. fold v in B5.
  set (v2 := v1 <| pv_voted := om_remove (pv_voted v) (c_pred c) |>). change (mkBpv (pv_for v1) (pv_against v1) (pv_abstain v1) (hd (PV H id) (length (om_remove (pv_voted v) (c_pred c))))) with (tbv id v2).
  assert (Z2 : small (length (om_set (m_votes s) id v2))). { apply (few_small (S n)); [exact L|]. pose proof (olen_set (m_votes s) id v2). lia. }
  assert (K2 : W2 NM id v2). { split; [exact Li|]. split; [exact Ni|]. split; [exact V1|]. split; [exact V2|]. split; [exact V3|]. apply (few_small (S n)); [exact L|]. cbn [v2 pv_voted set]. lia. }
  destruct (uput_2 H NM H32 _ _ _ _ _ _ _ id v2 M1 K2 Z2) as (st2 & E2 & M2). cbn [broot_of bo_ballots]. rewrite E2. cbn [mbind res_bind].
  destruct (udel_6 H NM H32 Hinj _ _ _ _ _ _ _ (c_pred c) id M2 Np Li) as (st3 & E3 & M3). unfold BoardStore.tbm at 1. rewrite E3. cbn [mbind res_bind]. rewrite hd_len. cbn [mbind res_bind].
  pose proof (olen_remove (get_mvoter s (c_pred c)) id) as O6. pose proof (b6 (c_pred c)) as B6. set (m' := om_remove (get_mvoter s (c_pred c)) id) in *.
  pose proof (t_nodup _ _ _ _ _ _ (at3 _ _ _ _ _ _ _ _ _ M)) as Nd.
  set (voters' := match m' with [] => om_remove (m_voters s) (c_pred c) | _ => om_set (m_voters s) (c_pred c) m' end).
  assert (Ep : exists st4, (if N.of_nat (length m') =? 0 then u_del dec_umh st3 (hd (sk0 3) (length (m_voters s))) (enc_str (c_pred c))
      else u_put dec_umh st3 (hd (sk0 3) (length (m_voters s))) (enc_str (c_pred c)) (enc_umh (hd (PM H (c_pred c)) (length m')))) = Ok (st4, hd (sk0 3) (length voters')) /\
      At st4 (m_proposals s) (om_set (m_votes s) id v2) voters' (m_proposers s) (upd (fun i => pv_voted (get_pvote s i)) id (om_remove (pv_voted v) (c_pred c))) (upd (get_mvoter s) (c_pred c) m')).
  { unfold voters'. destruct m' as [|e m''] eqn:Em.
    - exact (udel_3 H NM H32 _ _ _ _ _ _ _ (c_pred c) M3 Lp).
    - cbn [length]. change (N.of_nat (S (length m'')) =? 0) with false. cbv iota.
      assert (Z6 : small (length (e :: m''))) by (apply (few_small (S n)); [exact L|cbn [length] in *; lia]).
      assert (Z3 : small (length (om_set (m_voters s) (c_pred c) (e :: m'')))). { apply (few_small (S n)); [exact L|]. pose proof (olen_set (m_voters s) (c_pred c) (e :: m'')). lia. }
      exact (uput_3 H NM H32 _ _ _ _ _ _ _ (c_pred c) (e :: m'') M3 (conj Lp (conj Np Z6)) Z3). }
  destruct Ep as (st4 & E4 & M4). cbn [broot_of bo_voters]. rewrite E4. cbn [mbind res_bind]. apply sim_ok.
  assert (Gm : forall w, get_mvoter (s <| m_votes := om_set (m_votes s) id v2 |> <| m_voters := voters' |>) w = if decide (w = c_pred c) then m' else get_mvoter s w).
  { intros w. unfold get_mvoter at 1. cbn [m_voters set]. unfold voters'. destruct m' as [|e m''] eqn:Em.
    - destruct (decide (w = c_pred c)) as [->|Nw]; [rewrite om_get_remove_eq by exact Nd; reflexivity|rewrite om_get_remove_ne by (exact Nd || congruence); reflexivity].
    - destruct (decide (w = c_pred c)) as [->|Nw]; [rewrite om_get_set_eq; reflexivity|rewrite om_get_set_ne by congruence; reflexivity]. }
  split; [reflexivity|]. split; [reflexivity|]. cbn [fst snd]. split; [|split].
  - eapply (at_ext H NM); [| |exact M4].
    + intros j. rewrite (pvote_set s _ id v2 _ j eq_refl). unfold upd. destruct (decide (j = id)) as [->|]; reflexivity.
    + intros w. rewrite Gm. reflexivity.
  - destruct R; constructor; assumption.
  - constructor; try assumption; try (cbn [m_proposals m_proposers set]; lia).
    + cbn [m_votes set]. pose proof (olen_set (m_votes s) id v2). lia.
    + cbn [m_voters set]. unfold voters'. destruct m' as [|e m'']; [pose proof (olen_remove (m_voters s) (c_pred c)); lia|pose proof (olen_set (m_voters s) (c_pred c) (e :: m'')); lia].
    + intros j. rewrite (pvote_set s _ id v2 _ j eq_refl). destruct (decide (j = id)) as [->|]; [|specialize (b5 j); lia]. cbn [v2 pv_voted set]. lia.
    + intros w. rewrite Gm. destruct (decide (w = c_pred c)); [lia|]. specialize (b6 w). lia.
    + intros w. specialize (b7 w). change (length (get_proposer s w) <= S n)%nat. lia.
Qed.

(** ** The methods *)
Ltac ups M b := first [apply sim_ok; split; [reflexivity|]; split; [reflexivity|]; apply good_more; split; [exact M|]; split; [|destruct b; constructor; assumption]].
Lemma exec_sim n st s c o : Good n st s -> N.of_nat (S n) < 2 ^ 32 -> caller_ok c -> board_typed o -> short_mop o ->
  sim (after (S n)) (mcall c s o) (bb_exec H c st (broot_of s) o).
Proof using H32 Hinj.
  intros G L (Lp & Lc & Lt) [Ho Lo] Hsh. pose proof G as (M & R & b). destruct o; cbn [mcall bb_exec short_mop] in *; cbv zeta.
  - unfold update_open, bb_set. apply sim_same; intros _ _. apply (sim_same _ (assert_only_admin c s)); intros _ _. ups M b. destruct R; constructor; assumption.
  - unfold update_operator_role, bb_set. apply sim_same; intros _ _. apply (sim_same _ (assert_only_admin c s)); intros _ _. ups M b. destruct R; constructor; assumption.
  - unfold update_admin_role, bb_set. apply sim_same; intros _ _. apply (sim_same _ (assert_only_admin c s)); intros _ _. ups M b. destruct R; constructor; assumption.
  - unfold pay_to_account. apply sim_same; intros _ _. apply (sim_same _ (assert_only_admin c s)); intros _ _. ups M b. destruct R; constructor; assumption.
  - unfold update_meta_vote_address, bb_set. apply sim_same; intros _ _. apply (sim_same _ (assert_only_admin c s)); intros _ _. ups M b. destruct R; constructor; assumption.
  - unfold update_voting_period, bb_set. apply sim_same; intros _ _. apply (sim_same _ (assert_only_operator c s)); intros _ _. ups M b. destruct R; constructor; assumption.
  - unfold update_min_meta, bb_set. apply sim_same; intros _ _. apply (sim_same _ (assert_only_operator c s)); intros _ _. ups M b. destruct R; constructor; assumption.
  - unfold update_min_vp, bb_set. apply sim_same; intros _ _. apply (sim_same _ (assert_only_operator c s)); intros _ _. ups M b. destruct R; constructor; assumption.
  - unfold update_storage, bb_set. apply sim_same; intros _ _. apply (sim_same _ (assert_only_operator c s)); intros _ _. ups M b. destruct R; constructor; assumption.
  - unfold update_quorum_floor. apply sim_same; intros _ _. apply (sim_same _ (assert_only_operator c s)); intros _ _. apply sim_same; intros _ _. ups M b. destruct R; constructor; assumption.
  - unfold start_voting_period, bb_start. apply sim_same; intros _ _. rewrite (r_operator_or_creator _ _ _ _ _ _ M Lo), (r_active _ _ _ _ _ _ M Lo).
    apply sim_same; intros _ _. apply sim_same; intros _ _. ups M b. exact R.
  - unfold create_proposal, bb_create. apply sim_same; intros _ _. apply sim_same; intros _ _. ups M b. exact R.
  - unfold cancel_proposal, bb_cancel. apply sim_same; intros _ _. rewrite (r_operator_or_creator _ _ _ _ _ _ M Lo), (r_active _ _ _ _ _ _ M Lo), (r_mpip _ _ _ _ _ M Lo).
    apply sim_same; intros _ _. apply sim_same; intros _ _. apply sim_same; intros p E. destruct (mpip_ok _ _ _ _ M E) as [_ Kp].
    destruct (put_mpip n st s id (mkMpip (pr_id p) (pr_content p) (pr_creator p) (pr_start p) (pr_end p) (pr_draft p) (pr_executed p) true (pr_quorum p)) G L Lo Kp) as (st' & -> & G').
    cbn [mbind res_bind]. apply sim_ok. split; [reflexivity|]. split; [reflexivity|exact G'].
  - unfold update_proposal, bb_update. apply sim_same; intros _ _. rewrite (r_creator _ _ _ _ _ _ M Lo), (r_active _ _ _ _ _ _ M Lo), (r_mpip _ _ _ _ _ M Lo).
    apply sim_same; intros _ _. apply sim_same; intros _ _. apply sim_same; intros p E. destruct (mpip_ok _ _ _ _ M E) as [_ (K1 & K2 & K3)].
    destruct (put_mpip n st s id (mkMpip (pr_id p) ct (pr_creator p) (pr_start p) (pr_end p) (pr_draft p) (pr_executed p) (pr_canceled p) (pr_quorum p)) G L Lo (conj K1 (conj Hsh K3))) as (st' & -> & G').
    cbn [mbind res_bind]. apply sim_ok. split; [reflexivity|]. split; [reflexivity|exact G'].
  - unfold vote_proposal, bb_vote. apply sim_same; intros _ _. rewrite (r_on_voting _ _ _ _ _ _ M Lo), (r_has_voted _ _ H32 _ _ _ _ M Lo Lp).
    apply sim_same; intros _ _. cbn [mbind res_bind]. apply sim_same; intros _ _. ups M b. exact R.
  - exact (remove_sim n st s c id G L Lo Lp).
  - unfold process_voting_status, bb_process. apply sim_same; intros _ _. apply (sim_same _ (assert_only_operator c s)); intros _ _. rewrite (r_mpip _ _ _ _ _ M Lo), (r_reached _ _ H32 _ _ _ M Lo).
    apply sim_same; intros p E. destruct (mpip_ok _ _ _ _ M E) as [_ Kp]. apply sim_same; intros v _. destruct v; [|ups M b; exact R]. apply sim_same; intros e _. destruct (e <=? now_ms c); [|ups M b; exact R].
    apply sim_same; intros q _. destruct q; [|ups M b; exact R].
    destruct (put_mpip n st s id (mkMpip (pr_id p) (pr_content p) (pr_creator p) (pr_start p) (pr_end p) (pr_draft p) true (pr_canceled p) (pr_quorum p)) G L Lo Kp) as (st' & -> & G').
    cbn [mbind res_bind]. apply sim_ok. split; [reflexivity|]. split; [reflexivity|exact G'].
Qed.

(** ** The callbacks *)
Definition kind_text (s : mstate) (k : pkind) : string := match k with KCreate _ => pretty (N.of_nat (length (m_proposals s))) | _ => "" end.
Definition after_k (n : nat) (t : string) (x : mstate) (y : flat * broot * string) : Prop := y.1.2 = broot_of x /\ y.2 = t /\ Good n y.1.1 x.
Definition known (k : pkind) : Prop := match k with KVote id v _ _ => NM (pretty id) /\ NM v | _ => True end.
Lemma callback_sim n st s c k a : Good n st s -> N.of_nat (S n) < 2 ^ 32 -> caller_ok c -> kind_ok k -> short_kind k -> known k ->
  sim (after_k (S n) (kind_text s k)) (mcallback c s k a) (bb_callback H c st (broot_of s) k a).
Proof using H32 Hinj.
  intros G L (_ & Lc & Lt) Hk Hs Kn. pose proof G as (M & R & b). destruct k as [id|ct|id v vt memo]; cbn [mcallback bb_callback kind_ok short_kind known kind_text] in *.
  - unfold start_callback, bb_start_callback. destruct (total_from_promise a) as [t|e] eqn:Et; [|cbn; eauto]. apply total_fits in Et. cbn [mbind res_bind]. rewrite (r_mpip _ _ _ _ _ M Hk).
    destruct (get_mpip s id) as [p|e] eqn:E; [|cbn; eauto]. cbn [mbind res_bind]. destruct (mpip_ok _ _ _ _ M E) as [_ ((Q1 & Q2 & Q3 & Q4) & K2 & K3)]. cbv zeta. change (bo_period (broot_of s)) with (m_period s).
    destruct (add64 (now_ms c) (m_period s)) as [e|x] eqn:Ee; [|cbn; eauto]. cbn [mbind res_bind]. change (bb_quorum (broot_of s) t) with (get_quorum s t).
    destruct (get_quorum s t) as [q|x] eqn:Eq; [|cbn; eauto]. cbn [mbind res_bind].
    assert (Kp : okmpip (mkMpip (pr_id p) (pr_content p) (pr_creator p) (Some (now_ms c)) (Some e) false (pr_executed p) (pr_canceled p) (Some q))).
    { split; [|exact (conj K2 K3)]. split; [exact Q1|]. cbn [pr_start pr_end pr_quorum opt_fits]. split; [|split].
      - unfold fits64, now_ms in *. change (2 ^ 64) with 18446744073709551616 in *. eapply N.le_lt_trans; [|exact Lt]. apply N.div_le_upper_bound; lia.
      - unfold add64 in Ee. destruct (N.ltb_spec (now_ms c + m_period s) U64_SIZE) as [X|]; [|discriminate]. injection Ee as <-. exact X.
      - unfold get_quorum in Eq. apply bind_Ok in Eq as (x & Eq & X). apply mul128_Ok in Eq as [-> Eq]. injection X as <-. eapply N.le_lt_trans; [|exact Eq]. rewrite N.div_div by lia. apply N.div_le_upper_bound; lia. }
    destruct (put_mpip n st s id _ G L Hk Kp) as (st' & -> & G'). cbn [mbind res_bind]. apply sim_ok. split; [reflexivity|]. split; [reflexivity|exact G'].
  - unfold create_callback, bb_create_callback. destruct (user_power_from_promise a) as [vp|e] eqn:Et; [|cbn; eauto]. cbn [mbind res_bind]. change (bo_min_vp (broot_of s) <=? vp) with (check_threshold s vp).
    destruct (require (check_threshold s vp) _) as [[]|e]; [|cbn; eauto]. cbn [mbind res_bind]. cbv zeta. change (bo_props (broot_of s)) with (hd (sk0 0) (length (m_proposals s))). rewrite hd_len. cbn [mbind res_bind].
    pose proof b as [b1 b2 b3 b4 b5 b6 b7].
    assert (Hi : fits32 (N.of_nat (length (m_proposals s)) mod U32_SIZE)) by (apply N.mod_lt; discriminate).
    assert (Em : N.of_nat (length (m_proposals s)) mod U32_SIZE = N.of_nat (length (m_proposals s))) by (apply N.mod_small; unfold U32_SIZE; change (2 ^ 32) with 4294967296 in L; lia).
    set (id := N.of_nat (length (m_proposals s)) mod U32_SIZE) in *.
    assert (Kp : okmpip (new_mpip c id ct)) by (split; [repeat split; exact Hi|exact (conj Hs Lc)]).
    destruct (put_mpip n st s id _ G L Hi Kp) as (st1 & E1 & (M1 & R1 & B1)). fold (new_mpip c id ct). rewrite E1. cbn [mbind res_bind]. set (s1 := s <| m_proposals := om_set (m_proposals s) id (new_mpip c id ct) |>) in *.
    rewrite (r_proposer _ _ _ _ _ M1 Lc). cbn [mbind res_bind]. change (get_proposer s1 (c_signer c)) with (get_proposer s (c_signer c)). set (l' := get_proposer s (c_signer c) ++ [id]).
    assert (Ll : (length l' <= S n)%nat). { unfold l'. rewrite app_length. cbn [length]. specialize (b7 (c_signer c)). lia. }
    assert (Kl : W4 (c_signer c) l').
    { split; [exact Lc|]. split; [|lia]. apply Forall_app. split; [|repeat constructor; exact Hi]. unfold get_proposer. destruct (om_get (m_proposers s) (c_signer c)) as [l|] eqn:El; [|constructor].
      exact (proj1 (proj2 (all_get _ _ _ _ (t_all _ _ _ _ _ _ (at4 _ _ _ _ _ _ _ _ _ M)) El))). }
    assert (Z4 : small (length (om_set (m_proposers s) (c_signer c) l'))). { apply (few_small (S n)); [exact L|]. pose proof (olen_set (m_proposers s) (c_signer c) l'). lia. }
    destruct (uput_4 H NM _ _ _ _ _ _ _ (c_signer c) l' M1 Kl Z4) as (st2 & E2 & M2). change (bo_proposers (broot_of s1)) with (hd (sk0 4) (length (m_proposers s1))). rewrite E2. cbn [mbind res_bind].
    apply sim_ok. split; [reflexivity|]. split; [cbn [snd]; rewrite Em; reflexivity|]. cbn [fst snd]. split; [exact M2|]. split; [destruct R; constructor; assumption|].
    constructor; try (destruct B1; assumption).
    + cbn [m_proposers set]. pose proof (olen_set (m_proposers s) (c_signer c) l'). lia.
    + intros w. unfold get_proposer at 1. cbn [m_proposers set]. destruct (decide (w = c_signer c)) as [->|Nw]; [rewrite om_get_set_eq; exact Ll|]. rewrite om_get_set_ne by congruence. specialize (b7 w). unfold get_proposer in b7. change (m_proposers s1) with (m_proposers s). lia.
  - destruct Hk as [Li Lv], Kn as [Ni Nv]. pose proof (vote_sim n st s id v vt memo a G L Li Lv Hs Ni Nv) as V. destruct (vote_callback s id v vt memo a) as [s'|e].
    + destruct V as ([st' r'] & -> & Er & G'). cbn [mbind res_bind]. apply sim_ok. split; [exact Er|]. split; [reflexivity|exact G'].
    + destruct V as [x ->]. cbn. eauto.
Qed.
End Sim.
