(** MVMoney.v -- conservation of mpDAO and stNEAR, failed withdrawals, deposits (C05, C07, C37). *)

From Verif Require Export MVClaims MVRelock MVClear.

(** mpDAO of one voter *)
Definition vowe (v : voter) : N := v_bal v + sum_by lp_amount (v_lps v).

Lemma lpa_insert l i p q : l !! i = Some p ->
  sum_by lp_amount (<[i := q]> l) + lp_amount p = sum_by lp_amount l + lp_amount q.
Proof. apply sum_by_insert. Qed.
Lemma lpa_app l p : sum_by lp_amount (l ++ [p]) = sum_by lp_amount l + lp_amount p.
Proof. rewrite sum_by_app, sum_by_cons, sum_by_nil. lia. Qed.

Lemma dep1_owe s v amount days v' : dep1 s v amount days v' -> vowe v' = vowe v + amount.
Proof.
  intros (vp & l' & _ & _ & Hd & _ & ->). unfold vowe. cbn [v_bal v_lps].
  destruct Hd as [(i & p & Hl & _ & _ & _ & _ & ->)|(_ & _ & ->)].
  - pose proof (lpa_insert _ _ _ (mkLpos (lp_amount p + amount) days (lp_vp p + vp) None) Hl) as H.
    cbn [lp_amount] in H. lia.
  - rewrite lpa_app. cbn [lp_amount]. lia.
Qed.

Lemma deps_owe s v l v' : deps s v l v' -> vowe v' = vowe v + sum_by (fun lp => lp.1 / E18) l.
Proof.
  induction 1 as [v|v v1 v' lp l H1 H2 IH]; [rewrite sum_by_nil; lia|].
  rewrite sum_by_cons, IH, (dep1_owe _ _ _ _ _ H1). lia.
Qed.

Lemma clears_owe now v v' : clears now v v' -> vowe v' = vowe v.
Proof.
  induction 1 as [v|v v1 i p Hc IH Hl Hu Hb]; [reflexivity|]. rewrite <- IH. unfold vowe. cbn [v_bal v_lps].
  pose proof (sum_by_swap_remove lp_amount _ _ _ Hl). lia.
Qed.

Lemma zip_owe l : forall vps, length vps = length l ->
  sum_by lp_amount (zip_with (fun lp vp => mkLpos lp.2 lp.1 vp None) l vps) = sum_by snd l.
Proof.
  induction l as [|lp l IH]; intros [|vp vps] H; try discriminate; [reflexivity|].
  cbn [zip_with]. rewrite !sum_by_cons, IH by (injection H; auto). reflexivity.
Qed.

Lemma positions_amount_eq s vid : positions_amount s vid = sum_by lp_amount (v_lps (get_voter s vid)).
Proof. unfold positions_amount. rewrite get_all_lps. apply sum_by_imap. reflexivity. Qed.

Lemma vchg_owe c s o s' e vid v' :
  vchg c s o s' e vid (get_voter s vid) v' ->
  uncl_mp s' + vowe v' + mp_sent e + import_out s (c, o)
  = uncl_mp s + vowe (get_voter s vid) + mp_received s (c, o) + import_in (c, o).
Proof.
  intros H. pose proof (positions_amount_eq s vid) as Epa.
  remember (get_voter s vid) as v eqn:Ev.
  destruct H; cbn [import_out import_in mp_received fst snd]; unfold mp_sent; rewrite ?sum_by_cons, ?sum_by_nil.
  - rewrite decide_True by assumption.
    match goal with H : dep1 _ _ _ _ _ |- _ => apply dep1_owe in H end. lia.
  - match goal with H : dep1 _ _ _ _ _ |- _ => apply dep1_owe in H end. lia.
  - match goal with H : deps _ _ _ _ |- _ => apply deps_owe in H end. change (10 ^ 18) with E18. lia.
  - assert (mp_received s (c, o) = 0 /\ import_in (c, o) = 0 /\ import_out s (c, o) = 0) as (R1 & R2 & R3).
    { match goal with H : _ \/ _ |- _ => destruct H as [->| ->]; repeat split end. }
    rewrite R1, R2, R3.
    match goal with H : v_lps v !! i = Some p |- _ =>
      pose proof (lpa_insert _ _ _ (mkLpos (lp_amount p) (lp_days p) (lp_vp p) (Some (now_ms c))) H) as K end.
    unfold vowe. cbn [v_bal v_lps lp_amount] in *. lia.
  - match goal with H : v_lps v !! i = Some p |- _ =>
      pose proof (lpa_insert _ _ _ (mkLpos (lp_amount p - amount) (lp_days p) (lp_vp p - vp) (lp_unl p)) H) as K end.
    unfold vowe. cbn [v_bal v_lps]. rewrite lpa_app. cbn [lp_amount] in *. lia.
  - match goal with H : v_lps v !! i = Some p |- _ =>
      pose proof (lpa_insert _ _ _ (mkLpos (lp_amount p) days nvp None) H) as K end.
    unfold vowe. cbn [v_bal v_lps lp_amount] in *. lia.
  - match goal with H : dep1 _ _ _ _ _ |- _ => apply dep1_owe in H end.
    match goal with H : v_lps v !! i = Some p |- _ => pose proof (sum_by_swap_remove lp_amount _ _ _ H) as K end.
    unfold vowe in *. cbn [v_bal v_lps] in *. lia.
  - match goal with H : dep1 _ _ _ _ _ |- _ => apply dep1_owe in H end.
    match goal with H : v_lps v !! i = Some p |- _ =>
      pose proof (lpa_insert _ _ _ (mkLpos (lp_amount p - afp) (lp_days p) nvp (lp_unl p)) H) as K end.
    unfold vowe in *. cbn [v_bal v_lps lp_amount] in *. lia.
  - match goal with H : dep1 _ _ _ _ _ |- _ => apply dep1_owe in H end.
    match goal with H : v_lps v !! i = Some p |- _ => pose proof (sum_by_swap_remove lp_amount _ _ _ H) as K end.
    unfold vowe in *. cbn [v_bal v_lps] in *. lia.
  - match goal with H : dep1 _ _ _ _ _ |- _ => apply dep1_owe in H end.
    unfold vowe in *. cbn [v_bal v_lps] in *. lia.
  - match goal with H : clears _ _ _ |- _ => apply clears_owe in H end. lia.
  - assert (mp_received s (c, o) = 0 /\ import_in (c, o) = 0 /\ import_out s (c, o) = 0) as (R1 & R2 & R3).
    { match goal with H : _ \/ _ |- _ => destruct H as [(? & ? & ->)| ->]; repeat split end. }
    rewrite R1, R2, R3.
    match goal with H : clears _ _ _ |- _ => apply clears_owe in H end.
    unfold vowe in *. cbn [v_bal v_lps] in *. lia.
  - unfold vowe. cbn [v_bal v_lps]. lia.
  - assert (mp_received s (c, o) = 0 /\ import_in (c, o) = 0 /\ import_out s (c, o) = 0) as (R1 & R2 & R3).
    { match goal with H : _ \/ _ |- _ =>
        destruct H as [(_ & [(? & ? & ? & ->)|[(? & ? & ? & ->)|(? & ? & ->)]])|(? & _ & [(? & ? & ? & ->)|(? & ? & ->)])];
        repeat split end. }
    rewrite R1, R2, R3.
    match goal with H : same_lps _ _ |- _ => destruct H as [Hb Hl] end.
    unfold vowe. rewrite Hb, Hl. lia.
  - match goal with H : v_lps v' = _ |- _ => unfold vowe; rewrite H end. rewrite zip_owe by assumption.
    change (ext +:+ ".evmp.near") with (pseudo_near_address ext). rewrite Epa. match goal with H : v_bal v' = _ |- _ => rewrite H end. lia.
Qed.

(** ** Sums over the voters *)
Lemma store_sum (f : voter -> N) s s' vid v' :
  f (new_voter vid) = 0 -> (v_bal v' = 0 -> v_lps v' = [] -> f v' = 0) ->
  store_voter s s' vid v' ->
  om_sum (fun _ v => f v) (voters s') + f (get_voter s vid) = om_sum (fun _ v => f v) (voters s) + f v'.
Proof.
  intros Hn Hz [E|(E & Hb & Hl & [v Hv] & _)]; rewrite E.
  - unfold get_voter. destruct (om_get (voters s) vid) as [v|] eqn:Ev; cbn [from_option id].
    + pose proof (om_sum_set_old (fun (_ : string) v => f v) _ _ _ v' Ev) as H. cbn beta in H. lia.
    + rewrite Hn. pose proof (om_sum_set_new (fun (_ : string) v => f v) _ _ v' Ev) as H. cbn beta in H. lia.
  - rewrite (Hz Hb Hl). rewrite (get_voter_Some _ _ _ Hv).
    pose proof (om_sum_remove (fun (_ : string) v => f v) _ _ _ Hv) as H. cbn beta in H. lia.
Qed.

Lemma voters_sum (f : voter -> N) s :
  NoDup (voters s).*1 -> sum_by (fun vid => f (get_voter s vid)) (voter_ids s) = om_sum (fun _ v => f v) (voters s).
Proof.
  intros Hn. unfold voter_ids, om_sum. set (g := fun vid => f (get_voter s vid)).
  transitivity (sum_by (fun p : string * voter => g p.1) (voters s)).
  - clear Hn. induction (voters s) as [|p m IH]; [reflexivity|].
    csimpl. rewrite !sum_by_cons, IH. reflexivity.
  - apply sum_by_ext. intros [k v] Hin. unfold g. cbn [fst snd]. rewrite (get_voter_Some s k v); [reflexivity|].
    apply om_In_get; assumption.
Qed.

Lemma mp_owed_eq s : NoDup (voter_ids s) -> mp_owed s = om_sum (fun _ v => vowe v) (voters s) + uncl_mp s.
Proof.
  intros Hn. unfold mp_owed, get_total_unclaimed_mpdao. f_equal. rewrite <- (voters_sum vowe s Hn).
  apply sum_by_ext. intros vid _. rewrite positions_amount_eq. reflexivity.
Qed.

Lemma c05_general x s s' e :
  NoDup (voter_ids s) -> exec x.1 s x.2 = Ok (s', e) ->
  NoDup (voter_ids s') /\
  mp_owed s' + mp_sent e + import_out s x = mp_owed s + mp_received s x + import_in x.
Proof.
  destruct x as [c o]. cbn [fst snd]. intros Hn H.
  assert (Hn' : NoDup (voter_ids s')) by (eapply voters_nd_exec; eauto). split; [exact Hn'|].
  rewrite !mp_owed_eq by assumption. pose proof (exec_frame _ _ _ _ _ H) as [Fc _].
  apply exec_cases in H as [_ [K|(vid & v' & Hst & Hch)]].
  - destruct K as (E1 & _ & _ & _ & _ & Hp & E2 & Hk). rewrite E1, E2.
    assert (mp_sent e = 0) as ->.
    { apply sum_by_zero. intros [v a|? ? ? ?] Hin; [|reflexivity]. exfalso. eapply Hp. exact Hin. }
    destruct o; try contradiction Hk; unfold import_out, import_in, mp_received; cbn [fst snd keeps] in *; try lia.
    + subst l. rewrite sum_by_nil. lia.
    + subst ok. lia.
    + case_bool_decide; [rewrite decide_True by assumption|rewrite decide_False by assumption]; lia.
  - pose proof (vchg_owe _ _ _ _ _ _ _ Hch) as Hv.
    pose proof (store_sum vowe s s' vid v' eq_refl) as Hs.
    assert (Hz : v_bal v' = 0 -> v_lps v' = [] -> vowe v' = 0) by (intros E1 E2; unfold vowe; rewrite E1, E2; reflexivity).
    specialize (Hs Hz Hst). lia.
Qed.

Lemma c05 x s s' e :
  NoDup (voter_ids s) -> exec x.1 s x.2 = Ok (s', e) -> imports x = false ->
  mp_owed s' + mp_sent e = mp_owed s + mp_received s x.
Proof.
  intros Hn H Hi. destruct (c05_general _ _ _ _ Hn H) as [_ Heq].
  assert (import_in x = 0 /\ import_out s x = 0) as [E1 E2].
  { unfold imports, import_in, import_out in *. destruct (x.2); try discriminate Hi; split; reflexivity. }
  lia.
Qed.

Lemma voter_ids_nodup a s0 tr : mv_new a = Ok s0 -> NoDup (voter_ids (run s0 tr)).
Proof.
  intros H. apply (run_inv (fun s => NoDup (voter_ids s))).
  - apply init_zero in H as (_ & _ & _ & _ & _ & _ & Hv & _). unfold voter_ids. rewrite Hv. constructor.
  - intros x s s' e _ Hn Hx. eapply voters_nd_exec; eauto.
Qed.

(** ** C07 *)
Lemma get_voter_save s vid v w : get_voter (save_voter s vid v) w = if decide (w = vid) then v else get_voter s w.
Proof.
  unfold get_voter, save_voter. cbn. destruct (decide (w = vid)) as [->|Hne].
  - rewrite om_get_set_eq. reflexivity.
  - rewrite om_get_set_ne by congruence. reflexivity.
Qed.

Lemma c07_restore c s vid amount :
  c_pred c = self_id s -> c_deposit c = 0 -> raw_balance s vid + amount < 2 ^ 128 ->
  exists s', exec c s (AfterMp vid amount false) = Ok (s', []) /\
    raw_balance s' vid = raw_balance s vid + amount /\
    vid ∈ voter_ids s' /\
    (forall w, w <> vid -> raw_balance s' w = raw_balance s w) /\
    (forall now w, get_all_locking_positions now s' w = get_all_locking_positions now s w) /\
    (forall w, get_available_voting_power s' w = get_available_voting_power s w) /\
    (forall w a o, get_votes_for_object s' w a o = get_votes_for_object s w a o) /\
    s' = s <| voters := voters s' |>.
Proof.
  intros Hp Hd Hb. set (v := get_voter s vid).
  exists (save_voter s vid (v <| v_bal := v_bal v + amount |>)).
  assert (G : forall w, get_voter (save_voter s vid (v <| v_bal := v_bal v + amount |>)) w
              = if decide (w = vid) then v <| v_bal := v_bal v + amount |> else get_voter s w)
    by (intros w; apply get_voter_save).
  split.
  { cbn [exec]. unfold after_transfer_mpdao_callback, assert_private, non_payable.
    rewrite bool_decide_true by exact Hp. rewrite Hd. cbn [N.eqb require mbind res_bind].
    fold v. rewrite add128_ok by exact Hb. reflexivity. }
  split. { unfold raw_balance. rewrite G, decide_True by reflexivity. reflexivity. }
  split. { unfold voter_ids. eapply om_get_Some_key. unfold save_voter. cbn. apply om_get_set_eq. }
  split. { intros w Hw. unfold raw_balance. rewrite G, decide_False by exact Hw. reflexivity. }
  split. { intros now w. unfold get_all_locking_positions. rewrite G. destruct (decide (w = vid)) as [->|_]; reflexivity. }
  split. { intros w. unfold get_available_voting_power. rewrite G. destruct (decide (w = vid)) as [->|_]; reflexivity. }
  split. { intros w a o. unfold get_votes_for_object. rewrite G. destruct (decide (w = vid)) as [->|_]; reflexivity. }
  destruct s; reflexivity.
Qed.

Lemma c07_success c s vid amount s' e :
  exec c s (AfterMp vid amount true) = Ok (s', e) -> s' = s /\ e = [].
Proof. cbn [exec]. unfold after_transfer_mpdao_callback. intros H. apply noeff_Ok in H as [H ->]. rinv. auto. Qed.

Lemma c07_private c s vid amount ok r :
  exec c s (AfterMp vid amount ok) = Ok r -> c_pred c = self_id s.
Proof.
  cbn [exec]. unfold after_transfer_mpdao_callback, assert_private. intros H. destruct r as [s' e].
  apply noeff_Ok in H as [H _]. apply bind_Ok in H as (? & H & _). apply require_Ok, bool_decide_eq_true in H. exact H.
Qed.

Lemma c07_withdrawal x s s' e :
  NoDup (voter_ids s) -> (exists l a, x.2 = Withdraw l a) \/ x.2 = WithdrawAll -> exec x.1 s x.2 = Ok (s', e) ->
  exists total, e = [PayMp (c_pred x.1) total] /\ 0 < total /\
    let v := c_pred x.1 in
    raw_balance s' v + positions_amount s' v + total = raw_balance s v + positions_amount s v /\
    (forall w, w <> v -> raw_balance s' w = raw_balance s w /\ positions_amount s' w = positions_amount s w).
Proof.
  destruct x as [c o]. cbn [fst snd]. intros Hn Ho H.
  assert (Hw : exists l amt, internal_withdraw c s (c_pred c) l amt = Ok (s', e)).
  { destruct Ho as [(l & a & ->)| ->]; cbn [exec] in H.
    - unfold withdraw in H. eauto.
    - unfold withdraw_all in H. apply bind_Ok in H as (v0 & _ & H). eauto. }
  destruct Hw as (l & amt & Hw). apply withdraw_inv in Hw as (v & v1 & total & Hv & Hc & _ & _ & _ & Hpos & Hle & -> & Hcase).
  exists total. split; [reflexivity|]. split; [exact Hpos|]. cbv zeta.
  apply clears_owe in Hc. unfold vowe in Hc.
  assert (G : forall w, w <> c_pred c -> get_voter s' w = get_voter s w).
  { intros w Hne. destruct Hcase as [(_ & _ & ->)|(_ & ->)]; [|rewrite get_voter_save, decide_False by exact Hne; reflexivity].
    unfold get_voter. cbn. rewrite om_get_remove_ne by (try exact Hn; congruence). reflexivity. }
  split.
  - rewrite !positions_amount_eq. unfold raw_balance. rewrite (get_voter_Some _ _ _ Hv).
    destruct Hcase as [(E1 & E2 & ->)|(_ & ->)].
    + unfold get_voter. cbn. rewrite om_get_remove_eq by exact Hn. cbn. rewrite E2 in Hc. change (sum_by lp_amount []) with 0 in *. lia.
    + rewrite get_voter_save, decide_True by reflexivity. cbn [v_bal v_lps]. lia.
  - intros w Hne. rewrite !positions_amount_eq. unfold raw_balance. rewrite G by exact Hne. auto.
Qed.

(** stNEAR *)
Lemma c05_st s x s' e :
  CIs s -> exec x.1 s x.2 = Ok (s', e) ->
  ci_uncl_st (get_contract_info s') + st_sent e = ci_uncl_st (get_contract_info s) + st_received s x.
Proof.
  intros HC H. destruct (claims_step _ _ _ _ HC H) as (_ & _ & _ & _ & H4 & _). cbn.
  unfold st_claimed_all in H4. rewrite H4, <- N.add_assoc. f_equal.
  destruct (claims_list x) as [l0|] eqn:El.
  - destruct x as [c o]. cbn [fst snd] in *. destruct o; try discriminate El.
    unfold st_given_all, st_restored_all, st_received. cbn [fst snd]. rewrite El. cbn [from_option Datatypes.id].
    apply ft_cases in H as (_ & _ & [(l & Hl & _ & [(Hp & _)|(Hnp & Hp & Ha & _)])|(Hnp & Hp & _)]).
    + rewrite !decide_True by exact Hp. lia.
    + rewrite !(decide_False (P := c_pred c = mpdao_addr s)) by exact Hnp. rewrite !decide_True by exact Hp.
      assert (l0 = l) as -> by congruence. lia.
    + rewrite !decide_True by exact Hp. lia.
  - destruct (given_none s x e El) as (_ & _ & _ & Z). rewrite Z. destruct x as [c o]. cbn [fst snd] in *.
    destruct o; try reflexivity; try (destruct ok; reflexivity).
    + apply ft_cases in H as (_ & _ & [(l & Hl & _)|(_ & Hp & _)]); [congruence|].
      unfold st_restored_all, st_received. cbn [fst snd]. rewrite !decide_True by exact Hp. lia.
Qed.

(** ** Decimal numbers *)
Fixpoint dv (acc : N) (s : string) : option N :=
  match s with
  | EmptyString => Some acc
  | String a s' => if is_digit a then dv (acc * 10 + (N_of_ascii a - 48)) s' else None
  end.

Lemma dv_ge s : forall acc n, dv acc s = Some n -> acc <= n.
Proof.
  induction s as [|a s IH]; intros acc n H; cbn [dv] in H; [injection H as <-; lia|].
  destruct (is_digit a); [|discriminate]. apply IH in H. lia.
Qed.

Lemma parse_dv L s : forall acc n, acc < L -> parse_digits L acc s = Some n <-> dv acc s = Some n /\ n < L.
Proof.
  induction s as [|a s IH]; intros acc n Hacc; cbn [parse_digits dv].
  - split; [intros [= <-]; auto|tauto].
  - destruct (is_digit a); [|split; [discriminate|intros [? _]; discriminate]]. cbn zeta.
    destruct (N.ltb_spec (acc * 10 + (N_of_ascii a - 48)) L) as [Hlt|Hge]; [apply IH; exact Hlt|].
    split; [discriminate|]. intros [H Hn]. apply dv_ge in H. lia.
Qed.

Lemma digit_range a : is_digit a = true <-> 48 <= N_of_ascii a <= 57.
Proof. unfold is_digit. rewrite andb_true_iff, !N.leb_le. lia. Qed.

Lemma append_cons1 a (s : string) : String a EmptyString +:+ s = String a s.
Proof. reflexivity. Qed.
Lemma append_assoc (s t u : string) : (s +:+ t) +:+ u = s +:+ (t +:+ u).
Proof. induction s as [|a s IH]; [reflexivity|]. cbn [String.append]. rewrite !append_cons. f_equal. exact IH. Qed.
Lemma append_nil (s : string) : s +:+ EmptyString = s.
Proof. induction s as [|a s IH]; [reflexivity|]. rewrite append_cons. f_equal. exact IH. Qed.

Lemma dv_app s a : forall acc,
  dv acc (s +:+ String a EmptyString)
  = match dv acc s with Some m => if is_digit a then Some (m * 10 + (N_of_ascii a - 48)) else None | None => None end.
Proof.
  induction s as [|b s IH]; intros acc; [reflexivity|]. rewrite append_cons. cbn [dv].
  destruct (is_digit b); [apply IH|reflexivity].
Qed.

Lemma decimal_dv s n : decimal s n -> dv 0 s = Some n.
Proof.
  induction 1 as [a Ha|s n a _ IH Ha]; apply digit_range in Ha.
  - cbn [dv]. rewrite Ha. unfold digit_value. f_equal.
  - rewrite dv_app, IH, Ha. unfold digit_value. f_equal. lia.
Qed.

Lemma dv_decimal s : forall t acc n, decimal t acc -> dv acc s = Some n -> decimal (t +:+ s) n.
Proof.
  induction s as [|a s IH]; intros t acc n Ht H; cbn [dv] in H.
  - injection H as <-. rewrite append_nil. exact Ht.
  - destruct (is_digit a) eqn:Ea; [|discriminate].
    rewrite <- append_cons1, <- append_assoc. eapply IH; [|exact H].
    replace (acc * 10 + (N_of_ascii a - 48)) with (10 * acc + digit_value a) by (unfold digit_value; lia).
    apply dec_more; [exact Ht|]. apply digit_range. exact Ea.
Qed.

Lemma parse_digits_spec s n : s <> EmptyString -> parse_digits U16_SIZE 0 s = Some n <-> decimal s n /\ n < 65536.
Proof.
  intros Hs. rewrite parse_dv by reflexivity. change U16_SIZE with 65536. split; intros [H Hn]; (split; [|exact Hn]).
  - destruct s as [|a s]; [contradiction|]. cbn [dv] in H. destruct (is_digit a) eqn:Ea; [|discriminate].
    rewrite <- append_cons1. eapply dv_decimal; [|exact H].
    replace (0 * 10 + (N_of_ascii a - 48)) with (digit_value a) by (unfold digit_value; lia).
    apply dec_one. apply digit_range. exact Ea.
  - apply decimal_dv. exact H.
Qed.

Lemma decimal_nonempty s n : decimal s n -> exists a r, s = String a r /\ is_digit a = true.
Proof.
  intros H. apply decimal_dv in H as H1. destruct s as [|a r]; [|cbn [dv] in H1; destruct (is_digit a) eqn:E; [eauto|discriminate]].
  exfalso. inversion H as [|s' n' a' Hd Ha E]; subst. destruct s'; discriminate.
Qed.

Lemma parse_u16_spec s n : parse_u16 s = Some n <-> u16_text s n.
Proof.
  unfold u16_text. destruct s as [|a s].
  - split; [discriminate|]. intros [_ [H|(s' & E & H)]]; [|discriminate].
    apply decimal_nonempty in H as (a & r & E & _). discriminate.
  - unfold parse_u16. destruct (N.eqb_spec (N_of_ascii a) 43) as [Ea|Ea].
    + assert (a = "+"%char) as -> by (rewrite <- (ascii_N_embedding a), Ea; reflexivity).
      destruct s as [|b s].
      * split; [discriminate|]. intros [_ [H|(s' & E & H)]].
        -- apply decimal_nonempty in H as (a & r & E & Hd). injection E as <- _. discriminate.
        -- apply decimal_nonempty in H as (a & r & -> & Hd). discriminate.
      * rewrite parse_digits_spec by discriminate. split.
        -- intros [H Hn]. split; [exact Hn|]. right. exists (String b s). split; [reflexivity|exact H].
        -- intros [Hn [H|(s' & E & H)]].
           ++ apply decimal_nonempty in H as (a & r & E & Hd). injection E as <- _. discriminate.
           ++ injection E as <-. auto.
    + rewrite parse_digits_spec by discriminate. split.
      * intros [H Hn]. auto.
      * intros [Hn [H|(s' & E & H)]]; [auto|]. exfalso. injection E as -> _. apply Ea. reflexivity.
Qed.

(** ** C37 *)
Lemma c37 c s sender amount msg s' e w :
  exec c s (FtOnTransfer sender amount msg) = Ok (s', e) ->
  get_all_locking_positions 0 s' w <> get_all_locking_positions 0 s w ->
  let i := get_contract_info s in
  e = [] /\ c_pred c = ci_mpdao i /\ ci_min_deposit i <= amount /\
  (exists days, ci_min_unbond i <= days <= ci_max_unbond i /\
    ((u16_text msg days /\ w = sender) \/
     ((forall d, ~ u16_text msg d) /\ c_json_pair c msg = Some (w, days) /\ sender = ci_owner i)) /\
    amount_at s' w days = amount_at s w days + amount /\
    (forall d, d <> days -> amount_at s' w d = amount_at s w d)) /\
  positions_amount s' w = positions_amount s w + amount /\
  (forall u, u <> w -> get_all_locking_positions 0 s' u = get_all_locking_positions 0 s u).
Proof.
  intros H Hne. cbn.
  apply ft_cases in H as (-> & _ & [(l & _ & _ & H)|(_ & Hp & Hm & vid & days & v' & t & Hb & Hd & Es)]).
  { exfalso. apply Hne. unfold get_all_locking_positions, get_voter.
    destruct H as [(_ & _ & Es)|(_ & _ & _ & Es)]; cbn zeta in Es; rewrite Es; reflexivity. }
  assert (G : forall u, get_voter s' u = if decide (u = vid) then v' else get_voter s u).
  { intros u. rewrite Es. unfold upd. rewrite get_voter_save. destruct (decide (u = vid)); reflexivity. }
  assert (w = vid) as ->.
  { destruct (decide (w = vid)) as [E|E]; [exact E|]. exfalso. apply Hne. unfold get_all_locking_positions.
    rewrite G, decide_False by exact E. reflexivity. }
  split; [reflexivity|]. split; [exact Hp|]. split; [exact Hm|].
  pose proof Hd as (vp & l' & _ & Hrange & _).
  split; [|split].
  - exists days. split; [exact Hrange|]. split.
    + destruct Hb as [(Hu & Ev)|(Hu & Hj & _ & Ho)].
      * left. split; [apply parse_u16_spec; exact Hu|exact Ev].
      * right. split; [|split; [exact Hj|exact Ho]].
        intros d Hd'. apply parse_u16_spec in Hd'. congruence.
    + split; [|intros d Hne']; rewrite !amount_at_eq, G, decide_True by reflexivity.
      * destruct (dep1_amt _ _ _ _ _ days Hd) as [-> _]. rewrite N.eqb_refl. reflexivity.
      * destruct (dep1_amt _ _ _ _ _ d Hd) as [-> _].
        destruct (N.eqb_spec days d); [congruence|]. lia.
  - rewrite !positions_amount_eq, G, decide_True by reflexivity. pose proof (dep1_owe _ _ _ _ _ Hd) as Ho.
    destruct Hd as (vp2 & l2 & _ & _ & _ & _ & Ev). unfold vowe in Ho. rewrite Ev in Ho |- *. cbn [v_bal v_lps] in *. lia.
  - intros u Hu. unfold get_all_locking_positions. rewrite G, decide_False by exact Hu. reflexivity.
Qed.

Lemma c37_consumed c s sender amount msg s' unused :
  ft_on_transfer c s sender amount msg = Ok (s', unused) -> unused = 0.
Proof. intros H. apply ft_shape in H. destruct H as (E & _). exact E. Qed.
