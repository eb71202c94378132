(** MVCases.v -- one summary of what any successful call does to the voters.
    Used by the proofs about positions, money, time and isolation. *)

From Verif Require Export MVInv.

(** a deposit of [amount] for [days] into voter [v] *)
Definition dep1 (s : state) (v : voter) (amount days : N) (v' : voter) : Prop :=
  exists vp l', calculate_voting_power amount days = Ok vp /\
    min_unbond s <= days <= max_unbond s /\
    dep_lps (max_lps s) (v_lps v) amount days vp l' /\
    v_avail v + vp < U128_SIZE /\
    v' = mkVoter (v_bal v) l' (v_avail v + vp) (v_vp v).

(** a list of (raw amount, days) migrated one after the other *)
Inductive deps (s : state) : voter -> list (N * N) -> voter -> Prop :=
| deps_nil v : deps s v [] v
| deps_cons v v1 v' lp l :
    dep1 s v (lp.1 / E18) lp.2 v1 -> deps s v1 l v' -> deps s v (lp :: l) v'.

(** who is credited by a bonding transfer, and for how many days *)
Definition bond_for (c : ctx) (s : state) (sender msg : string) (vid : string) (days : N) : Prop :=
  (parse_u16 msg = Some days /\ vid = sender) \/
  (parse_u16 msg = None /\ c_json_pair c msg = Some (vid, days) /\ days < U16_SIZE /\ sender = owner_id s).

(** balance and positions of a voter *)
Definition same_lps (v v' : voter) : Prop := v_bal v' = v_bal v /\ v_lps v' = v_lps v.

(** [vchg c s o s' e vid v v']: the call [o] changes voter [vid] from [v] to [v']. *)
Inductive vchg (c : ctx) (s : state) : op -> state -> list eff -> string -> voter -> voter -> Prop :=
| ch_bond sender amount msg days s' vid v v' :
    c_pred c = mpdao_addr s -> min_deposit s <= amount -> bond_for c s sender msg vid days ->
    c_deposit c = 0 -> msg_is_for_claims msg = Ok false ->
    dep1 s v amount days v' -> uncl_mp s' = uncl_mp s ->
    vchg c s (FtOnTransfer sender amount msg) s' [] vid v v'
| ch_claim amount days s' v v' :
    om_get (voters s) (c_pred c) = Some v -> c_deposit c = 0 ->
    min_deposit s <= amount -> dep1 s v amount days v' ->
    amount <= default 0 (om_get (claim_mp s) (c_pred c)) ->
    amount <= uncl_mp s -> uncl_mp s' = uncl_mp s - amount ->
    vchg c s (ClaimAndLock amount days) s' [] (c_pred c) v v'
| ch_migrate vid l d s' v v' :
    c_pred c = prev_gov s -> deps s v l v' -> l <> [] -> uncl_mp s' = uncl_mp s ->
    vchg c s (MigrationCreateLps vid l d) s' [] vid v v'
| ch_unlock o i p s' v :
    om_get (voters s) (c_pred c) = Some v -> v_lps v !! i = Some p ->
    (o = Unlock i \/ o = UnlockPartial i (lp_amount p)) ->
    lp_vp p <= v_avail v -> uncl_mp s' = uncl_mp s ->
    vchg c s o s' [] (c_pred c) v
      (mkVoter (v_bal v)
         (<[i := mkLpos (lp_amount p) (lp_days p) (lp_vp p) (Some (now_ms c))]> (v_lps v))
         (v_avail v - lp_vp p) (v_vp v))
| ch_unlock_partial i amount p vp s' v :
    om_get (voters s) (c_pred c) = Some v -> v_lps v !! i = Some p ->
    amount < lp_amount p -> min_deposit s <= lp_amount p - amount ->
    ONE_MPDAO <= amount -> ONE_MPDAO <= lp_amount p - amount ->
    calculate_voting_power amount (lp_days p) = Ok vp -> vp <= lp_vp p -> vp <= v_avail v ->
    N.of_nat (length (v_lps v)) mod 256 < max_lps s -> uncl_mp s' = uncl_mp s ->
    vchg c s (UnlockPartial i amount) s' [] (c_pred c) v
      (mkVoter (v_bal v)
         (<[i := mkLpos (lp_amount p - amount) (lp_days p) (lp_vp p - vp) (lp_unl p)]> (v_lps v)
            ++ [mkLpos amount (lp_days p) vp (Some (now_ms c))])
         (v_avail v - vp) (v_vp v))
| ch_extend i days p nvp s' v :
    om_get (voters s) (c_pred c) = Some v -> v_lps v !! i = Some p ->
    lp_unl p = None -> lp_days p < days -> calculate_voting_power (lp_amount p) days = Ok nvp ->
    lp_vp p <= nvp -> uncl_mp s' = uncl_mp s ->
    vchg c s (ExtendDays i days) s' [] (c_pred c) v
      (mkVoter (v_bal v) (<[i := mkLpos (lp_amount p) days nvp None]> (v_lps v))
         (v_avail v + (nvp - lp_vp p)) (v_vp v))
| ch_relock i days afb p started s' v v' :
    om_get (voters s) (c_pred c) = Some v -> v_lps v !! i = Some p -> lp_unl p = Some started ->
    afb <= v_bal v ->
    (now_ms c < started + days_to_millis (lp_days p) ->
     started + days_to_millis (lp_days p) - now_ms c < days_to_millis days) ->
    lp_amount p + afb < U128_SIZE ->
    dep1 s (mkVoter (v_bal v - afb) (swap_remove i (v_lps v)) (v_avail v) (v_vp v))
      (lp_amount p + afb) days v' ->
    uncl_mp s' = uncl_mp s ->
    vchg c s (Relock i days afb) s' [] (c_pred c) v v'
| ch_relock_partial i afp days afb p started nvp s' v v' :
    om_get (voters s) (c_pred c) = Some v -> v_lps v !! i = Some p -> lp_unl p = Some started ->
    afb <= v_bal v -> min_deposit s <= afb + afp -> afb + afp < U128_SIZE ->
    now_ms c < started + days_to_millis (lp_days p) ->
    started + days_to_millis (lp_days p) - now_ms c < days_to_millis days ->
    afp < lp_amount p -> calculate_voting_power (lp_amount p - afp) (lp_days p) = Ok nvp ->
    dep1 s (mkVoter (v_bal v - afb)
              (<[i := mkLpos (lp_amount p - afp) (lp_days p) nvp (lp_unl p)]> (v_lps v))
              (v_avail v) (v_vp v)) (afb + afp) days v' ->
    uncl_mp s' = uncl_mp s ->
    vchg c s (RelockPartial i afp days afb) s' [] (c_pred c) v v'
| ch_relock_unlocked i afp days afb p started s' v v' :
    om_get (voters s) (c_pred c) = Some v -> v_lps v !! i = Some p -> lp_unl p = Some started ->
    afb <= v_bal v -> min_deposit s <= afb + afp -> afb + afp < U128_SIZE ->
    started + days_to_millis (lp_days p) <= now_ms c ->
    afp <= lp_amount p -> v_bal v + (lp_amount p - afp) < U128_SIZE ->
    dep1 s (mkVoter (v_bal v + (lp_amount p - afp) - afb) (swap_remove i (v_lps v))
              (v_avail v) (v_vp v)) (afb + afp) days v' ->
    uncl_mp s' = uncl_mp s ->
    vchg c s (RelockPartial i afp days afb) s' [] (c_pred c) v v'
| ch_relock_balance days amount s' v v' :
    om_get (voters s) (c_pred c) = Some v -> amount <= v_bal v -> min_deposit s <= amount ->
    dep1 s (mkVoter (v_bal v - amount) (v_lps v) (v_avail v) (v_vp v)) amount days v' ->
    uncl_mp s' = uncl_mp s ->
    vchg c s (RelockFromBalance days amount) s' [] (c_pred c) v v'
| ch_clear l s' v v' :
    om_get (voters s) (c_pred c) = Some v -> clears (now_ms c) v v' ->
    clear_fully_unlocked_positions (now_ms c) v l = Ok v' -> uncl_mp s' = uncl_mp s ->
    vchg c s (ClearPositions l) s' [] (c_pred c) v v'
| ch_withdraw o total s' v v1 :
    om_get (voters s) (c_pred c) = Some v -> (exists l a, o = Withdraw l a) \/ o = WithdrawAll ->
    c_deposit c = 1 -> clears (now_ms c) v v1 -> 0 < total -> total <= v_bal v1 ->
    uncl_mp s' = uncl_mp s ->
    vchg c s o s' [PayMp (c_pred c) total] (c_pred c) v
      (mkVoter (v_bal v1 - total) (v_lps v1) (v_avail v1) (v_vp v1))
| ch_restore vid amount s' v :
    c_pred c = self_id s -> v_bal v + amount < U128_SIZE -> uncl_mp s' = uncl_mp s ->
    vchg c s (AfterMp vid amount false) s' [] vid v
      (mkVoter (v_bal v + amount) (v_lps v) (v_avail v) (v_vp v))
| ch_votes o s' vid v v' :
    om_get (voters s) vid = Some v ->
    (vid = c_pred c /\ ((exists p a b, o = Vote p a b) \/ (exists p a b, o = Rebalance p a b) \/
                        (exists a b, o = Unvote a b))) \/
    (exists e, vid = pseudo_near_address e /\
       ((exists p a b, o = VoteDelegated e p a b) \/ (exists a b, o = UnvoteDelegated e a b))) ->
    same_lps v v' -> uncl_mp s' = uncl_mp s ->
    vchg c s o s' [] vid v v'
| ch_mirror ext l vps s' v v' :
    operator_id s = c_pred c ->
    mapMr (fun lp => calculate_voting_power lp.2 lp.1) l = Ok vps -> length vps = length l ->
    v_bal v' = v_bal v -> v_lps v' = zip_with (fun lp vp => mkLpos lp.2 lp.1 vp None) l vps ->
    NoDup l.*1 -> (max_lps s < 256 -> N.of_nat (length l) <= max_lps s) ->
    uncl_mp s' = uncl_mp s ->
    vchg c s (MirrorLps ext l) s' [] (pseudo_near_address ext) v v'.

(** the voters map afterwards; a withdrawal that empties the account removes it *)
Definition store_voter (s s' : state) (vid : string) (v' : voter) : Prop :=
  voters s' = om_set (voters s) vid v' \/
  (voters s' = om_remove (voters s) vid /\ v_bal v' = 0 /\ v_lps v' = [] /\
   is_Some (om_get (voters s) vid) /\ locked_vp (v_lps (get_voter s vid)) = 0).

(** calls that can leave all voters alone *)
Definition keeps (o : op) : Prop :=
  match o with
  | AfterMp _ _ ok => ok = true
  | MigrationCreateLps _ l _ => l = []
  | FtOnTransfer _ _ msg => msg_is_for_claims msg = Ok true
  | MirrorLps _ _ | ClaimAndLock _ _ | Unlock _ | UnlockPartial _ _ | ExtendDays _ _ | Relock _ _ _
  | RelockPartial _ _ _ _ | RelockFromBalance _ _ | ClearPositions _ | Withdraw _ _ | WithdrawAll
  | Vote _ _ _ | Rebalance _ _ _ | Unvote _ _ | VoteDelegated _ _ _ _ | UnvoteDelegated _ _ _ => False
  | _ => True
  end.
Definition vkeep (c : ctx) (s : state) (o : op) (s' : state) (e : list eff) : Prop :=
  voters s' = voters s /\ votes s' = votes s /\ total_vp s' = total_vp s /\
  hp_vp s' = hp_vp s /\ hp_vv s' = hp_vv s /\
  (forall v a, ~ In (PayMp v a) e) /\
  uncl_mp s' = uncl_mp s +
    match o with
    | FtOnTransfer _ amount _ => if bool_decide (c_pred c = mpdao_addr s) then amount else 0
    | _ => 0
    end /\
  keeps o.

(** calls that may change votes *)
Definition is_vote_op (o : op) : bool :=
  match o with
  | Vote _ _ _ | Rebalance _ _ _ | Unvote _ _ | VoteDelegated _ _ _ _ | UnvoteDelegated _ _ _
  | MirrorLps _ _ => true
  | _ => false
  end.

Definition votes_kept (s s' : state) : Prop :=
  votes s' = votes s /\ hp_vp s' = hp_vp s /\ hp_vv s' = hp_vv s.

(** ** Shapes that need no invariant *)
Lemma create_vp_shape s vid v vp addr obj s' v' :
  internal_create_voting_position s vid v vp addr obj = Ok (s', v') ->
  same_lps v v' /\ v_avail v' = v_avail v - vp /\ vp <= v_avail v /\
  exists vs hv hp, s' = s <| votes := vs |> <| hp_vv := hv |> <| hp_vp := hp |>.
Proof.
  intros H. unfold internal_create_voting_position in H. rinv. nb.
  match goal with H : increase_total_votes _ _ _ _ = Ok _ |- _ => apply increase_total_inv in H as [vs ->] end.
  split; [split; reflexivity|]. split; [reflexivity|]. split; [assumption|].
  exists vs. eexists _, _. destruct s; reflexivity.
Qed.

Lemma remove_vp_shape s vid v addr obj s' v' :
  internal_remove_voting_position s vid v addr obj = Ok (s', v') ->
  same_lps v v' /\
  exists vs hv hp, s' = s <| votes := vs |> <| hp_vv := hv |> <| hp_vp := hp |>.
Proof.
  intros H. unfold internal_remove_voting_position in H.
  apply bind_Ok in H as (h & _ & H). apply bind_Ok in H as (oo & _ & H).
  apply bind_Ok in H as (x & _ & H). apply bind_Ok in H as (av & _ & H).
  apply bind_Ok in H as ([hv h'] & _ & H). apply bind_Ok in H as ([hp vph] & _ & H).
  apply bind_Ok in H as (s1 & Hdec & H). injection H as <- <-.
  apply decrease_total_inv in Hdec as [vs ->].
  split; [split; reflexivity|]. exists vs, hv, hp. destruct s; reflexivity.
Qed.

Lemma mirror_loop_shape fuel : forall s vid v u new s' v' u',
  mirror_loop fuel s vid v u new = Ok (s', v', u') ->
  same_lps v v' /\
  exists vs hv hp, s' = s <| votes := vs |> <| hp_vv := hv |> <| hp_vp := hp |>.
Proof.
  induction fuel as [|fuel IH]; intros s vid v u new s' v' u' H; simpl in H;
    destruct (new <? u) eqn:Elt; try discriminate.
  - injection H as <- <- <-. split; [split; reflexivity|].
    exists (votes s), (hp_vv s), (hp_vp s). destruct s; reflexivity.
  - apply bind_Ok in H as (ok & _ & H). apply bind_Ok in H as (addr & _ & H).
    apply bind_Ok in H as (oh & _ & H). apply bind_Ok in H as (h & _ & H).
    apply bind_Ok in H as (oo & _ & H). apply bind_Ok in H as (obj & _ & H).
    apply bind_Ok in H as (ov & _ & H). apply bind_Ok in H as (x & _ & H).
    apply bind_Ok in H as ([s1 v1] & Hrm & H). apply bind_Ok in H as (u1 & _ & H).
    apply remove_vp_shape in Hrm as ([E1 E2] & vs & hv & hp & ->).
    apply IH in H as ([E3 E4] & vs' & hv' & hp' & ->).
    split; [split; congruence|]. exists vs', hv', hp'. destruct s; reflexivity.
  - injection H as <- <- <-. split; [split; reflexivity|].
    exists (votes s), (hp_vv s), (hp_vp s). destruct s; reflexivity.
Qed.

Lemma create_lps_room l : forall s v s' v',
  foldM (fun sv lp => internal_create_locking_position sv.1 sv.2 lp.2 lp.1) l (s, v) = Ok (s', v') ->
  (forall p, In p (v_lps v) -> lp_unl p = None) ->
  max_lps s < 256 -> N.of_nat (length (v_lps v)) <= max_lps s ->
  N.of_nat (length (v_lps v) + length l) <= max_lps s.
Proof.
  induction l as [|lp l IH]; intros s v s' v' H Hu Hm Hl; simpl in H.
  { rewrite Nat.add_0_r. exact Hl. }
  destruct (internal_create_locking_position s v lp.2 lp.1) as [[s1 v1]|] eqn:E; [|discriminate].
  apply create_lp_inv in E as (vp & _ & _ & Hlt & _ & _ & -> & ->).
  apply IH in H; cbn in *.
  - rewrite app_length in H. cbn in H. lia.
  - intros p Hp. apply in_app_iff in Hp as [Hp|[<-|[]]]; auto.
  - exact Hm.
  - rewrite app_length. cbn. rewrite N.mod_small in Hlt by lia. lia.
Qed.

Lemma create_lps_nodup l : forall s v s' v',
  foldM (fun sv lp => internal_create_locking_position sv.1 sv.2 lp.2 lp.1) l (s, v) = Ok (s', v') ->
  (forall p, In p (v_lps v) -> lp_unl p = None) ->
  NoDup l.*1 /\ (forall p lp, In p (v_lps v) -> In lp l -> lp_days p <> lp.1).
Proof.
  induction l as [|lp l IH]; intros s v s' v' H Hu; simpl in H.
  { split; [constructor|]. intros p lp _ []. }
  destruct (internal_create_locking_position s v lp.2 lp.1) as [[s1 v1]|] eqn:E; [|discriminate].
  apply create_lp_inv in E as (vp & _ & Hf & _ & _ & _ & -> & ->).
  apply IH in H as [Hnd Hall]; cbn in *.
  - split.
    + csimpl. apply NoDup_cons. split; [|exact Hnd]. intros Hin.
      apply elem_of_list_fmap in Hin as (lp2 & E & Hin). apply elem_of_list_In in Hin.
      eapply (Hall (mkLpos lp.2 lp.1 vp None) lp2); [apply in_app_iff; right; left; reflexivity|exact Hin|].
      exact E.
    + intros p lp2 Hp [<-|Hlp]; [|apply Hall; [apply in_app_iff; left; exact Hp|exact Hlp]].
      intros Hd. apply find_locked_from_None with (p := p) in Hf; auto.
  - intros p Hp. apply in_app_iff in Hp as [Hp|[<-|[]]]; auto.
Qed.

Lemma mirror_shape c s ext l s' :
  operator_mirror_lps c s ext l = Ok s' ->
  exists vps v',
    let vid := pseudo_near_address ext in
    operator_id s = c_pred c /\
    mapMr (fun lp => calculate_voting_power lp.2 lp.1) l = Ok vps /\ length vps = length l /\
    v_bal v' = v_bal (get_voter s vid) /\
    v_lps v' = zip_with (fun lp vp => mkLpos lp.2 lp.1 vp None) l vps /\
    NoDup l.*1 /\ (max_lps s < 256 -> N.of_nat (length l) <= max_lps s) /\
    voters s' = om_set (voters s) vid v' /\
    exists vs hv hp t, s' = s <| votes := vs |> <| hp_vv := hv |> <| hp_vp := hp |> <| total_vp := t |>
                              <| voters := voters s' |>.
Proof.
  intros H. unfold operator_mirror_lps, assert_operator in H. cbn zeta in H.
  set (vid := pseudo_near_address ext) in *. set (v := get_voter s vid) in *.
  apply bind_Ok in H as (? & _ & H).
  apply bind_Ok in H as (? & Hop & H). apply require_Ok, bool_decide_eq_true in Hop.
  apply bind_Ok in H as (u & _ & H). apply bind_Ok in H as (prev & _ & H).
  apply bind_Ok in H as (vps & Hvps & H). apply bind_Ok in H as (new & _ & H).
  apply bind_Ok in H as ([[s1 v1] u1] & Hloop & H).
  apply bind_Ok in H as ([s2 v3] & Hcr & H). apply bind_Ok in H as (av & _ & H).
  apply bind_Ok in H as (t & _ & H). injection H as <-.
  apply mirror_loop_shape in Hloop as ([Hb Hlp] & vs & hv & hp & Es).
  pose proof (create_lps_nodup _ _ _ _ _ Hcr ltac:(intros p [])) as [Hnd _].
  pose proof (create_lps_room _ _ _ _ _ Hcr ltac:(intros p [])) as Hroom.
  destruct (create_lps_loop _ _ _ _ _ _ Hvps Hcr) as (-> & -> & Hlv & _). cbn in *.
  assert (max_lps s1 = max_lps s) as Em by (rewrite Es; reflexivity). rewrite Em in Hroom.
  assert (voters s1 = voters s) as Ev by (rewrite Es; reflexivity).
  exists vps. eexists. split; [exact Hop|]. split; [exact Hvps|]. split; [exact Hlv|].
  split; [|split; [|split; [exact Hnd|split; [intros Hm; apply Hroom; [exact Hm|lia]|split]]]]; cycle 2.
  { rewrite Ev. reflexivity. }
  { exists vs, hv, hp, t. rewrite Es. destruct s; reflexivity. }
  { exact Hb. }
  reflexivity.
Qed.

Lemma migration_shape c s vid l d s' :
  migration_create_lps c s vid l d = Ok s' ->
  c_pred c = prev_gov s /\
  exists v', deps s (get_voter s vid) l v' /\
    voters s' = (if decide (l = []) then voters s else om_set (voters s) vid v') /\
    exists t ud, s' = s <| total_vp := t |> <| user_data := ud |> <| voters := voters s' |> /\
      (l = [] -> t = total_vp s).
Proof.
  intros H. unfold migration_create_lps in H. apply bind_Ok in H as (? & _ & H).
  apply bind_Ok in H as (? & Hp & H). apply require_Ok, bool_decide_eq_true in Hp.
  apply bind_Ok in H as ([s1 v1] & HF & H). split; [exact Hp|].
  assert (forall v0 s0, foldM (fun sv lp => deposit_locking_position sv.1 (lp.1 / E18) lp.2 vid sv.2)
     l (s0, v0) = Ok (s1, v1) ->
     (exists t vs, s0 = s <| total_vp := t |> <| voters := vs |>) ->
     deps s v0 l v1 /\ voters s1 = (if decide (l = []) then voters s0 else om_set (voters s0) vid v1) /\
     (exists t vs, s1 = s <| total_vp := t |> <| voters := vs |>) /\ (l = [] -> s1 = s0)) as Hgen.
  { clear H HF. induction l as [|lp l IH]; intros v0 s0 HF Hs0; simpl in HF.
    - injection HF as <- <-. split; [constructor|]. split; [reflexivity|]. split; [exact Hs0|reflexivity].
    - destruct (deposit_locking_position s0 (lp.1 / E18) lp.2 vid v0) as [[s2 v2]|] eqn:E; [|discriminate].
      apply deposit_inv in E as (vp & l' & Hc & Hb & Hd & Ha & _ & Ev2 & Es2).
      destruct Hs0 as (t & vs & Es0).
      assert (Hs2 : exists t vs, s2 = s <| total_vp := t |> <| voters := vs |>).
      { exists (total_vp s0 + vp), (om_set (voters s0) vid v2). rewrite Es2, Es0. destruct s; reflexivity. }
      destruct (IH _ _ HF Hs2) as (H1 & H2 & H3 & _).
      assert (voters s2 = om_set (voters s0) vid v2) as Ev by (rewrite Es2; reflexivity).
      split; [|split; [|split; [exact H3|discriminate]]].
      + econstructor; [|exact H1]. exists vp, l'.
        assert (min_unbond s0 = min_unbond s /\ max_unbond s0 = max_unbond s /\ max_lps s0 = max_lps s) as (E1 & E2 & E3)
          by (rewrite Es0; auto).
        rewrite E1, E2 in Hb. rewrite E3 in Hd. auto.
      + rewrite decide_False by discriminate. rewrite H2, Ev. case_decide.
        * subst l. simpl in HF. injection HF as _ <-. reflexivity.
        * clear. generalize (voters s0) as m. induction m as [|[k w] m IH]; simpl.
          -- rewrite decide_True by reflexivity. reflexivity.
          -- destruct (decide (vid = k)); simpl.
             ++ rewrite decide_True by assumption. reflexivity.
             ++ rewrite decide_False by assumption. rewrite IH. reflexivity. }
  destruct (Hgen _ _ HF) as (H1 & H2 & (t & vs & Es) & Hnil).
  { exists (total_vp s), (voters s). destruct s; reflexivity. }
  exists v1. split; [exact H1|].
  assert (exists ud, s' = s1 <| user_data := ud |>) as [ud ->].
  { destruct d as [d|]; [destruct (om_get (user_data s1) (c_pred c))|]; injection H as <-;
      [exists (user_data s1)|eexists|exists (user_data s1)]; try reflexivity; destruct s1; reflexivity. }
  split; [exact H2|]. exists t, ud. split; [rewrite Es; destruct s; reflexivity|].
  intros ->. specialize (Hnil eq_refl). rewrite <- Hnil, Es. reflexivity.
Qed.

Lemma distribute_shape c s total l s' :
  distribute_for_claims c s total l = Ok s' ->
  voters s' = voters s /\ votes_kept s s' /\ total_vp s' = total_vp s /\
  uncl_mp s' = uncl_mp s + (if bool_decide (c_pred c = mpdao_addr s) then total else 0).
Proof.
  intros H. unfold distribute_for_claims in H.
  apply bind_Ok in H as ([s2 d] & H & H'). apply bind_Ok in H' as (? & Hd & H'). injection H' as <-.
  apply require_Ok in Hd. nb.
  case_bool_decide; [|case_bool_decide; [|discriminate]];
    apply bind_Ok in H as ([s1 d1] & HF & H); apply bind_Ok in H as (acc & _ & H); injection H as <- ->.
  - eapply (foldM_inv (fun sd => (voters sd.1 = voters s /\ votes_kept s sd.1 /\ total_vp sd.1 = total_vp s) /\
       uncl_mp sd.1 = uncl_mp s + sd.2)) in HF.
    + cbn in *. destruct HF as ((K1 & K2 & K3) & K4). subst. split; [exact K1|]. split; [exact K2|]. split; [exact K3|exact K4].
    + intros [s3 d3] item [s4 d4] _ ((I1 & I2 & I3) & I4) Hs. cbn in *. rinv.
      match goal with H : add_claimable_mpdao _ _ _ = Ok _ |- _ => apply add_claimable_mpdao_inv in H as (_ & _ & _ & ->) end.
      split; [split; [exact I1|split; [exact I2|exact I3]]|]. cbn in *. lia.
    + cbn. unfold votes_kept. rewrite N.add_0_r. repeat split.
  - eapply (foldM_inv (fun sd => (voters sd.1 = voters s /\ votes_kept s sd.1 /\ total_vp sd.1 = total_vp s) /\
       uncl_mp sd.1 = uncl_mp s)) in HF.
    + cbn in *. destruct HF as ((K1 & K2 & K3) & K4). rewrite N.add_0_r.
      split; [exact K1|]. split; [exact K2|]. split; [exact K3|exact K4].
    + intros [s3 d3] item [s4 d4] _ ((I1 & I2 & I3) & I4) Hs. cbn in *. rinv.
      match goal with H : add_claimable_stnear _ _ _ = Ok _ |- _ => apply add_claimable_stnear_inv in H as (_ & _ & _ & ->) end.
      split; [split; [exact I1|split; [exact I2|exact I3]]|]. cbn in *. lia.
    + cbn. unfold votes_kept. repeat split.
Qed.

Lemma pair_not_u16 msg : msg_is_pair msg = Ok true -> parse_u16 msg = None.
Proof.
  unfold msg_is_pair. intros H. destruct msg as [|x msg]; [discriminate|]. cbn [String.length Nat.leb] in H.
  apply bind_Ok in H as (? & _ & H). injection H as H. apply bool_decide_eq_true in H.
  destruct msg; cbn in H; injection H as ->; reflexivity.
Qed.

Lemma ft_shape c s sender amount msg s' n :
  ft_on_transfer c s sender amount msg = Ok (s', n) ->
  n = 0 /\ c_deposit c = 0 /\
  ((exists l, msg_is_for_claims msg = Ok true /\
      c_json_claims c (String.substring 11 (String.length msg - 11) msg) = Some l /\
      Forall (fun p => p.2 < U64_SIZE) l /\
      distribute_for_claims c s amount l = Ok s') \/
   (exists vid days v', msg_is_for_claims msg = Ok false /\
      c_pred c = mpdao_addr s /\ min_deposit s <= amount /\ bond_for c s sender msg vid days /\
      dep1 s (get_voter s vid) amount days v' /\
      exists t, s' = upd s vid v' t)).
Proof.
  intros H. unfold ft_on_transfer, assert_min_deposit_amount, non_payable in H.
  apply bind_Ok in H as (? & Hnp & H). apply require_Ok in Hnp. nb.
  apply bind_Ok in H as (fc & Hfc & H). destruct fc.
  - apply bind_Ok in H as (l & Hl & H). apply expect_Ok in Hl.
    apply bind_Ok in H as (? & Hb & H). apply require_Ok in Hb.
    apply bind_Ok in H as (s1 & Hd & H). injection H as <- <-. split; [reflexivity|]. split; [assumption|].
    left. exists l. repeat split; auto. apply Forall_forall. intros p Hp.
    rewrite forallb_forall in Hb. apply elem_of_list_In in Hp. specialize (Hb _ Hp). nb. exact Hb.
  - apply bind_Ok in H as (? & Hp & H). apply require_Ok, bool_decide_eq_true in Hp.
    apply bind_Ok in H as (ip & Hip & H).
    apply bind_Ok in H as ([vid days] & Hvd & H). apply bind_Ok in H as (? & Hm & H).
    apply require_Ok in Hm. nb.
    apply bind_Ok in H as ([s1 v1] & Hd & H). injection H as <- <-. split; [reflexivity|]. split; [assumption|].
    right. apply deposit_inv in Hd as (vp & l' & Hc & Hb & Hdl & Ha & Ht & Ev & Es).
    exists vid, days, v1. split; [exact Hfc|]. split; [exact Hp|]. split; [exact Hm|].
    split. { unfold bond_for. destruct ip; [apply pair_not_u16 in Hip|]; rinv; nb; [right; auto|left; auto]. }
    split; [exists vp, l'; auto|]. eauto.
Qed.

Lemma unvote_shape c s vid addr obj s' :
  internal_unvote c s vid addr obj = Ok s' ->
  votes_locked_in c s addr obj = false /\
  exists v v', om_get (voters s) vid = Some v /\ same_lps v v' /\
    exists vs hv hp, s' = save_voter (s <| votes := vs |> <| hp_vv := hv |> <| hp_vp := hp |>) vid v'.
Proof.
  intros H. unfold internal_unvote, get_voter_or_panic in H.
  apply bind_Ok in H as (? & Hl & H). apply require_Ok in Hl. nb. split; [exact Hl|].
  apply bind_Ok in H as (v & Hv & H). apply expect_Ok in Hv.
  apply bind_Ok in H as ([s1 v1] & Hr & H). injection H as <-.
  apply remove_vp_shape in Hr as (Hs & vs & hv & hp & ->). exists v, v1. split; [exact Hv|].
  split; [exact Hs|]. eauto.
Qed.

Lemma vote_shape s vid vp addr obj s' :
  internal_vote s vid vp addr obj = Ok s' ->
  exists v v', om_get (voters s) vid = Some v /\ same_lps v v' /\
    exists vs hv hp, s' = save_voter (s <| votes := vs |> <| hp_vv := hv |> <| hp_vp := hp |>) vid v'.
Proof.
  intros H. unfold internal_vote, get_voter_or_panic in H.
  apply bind_Ok in H as (v & Hv & H). apply expect_Ok in Hv.
  apply bind_Ok in H as ([s1 v1] & Hr & H). injection H as <-.
  apply create_vp_shape in Hr as (Hs & _ & _ & vs & hv & hp & ->). exists v, v1. split; [exact Hv|].
  split; [exact Hs|]. eauto.
Qed.

Lemma rebalance_shape c s vp addr obj s' :
  rebalance c s vp addr obj = Ok s' ->
  exists v v', om_get (voters s) (c_pred c) = Some v /\ same_lps v v' /\
    exists vs hv hp, s' = save_voter (s <| votes := vs |> <| hp_vv := hv |> <| hp_vp := hp |>) (c_pred c) v'.
Proof.
  intros H. unfold rebalance, get_voter_or_panic in H.
  apply bind_Ok in H as (u0 & _ & H). cbn zeta in H. apply bind_Ok in H as (v & Hv & H). apply expect_Ok in Hv.
  apply bind_Ok in H as (h & _ & H).
  apply bind_Ok in H as (oo & _ & H). apply bind_Ok in H as (x & _ & H).
  apply bind_Ok in H as (u1 & _ & H).
  destruct (vp =? 0) eqn:Evp.
  { apply unvote_shape in H as (_ & v2 & v' & Hv2 & H). assert (v2 = v) as -> by congruence. eauto. }
  apply bind_Ok in H as ([[s1 av] vts'] & Hmid & H).
  assert (exists vs, s1 = s <| votes := vs |>) as (vs & ->).
  { destruct (x <? vp) eqn:Elt; rinv;
    match goal with H : increase_total_votes _ _ _ _ = Ok _ |- _ => apply increase_total_inv in H as [vs ->]
                  | H : decrease_total_votes _ _ _ _ = Ok _ |- _ => apply decrease_total_inv in H as [vs ->] end; eauto. }
  apply bind_Ok in H as ([hv h'] & _ & H). apply bind_Ok in H as ([hp vph] & _ & H).
  injection H as <-. exists v. eexists. split; [exact Hv|]. split; [|exists vs, hv, hp; reflexivity].
  split; reflexivity.
Qed.

(** only withdrawals remove an account *)
Definition withdraw_op (o : op) : bool := match o with Withdraw _ _ | WithdrawAll => true | _ => false end.
Definition store_by (o : op) (s s' : state) (vid : string) (v' : voter) : Prop :=
  voters s' = om_set (voters s) vid v' \/
  ((voters s' = om_remove (voters s) vid /\ v_bal v' = 0 /\ v_lps v' = [] /\
    is_Some (om_get (voters s) vid) /\ locked_vp (v_lps (get_voter s vid)) = 0) /\ withdraw_op o = true).
Lemma store_by_voter o s s' vid v' : store_by o s s' vid v' -> store_voter s s' vid v'.
Proof. intros [H|[H _]]; [left|right]; exact H. Qed.

(** ** The summary *)
Lemma exec_cases_by c s o s' e :
  exec c s o = Ok (s', e) ->
  (is_vote_op o = false -> votes_kept s s') /\
  (vkeep c s o s' e \/
   exists vid v', store_by o s s' vid v' /\ vchg c s o s' e vid (get_voter s vid) v').
Proof.
  intros H.
  assert (Hget : forall vid v, om_get (voters s) vid = Some v -> get_voter s vid = v)
    by (intros; apply get_voter_Some; assumption).
  destruct o; cbn [exec] in H;
    try (apply noeff_Ok in H as [H ->]);
    try (unfold set_stnear_contract, set_operator_id, set_owner_id, update_registration_cost,
      update_airdrop_user_data, operator_multi_set_airdrop_data, set_lock_in_vote_filters,
      update_min_unbond_period, update_max_unbond_period, set_prev_gov_contract,
      pre_delegate_evm_address, operator_remove_pre_delegate in H; rinv;
      solve [split; [intros _; repeat split|left; repeat split; [intros v0 a0 []|cbn; lia]]]).
  - (* ClaimAndLock *)
    pose proof H as H0. unfold claim_and_lock, non_payable in H0. apply bind_Ok in H0 as (? & Hnp & _). apply require_Ok in Hnp. nb.
    apply claim_and_lock_inv in H as (s1 & v & vp & l' & Hr & Hm & Hv & Hc & Hb & Hd & Ha & Ht & ->).
    apply remove_claimable_mpdao_inv in Hr as (Hcl & Hun & ->). cbn in *.
    split; [intros _; repeat split|]. right. exists (c_pred c). eexists.
    split; [left; reflexivity|]. rewrite (Hget _ _ Hv). apply ch_claim; auto.
    exists vp, l'. auto.
  - (* ClaimStnear *)
    unfold claim_stnear in H. rinv.
    match goal with H : remove_claimable_stnear _ _ _ = Ok _ |- _ => apply remove_claimable_stnear_inv in H as (_ & _ & ->) end.
    split; [intros _; repeat split|left]. repeat split; [intros v0 a0 [?|[]]; discriminate|cbn; lia].
  - (* Unlock *)
    rinv. apply unlock_inv in H as (v & p & Hv & Hl & Hle & ->).
    split; [intros _; repeat split|]. right. exists (c_pred c). eexists.
    split; [left; reflexivity|]. rewrite (Hget _ _ Hv). eapply ch_unlock; eauto.
  - (* UnlockPartial *)
    rinv.
    apply unlock_partial_inv in H as [(H & v2 & p2 & Hv2 & Hl2 & Ea)|(v & p & vp & Hv & Hl & Hlt & Hmin & H1 & H2 & Hc & Hle & Hle2 & Hlen & ->)].
    + apply unlock_inv in H as (v & p & Hv & Hl & Hle & Es).
      assert (v2 = v) as -> by congruence. assert (p2 = p) as -> by congruence. subst amount.
      subst s'. split; [intros _; repeat split|]. right. exists (c_pred c). eexists.
      split; [left; reflexivity|]. rewrite (Hget _ _ Hv). eapply ch_unlock; eauto.
    + split; [intros _; repeat split|]. right. exists (c_pred c). eexists.
      split; [left; reflexivity|]. rewrite (Hget _ _ Hv). apply ch_unlock_partial; auto.
  - (* Extend *)
    apply extend_inv in H as (v & p & nvp & Hv & Hl & _ & Hu & Hlt & Hc & Hle & Ht & _ & ->).
    split; [intros _; repeat split|]. right. exists (c_pred c). eexists.
    split; [left; reflexivity|]. rewrite (Hget _ _ Hv). eapply ch_extend; eauto.
  - (* Relock *)
    apply relock_inv in H as (v & p & st & vp & l' & Hv & Hl & Hafb & Hu & Htime & Hsz & Hc & Hb & Hd & Ha & Ht & ->).
    split; [intros _; repeat split|]. right. exists (c_pred c). eexists.
    split; [left; reflexivity|]. rewrite (Hget _ _ Hv). eapply ch_relock; eauto.
    exists vp, l'. auto.
  - apply relock_partial_inv in H as (v & p & st & vp & l1 & l' & b1 & Hv & Hl & Hafb & Hafp & Hsz & Hmin & Hu & Hcase & Hc & Hb & Hd & Ha & Ht & ->).
    split; [intros _; repeat split|]. right. exists (c_pred c). eexists.
    split; [left; reflexivity|]. rewrite (Hget _ _ Hv).
    destruct Hcase as [(H1 & H2 & H3 & -> & nvp & H4 & ->)|(H1 & -> & H2 & ->)].
    + eapply ch_relock_partial; eauto. exists vp, l'. auto.
    + eapply ch_relock_unlocked; eauto. exists vp, l'. auto.
  - apply relock_from_balance_inv in H as (v & vp & l' & Hv & Hle & Hmin & Hc & Hb & Hd & Ha & Ht & ->).
    split; [intros _; repeat split|]. right. exists (c_pred c). eexists.
    split; [left; reflexivity|]. rewrite (Hget _ _ Hv). eapply ch_relock_balance; eauto.
    exists vp, l'. auto.
  - apply clear_positions_inv in H as (v & v1 & Hv & Hc & Hf & ->).
    split; [intros _; repeat split|]. right. exists (c_pred c). eexists.
    split; [left; reflexivity|]. rewrite (Hget _ _ Hv). eapply ch_clear; eauto.
  - (* Vote *)
    unfold vote in H. rinv. apply vote_shape in H as (v & v' & Hv & Hs & vs & hv & hp & ->).
    split; [discriminate|]. right. exists (c_pred c), v'. split; [left; reflexivity|].
    rewrite (Hget _ _ Hv). apply ch_votes; auto. left. split; [reflexivity|]. eauto 6.
  - apply rebalance_shape in H as (v & v' & Hv & Hs & vs & hv & hp & ->).
    split; [discriminate|]. right. exists (c_pred c), v'. split; [left; reflexivity|].
    rewrite (Hget _ _ Hv). apply ch_votes; auto. left. split; [reflexivity|]. eauto 8.
  - unfold unvote in H. rinv. apply unvote_shape in H as (_ & v & v' & Hv & Hs & vs & hv & hp & ->).
    split; [discriminate|]. right. exists (c_pred c), v'. split; [left; reflexivity|].
    rewrite (Hget _ _ Hv). apply ch_votes; auto. left. split; [reflexivity|]. eauto 8.
  - (* Migration *)
    apply migration_shape in H as (Hp & v' & Hd & Hv & t & ud & Es & Hnil).
    split. { intros _. unfold votes_kept. rewrite Es. auto. }
    case_decide as Hl.
    + left. rewrite (Hnil Hl) in Es. unfold vkeep. rewrite Hv in *. rewrite Es. cbn.
      repeat split; [intros v0 a0 []|lia|exact Hl].
    + right. exists vid, v'. split; [left; exact Hv|]. apply ch_migrate; auto. rewrite Es. reflexivity.
  - (* Mirror *)
    apply mirror_shape in H as (vps & v' & Hop & Hm & Hlen & Hb & Hlp & Hnd & Hroom & Hv & vs & hv & hp & t & Es).
    split; [discriminate|]. right. eexists _, v'. split; [left; exact Hv|].
    eapply ch_mirror; eauto. rewrite Es. reflexivity.
  - (* OpConfirm *)
    unfold operator_confirm_delegated in H. apply bind_Ok in H as (? & _ & H). apply bind_Ok in H as (? & _ & H).
    assert (exists a b d, s' = s <| evm_pre := a |> <| evm_delegates := b |> <| evm_sigs := d |>) as (a & b & d & ->).
    { destruct (evm_pre s !! evm) as [[a g]|].
      2:{ injection H as <-. exists (evm_pre s), (evm_delegates s), (evm_sigs s). destruct s; reflexivity. }
      cbn zeta in H. destruct (evm_sigs _ !! evm) as [[old g2]|].
      - destruct (bool_decide (old = a)).
        + injection H as <-. exists (delete evm (evm_pre s)), (evm_delegates s), (evm_sigs s). destruct s; reflexivity.
        + apply bind_Ok in H as (pl & _ & H). injection H as <-. eexists (delete evm (evm_pre s)), _, _. reflexivity.
      - injection H as <-. eexists (delete evm (evm_pre s)), _, _. reflexivity. }
    split; [intros _; repeat split|left]. repeat split; [intros v0 a0 []|cbn; lia].
  - (* DelegatedClaim *)
    unfold delegated_claim_stnear in H. rinv.
    match goal with H : remove_claimable_stnear _ _ _ = Ok _ |- _ => apply remove_claimable_stnear_inv in H as (_ & _ & ->) end.
    split; [intros _; repeat split|left]. repeat split; [intros v0 a0 [?|[]]; discriminate|cbn; lia].
  - unfold vote_delegated, verify_delegate in H. rinv. apply vote_shape in H as (v & v' & Hv & Hs & vs & hv & hp & ->).
    split; [discriminate|]. right. exists (pseudo_near_address evm), v'. split; [left; reflexivity|].
    rewrite (Hget _ _ Hv). apply ch_votes; auto. right. exists evm. split; [reflexivity|]. eauto 8.
  - unfold unvote_delegated, verify_delegate in H. rinv. apply unvote_shape in H as (_ & v & v' & Hv & Hs & vs & hv & hp & ->).
    split; [discriminate|]. right. exists (pseudo_near_address evm), v'. split; [left; reflexivity|].
    rewrite (Hget _ _ Hv). apply ch_votes; auto. right. exists evm. split; [reflexivity|]. eauto 8.
  - (* RemoveDelegated *)
    unfold remove_delegated_evm_address in H. apply bind_Ok in H as (? & _ & H).
    destruct (evm_sigs s !! evm) as [[a g]|]; [|discriminate].
    destruct (bool_decide (a = c_pred c)); [|discriminate]. rinv.
    split; [intros _; repeat split|left]. repeat split; [intros v0 a0 []|cbn; lia].
  - (* Withdraw *)
    unfold withdraw in H.
    apply withdraw_inv in H as (v & v1 & total & Hv & Hc & Hd & _ & _ & Hpos & Hle & -> & Hcase).
    split. { intros _. destruct Hcase as [(_ & _ & ->)|(_ & ->)]; repeat split. }
    right. exists (c_pred c), (mkVoter (v_bal v1 - total) (v_lps v1) (v_avail v1) (v_vp v1)).
    split.
    + destruct Hcase as [(E1 & E2 & ->)|(_ & ->)]; [right; split; [|reflexivity]|left; reflexivity].
      split; [reflexivity|]. split; [cbn; lia|]. split; [exact E2|]. split; [eauto|].
      rewrite (Hget _ _ Hv). destruct (clears_facts _ _ _ Hc) as (_ & _ & <-). rewrite E2. reflexivity.
    + rewrite (Hget _ _ Hv). eapply ch_withdraw; eauto.
      destruct Hcase as [(_ & _ & ->)|(_ & ->)]; reflexivity.
  - unfold withdraw_all in H. apply bind_Ok in H as (v0 & _ & H).
    apply withdraw_inv in H as (v & v1 & total & Hv & Hc & Hd & _ & _ & Hpos & Hle & -> & Hcase).
    split. { intros _. destruct Hcase as [(_ & _ & ->)|(_ & ->)]; repeat split. }
    right. exists (c_pred c), (mkVoter (v_bal v1 - total) (v_lps v1) (v_avail v1) (v_vp v1)).
    split.
    + destruct Hcase as [(E1 & E2 & ->)|(_ & ->)]; [right; split; [|reflexivity]|left; reflexivity].
      split; [reflexivity|]. split; [cbn; lia|]. split; [exact E2|]. split; [eauto|].
      rewrite (Hget _ _ Hv). destruct (clears_facts _ _ _ Hc) as (_ & _ & <-). rewrite E2. reflexivity.
    + rewrite (Hget _ _ Hv). eapply ch_withdraw; eauto.
      destruct Hcase as [(_ & _ & ->)|(_ & ->)]; reflexivity.
  - (* AfterMp *)
    unfold after_transfer_mpdao_callback, assert_private in H. rinv. destruct ok; rinv.
    + split; [intros _; repeat split|left]. repeat split; [intros v0 a0 []|cbn; lia].
    + split; [intros _; repeat split|right]. eexists _, _. split; [left; reflexivity|].
      apply ch_restore; auto.
  - unfold after_transfer_stnear_callback in H. rinv. destruct ok; rinv.
    + split; [intros _; repeat split|left]. repeat split; [intros v0 a0 []|cbn; lia].
    + apply add_claimable_stnear_inv in H as (_ & _ & _ & ->).
      split; [intros _; repeat split|left]. repeat split; [intros v0 a0 []|cbn; lia].
  - (* FtOnTransfer *)
    apply bind_Ok in H as ([s1 n] & H & H'). injection H' as <- <-.
    apply ft_shape in H as (_ & Hdep & [(l & Hfc & _ & _ & H)|(vid & days & v' & Hfc & Hp & Hm & Hb & Hd & t & ->)]).
    + apply distribute_shape in H as (H1 & H2 & H3 & H4). split; [intros _; exact H2|].
      left. destruct H2 as (? & ? & ?). repeat split; auto.
    + split; [intros _; repeat split|right]. exists vid, v'. split; [left; reflexivity|].
      eapply ch_bond; eauto.
Qed.

Lemma exec_cases c s o s' e :
  exec c s o = Ok (s', e) ->
  (is_vote_op o = false -> votes_kept s s') /\
  (vkeep c s o s' e \/
   exists vid v', store_voter s s' vid v' /\ vchg c s o s' e vid (get_voter s vid) v').
Proof.
  intros H. apply exec_cases_by in H as [H1 [H|(vid & v' & Hs & H)]]; (split; [exact H1|]); [left; exact H|right].
  exists vid, v'. split; [eapply store_by_voter; exact Hs|exact H].
Qed.
