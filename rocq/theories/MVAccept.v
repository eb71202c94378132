(** MVAccept.v -- proofs for C71: which calls are accepted. *)

From Verif Require Export MVSpecAccept MVMirror MVMoney MVDeleg MVClear.

(** ** Fine, or too big *)
Definition oo {A} (r : res A) : Prop := match r with Ok _ => True | Panic m => too_big m end.

Lemma oo_Ok {A} (x : A) : oo (Ok x).
Proof. exact I. Qed.
Lemma oo_eq {A} (r : res A) x : r = Ok x -> oo r.
Proof. intros ->. exact I. Qed.
Lemma oo_bind {A B} (r : res A) (f : A -> res B) :
  oo r -> (forall x, r = Ok x -> oo (f x)) -> oo (x ← r; f x).
Proof. destruct r as [x|m]; cbn; [intros _ H; apply H; reflexivity|auto]. Qed.
Lemma oo_noeff r : oo r -> oo (noeff r).
Proof. intros H. unfold noeff. apply oo_bind; [exact H|]. intros; exact I. Qed.
Lemma oo_require b m : b = true -> oo (require b m).
Proof. intros ->. exact I. Qed.
Lemma oo_expect {A} (o : option A) m : is_Some o -> oo (expect o m).
Proof. intros [x ->]. exact I. Qed.
Lemma oo_add a b : oo (add128 a b).
Proof. unfold add128. destruct (_ <? _); [exact I|]. left. reflexivity. Qed.
Lemma oo_sub a b : b <= a -> oo (sub128 a b).
Proof. intros H. unfold sub128. apply N.leb_le in H. rewrite H. exact I. Qed.
Lemma oo_mul a b : oo (mul128 a b).
Proof. unfold mul128. destruct (_ <? _); [exact I|]. right. left. reflexivity. Qed.
Lemma oo_foldM {A B} (P : B -> list A -> Prop) (f : B -> A -> res B) l : forall b,
  P b l -> (forall b a l, P b (a :: l) -> oo (f b a)) ->
  (forall b a l b', P b (a :: l) -> f b a = Ok b' -> P b' l) -> oo (foldM f l b).
Proof.
  induction l as [|x l IH]; intros b H H1 H2; [exact I|]. cbn [foldM]. apply oo_bind.
  - eapply H1. exact H.
  - intros b' E. apply IH; auto. eapply H2; eauto.
Qed.
Lemma oo_mapMr {A B} (f : A -> res B) l : (forall x, In x l -> oo (f x)) -> oo (mapMr f l).
Proof.
  induction l as [|x l IH]; intros H; [exact I|]. cbn [mapMr]. apply oo_bind; [apply H; left; reflexivity|].
  intros y _. apply oo_bind; [apply IH; intros z Hz; apply H; right; exact Hz|]. intros; exact I.
Qed.
Lemma oo_sum128 l : oo (sum128 l).
Proof. unfold sum128. apply (oo_foldM (fun _ _ => True)); auto. intros. apply oo_add. Qed.
Lemma oo_calc amount days : days < 3600 -> oo (calculate_voting_power amount days).
Proof.
  intros H. unfold calculate_voting_power. apply oo_bind.
  { destruct (_ <? _); [exact I|]. right. right. right. left. reflexivity. }
  intros base _. apply oo_bind; [apply oo_require, N.ltb_lt; exact H|]. intros _ _.
  unfold proportional. destruct (_ <? _); [exact I|]. right. right. left. reflexivity.
Qed.

Ltac oreq := apply oo_bind; [apply oo_require|intros _ _].
Ltac oadd := apply oo_bind; [apply oo_add|].
Ltac osub := apply oo_bind; [apply oo_sub|].

Lemma np0 c : c_deposit c = 0 -> non_payable c = Ok tt.
Proof. intros E. unfold non_payable. rewrite E. reflexivity. Qed.
Lemma y1 c : c_deposit c = 1 -> assert_one_yocto c = Ok tt.
Proof. intros E. unfold assert_one_yocto. rewrite E. reflexivity. Qed.
Lemma own1 c s : c_pred c = owner_id s -> assert_only_owner c s = Ok tt.
Proof. intros E. unfold assert_only_owner. rewrite bool_decide_true by congruence. reflexivity. Qed.
Lemma opr1 c s : c_pred c = operator_id s -> assert_operator c s = Ok tt.
Proof. intros E. unfold assert_operator. rewrite bool_decide_true by congruence. reflexivity. Qed.
Lemma prv1 c a : c_pred c = a -> assert_private c a = Ok tt.
Proof. intros E. unfold assert_private. rewrite bool_decide_true by exact E. reflexivity. Qed.

(** ** Depositing *)
Definition room (s : state) (l : list lpos) (days : N) : Prop :=
  (exists p, In p l /\ lp_unl p = None /\ lp_days p = days) \/ N.of_nat (length l) < max_lps s.

Lemma find_locked_some l d : (exists p, In p l /\ lp_unl p = None /\ lp_days p = d) ->
  is_Some (find_locked_from 0 l d).
Proof.
  intros (p & Hp & Hu & Hd). destruct (find_locked_from 0 l d) eqn:E; [eauto|].
  rewrite find_locked_from_None in E. destruct (E p Hp Hd Hu).
Qed.

Lemma oo_deposit s amount days vid v :
  max_lps s < 256 -> min_unbond s <= days <= max_unbond s -> days < 3600 ->
  room s (v_lps v) days -> oo (deposit_locking_position s amount days vid v).
Proof.
  intros Hm Hb Hd Hr. unfold deposit_locking_position. oreq.
  { apply andb_true_iff. rewrite !N.leb_le. exact Hb. }
  apply oo_bind; [|intros [s1 v1] _; exact I].
  unfold find_locked_position. destruct (find_locked_from 0 (v_lps v) days) as [k|] eqn:E.
  - destruct (find_locked_Some v days k E) as (p & Hp & _ & _).
    unfold increase_locking_position. apply oo_bind; [apply oo_calc, Hd|]. intros vp _.
    apply oo_bind; [apply oo_expect; eauto|]. intros q _.
    oadd. intros a1 _. oadd. intros a2 _. oadd. intros a3 _. oadd. intros a4 _. exact I.
  - destruct Hr as [Hr|Hr]; [apply find_locked_some in Hr; rewrite E in Hr; destruct Hr; discriminate|].
    unfold internal_create_locking_position, assert_lps_room. oreq.
    { apply N.ltb_lt. rewrite N.mod_small by lia. exact Hr. }
    oreq. { unfold find_locked_position. rewrite E. reflexivity. }
    apply oo_bind; [apply oo_calc, Hd|]. intros vp _. oadd. intros a1 _. oadd. intros a2 _. exact I.
Qed.

(** what a deposit leaves *)
Lemma deposit_after s amount days vid v s1 v1 :
  deposit_locking_position s amount days vid v = Ok (s1, v1) ->
  max_lps s1 = max_lps s /\ min_unbond s1 = min_unbond s /\ max_unbond s1 = max_unbond s /\
  (forall k, (exists p, In p (v_lps v1) /\ lp_unl p = None /\ lp_days p = k) <->
             k = days \/ exists p, In p (v_lps v) /\ lp_unl p = None /\ lp_days p = k) /\
  length (v_lps v1) = (length (v_lps v) + if find_locked_from 0 (v_lps v) days then 0 else 1)%nat.
Proof.
  intros H. apply deposit_inv in H as (vp & l' & _ & _ & Hd & _ & _ & -> & ->). cbn.
  split; [reflexivity|]. split; [reflexivity|]. split; [reflexivity|].
  destruct Hd as [(i & p & Hl & Hdp & Hu & _ & _ & ->)|(Hf & _ & ->)].
  - split.
    + intros k. split.
      * intros (q & Hq & Uq & Dq). apply elem_of_list_In, elem_of_list_lookup in Hq as [n Hn].
        destruct (decide (n = i)) as [->|Hne].
        -- rewrite list_lookup_insert in Hn by (eapply lookup_lt_Some; exact Hl). injection Hn as <-. left. symmetry. exact Dq.
        -- rewrite list_lookup_insert_ne in Hn by congruence. right. exists q.
           split; [apply elem_of_list_In, elem_of_list_lookup; eauto|auto].
      * intros Hk. assert (Hh : exists q n, v_lps v !! n = Some q /\ lp_unl q = None /\ lp_days q = k).
        { destruct Hk as [->|(q & Hq & Uq & Dq)]; [exists p, i; auto|].
          apply elem_of_list_In, elem_of_list_lookup in Hq as [n Hn]. eauto. }
        destruct Hh as (q & n & Hn & Uq & Dq). destruct (decide (n = i)) as [->|Hne].
        -- rewrite Hl in Hn. injection Hn as <-. eexists. split; [apply elem_of_list_In, elem_of_list_lookup; exists i;
             apply list_lookup_insert; eapply lookup_lt_Some; exact Hl|]. cbn. split; [reflexivity|congruence].
        -- exists q. split; [|auto]. apply elem_of_list_In, elem_of_list_lookup. exists n. rewrite list_lookup_insert_ne by congruence. exact Hn.
    + rewrite insert_length. destruct (find_locked_some (v_lps v) days) as [n ->]; [|lia].
      exists p. split; [apply elem_of_list_In, elem_of_list_lookup; eauto|auto].
  - split; [|rewrite Hf, app_length; cbn; lia].
    intros k. split.
    + intros (q & Hq & Uq & Dq). apply in_app_iff in Hq as [Hq|[<-|[]]]; [right; eauto|left; symmetry; exact Dq].
    + intros [->|(q & Hq & Uq & Dq)].
      * eexists. split; [apply in_app_iff; right; left; reflexivity|auto].
      * exists q. split; [apply in_app_iff; auto|auto].
Qed.

(** ** Facts about reachable states *)
Record good (P : string -> string -> Prop) (s : state) : Prop := {
  g_inj : injP P;
  g_s : SInv P s;
  g_c : CIs s;
  g_d : DIs s;
  g_max : max_lps s < 256;
  g_len : forall v, N.of_nat (length (v_lps (get_voter s v))) <= max_lps s;
  g_day : forall v k p, v_lps (get_voter s v) !! k = Some p -> lp_days p < 3600;
  g_bal : forall v, raw_balance s v < U128_SIZE;
}.

Lemma good_run a s0 tr tr2 :
  mv_new a = Ok s0 -> collision_free (tr ++ tr2) -> no_zero_votes (tr ++ tr2) ->
  good (targetsP (tr ++ tr2)) (run s0 tr).
Proof.
  intros H0 Hc Hz. pose proof (run_consts s0 tr) as Hk. unfold consts in Hk. injection Hk as _ _ Hk _ _.
  constructor.
  - apply targets_injP, Hc.
  - eapply sinv_run_app; eauto.
  - apply CIs_run. eapply CIs_init; exact H0.
  - apply DIs_run. eapply DIs_init; exact H0.
  - eapply max_lps_run; exact H0.
  - intros v. rewrite Hk. apply (positions_count a s0 tr v H0).
  - intros v k p. apply (positions_3600 a s0 tr v k p H0).
  - intros v. apply (bal_bound a s0 tr v H0).
Qed.

Lemma get_pos now s k vid j :
  get_locking_position now s k vid = Some j <->
  exists p, v_lps (get_voter s vid) !! k = Some p /\ j = lp_to_json now k p.
Proof. unfold get_locking_position. rewrite fmap_Some. reflexivity. Qed.

Lemma get_pos_some now s k vid :
  is_Some (get_locking_position now s k vid) <-> (k < length (v_lps (get_voter s vid)))%nat.
Proof. unfold get_locking_position. rewrite fmap_is_Some. apply lookup_lt_is_Some. Qed.

Lemma pos_voter s k vid p :
  v_lps (get_voter s vid) !! k = Some p -> om_get (voters s) vid = Some (get_voter s vid).
Proof. unfold get_voter. destruct (om_get (voters s) vid); [reflexivity|]. cbn. intros H. rewrite lookup_nil in H. discriminate. Qed.

Lemma reg_voter s vid : vid ∈ voter_ids s -> om_get (voters s) vid = Some (get_voter s vid).
Proof.
  intros H. unfold get_voter. destruct (om_get (voters s) vid) eqn:E; [reflexivity|]. apply om_get_None in E. contradiction.
Qed.
Lemma voter_reg s vid v : om_get (voters s) vid = Some v -> vid ∈ voter_ids s /\ get_voter s vid = v.
Proof. intros H. split; [eapply om_get_Some_key; exact H|unfold get_voter; rewrite H; reflexivity]. Qed.

Lemma gvop s vid : om_get (voters s) vid = Some (get_voter s vid) -> get_voter_or_panic s vid = Ok (get_voter s vid).
Proof. intros H. unfold get_voter_or_panic. rewrite H at 1. reflexivity. Qed.

Lemma has_locked_spec s vid k : has_locked s vid k <->
  exists p, In p (v_lps (get_voter s vid)) /\ lp_unl p = None /\ lp_days p = k.
Proof.
  unfold has_locked. rewrite get_all_lps. split.
  - intros (j & Hj & Hl & Hd). apply imap_In in Hj as (n & p & Hp & ->). cbn in *. exists p.
    split; [apply elem_of_list_In, elem_of_list_lookup; eauto|]. split; [|exact Hd].
    unfold is_locked in Hl. destruct (lp_unl p); [discriminate|reflexivity].
  - intros (p & Hp & Hu & Hd). apply elem_of_list_In, elem_of_list_lookup in Hp as [n Hn].
    exists (lp_to_json 0 n p). split; [apply imap_In; eauto|]. cbn. unfold is_locked. rewrite Hu. auto.
Qed.
Lemma count_spec s vid : lps_count s vid = N.of_nat (length (v_lps (get_voter s vid))).
Proof. unfold lps_count. rewrite get_all_lps, imap_length. reflexivity. Qed.

Lemma can_lock_room s vid days :
  can_lock s vid days 0 -> min_unbond s <= days <= max_unbond s /\ days < 3600 /\ room s (v_lps (get_voter s vid)) days.
Proof.
  intros (H1 & H2 & H3). cbn in H1. split; [exact H1|]. split; [exact H2|]. unfold room.
  rewrite <- has_locked_spec, <- count_spec. cbn in H3. rewrite N.add_0_r in H3. exact H3.
Qed.

Lemma swap_remove_keeps {A} (l : list A) k p q : l !! k = Some p -> In q l -> q <> p -> In q (swap_remove k l).
Proof.
  intros Hk Hq Hne. rewrite <- elem_of_list_In, (swap_remove_perm k l) by (eapply lookup_lt_Some; exact Hk).
  apply elem_of_list_In in Hq. apply elem_of_list_lookup in Hq as [n Hn].
  assert (n <> k) by (intros ->; congruence).
  rewrite (delete_take_drop l k), elem_of_app, !elem_of_list_lookup.
  destruct (decide (n < k)%nat).
  - left. exists n. rewrite lookup_take by assumption. exact Hn.
  - right. exists (n - S k)%nat. rewrite lookup_drop. replace (S k + (n - S k))%nat with n by lia. exact Hn.
Qed.

Lemma can_lock_room1 s vid days k p :
  can_lock s vid days 1 -> v_lps (get_voter s vid) !! k = Some p -> lp_unl p <> None ->
  min_unbond s <= days <= max_unbond s /\ days < 3600 /\ room s (swap_remove k (v_lps (get_voter s vid))) days.
Proof.
  intros (H1 & H2 & H3) Hk Hu. cbn in H1. split; [exact H1|]. split; [exact H2|]. unfold room.
  destruct H3 as [H3|H3].
  - left. apply has_locked_spec in H3 as (q & Hq & Uq & Dq). exists q. split; [|auto].
    eapply swap_remove_keeps; eauto. intros ->. contradiction.
  - right. rewrite count_spec in H3. cbn in H3. apply lookup_lt_Some in Hk.
    rewrite swap_remove_length by exact Hk. lia.
Qed.

(** ** Allowed calls succeed, or a number gets too big *)
Section Accept.
Context (P : string -> string -> Prop) (s : state) (G : good P s) (c : ctx).
Let me := c_pred c.

Lemma oo_unlock k p :
  v_lps (get_voter s me) !! k = Some p -> lp_vp p <= v_avail (get_voter s me) -> oo (unlock_position c s k).
Proof.
  intros Hk Hv. unfold unlock_position. cbn zeta. fold me. rewrite (gvop _ _ (pos_voter _ _ _ _ Hk)). cbn [mbind res_bind].
  unfold get_position. rewrite Hk. cbn [expect mbind res_bind]. oreq; [apply N.leb_le; exact Hv|].
  osub; [exact Hv|]. intros; exact I.
Qed.

Lemma calc_power amount days vp : calculate_voting_power amount days = Ok vp -> vp = lp_power (days, amount).
Proof. intros H. apply calc_Ok in H as [-> _]. reflexivity. Qed.

Lemma oo_unlock_partial k p amount :
  v_lps (get_voter s me) !! k = Some p ->
  (amount = lp_amount p /\ lp_vp p <= v_avail (get_voter s me)) \/
  (amount < lp_amount p /\ min_deposit s <= lp_amount p - amount /\ 1000000 <= amount /\ 1000000 <= lp_amount p - amount /\
   lp_power (lp_days p, amount) <= lp_vp p /\ lp_power (lp_days p, amount) <= v_avail (get_voter s me) /\
   N.of_nat (length (v_lps (get_voter s me))) < max_lps s) ->
  oo (unlock_partial_position c s k amount).
Proof.
  intros Hk H. unfold unlock_partial_position. cbn zeta. fold me. rewrite (gvop _ _ (pos_voter _ _ _ _ Hk)). cbn [mbind res_bind].
  unfold get_position at 1. rewrite Hk. cbn [expect mbind res_bind]. destruct (N.eqb_spec amount (lp_amount p)) as [E|Hne].
  { eapply oo_unlock; [exact Hk|]. destruct H as [[_ H]|[H _]]; [exact H|lia]. }
  destruct H as [[H _]|(H1 & H2 & H3 & H4 & H5 & H6 & H7)]; [contradiction|].
  oreq; [apply N.ltb_lt; exact H1|]. osub; [lia|]. intros d Ed. apply sub128_Ok in Ed as [-> _].
  oreq; [apply N.leb_le; exact H2|]. unfold assert_at_least_1_mpdao at 1. oreq; [apply N.leb_le; exact H3|].
  apply oo_bind; [apply oo_calc; eapply (g_day _ _ G); exact Hk|]. intros vp Evp. apply calc_power in Evp. rewrite <- Evp in *.
  oreq; [apply N.leb_le; exact H5|]. oreq; [apply N.leb_le; exact H6|].
  apply oo_bind.
  { unfold create_unlocking_position, assert_lps_room. oreq; [|exact I]. apply N.ltb_lt.
    rewrite N.mod_small; [exact H7|]. pose proof (g_max _ _ G). lia. }
  intros v1 Ev1. unfold create_unlocking_position in Ev1. apply bind_Ok in Ev1 as (_ & _ & [= <-]).
  osub; [exact H5|]. intros pvp _. osub; [lia|]. intros pa Epa. apply sub128_Ok in Epa as [-> _].
  unfold assert_at_least_1_mpdao. oreq; [apply N.leb_le; exact H4|]. osub; [exact H6|]. intros; exact I.
Qed.

Lemma oo_extend k p days :
  c_deposit c = 0 -> v_lps (get_voter s me) !! k = Some p -> lp_unl p = None -> lp_days p < days -> days < 3600 ->
  lp_vp p <= lp_power (days, lp_amount p) -> oo (locking_position_extend_days c s k days).
Proof.
  intros H0 Hk Hu Hd H3 Hv. unfold locking_position_extend_days. rewrite np0 by exact H0. cbn [mbind res_bind]. cbn zeta. fold me.
  rewrite (gvop _ _ (pos_voter _ _ _ _ Hk)). cbn [mbind res_bind]. unfold get_position. rewrite Hk. cbn [expect mbind res_bind].
  oreq; [unfold is_locked; rewrite Hu; reflexivity|]. oreq; [apply N.ltb_lt; exact Hd|].
  apply oo_bind; [apply oo_calc; exact H3|]. intros nvp E. apply calc_power in E. subst nvp. osub; [exact Hv|]. intros d _.
  oadd. intros t _. oadd. intros av _. exact I.
Qed.

Lemma oo_relock k p t days afb :
  c_deposit c = 0 -> afb <= v_bal (get_voter s me) -> v_lps (get_voter s me) !! k = Some p -> lp_unl p = Some t ->
  (now_ms c < t + lp_days p * 86400000 -> t + lp_days p * 86400000 < now_ms c + days * 86400000) ->
  can_lock s me days 1 -> oo (relock_position c s k days afb).
Proof.
  intros H0 Hb Hk Hu Ht Hl. destruct (can_lock_room1 _ _ _ _ _ Hl Hk) as (L1 & L2 & L3); [congruence|].
  unfold relock_position. rewrite np0 by exact H0. cbn [mbind res_bind]. cbn zeta. fold me.
  rewrite (gvop _ _ (pos_voter _ _ _ _ Hk)). cbn [mbind res_bind]. unfold get_position. rewrite Hk. cbn [expect mbind res_bind].
  oreq; [apply N.leb_le; exact Hb|]. rewrite Hu. cbn [expect mbind res_bind]. apply oo_bind.
  { unfold days_to_millis. destruct (N.ltb_spec (now_ms c) (t + lp_days p * 86400000)) as [Hlt|]; [|exact I].
    apply oo_require, N.ltb_lt. specialize (Ht Hlt). lia. }
  intros _ _. oadd. intros amount _. apply oo_bind.
  { unfold remove_position. oreq; [apply Nat.ltb_lt; eapply lookup_lt_Some; exact Hk|]. exact I. }
  intros v1 Ev. apply remove_position_inv in Ev as [_ ->]. osub; [exact Hb|]. intros b _.
  apply oo_bind; [|intros [? ?] _; exact I]. apply oo_deposit; auto. exact (g_max _ _ G).
Qed.

Lemma oo_relock_partial k p t afp days afb :
  c_deposit c = 0 -> afb <= v_bal (get_voter s me) -> min_deposit s <= afb + afp ->
  v_lps (get_voter s me) !! k = Some p -> lp_unl p = Some t -> afp <= lp_amount p ->
  (now_ms c < t + lp_days p * 86400000 -> t + lp_days p * 86400000 < now_ms c + days * 86400000) ->
  (now_ms c < t + lp_days p * 86400000 /\ afp < lp_amount p /\ can_lock s me days 0) \/
  (t + lp_days p * 86400000 <= now_ms c /\ can_lock s me days 1) ->
  oo (relock_partial_position c s k afp days afb).
Proof.
  intros H0 Hb Hm Hk Hu Ha Ht Hl.
  unfold relock_partial_position. rewrite np0 by exact H0. cbn [mbind res_bind]. cbn zeta. fold me.
  rewrite (gvop _ _ (pos_voter _ _ _ _ Hk)). cbn [mbind res_bind]. unfold get_position. rewrite Hk. cbn [expect mbind res_bind].
  oreq; [apply N.leb_le; exact Hb|]. oreq; [apply N.leb_le; exact Ha|]. oadd. intros amount Ea. apply add128_Ok in Ea as [-> _].
  oreq; [apply N.leb_le; exact Hm|]. rewrite Hu. cbn [expect mbind res_bind]. unfold days_to_millis.
  destruct (N.ltb_spec (now_ms c) (t + lp_days p * 86400000)) as [Hlt|Hge].
  - destruct Hl as [(_ & Hl1 & Hl)|[Hl _]]; [|lia]. destruct (can_lock_room _ _ _ Hl) as (L1 & L2 & L3).
    apply oo_bind.
    { oreq; [apply N.ltb_lt; specialize (Ht Hlt); lia|]. osub; [lia|]. intros na Ena. apply sub128_Ok in Ena as [-> _].
      oreq; [apply N.leb_le; exact Hm|]. oreq; [apply N.ltb_lt; lia|].
      apply oo_bind; [apply oo_calc; eapply (g_day _ _ G); exact Hk|]. intros; exact I. }
    intros v1 Ev. do 4 apply bind_Ok in Ev as (? & _ & Ev). apply bind_Ok in Ev as (nvp & _ & [= <-]).
    osub; [exact Hb|]. intros b _. apply oo_bind; [|intros [? ?] _; exact I].
    apply oo_deposit; auto; [exact (g_max _ _ G)|]. cbn. unfold room. rewrite insert_length.
    destruct L3 as [(q & Hq & Uq & Dq)|L3]; [left; exists q; split; [|auto]|right; exact L3].
    apply elem_of_list_In, elem_of_list_lookup in Hq as [n Hn]. apply elem_of_list_In, elem_of_list_lookup. exists n.
    rewrite list_lookup_insert_ne; [exact Hn|]. intros ->. congruence.
  - destruct Hl as [[Hl _]|[_ Hl]]; [lia|]. destruct (can_lock_room1 _ _ _ _ _ Hl Hk) as (L1 & L2 & L3); [congruence|].
    apply oo_bind.
    { osub; [lia|]. intros rest _. oadd. intros b _. unfold remove_position. cbn.
      oreq; [apply Nat.ltb_lt; eapply lookup_lt_Some; exact Hk|]. exact I. }
    intros v1 Ev. apply bind_Ok in Ev as (rest & _ & Ev). apply bind_Ok in Ev as (b & Eb & Ev). apply add128_Ok in Eb as [-> _].
    apply remove_position_inv in Ev as [_ ->]. cbn [v_bal]. osub; [cbn; lia|]. intros b _.
    apply oo_bind; [|intros [? ?] _; exact I]. apply oo_deposit; auto. exact (g_max _ _ G).
Qed.

Lemma oo_relock_balance days amount :
  c_deposit c = 0 -> me ∈ voter_ids s -> amount <= v_bal (get_voter s me) -> min_deposit s <= amount ->
  can_lock s me days 0 -> oo (relock_from_balance c s days amount).
Proof.
  intros H0 Hr Hb Hm Hl. destruct (can_lock_room _ _ _ Hl) as (L1 & L2 & L3).
  unfold relock_from_balance. rewrite np0 by exact H0. cbn [mbind res_bind]. cbn zeta. fold me.
  rewrite (gvop _ _ (reg_voter _ _ Hr)). cbn [mbind res_bind]. oreq; [apply N.leb_le; exact Hb|]. oreq; [apply N.leb_le; exact Hm|].
  osub; [exact Hb|]. intros b _. apply oo_bind; [|intros [? ?] _; exact I]. apply oo_deposit; auto. exact (g_max _ _ G).
Qed.

Lemma oo_claim_lock amount days :
  c_deposit c = 0 -> min_deposit s <= amount -> amount <= get_claimable_mpdao s me -> me ∈ voter_ids s ->
  can_lock s me days 0 -> oo (claim_and_lock c s amount days).
Proof.
  intros H0 Hm Ha Hr Hl. destruct (can_lock_room _ _ _ Hl) as (L1 & L2 & L3).
  unfold claim_and_lock, assert_min_deposit_amount. rewrite np0 by exact H0. cbn [mbind res_bind]. cbn zeta. fold me.
  oreq; [apply N.leb_le; exact Hm|]. unfold remove_claimable_mpdao.
  rewrite (remove_claimable_fwd _ _ _ _ (proj1 (g_c _ _ G)) Ha). cbn [mbind res_bind].
  set (s1 := s <| claim_mp := _ |> <| uncl_mp := _ |>).
  change (get_voter_or_panic s1 me) with (get_voter_or_panic s me).
  rewrite (gvop _ _ (reg_voter _ _ Hr)). cbn [mbind res_bind]. apply oo_bind; [|intros [? ?] _; exact I].
  apply oo_deposit; auto. exact (g_max _ _ G).
Qed.

Lemma oo_clear now v l : NoDup l -> (forall k, k ∈ l -> (k < length (v_lps v))%nat) -> oo (clear_fully_unlocked_positions now v l).
Proof.
  intros Hnd Hl. unfold clear_fully_unlocked_positions.
  apply (oo_foldM (fun v r => StronglySorted gt r /\ Forall (fun k => (k < length (v_lps v))%nat) r)).
  - split; [apply sort_desc_gt; exact Hnd|]. apply Forall_forall. intros k Hk. rewrite sort_desc_perm in Hk. auto.
  - intros b k r [_ HF]. apply Forall_inv in HF. unfold clear_one, get_position.
    apply oo_bind; [apply oo_expect, lookup_lt_is_Some; exact HF|]. intros p _. destruct (is_unlocked now p); [|exact I].
    oadd. intros x _. unfold remove_position. oreq; [apply Nat.ltb_lt; exact HF|]. exact I.
  - intros b k r b' [Hs HF] H. apply StronglySorted_inv in Hs as [Hs Hgt]. split; [exact Hs|].
    apply Forall_cons_1 in HF as [Hk HF]. apply clear_one_inv in H as (p & _ & [[_ ->]|(_ & _ & ->)]); [exact HF|]. cbn.
    rewrite swap_remove_length by exact Hk. rewrite Forall_forall in *. intros n Hn. specialize (Hgt n Hn). lia.
Qed.

Lemma oo_withdraw l amt total :
  c_deposit c = 1 -> me ∈ voter_ids s -> NoDup l -> (forall k, k ∈ l -> (k < length (v_lps (get_voter s me)))%nat) ->
  (forall v1, clear_fully_unlocked_positions (now_ms c) (get_voter s me) l = Ok v1 -> v_bal v1 = total) ->
  0 < total -> (forall a, amt = Some a -> 0 < a <= total) ->
  oo (internal_withdraw c s me l amt).
Proof.
  intros H0 Hr Hnd Hl Hv Ht Ha. unfold internal_withdraw. rewrite y1 by exact H0. cbn [mbind res_bind].
  rewrite (gvop _ _ (reg_voter _ _ Hr)). cbn [mbind res_bind].
  assert (E : match l with [] => Ok (get_voter s me) | _ => clear_fully_unlocked_positions (now_ms c) (get_voter s me) l end
              = clear_fully_unlocked_positions (now_ms c) (get_voter s me) l) by (destruct l; reflexivity).
  rewrite E. clear E. apply oo_bind; [apply oo_clear; assumption|]. intros v1 Ev. apply Hv in Ev.
  assert (Hx : 0 < default (v_bal v1) amt <= v_bal v1).
  { rewrite Ev. destruct amt as [a|]; cbn; [apply Ha; reflexivity|lia]. }
  oreq; [apply N.ltb_lt, Hx|]. oreq; [apply N.leb_le, Hx|]. osub; [apply Hx|]. intros; exact I.
Qed.

End Accept.
