(** MVStep8.v -- C72: the specification depends on the ledger shown only, so two contracts that show the
    same ledger behave the same. *)

From Verif Require Export MVStep7.

(** ** Same accounts *)
Lemma sa_eta a b : same_acct a b -> exists f, b = a <| a_votes := f |> /\ forall x y, a_votes a x y = f x y.
Proof.
  intros (H1 & H2 & H3 & H4 & H5 & H6). exists (a_votes b). split; [|exact H6]. destruct a, b. cbn in *. subst. reflexivity.
Qed.
(** an account function that neither looks at votes nor changes them *)
Definition blind (f : acct -> acct) : Prop := forall a g, f (a <| a_votes := g |>) = f a <| a_votes := g |> /\ a_votes (f a) = a_votes a.
Lemma sa_blind f a b : blind f -> same_acct a b -> same_acct (f a) (f b).
Proof.
  intros Hf H. apply sa_eta in H as (g & -> & Hg). destruct (Hf a g) as [-> E].
  unfold same_acct. cbn [a_voter a_bal a_pos a_free a_used a_votes set]. rewrite E. auto 10.
Qed.
Lemma bl_lock amount days : blind (lock_acct amount days).
Proof. intros [] g. split; reflexivity. Qed.
Lemma bl_collect now ks : blind (collect_acct now ks).
Proof. intros [] g. split; reflexivity. Qed.
Lemma bl_unlock now k p : blind (unlock_acct now k p).
Proof. intros [] g. split; reflexivity. Qed.
Lemma bl_unlock_part now k p n : blind (unlock_part now k p n).
Proof. intros [] g. split; reflexivity. Qed.
Lemma bl_extend k p d : blind (extend k p d).
Proof. intros [] g. split; reflexivity. Qed.
Lemma bl_relock_part now k p x y : blind (relock_part now k p x y).
Proof. intros [] g. unfold relock_part. destruct (match p_since p with Some t => _ | None => false end); split; reflexivity. Qed.

Lemma sa_sym a b : same_acct a b -> same_acct b a.
Proof. intros (H1 & H2 & H3 & H4 & H5 & H6). unfold same_acct. auto 10. Qed.
Lemma sa_pay n a b : same_acct a b -> same_acct (pay_out n a) (pay_out n b).
Proof.
  intros H. pose proof H as (H1 & H2 & H3 & H4 & H5 & H6). unfold pay_out. rewrite H2, H3.
  destruct ((a_bal b =? n) && _); [apply same_acct_refl|]. unfold same_acct. cbn [a_voter a_bal a_pos a_free a_used a_votes set]. auto 10.
Qed.

(** ** Same ledgers *)
Ltac same_inv H := destruct H as (S1 & S2 & S3 & S4 & S5 & S6 & S7 & S8 & S9 & S10 & S11 & S12 & S13 & S14).
Ltac same_mk := unfold same; repeat (split; [assumption|]); try assumption.

Lemma same_refl L : same L L.
Proof. apply same_of; try reflexivity. intros w. apply same_acct_refl. Qed.
Lemma same_sym L M : same L M -> same M L.
Proof.
  intros H. same_inv H. unfold same. repeat (split; [first [congruence|intros; symmetry; auto|intros; apply sa_sym; auto]|]).
  intros w; symmetry; auto.
Qed.
Lemma same_trans L M N : same L M -> same M N -> same L N.
Proof.
  intros H K. same_inv H. destruct K as (T1 & T2 & T3 & T4 & T5 & T6 & T7 & T8 & T9 & T10 & T11 & T12 & T13 & T14). unfold same.
  repeat (split; [first [congruence|intros; etransitivity; eauto|intros; eapply same_acct_trans; eauto]|]).
  intros; etransitivity; eauto.
Qed.

Lemma on_same w f g L M : same L M -> same_acct (f (l_acct L w)) (g (l_acct M w)) -> same (on w f L) (on w g M).
Proof.
  intros H Ha. same_inv H. unfold same. split; [exact S1|]. split.
  { intros x. unfold on. cbn [l_acct set]. destruct (decide (x = w)) as [->|Hx]; [rewrite !put_eq; exact Ha|rewrite !put_ne by exact Hx; apply S2]. }
  repeat (split; [assumption|]). assumption.
Qed.
Lemma same_power L M p q : same L M -> p = q -> same (L <| l_power := p |>) (M <| l_power := q |>).
Proof. intros H ->. same_inv H. unfold same. repeat (split; [first [reflexivity|assumption]|]). assumption. Qed.
Lemma lock_same_ w amount days L M : same L M -> same (lock_for w amount days L) (lock_for w amount days M).
Proof.
  intros H. unfold lock_for. apply same_power; [apply on_same; [exact H|]|]; same_inv H; [apply sa_blind; [apply bl_lock|apply S2]|].
  rewrite S3. reflexivity.
Qed.
Lemma put_same {A} k (v v' : A) f g : v = v' -> (forall x, f x = g x) -> forall x, put k v f x = put k v' g x.
Proof. intros -> H x. unfold put. destruct (decide _); auto. Qed.

Lemma settings_eq L M : same L M -> l_self L = l_self M /\ l_owner L = l_owner M /\ l_operator L = l_operator M /\ l_mpdao L = l_mpdao M /\
  l_stnear L = l_stnear M /\ l_gov L = l_gov M /\ l_min_days L = l_min_days M /\ l_max_days L = l_max_days M /\
  l_min_deposit L = l_min_deposit M /\ l_max_pos L = l_max_pos M /\ l_max_addr L = l_max_addr M /\ l_fee L = l_fee M /\ l_hold L = l_hold M.
Proof. intros [H _]. unfold settings in H. injection H. auto 20. Qed.

Lemma set_votes_same w x y n n' L M : same L M -> n = n' -> same (set_votes w x y n L) (set_votes w x y n' M).
Proof.
  intros H <-. same_inv H. pose proof (S2 w) as (E1 & E2 & E3 & E4 & E5 & E6).
  unfold same. split; [exact S1|]. split.
  { intros z. unfold set_votes, on. cbn [l_acct set]. destruct (decide (z = w)) as [->|Hz]; [|rewrite !put_ne by exact Hz; apply S2].
    rewrite !put_eq. unfold same_acct. cbn [a_voter a_bal a_pos a_free a_used a_votes set]. rewrite E4, E5, E6.
    split; [exact E1|]. split; [exact E2|]. split; [exact E3|]. split; [reflexivity|]. split; [reflexivity|].
    intros u v. unfold put2. destruct (decide _); [reflexivity|apply E6]. }
  split; [exact S3|]. split.
  { intros u v. unfold set_votes, on. cbn [l_tally set]. unfold put2. rewrite E6, S4. destruct (decide _); [reflexivity|apply S4]. }
  repeat (split; [assumption|]). assumption.
Qed.

Lemma at_pos_same w k f g L M : same L M -> (forall p, same (f p) (g p)) -> same (at_pos L w k f) (at_pos M w k g).
Proof.
  intros H Hf. pose proof H as (_ & S2 & _). destruct (S2 w) as (_ & _ & E & _). unfold at_pos. rewrite E.
  destruct (a_pos (l_acct M w) !! k); [apply Hf|exact H].
Qed.
Lemma take_mp_same w n L M : same L M -> same (take_mp w n L) (take_mp w n M).
Proof.
  intros H. same_inv H. unfold same. repeat (split; [assumption|]).
  split; [apply put_same; [rewrite S5; reflexivity|exact S5]|]. split; [change (l_mp_total L - n = l_mp_total M - n); congruence|].
  repeat (split; [assumption|]). assumption.
Qed.
Lemma take_st_same w n L M : same L M -> same (take_st w n L) (take_st w n M).
Proof.
  intros H. same_inv H. unfold same. repeat (split; [assumption|]).
  split; [apply put_same; [rewrite S8; reflexivity|exact S8]|]. split; [change (l_st_total L - n = l_st_total M - n); congruence|].
  repeat (split; [assumption|]). assumption.
Qed.
Lemma data_same L M f g : same L M -> (forall x, f x = g x) -> same (L <| l_data := f |>) (M <| l_data := g |>).
Proof. intros H Hf. same_inv H. unfold same. repeat (split; [assumption|]). assumption. Qed.
Lemma pre_same L M f g : same L M -> (forall x, f x = g x) -> same (L <| l_pre := f |>) (M <| l_pre := g |>).
Proof. intros H Hf. same_inv H. unfold same. repeat (split; [assumption|]). assumption. Qed.
Lemma deleg_same_ L M f g : same L M -> (forall x, f x = g x) -> same (L <| l_deleg := f |>) (M <| l_deleg := g |>).
Proof. intros H Hf. same_inv H. unfold same. repeat (split; [assumption|]). assumption. Qed.
Lemma evms_same L M f g : same L M -> (forall x, f x = g x) -> same (L <| l_evms := f |>) (M <| l_evms := g |>).
Proof. intros H Hf. same_inv H. unfold same. repeat (split; [assumption|]). assumption. Qed.

Lemma paid_same c L M ks n : same L M -> paid c L ks n = paid c M ks n.
Proof.
  intros H. pose proof H as (_ & S2 & _). unfold paid, collected_acct.
  destruct (sa_blind _ _ _ (bl_collect (now_ms c) ks) (S2 (c_pred c))) as (_ & E & _). rewrite E. reflexivity.
Qed.

Lemma locks_same w l : forall L M, same L M ->
  same (fold_left (fun M lp => lock_for w (lp.1 / 10 ^ 18) lp.2 M) l L) (fold_left (fun M lp => lock_for w (lp.1 / 10 ^ 18) lp.2 M) l M).
Proof. induction l as [|p l IH]; intros L M H; [exact H|]. cbn [fold_left]. apply IH, lock_same_, H. Qed.
Lemma datas_same (l : list (string * string)) : forall (f g : string -> option string), (forall x, f x = g x) -> forall x,
  fold_left (fun f p => put p.1 (Some p.2) f) l f x = fold_left (fun f p => put p.1 (Some p.2) f) l g x.
Proof. induction l as [|p l IH]; intros f g H x; [apply H|]. cbn [fold_left]. apply IH. intros y. apply put_same; auto. Qed.

Lemma next_same c o L M : same L M -> same (next c L o) (next c M o).
Proof.
  intros H. pose proof (settings_eq _ _ H) as (F1 & F2 & F3 & F4 & F5 & F6 & F7 & F8 & F9 & F10 & F11 & F12 & F13).
  pose proof H as K. same_inv K.
  assert (Hset : forall L' M', settings L' = settings M' -> nums L' = nums L -> nums M' = nums M -> l_acct L' = l_acct L -> l_acct M' = l_acct M ->
    l_tally L' = l_tally L -> l_tally M' = l_tally M -> l_mp L' = l_mp L -> l_mp M' = l_mp M -> l_st L' = l_st L -> l_st M' = l_st M ->
    l_data L' = l_data L -> l_data M' = l_data M -> l_pre L' = l_pre L -> l_pre M' = l_pre M -> l_deleg L' = l_deleg L -> l_deleg M' = l_deleg M ->
    l_evms L' = l_evms L -> l_evms M' = l_evms M -> same L' M').
  { intros L' M' E1 E2 E3 E4 E5 E6 E7 E8 E9 E10 E11 E12 E13 E14 E15 E16 E17 E18 E19.
    apply same_of; [rewrite E4, E5; exact S2|exact E1|rewrite E2, E3; unfold nums; congruence|rewrite E6, E7; exact S4|
      rewrite E8, E9; exact S5|rewrite E10, E11; exact S8|rewrite E12, E13; exact S11|rewrite E14, E15; exact S12|
      rewrite E16, E17; exact S13|rewrite E18, E19; exact S14]. }
  destruct o; cbn [next]; try (apply Hset; [unfold settings; cbn [l_self l_owner l_operator l_mpdao l_stnear l_gov l_min_days l_max_days l_min_deposit
    l_max_pos l_max_addr l_fee l_hold set]; congruence|reflexivity..]); clear Hset.
  - apply data_same; [exact H|]. apply put_same; [reflexivity|exact S11].
  - apply data_same; [exact H|]. apply datas_same. exact S11.
  - apply lock_same_, take_mp_same, H.
  - apply take_st_same, H.
  - apply at_pos_same; [exact H|]. intros p. apply same_power; [apply on_same; [exact H|apply sa_blind; [apply bl_unlock|apply S2]]|congruence].
  - apply at_pos_same; [exact H|]. intros p. destruct (amount =? p_amount p);
      (apply same_power; [apply on_same; [exact H|apply sa_blind; [first [apply bl_unlock|apply bl_unlock_part]|apply S2]]|congruence]).
  - apply at_pos_same; [exact H|]. intros p. apply same_power; [apply on_same; [exact H|apply sa_blind; [apply bl_extend|apply S2]]|congruence].
  - apply at_pos_same; [exact H|]. intros p. apply lock_same_, on_same; [exact H|].
    apply (sa_blind (fun a => a <| a_pos := take_out i (a_pos a) |> <| a_bal := a_bal a - afb |>)); [|apply S2]. intros [] g; split; reflexivity.
  - apply at_pos_same; [exact H|]. intros p. apply lock_same_, on_same; [exact H|]. apply sa_blind; [apply bl_relock_part|apply S2].
  - apply lock_same_, on_same; [exact H|]. apply (sa_blind (fun a => a <| a_bal := a_bal a - amount |>)); [|apply S2]. intros [] g; split; reflexivity.
  - apply on_same; [exact H|]. apply sa_blind; [apply bl_collect|apply S2].
  - apply set_votes_same; [exact H|]. destruct (S2 (c_pred c)) as (_ & _ & _ & _ & _ & E). rewrite E. reflexivity.
  - apply set_votes_same; [exact H|reflexivity].
  - apply set_votes_same; [exact H|reflexivity].
  - pose proof (locks_same vid l _ _ H) as HM. destruct data as [d|]; [|exact HM]. rewrite S11. destruct (l_data M (c_pred c)); [exact HM|].
    apply data_same; [exact HM|]. apply put_same; [reflexivity|]. apply HM.
  - apply pre_same; [exact H|]. apply put_same; [reflexivity|exact S12].
  - apply pre_same; [exact H|]. apply put_same; [reflexivity|exact S12].
  - rewrite S12. destruct (l_pre M evm) as [[to sig]|]; [|exact H]. rewrite S13.
    assert (HP : same (L <| l_pre := put evm None (l_pre L) |>) (M <| l_pre := put evm None (l_pre M) |>)).
    { apply pre_same; [exact H|]. apply put_same; [reflexivity|exact S12]. }
    destruct (l_deleg M evm) as [[old g]|].
    + destruct (decide (old = to)); [exact HP|]. apply evms_same; [apply deleg_same_; [exact HP|apply put_same; [reflexivity|exact S13]]|].
      assert (HQ : forall x, put old (without evm (l_evms L old)) (l_evms L) x = put old (without evm (l_evms M old)) (l_evms M) x)
        by (apply put_same; [rewrite S14; reflexivity|exact S14]).
      apply put_same; [rewrite HQ; reflexivity|exact HQ].
    + apply evms_same; [apply deleg_same_; [exact HP|apply put_same; [reflexivity|exact S13]]|].
      apply put_same; [rewrite S14; reflexivity|exact S14].
  - apply take_st_same, H.
  - apply set_votes_same; [exact H|]. destruct (S2 (evm_account evm)) as (_ & _ & _ & _ & _ & E). rewrite E. reflexivity.
  - apply set_votes_same; [exact H|reflexivity].
  - apply evms_same; [apply deleg_same_; [exact H|apply put_same; [reflexivity|exact S13]]|].
    apply put_same; [rewrite S14; reflexivity|exact S14].
  - rewrite (paid_same c L M _ _ H). apply on_same; [exact H|]. apply sa_pay, sa_blind; [apply bl_collect|apply S2].
  - rewrite (paid_same c L M _ _ H). apply on_same; [exact H|]. apply sa_pay, sa_blind; [apply bl_collect|apply S2].
  - destruct ok; [exact H|]. apply on_same; [exact H|].
    apply (sa_blind (fun a => a <| a_voter := true |> <| a_bal := a_bal a + amount |>)); [|apply S2]. intros [] g; split; reflexivity.
  - destruct ok; [exact H|]. unfold same. repeat (split; [assumption|]).
    split; [apply put_same; [rewrite S8; reflexivity|exact S8]|]. split; [change (l_st_total L + amount = l_st_total M + amount); congruence|].
    repeat (split; [assumption|]). assumption.
  - destruct (after_prefix "for-claims:" msg).
    + rewrite F4. destruct (decide (c_pred c = l_mpdao M)).
      * unfold same. repeat (split; [assumption|]). split; [intros w; cbn [l_mp set]; rewrite S5; reflexivity|].
        split; [change (l_mp_total L + amount = l_mp_total M + amount); congruence|].
        split; [change (l_mp_ever L + amount = l_mp_ever M + amount); congruence|]. repeat (split; [assumption|]). assumption.
      * unfold same. repeat (split; [assumption|]). split; [intros w; cbn [l_st set]; rewrite S8; reflexivity|].
        split; [change (l_st_total L + amount = l_st_total M + amount); congruence|].
        split; [change (l_st_ever L + amount = l_st_ever M + amount); congruence|]. repeat (split; [assumption|]). assumption.
    + destruct (lock_target c sender msg) as [[w days]|]; [apply lock_same_, H|exact H].
Qed.

Lemma pays_same c o L M : same L M -> pays c L o = pays c M o.
Proof.
  intros H. destruct (settings_eq _ _ H) as (_ & _ & _ & _ & F5 & _). destruct o; cbn [pays]; rewrite ?F5, ?(paid_same c L M _ _ H); reflexivity.
Qed.

Lemma locked_for_same a b d : same_acct a b -> pos_locked_for a d <-> pos_locked_for b d.
Proof. intros (_ & _ & E & _). unfold pos_locked_for. rewrite E. reflexivity. Qed.

Lemma enabled_same c o L M : same L M -> enabled c L o -> enabled c M o.
Proof.
  intros H. pose proof (settings_eq _ _ H) as (F1 & F2 & F3 & F4 & F5 & F6 & F7 & F8 & F9 & F10 & F11 & F12 & F13).
  pose proof H as K. same_inv K.
  assert (A1 : forall w, a_voter (l_acct L w) = a_voter (l_acct M w)) by (intros w; apply (S2 w)).
  assert (A2 : forall w, a_bal (l_acct L w) = a_bal (l_acct M w)) by (intros w; apply (S2 w)).
  assert (A3 : forall w, a_pos (l_acct L w) = a_pos (l_acct M w)) by (intros w; apply (S2 w)).
  assert (A4 : forall w, a_free (l_acct L w) = a_free (l_acct M w)) by (intros w; apply (S2 w)).
  assert (A6 : forall w x y, a_votes (l_acct L w) x y = a_votes (l_acct M w) x y) by (intros w; apply (S2 w)).
  assert (B1 : forall w d f, may_lock L w d f -> may_lock M w d f).
  { intros w d f. unfold may_lock, pos_locked_for, npos. rewrite F7, F8, F10, A3. auto. }
  assert (B2 : forall w n, may_vote L w n -> may_vote M w n).
  { intros w n. unfold may_vote. rewrite A1, A4, F11. intros (H1 & H2 & vs & H3 & H4 & H5). split; [exact H1|]. split; [exact H2|].
    exists vs. split; [exact H3|]. split; [|exact H5]. intros x. rewrite H4. split; intros [y Hy]; exists y; [rewrite <- A6|rewrite A6]; exact Hy. }
  assert (B3 : forall x y, held L (now_ms c) x y <-> held M (now_ms c) x y) by (intros; unfold held; rewrite F13; reflexivity).
  assert (B4 : forall w x y, may_unvote L (now_ms c) w x y -> may_unvote M (now_ms c) w x y).
  { intros w x y. unfold may_unvote. rewrite A6, B3. auto. }
  assert (B5 : forall e w, delegated_to L e w -> delegated_to M e w).
  { intros e w [g E]. exists g. rewrite <- S13. exact E. }
  assert (B6 : forall ks, a_bal (collect_acct (now_ms c) ks (l_acct L (c_pred c))) = a_bal (collect_acct (now_ms c) ks (l_acct M (c_pred c)))).
  { intros ks. apply (sa_blind _ _ _ (bl_collect (now_ms c) ks) (S2 (c_pred c))). }
  destruct o; cbn [enabled]; cbv zeta;
    rewrite ?F1, ?F2, ?F3, ?F4, ?F5, ?F6, ?F7, ?F8, ?F9, ?F10, ?F11, ?F12, ?A1, ?A2, ?A3, ?A4, ?A6, ?S5, ?S8, ?B6; try exact (fun h => h).
  - intros (H1 & H2 & H3 & H4 & H5). auto 10.
  - intros (H1 & p & H2 & H3). split; [exact H1|]. exists p. split; [exact H2|]. unfold npos in *. rewrite A3 in H3. exact H3.
  - intros (H1 & H2 & p & t & H3 & H4 & H5 & H6). split; [exact H1|]. split; [exact H2|]. exists p, t. auto 10.
  - intros (H1 & H2 & H0 & p & t & H3 & H4 & H5 & H6 & H7). split; [exact H1|]. split; [exact H2|]. split; [exact H0|]. exists p, t.
    split; [exact H3|]. split; [exact H4|]. split; [exact H5|]. split; [exact H6|].
    destruct H7 as [(? & ? & ?)|(? & ?)]; [left|right]; auto.
  - intros (H1 & H2 & H3 & H4 & H5). auto 10.
  - intros (H1 & H2). auto.
  - rewrite B3. exact (fun h => h).
  - intros (H1 & H2). auto.
  - intros (H1 & H2 & H3 & new & H4 & H5 & H6). split; [exact H1|]. split; [exact H2|]. split; [exact H3|]. exists new. split; [exact H4|].
    split; [intros k; rewrite H5, (locked_for_same _ _ k (S2 vid)); reflexivity|]. unfold npos in *. rewrite <- A3. exact H6.
  - intros (H1 & H2). auto.
  - intros (H1 & H2 & H3). auto.
  - intros (H1 & H2 & H3). auto.
  - intros (H1 & H2). auto.
  - intros (H1 & H2 & H3). split; [exact H1|]. split; [exact H2|]. destruct (after_prefix "for-claims:" msg); [exact H3|].
    destruct H3 as (H3 & H4 & H5 & w & days & H6 & H7 & H8). split; [exact H3|]. split; [exact H4|]. split; [exact H5|]. exists w, days. auto.
Qed.

(** ** Two contracts showing the same ledger *)
Lemma c72_views a1 s1 tr1 a2 s2 tr2 c o :
  mv_new a1 = Ok s1 -> mv_new a2 = Ok s2 ->
  collision_free (tr1 ++ [(c, o)]) -> no_zero_votes (tr1 ++ [(c, o)]) ->
  collision_free (tr2 ++ [(c, o)]) -> no_zero_votes (tr2 ++ [(c, o)]) -> named_once o ->
  same (observe (run s1 tr1)) (observe (run s2 tr2)) ->
  forall s1' e1, exec c (run s1 tr1) o = Ok (s1', e1) ->
    (exists s2' e2, exec c (run s2 tr2) o = Ok (s2', e2) /\ e2 = e1 /\
       ((forall ext l, o <> MirrorLps ext l) -> same (observe s2') (observe s1'))) \/
    exists m, exec c (run s2 tr2) o = Panic m /\ too_big m.
Proof.
  intros N1 N2 C1 Z1 C2 Z2 Hno Hs s1' e1 H.
  destruct (c72 a1 s1 tr1 c o N1 C1 Z1 Hno) as [A1 _]. destruct (c72 a2 s2 tr2 c o N2 C2 Z2 Hno) as [A2 B2].
  destruct (A1 _ _ H) as (He & Hb & Hp). destruct (B2 (enabled_same _ _ _ _ Hs He)) as [(s2' & e2 & H2)|H2]; [left|right; exact H2].
  exists s2', e2. destruct (A2 _ _ H2) as (_ & Hb2 & Hp2). split; [exact H2|]. split; [rewrite Hp, Hp2; symmetry; apply pays_same; exact Hs|].
  intros Hm. assert (Hb' : same (observe s1') (next c (observe (run s1 tr1)) o)) by (destruct o; try exact Hb; exfalso; eapply Hm; reflexivity).
  assert (Hb2' : same (observe s2') (next c (observe (run s2 tr2)) o)) by (destruct o; try exact Hb2; exfalso; eapply Hm; reflexivity).
  eapply same_trans; [exact Hb2'|]. apply same_sym. eapply same_trans; [exact Hb'|]. apply next_same. exact Hs.
Qed.
