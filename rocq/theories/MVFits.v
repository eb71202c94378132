(** MVFits.v -- C76: an enabled call is accepted exactly when its numbers fit. *)

From Verif Require Export MVStep8 MVSpecFits.

(** ** No sum or product too big *)
Definition nf {A} (r : res A) : Prop := match r with Ok _ => True | Panic m => ~ too_big m end.

Lemma nf_bind {A B} (r : res A) (f : A -> res B) :
  nf r -> (forall x, r = Ok x -> nf (f x)) -> nf (x ← r; f x).
Proof. destruct r as [x|m]; cbn; [intros _ H; apply H; reflexivity|auto]. Qed.
Lemma nf_eq {A} (r : res A) x : r = Ok x -> nf r.
Proof. intros ->. exact I. Qed.
Lemma nf_noeff r : nf r -> nf (noeff r).
Proof. intros H. unfold noeff. apply nf_bind; [exact H|]. intros; exact I. Qed.
Lemma nf_require b m : ~ too_big m -> nf (require b m).
Proof. destruct b; [intros _; exact I|intros H; exact H]. Qed.
Lemma nf_expect {A} (o : option A) m : ~ too_big m -> nf (expect o m).
Proof. destruct o; [intros _; exact I|intros H; exact H]. Qed.
Lemma nf_add a b : a + b < U128_SIZE -> nf (add128 a b).
Proof. intros H. eapply nf_eq. apply add128_Ok. split; [reflexivity|exact H]. Qed.
Ltac nbig := intros HH; unfold too_big in HH; cbn in HH; repeat destruct HH as [HH|HH]; first [discriminate HH|exact HH].
Lemma nf_sub a b : nf (sub128 a b).
Proof. unfold sub128. destruct (_ <=? _); [exact I|]. cbn [nf]. nbig. Qed.
Lemma nf_mul a b : a * b < U128_SIZE -> nf (mul128 a b).
Proof. intros H. eapply nf_eq. apply mul128_Ok. split; [reflexivity|exact H]. Qed.
Lemma nf_calc amount days : amount * E18 < U128_SIZE -> power days amount < U128_SIZE -> nf (calculate_voting_power amount days).
Proof.
  intros H1 H2. unfold calculate_voting_power. apply N.ltb_lt in H1. rewrite H1. cbn [mbind res_bind].
  apply nf_bind; [apply nf_require; nbig|]. intros _ _. unfold proportional.
  change (amount * E18 * days / 60) with (power days amount). apply N.ltb_lt in H2. rewrite H2. exact I.
Qed.
Lemma nf_foldM {A B} (P : B -> list A -> Prop) (f : B -> A -> res B) l : forall b,
  P b l -> (forall b a l, P b (a :: l) -> nf (f b a)) ->
  (forall b a l b', P b (a :: l) -> f b a = Ok b' -> P b' l) -> nf (foldM f l b).
Proof.
  induction l as [|x l IH]; intros b H H1 H2; [exact I|]. cbn [foldM]. apply nf_bind.
  - eapply H1. exact H.
  - intros b' E. apply IH; auto. eapply H2; eauto.
Qed.
Lemma nf_yes {A} (r : res A) : oo r -> nf r -> exists x, r = Ok x.
Proof. destruct r as [x|m]; [eauto|]. cbn. intros H1 H2. contradiction. Qed.

Ltac nreq := apply nf_bind; [apply nf_require; nbig|intros _ _].
Ltac nsub := apply nf_bind; [apply nf_sub|].
Ltac nadd := apply nf_bind; [apply nf_add|].
Ltac nexp := apply nf_bind; [apply nf_expect; nbig|].

(** ** Locking *)
Definition lock_fits' (t : N) (l : list lpos) (amount days : N) : Prop :=
  amount * E18 < U128_SIZE /\ t + power days amount < U128_SIZE /\
  forall p, List.find (fun q => locked q && (p_days q =? days)) (map lpp l) = Some p ->
    p_amount p + amount < U128_SIZE /\ p_vp p + power days amount < U128_SIZE.

Lemma find_same l days i :
  match find_locked_from i l days with
  | Some k => exists p, l !! (k - i)%nat = Some p /\ (i <= k)%nat /\
      List.find (fun q => locked q && (p_days q =? days)) (map lpp l) = Some (lpp p)
  | None => List.find (fun q => locked q && (p_days q =? days)) (map lpp l) = None
  end.
Proof.
  revert i. induction l as [|p l IH]; intros i; [reflexivity|]. cbn [find_locked_from map List.find].
  assert (Hb : locked (lpp p) && (p_days (lpp p) =? days) = (lp_days p =? days) && is_locked p) by (apply andb_comm).
  rewrite Hb. destruct ((lp_days p =? days) && is_locked p) eqn:E.
  - exists p. rewrite Nat.sub_diag. split; [reflexivity|]. split; [lia|reflexivity].
  - specialize (IH (S i)). destruct (find_locked_from (S i) l days) as [k|].
    + destruct IH as (q & Hq & Hle & E2). exists q. replace (k - i)%nat with (S (k - S i)) by lia.
      split; [exact Hq|]. split; [lia|exact E2].
    + exact IH.
Qed.

Lemma nf_deposit s amount days vid v :
  v_avail v <= total_vp s -> lock_fits' (total_vp s) (v_lps v) amount days -> nf (deposit_locking_position s amount days vid v).
Proof.
  intros Hav (H1 & H2 & H3). unfold deposit_locking_position. nreq.
  apply nf_bind; [|intros [? ?] _; exact I]. pose proof (find_same (v_lps v) days 0) as F. unfold find_locked_position.
  destruct (find_locked_from 0 (v_lps v) days) as [k|].
  - destruct F as (p & Hp & _ & Ef). rewrite Nat.sub_0_r in Hp. destruct (H3 _ Ef) as [H4 H5].
    unfold increase_locking_position. apply nf_bind; [apply nf_calc; [exact H1|lia]|]. intros vp Evp. apply power_calc in Evp as ->.
    unfold get_position. rewrite Hp. cbn [expect mbind res_bind]. nadd; [exact H4|]. intros ? _. nadd; [exact H5|]. intros ? _.
    nadd; [lia|]. intros ? _. nadd; [exact H2|]. intros; exact I.
  - unfold internal_create_locking_position, assert_lps_room. nreq. nreq.
    apply nf_bind; [apply nf_calc; [exact H1|lia]|]. intros vp Evp. apply power_calc in Evp as ->.
    nadd; [lia|]. intros ? _. nadd; [exact H2|]. intros; exact I.
Qed.

Lemma deposit_fits s amount days vid v r :
  deposit_locking_position s amount days vid v = Ok r -> lock_fits' (total_vp s) (v_lps v) amount days.
Proof.
  intros H. unfold deposit_locking_position in H. apply bind_Ok in H as (? & _ & H). apply bind_Ok in H as ([s1 v1] & H1 & _).
  pose proof (find_same (v_lps v) days 0) as F. unfold find_locked_position in H1.
  destruct (find_locked_from 0 (v_lps v) days) as [i|].
  - destruct F as (p & Hp & _ & Ef). rewrite Nat.sub_0_r in Hp.
    unfold increase_locking_position, get_position in H1.
    apply bind_Ok in H1 as (vp & Hvp & H1). pose proof Hvp as Hc. apply power_calc in Hvp as ->. apply calc_Ok in Hc as (_ & Hc & _).
    apply bind_Ok in H1 as (q & Hq & H1). apply expect_Ok in Hq. rewrite Hp in Hq. injection Hq as <-.
    apply bind_Ok in H1 as (a' & Ha & H1). apply add128_Ok in Ha as [_ Ha].
    apply bind_Ok in H1 as (b' & Hb & H1). apply add128_Ok in Hb as [_ Hb].
    apply bind_Ok in H1 as (av & _ & H1). apply bind_Ok in H1 as (t & Ht & _). apply add128_Ok in Ht as [_ Ht].
    split; [exact Hc|]. split; [exact Ht|]. intros q Eq. rewrite Ef in Eq. injection Eq as <-. split; [exact Ha|exact Hb].
  - apply create_lp_inv in H1 as (vp & Hvp & _ & _ & _ & Ht & _). pose proof Hvp as Hc. apply power_calc in Hvp as ->.
    apply calc_Ok in Hc as (_ & Hc & _). split; [exact Hc|]. split; [exact Ht|]. intros q Eq. rewrite F in Eq. discriminate Eq.
Qed.

(** ** Collecting *)
Lemma collect_ge now ks n b l : b <= (collect now ks n b l).1.
Proof. rewrite collect_bal. lia. Qed.

Lemma nf_clear_fold now l : StronglySorted gt l -> forall n v,
  Forall (fun k => (k < n)%nat) l -> (collect now (in_list l) n (v_bal v) (map lpp (v_lps v))).1 < U128_SIZE ->
  nf (foldM (clear_one now) l v).
Proof.
  intros Hs n. revert l Hs. induction n as [|n IH]; intros l Hs v Hf H.
  - destruct l as [|k l]; [exact I|inversion Hf; lia].
  - assert (Hskip : ~ n ∈ l -> Forall (fun k => (k < n)%nat) l).
    { intros Hn. rewrite Forall_forall in Hf |- *. intros k Hk. specialize (Hf k Hk). destruct (decide (k = n)) as [->|]; [contradiction|lia]. }
    cbn [collect] in H. destruct (decide (n ∈ l)) as [Hin|Hni].
    + destruct l as [|k l]; [inversion Hin|]. apply StronglySorted_inv in Hs as [Hs Hg].
      assert (k = n) as ->.
      { apply elem_of_cons in Hin as [->|Hin]; [reflexivity|]. rewrite Forall_forall in Hg. specialize (Hg n Hin).
        apply Forall_cons in Hf as [Hk _]. lia. }
      assert (Hf1 : Forall (fun k => (k < n)%nat) l).
      { rewrite Forall_forall in Hg |- *. intros k Hk. specialize (Hg k Hk). lia. }
      assert (Hext : forall b l0, collect now (in_list (n :: l)) n b l0 = collect now (in_list l) n b l0).
      { intros b l0. apply collect_ext. intros k p Hk _. f_equal. unfold in_list. apply bool_decide_ext.
        rewrite elem_of_cons. split; [intros [->|]; [lia|assumption]|auto]. }
      assert (Hb : in_list (n :: l) n = true) by (unfold in_list; apply bool_decide_eq_true; left).
      change (map lpp (v_lps v) !! n) with ((lpp <$> v_lps v) !! n) in H. rewrite list_lookup_fmap in H.
      cbn [foldM]. unfold clear_one at 1, get_position.
      destruct (v_lps v !! n) as [p|] eqn:Ep; cbn [fmap option_fmap option_map] in H; [|cbn [expect mbind res_bind nf]; nbig].
      cbn [expect mbind res_bind]. rewrite Hb, <- is_unlocked_ended in H. destruct (is_unlocked now p) eqn:Eu; cbn [andb] in H; rewrite Hext in H.
      * pose proof (lookup_lt_Some _ _ _ Ep) as Hlt. change (lp_amount p) with (p_amount (lpp p)).
        pose proof (collect_ge now (in_list l) n (v_bal v + p_amount (lpp p)) (take_out n (map lpp (v_lps v)))) as Hge.
        unfold remove_position. cbn [v_bal]. rewrite (proj2 (add128_Ok _ _ _) (conj eq_refl (N.le_lt_trans _ _ _ Hge H))).
        cbn [mbind res_bind]. cbn [v_lps]. apply Nat.ltb_lt in Hlt. unfold set; cbn [v_lps]. rewrite Hlt. cbn [require mbind res_bind].
        apply Nat.ltb_lt in Hlt. apply IH; [exact Hs|exact Hf1|]. cbn [v_bal v_lps]. rewrite <- take_out_map by exact Hlt. exact H.
      * cbn [mbind res_bind]. apply IH; assumption.
    + assert (Hb : in_list l n = false) by (unfold in_list; apply bool_decide_eq_false; exact Hni).
      rewrite Hb in H. apply IH; [exact Hs|apply Hskip; exact Hni|]. destruct (map lpp (v_lps v) !! n); exact H.
Qed.
