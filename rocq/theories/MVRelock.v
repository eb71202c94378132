(** MVRelock.v -- re-locking (C09) and the voting power formula (C10). *)

From Verif Require Export MVClear.

Definition lamt (d : N) (l : list lpos) : N :=
  sum_by (fun p => if is_locked p && (lp_days p =? d) then lp_amount p else 0) l.
Global Arguments lamt : simpl never.

Lemma lamt_insert d l i p q : l !! i = Some p ->
  lamt d (<[i := q]> l) + (if is_locked p && (lp_days p =? d) then lp_amount p else 0)
  = lamt d l + (if is_locked q && (lp_days q =? d) then lp_amount q else 0).
Proof. intros H. exact (sum_by_insert (fun p => if is_locked p && (lp_days p =? d) then lp_amount p else 0) l i p q H). Qed.
Lemma lamt_swap d l i p : l !! i = Some p ->
  lamt d (swap_remove i l) + (if is_locked p && (lp_days p =? d) then lp_amount p else 0) = lamt d l.
Proof. intros H. exact (sum_by_swap_remove (fun p => if is_locked p && (lp_days p =? d) then lp_amount p else 0) l i p H). Qed.
Lemma lamt_app d l p : lamt d (l ++ [p]) = lamt d l + (if is_locked p && (lp_days p =? d) then lp_amount p else 0).
Proof. unfold lamt. rewrite sum_by_app, sum_by_cons. change (sum_by _ []) with 0. lia. Qed.

Lemma dep_lamt m l amount days vp l' d :
  dep_lps m l amount days vp l' ->
  lamt d l' = lamt d l + (if days =? d then amount else 0).
Proof.
  intros [(i & p & Hl & Hdays & Hun & _ & _ & ->)|(Hf & _ & ->)].
  - pose proof (lamt_insert d _ _ _ (mkLpos (lp_amount p + amount) days (lp_vp p + vp) None) Hl) as H.
    unfold is_locked in H at 1 2. cbn [lp_days lp_amount lp_unl] in H. rewrite Hun, Hdays in H. cbn [andb] in H.
    destruct (days =? d); lia.
  - rewrite lamt_app. unfold is_locked at 1. cbn [lp_days lp_amount lp_unl andb]. reflexivity.
Qed.

Lemma locked_amount_at_eq s vid d : locked_amount_at s vid d = lamt d (v_lps (get_voter s vid)).
Proof. unfold locked_amount_at, lamt, get_all_locking_positions. apply sum_by_imap. reflexivity. Qed.

Lemma save_get s vid v t : get_voter (upd s vid v t) vid = v.
Proof. unfold get_voter, upd, save_voter. cbn. rewrite om_get_set_eq. reflexivity. Qed.

Lemma relock_views c s i d afb s' e :
  exec c s (Relock i d afb) = Ok (s', e) ->
  let vid := c_pred c in let now := now_ms c in
  exists j t, get_locking_position now s i vid = Some j /\ j_unl j = Some t /\
    (now < t + j_days j * 86400000 -> t + j_days j * 86400000 < now + d * 86400000) /\
    (forall k, locked_amount_at s' vid k
               = locked_amount_at s vid k + (if d =? k then j_amount j + afb else 0)) /\
    raw_balance s' vid + afb = raw_balance s vid.
Proof.
  intros H vid now. cbn [exec] in H. apply noeff_Ok in H as [H _].
  apply relock_inv in H as (v & p & t & vp & l' & Hv & Hp & Hb & Hu & Hlt & _ & _ & _ & Hd & _ & _ & ->).
  pose proof (get_voter_Some _ _ _ Hv) as Eg. fold vid in Eg. unfold days_to_millis in Hlt. fold now in Hlt.
  exists (lp_to_json now i p), t. unfold get_locking_position, raw_balance.
  fold vid. rewrite save_get, Eg, Hp. cbn [v_bal].
  split; [reflexivity|]. split; [exact Hu|]. split.
  { change (j_days (lp_to_json now i p)) with (lp_days p). lia. }
  split; [|lia].
  intros k. rewrite !locked_amount_at_eq. fold vid. rewrite save_get, Eg. cbn [v_lps].
  rewrite (dep_lamt _ _ _ _ _ _ k Hd).
  pose proof (lamt_swap k _ _ _ Hp) as E. rewrite (unl_locked _ _ Hu) in E. cbn [andb] in E.
  change (j_amount (lp_to_json now i p)) with (lp_amount p). lia.
Qed.

Lemma relock_partial_views c s i afp d afb s' e :
  exec c s (RelockPartial i afp d afb) = Ok (s', e) ->
  let vid := c_pred c in let now := now_ms c in
  exists j t, get_locking_position now s i vid = Some j /\ j_unl j = Some t /\ afp <= j_amount j /\
    (now < t + j_days j * 86400000 -> t + j_days j * 86400000 < now + d * 86400000) /\
    (forall k, locked_amount_at s' vid k
               = locked_amount_at s vid k + (if d =? k then afp + afb else 0)) /\
    raw_balance s' vid + afb
    = raw_balance s vid + (if now <? t + j_days j * 86400000 then 0 else j_amount j - afp).
Proof.
  intros H vid now. cbn [exec] in H. apply noeff_Ok in H as [H _].
  apply relock_partial_inv in H as (v & p & t & vp & l1 & l' & b1 & Hv & Hp & Hb & Ha & _ & _ & Hu & Hcase & _ & _ & Hd & _ & _ & ->).
  pose proof (get_voter_Some _ _ _ Hv) as Eg. fold vid in Eg. unfold days_to_millis in Hcase. fold now in Hcase.
  exists (lp_to_json now i p), t. unfold get_locking_position, raw_balance.
  fold vid. rewrite save_get, Eg, Hp. cbn [v_bal].
  change (j_days (lp_to_json now i p)) with (lp_days p).
  change (j_amount (lp_to_json now i p)) with (lp_amount p).
  assert (Hl1 : forall k, lamt k l1 = lamt k (v_lps v)).
  { intros k. destruct Hcase as [(_ & _ & _ & _ & nvp & _ & ->)|(_ & _ & _ & ->)].
    - pose proof (lamt_insert k _ _ _ (mkLpos (lp_amount p - afp) (lp_days p) nvp (lp_unl p)) Hp) as E.
      rewrite (unl_locked _ _ Hu), Hu in E. cbn [andb is_locked lp_unl] in E. rewrite Hu. lia.
    - pose proof (lamt_swap k _ _ _ Hp) as E. rewrite (unl_locked _ _ Hu) in E. cbn [andb] in E. lia. }
  split; [reflexivity|]. split; [exact Hu|]. split; [exact Ha|].
  split; [destruct Hcase as [(H1 & H2 & _)|(H1 & _)]; lia|]. split.
  - intros k. rewrite !locked_amount_at_eq. fold vid. rewrite save_get, Eg. cbn [v_lps].
    rewrite (dep_lamt _ _ _ _ _ _ k Hd), Hl1. destruct (d =? k); lia.
  - destruct Hcase as [(H1 & _ & _ & -> & _)|(H1 & -> & _)];
      destruct (N.ltb_spec now (t + lp_days p * 86400000)); lia.
Qed.

(** ** C10 *)
Lemma calc_formula a d r :
  calculate_voting_power a d = Ok r <->
  r = a * 10^18 * d / 60 /\ d < 3600 /\ a * 10^18 < 2^128 /\ a * 10^18 * d / 60 < 2^128.
Proof.
  rewrite calc_Ok. change E18 with (10^18). change U128_SIZE with (2^128).
  split; [intros (-> & H1 & H2 & H3)|intros (-> & H1 & H2 & H3)]; auto.
Qed.

Lemma calc_mono a d r a' d' r' :
  calculate_voting_power a d = Ok r -> calculate_voting_power a' d' = Ok r' ->
  a <= a' -> d <= d' -> r <= r'.
Proof.
  rewrite !calc_Ok. intros (-> & _) (-> & _) Ha Hd.
  apply N.div_le_mono; [lia|]. apply N.mul_le_mono; [|exact Hd]. apply N.mul_le_mono_r. exact Ha.
Qed.

Lemma calc_split a b d r1 r2 r :
  calculate_voting_power a d = Ok r1 -> calculate_voting_power b d = Ok r2 ->
  calculate_voting_power (a + b) d = Ok r -> r1 + r2 <= r /\ r <= r1 + r2 + 1.
Proof.
  rewrite !calc_Ok. intros (-> & _) (-> & _) (-> & _).
  replace ((a + b) * E18 * d) with (a * E18 * d + b * E18 * d) by ring.
  generalize (a * E18 * d) as x, (b * E18 * d) as y. intros x y.
  pose proof (N.div_mod x 60 ltac:(lia)). pose proof (N.mod_lt x 60 ltac:(lia)).
  pose proof (N.div_mod y 60 ltac:(lia)). pose proof (N.mod_lt y 60 ltac:(lia)).
  pose proof (N.div_mod (x + y) 60 ltac:(lia)). pose proof (N.mod_lt (x + y) 60 ltac:(lia)).
  revert H H0 H1 H2 H3 H4.
  generalize (x / 60) as q1, (y / 60) as q2, ((x + y) / 60) as q3, (x mod 60) as r1, (y mod 60) as r2, ((x + y) mod 60) as r3.
  clear. intros q1 q2 q3 r1 r2 r3 H H0 H1 H2 H3 H4.
  assert (60 * q1 + r1 + (60 * q2 + r2) = 60 * q3 + r3) by congruence. lia.
Qed.

(** a part has less power than the whole *)
Lemma calc_part a b d r :
  calculate_voting_power (a + b) d = Ok r -> exists r1, calculate_voting_power a d = Ok r1 /\ r1 <= r.
Proof.
  rewrite calc_Ok. intros (E & H1 & H2 & H3).
  assert (Hle : a * E18 * d / 60 <= r).
  { subst r. apply N.div_le_mono; [lia|]. apply N.mul_le_mono_r, N.mul_le_mono_r. lia. }
  exists (a * E18 * d / 60). split; [|exact Hle]. apply calc_Ok. repeat split; [|exact H2|lia].
  eapply N.le_lt_trans; [|exact H1]. apply N.mul_le_mono_r. lia.
Qed.
