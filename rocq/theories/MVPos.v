(** MVPos.v -- invariants of the locking positions (C11, C12, C14, C15). *)

From Verif Require Export MVAuth.

(** ** A property of all voters, kept by every call *)
Definition allv (Q : voter -> Prop) (s : state) : Prop :=
  NoDup (voters s).*1 /\ forall vid, Q (get_voter s vid).

Lemma store_get s s' vid v' w :
  NoDup (voters s).*1 -> store_voter s s' vid v' ->
  NoDup (voters s').*1 /\
  (get_voter s' w = get_voter s w \/ get_voter s' w = v' \/ get_voter s' w = new_voter w) /\
  (w <> vid -> get_voter s' w = get_voter s w) /\
  (get_voter s' vid = v' \/ (get_voter s' vid = new_voter vid /\ v_bal v' = 0 /\ v_lps v' = [])).
Proof.
  intros Hnd [E|(E & Hb & Hl & Hs)]; unfold get_voter; rewrite E.
  - split; [apply om_set_NoDup; exact Hnd|].
    destruct (decide (w = vid)) as [->|Hne].
    + rewrite om_get_set_eq. cbn. repeat split; auto. intros []; reflexivity.
    + rewrite om_get_set_ne by congruence. rewrite om_get_set_eq. cbn. auto.
  - split; [apply om_remove_NoDup; exact Hnd|].
    destruct (decide (w = vid)) as [->|Hne].
    + rewrite om_get_remove_eq by exact Hnd. cbn. repeat split; auto. intros []; reflexivity.
    + rewrite om_get_remove_ne by congruence. rewrite om_get_remove_eq by exact Hnd. cbn. auto 6.
Qed.

Lemma allv_exec (Q : voter -> Prop) c s o s' e :
  (forall vid, Q (new_voter vid)) ->
  exec c s o = Ok (s', e) ->
  (forall vid v', vchg c s o s' e vid (get_voter s vid) v' -> Q (get_voter s vid) -> Q v') ->
  allv Q s -> allv Q s'.
Proof.
  intros Hnew Hx Hc [Hnd Ha]. apply exec_cases in Hx as [_ [(E & _)|(vid & v' & Hst & Hch)]].
  - split; [rewrite E; exact Hnd|]. intros w. unfold get_voter. rewrite E. apply Ha.
  - pose proof (fun w => store_get _ _ _ _ w Hnd Hst) as G. split; [apply (G vid)|].
    intros w. destruct (G w) as (_ & [E|[E|E]] & _); rewrite E; [apply Ha| |apply Hnew].
    eapply Hc; [exact Hch|apply Ha].
Qed.

Lemma allv_init (Q : voter -> Prop) a s : (forall vid, Q (new_voter vid)) -> mv_new a = Ok s -> allv Q s.
Proof.
  intros Hq H. unfold mv_new in H. rinv. split; [constructor|]. intros vid. apply Hq.
Qed.

Lemma allv_run (Q : voter -> Prop) a s0 tr :
  (forall vid, Q (new_voter vid)) ->
  (forall c s o s' e vid v', In (c, o) tr -> consts s = consts s0 ->
     vchg c s o s' e vid (get_voter s vid) v' -> Q (get_voter s vid) -> Q v') ->
  mv_new a = Ok s0 -> allv Q (run s0 tr).
Proof.
  intros Hn Hc H0.
  enough (allv Q (run s0 tr) /\ consts (run s0 tr) = consts s0) by tauto.
  apply run_inv; [split; [eapply allv_init; eauto|reflexivity]|].
  intros [c o] s s' e Hin [Ha Hk] Hx. cbn in Hx. split.
  - eapply allv_exec; eauto.
  - rewrite <- Hk. eapply exec_consts; exact Hx.
Qed.

(** ** Properties of single positions *)
Section PosQ.
Context (Q : lpos -> Prop).
Context (Hc : forall amount days vp u, calculate_voting_power amount days = Ok vp -> Q (mkLpos amount days vp u)).
Context (Hm : forall p amount vp, Q p -> lp_unl p = None -> calculate_voting_power amount (lp_days p) = Ok vp ->
  Q (mkLpos (lp_amount p + amount) (lp_days p) (lp_vp p + vp) None)).
Context (Hu : forall p u, Q p -> Q (mkLpos (lp_amount p) (lp_days p) (lp_vp p) u)).
Context (Hs : forall p amount vp u, Q p -> calculate_voting_power amount (lp_days p) = Ok vp ->
  amount < lp_amount p -> vp <= lp_vp p ->
  Q (mkLpos (lp_amount p - amount) (lp_days p) (lp_vp p - vp) u)).
Let A (l : list lpos) : Prop := Forall Q l.

Lemma A_lookup l i p : A l -> l !! i = Some p -> Q p.
Proof. intros H Hl. eapply Forall_lookup_1; eauto. Qed.

Lemma dep1_pos s v amount days v' : dep1 s v amount days v' -> A (v_lps v) -> A (v_lps v').
Proof.
  intros (vp & l' & Hv & _ & Hd & _ & ->) Ha. cbn.
  destruct Hd as [(i & p & Hl & Hdays & Hun & _ & _ & ->)|(_ & _ & ->)].
  - apply Forall_insert; [exact Ha|]. subst days. apply Hm; auto. eapply A_lookup; eauto.
  - apply Forall_app. split; [exact Ha|]. constructor; [|constructor]. apply Hc. exact Hv.
Qed.

Lemma deps_pos s v l v' : deps s v l v' -> A (v_lps v) -> A (v_lps v').
Proof. induction 1; [auto|]. intros Ha. apply IHdeps. eapply dep1_pos; eauto. Qed.

Lemma clears_pos now v v' : clears now v v' -> A (v_lps v) -> A (v_lps v').
Proof. induction 1; [auto|]. intros Ha. cbn. apply Forall_swap_remove. exact (IHclears Ha). Qed.

Lemma zip_pos l : forall vps, mapMr (fun lp => calculate_voting_power lp.2 lp.1) l = Ok vps ->
  A (zip_with (fun lp vp => mkLpos lp.2 lp.1 vp None) l vps).
Proof.
  induction l as [|lp l IH]; intros vps H; simpl in H.
  { injection H as <-. constructor. }
  apply bind_Ok in H as (vp & Hv & H). apply bind_Ok in H as (vps' & H' & H). injection H as <-.
  simpl. constructor; [apply Hc; exact Hv|]. apply IH. exact H'.
Qed.

Lemma vchg_pos c s o s' e vid v v' : vchg c s o s' e vid v v' -> A (v_lps v) -> A (v_lps v').
Proof.
  destruct 1; intros Ha; cbn [v_lps] in *.
  - eapply dep1_pos; eauto.
  - eapply dep1_pos; eauto.
  - eapply deps_pos; eauto.
  - apply Forall_insert; [exact Ha|]. apply Hu. eapply A_lookup; eauto.
  - apply Forall_app. split.
    + apply Forall_insert; [exact Ha|]. apply Hs; auto. eapply A_lookup; eauto.
    + constructor; [|constructor]. apply Hc. assumption.
  - apply Forall_insert; [exact Ha|]. apply Hc. assumption.
  - eapply dep1_pos; [eassumption|]. cbn. apply Forall_swap_remove. exact Ha.
  - eapply dep1_pos; [eassumption|]. cbn. apply Forall_insert; [exact Ha|]. apply Hc. assumption.
  - eapply dep1_pos; [eassumption|]. cbn. apply Forall_swap_remove. exact Ha.
  - eapply dep1_pos; [eassumption|]. exact Ha.
  - eapply clears_pos; eauto.
  - eapply clears_pos; eauto.
  - exact Ha.
  - destruct H1 as [_ ->]. exact Ha.
  - rewrite H3. apply zip_pos. assumption.
Qed.

Lemma pos_run a s0 tr vid i p :
  mv_new a = Ok s0 -> v_lps (get_voter (run s0 tr) vid) !! i = Some p -> Q p.
Proof.
  intros H0 Hl. destruct (allv_run (fun v => A (v_lps v)) a s0 tr) as [_ H]; auto.
  - intros w. constructor.
  - intros. eapply vchg_pos; eauto.
  - eapply A_lookup; [apply (H vid)|exact Hl].
Qed.
End PosQ.

(** C11 *)
Definition vp_exact (p : lpos) : Prop :=
  lp_days p mod 3 = 0 -> 60 * lp_vp p = lp_amount p * E18 * lp_days p.

Lemma calc_exact amount days vp :
  calculate_voting_power amount days = Ok vp -> days mod 3 = 0 -> 60 * vp = amount * E18 * days.
Proof.
  intros H Hd. apply calc_Ok in H as (-> & _).
  apply N.mod_divide in Hd as [k ->]; [|lia].
  assert (E18 = 20 * (E18 / 20)) as -> by reflexivity.
  generalize (E18 / 20) as q. intros q.
  replace (amount * (20 * q) * (k * 3)) with ((amount * q * k) * 60) by lia.
  rewrite N.div_mul by lia. lia.
Qed.

Lemma positions_exact a s0 tr vid i p :
  mv_new a = Ok s0 -> v_lps (get_voter (run s0 tr) vid) !! i = Some p -> vp_exact p.
Proof.
  apply pos_run; unfold vp_exact; cbn [lp_amount lp_days lp_vp].
  - intros. eapply calc_exact; eauto.
  - intros q amount vp Hq _ Hc Hd. specialize (Hq Hd). apply calc_exact in Hc; [|exact Hd].
    rewrite !N.mul_add_distr_r, N.mul_add_distr_l. rewrite Hq, Hc. reflexivity.
  - auto.
  - intros q amount vp _ Hq Hc Ha Hv Hd. specialize (Hq Hd). apply calc_exact in Hc; [|exact Hd].
    rewrite !N.mul_sub_distr_r, N.mul_sub_distr_l. rewrite Hq, Hc. reflexivity.
Qed.

Lemma positions_3600 a s0 tr vid i p :
  mv_new a = Ok s0 -> v_lps (get_voter (run s0 tr) vid) !! i = Some p -> lp_days p < 3600.
Proof.
  apply (pos_run (fun p => lp_days p < 3600)); cbn; auto.
  intros amount days vp _ H. apply calc_Ok in H. tauto.
Qed.

(** in general the power is within one unit per merge or split; never above the exact value
    for a position that was never split *)

(** C12 *)
Lemma dep1_len s v amount days v' :
  dep1 s v amount days v' -> max_lps s < 256 ->
  N.of_nat (length (v_lps v)) <= max_lps s -> N.of_nat (length (v_lps v')) <= max_lps s.
Proof.
  intros (vp & l' & _ & _ & Hd & _ & ->) Hm Hl. cbn.
  destruct Hd as [(i & p & _ & _ & _ & _ & _ & ->)|(_ & Hlt & ->)].
  - rewrite insert_length. exact Hl.
  - rewrite app_length. cbn. rewrite N.mod_small in Hlt by lia. lia.
Qed.

Lemma deps_len s v l v' :
  deps s v l v' -> max_lps s < 256 ->
  N.of_nat (length (v_lps v)) <= max_lps s -> N.of_nat (length (v_lps v')) <= max_lps s.
Proof. induction 1; [auto|]. intros Hm Hl. apply IHdeps; [exact Hm|]. eapply dep1_len; eauto. Qed.

Lemma swap_remove_le {A} (l : list A) i : (length (swap_remove i l) <= length l)%nat.
Proof.
  unfold swap_remove. destruct (last l); [|lia]. rewrite take_length, insert_length. lia.
Qed.

Lemma clears_len now v v' : clears now v v' -> (length (v_lps v') <= length (v_lps v))%nat.
Proof. induction 1; [lia|]. cbn. pose proof (swap_remove_le (v_lps v1) i). lia. Qed.

Lemma vchg_len c s o s' e vid v v' :
  vchg c s o s' e vid v v' -> max_lps s < 256 ->
  N.of_nat (length (v_lps v)) <= max_lps s -> N.of_nat (length (v_lps v')) <= max_lps s.
Proof.
  destruct 1; intros Hm Ha; cbn [v_lps] in *.
  - eapply dep1_len; eauto.
  - eapply dep1_len; eauto.
  - eapply deps_len; eauto.
  - rewrite insert_length. exact Ha.
  - rewrite app_length, insert_length. cbn.
    match goal with H : _ mod 256 < _ |- _ => rewrite N.mod_small in H by lia end. lia.
  - rewrite insert_length. exact Ha.
  - eapply dep1_len; [eassumption|exact Hm|]. cbn. pose proof (swap_remove_le (v_lps v) i). lia.
  - eapply dep1_len; [eassumption|exact Hm|]. cbn. rewrite insert_length. exact Ha.
  - eapply dep1_len; [eassumption|exact Hm|]. cbn. pose proof (swap_remove_le (v_lps v) i). lia.
  - eapply dep1_len; [eassumption|exact Hm|]. exact Ha.
  - match goal with H : clears _ _ _ |- _ => apply clears_len in H end. lia.
  - match goal with H : clears _ _ _ |- _ => apply clears_len in H end. lia.
  - exact Ha.
  - match goal with H : same_lps _ _ |- _ => destruct H as [_ ->] end. exact Ha.
  - match goal with H : v_lps v' = _ |- _ => rewrite H end. rewrite zip_with_length. 
    match goal with H : max_lps s < 256 -> _ |- _ => specialize (H Hm) end. lia.
Qed.

Lemma positions_count a s0 tr vid :
  mv_new a = Ok s0 -> N.of_nat (length (v_lps (get_voter (run s0 tr) vid))) <= max_lps s0 /\ max_lps s0 < 256.
Proof.
  intros H0. assert (Hm : max_lps s0 < 256).
  { unfold mv_new in H0. apply bind_Ok in H0 as (? & Hr & H0). apply bind_Ok in H0 as (? & _ & H0).
    apply require_Ok in Hr. injection H0 as <-. cbn.
    repeat (apply andb_prop in Hr as [Hr ?]). nb. unfold U8_SIZE in *. assumption. }
  split; [|exact Hm].
  destruct (allv_run (fun v => N.of_nat (length (v_lps v)) <= max_lps s0) a s0 tr) as [_ H]; auto.
  - intros w. cbn. lia.
  - intros c s o s' e w v' _ Hk Hch Hl. assert (E : max_lps s = max_lps s0) by (unfold consts in Hk; congruence).
    rewrite <- E in *. eapply vchg_len; eauto.
Qed.

(** C14 *)
Definition oneper (l : list lpos) : Prop :=
  forall i k p q, l !! i = Some p -> l !! k = Some q -> lp_unl p = None -> lp_unl q = None ->
    lp_days p = lp_days q -> i = k.

Lemma oneper_insert l i p q :
  oneper l -> l !! i = Some p -> lp_days q = lp_days p -> (lp_unl q = None -> lp_unl p = None) ->
  oneper (<[i := q]> l).
Proof.
  intros H Hl Hd Hq j k x y Hx Hy Ux Uy Exy.
  pose proof (lookup_lt_Some _ _ _ Hl) as Hlt.
  destruct (decide (j = i)) as [->|Hj]; destruct (decide (k = i)) as [->|Hk]; [reflexivity| | |].
  - rewrite list_lookup_insert in Hx by exact Hlt. injection Hx as <-.
    rewrite list_lookup_insert_ne in Hy by congruence. apply (H i k p y); auto. congruence.
  - rewrite list_lookup_insert in Hy by exact Hlt. injection Hy as <-.
    rewrite list_lookup_insert_ne in Hx by congruence. apply (H j i x p); auto. congruence.
  - rewrite list_lookup_insert_ne in Hx, Hy by congruence. eapply H; eauto.
Qed.

Lemma oneper_app l q :
  oneper l -> (lp_unl q = None -> forall p, In p l -> lp_days p = lp_days q -> lp_unl p <> None) ->
  oneper (l ++ [q]).
Proof.
  intros H Hn j k x y Hx Hy Ux Uy Exy.
  apply lookup_app_Some in Hx as [Hx|[Hjl Hx]]; apply lookup_app_Some in Hy as [Hy|[Hkl Hy]].
  - eapply H; eauto.
  - destruct (k - length l)%nat as [|z] eqn:Ez; [|rewrite lookup_cons, lookup_nil in Hy; discriminate].
    injection Hy as <-. exfalso. eapply (Hn Uy x); eauto. apply elem_of_list_In. eapply elem_of_list_lookup_2; eauto.
  - destruct (j - length l)%nat as [|z] eqn:Ez; [|rewrite lookup_cons, lookup_nil in Hx; discriminate].
    injection Hx as <-. exfalso. eapply (Hn Ux y); eauto. apply elem_of_list_In. eapply elem_of_list_lookup_2; eauto.
  - destruct (k - length l)%nat as [|z] eqn:Ez; [|rewrite lookup_cons, lookup_nil in Hy; discriminate].
    destruct (j - length l)%nat as [|z'] eqn:Ez'; [|rewrite lookup_cons, lookup_nil in Hx; discriminate].
    lia.
Qed.

Lemma oneper_swap l i : (i < length l)%nat -> oneper l -> oneper (swap_remove i l).
Proof.
  intros Hi H j k x y Hx Hy Ux Uy Exy. rewrite lookup_swap_remove in Hx, Hy by exact Hi.
  destruct (decide (j < length l - 1)%nat) as [Hjl|]; [|discriminate].
  destruct (decide (k < length l - 1)%nat) as [Hkl|]; [|discriminate].
  destruct (decide (j = i)) as [->|Hj]; destruct (decide (k = i)) as [->|Hk]; [reflexivity| | |].
  - pose proof (H _ _ _ _ Hx Hy Ux Uy Exy). lia.
  - pose proof (H _ _ _ _ Hx Hy Ux Uy Exy). lia.
  - eapply H; eauto.
Qed.

Lemma dep1_one s v amount days v' : dep1 s v amount days v' -> oneper (v_lps v) -> oneper (v_lps v').
Proof.
  intros (vp & l' & _ & _ & Hd & _ & ->) Ho. cbn.
  destruct Hd as [(i & p & Hl & Hdays & Hun & _ & _ & ->)|(Hf & _ & ->)].
  - eapply oneper_insert; eauto.
  - apply oneper_app; [exact Ho|]. cbn. intros _ p Hp Hd.
    eapply find_locked_from_None in Hf; eauto.
Qed.
Lemma deps_one s v l v' : deps s v l v' -> oneper (v_lps v) -> oneper (v_lps v').
Proof. induction 1; [auto|]. intros Ho. apply IHdeps. eapply dep1_one; eauto. Qed.
Lemma clears_one now v v' : clears now v v' -> oneper (v_lps v) -> oneper (v_lps v').
Proof.
  induction 1; [auto|]. intros Ho. cbn. apply oneper_swap; [eapply lookup_lt_Some; eauto|auto].
Qed.
Lemma zip_one (l : list (N * N)) vps :
  NoDup l.*1 -> oneper (zip_with (fun lp vp => mkLpos lp.2 lp.1 vp None) l vps).
Proof.
  intros Hnd i k p q Hp Hq _ _ E.
  apply lookup_zip_with_Some in Hp as (x & vx & -> & Hx & _).
  apply lookup_zip_with_Some in Hq as (y & vy & -> & Hy & _). cbn in E.
  eapply NoDup_lookup; [exact Hnd| |].
  - rewrite list_lookup_fmap, Hx. reflexivity.
  - rewrite list_lookup_fmap, Hy. cbn. rewrite E. reflexivity.
Qed.

Lemma vchg_one c s o s' e vid v v' :
  vchg c s o s' e vid v v' -> (forall i d, o <> ExtendDays i d) ->
  oneper (v_lps v) -> oneper (v_lps v').
Proof.
  destruct 1; intros Hne Ho; cbn [v_lps] in *.
  - eapply dep1_one; eauto.
  - eapply dep1_one; eauto.
  - eapply deps_one; eauto.
  - eapply oneper_insert; eauto. cbn. discriminate.
  - apply oneper_app; [|cbn; discriminate]. eapply oneper_insert; eauto.
  - exfalso. eapply Hne. reflexivity.
  - eapply dep1_one; [eassumption|]. cbn. apply oneper_swap; [eapply lookup_lt_Some; eauto|exact Ho].
  - eapply dep1_one; [eassumption|]. cbn. eapply oneper_insert; eauto.
  - eapply dep1_one; [eassumption|]. cbn. apply oneper_swap; [eapply lookup_lt_Some; eauto|exact Ho].
  - eapply dep1_one; [eassumption|]. exact Ho.
  - eapply clears_one; eauto.
  - eapply clears_one; eauto.
  - exact Ho.
  - match goal with H : same_lps _ _ |- _ => destruct H as [_ ->] end. exact Ho.
  - match goal with H : v_lps v' = _ |- _ => rewrite H end. apply zip_one. assumption.
Qed.

Lemma one_locked a s0 tr :
  mv_new a = Ok s0 -> Forall (fun x : call => forall i d, x.2 <> ExtendDays i d) tr ->
  one_locked_per_period (run s0 tr).
Proof.
  intros H0 Hf.
  destruct (allv_run (fun v => oneper (v_lps v)) a s0 tr) as [_ H]; auto.
  - intros w i k p q Hp. discriminate Hp.
  - intros c s o s' e w v' Hin _ Hch. eapply vchg_one; [exact Hch|].
    rewrite Forall_forall in Hf. apply elem_of_list_In in Hin. exact (Hf _ Hin).
  - intros vid i k p q Hp Hq Lp Lq E. unfold get_locking_position in *.
    apply fmap_Some in Hp as (p' & Hp & ->). apply fmap_Some in Hq as (q' & Hq & ->).
    cbn in *. unfold is_locked in *.
    apply (H vid i k p' q'); auto.
    + destruct (lp_unl p'); [discriminate|reflexivity].
    + destruct (lp_unl q'); [discriminate|reflexivity].
Qed.

(** C15 *)
Definition amt_at (d : N) (l : list lpos) : N := sum_by (fun p => if lp_days p =? d then lp_amount p else 0) l.
Global Arguments amt_at : simpl never.

Lemma amt_insert d l i p q : l !! i = Some p ->
  amt_at d (<[i := q]> l) + (if lp_days p =? d then lp_amount p else 0)
  = amt_at d l + (if lp_days q =? d then lp_amount q else 0).
Proof. intros H. exact (sum_by_insert (fun p => if lp_days p =? d then lp_amount p else 0) l i p q H). Qed.
Lemma amt_swap d l i p : l !! i = Some p ->
  amt_at d (swap_remove i l) + (if lp_days p =? d then lp_amount p else 0) = amt_at d l.
Proof. intros H. exact (sum_by_swap_remove (fun p => if lp_days p =? d then lp_amount p else 0) l i p H). Qed.
Lemma amt_app d l p : amt_at d (l ++ [p]) = amt_at d l + (if lp_days p =? d then lp_amount p else 0).
Proof. unfold amt_at. rewrite sum_by_app, sum_by_cons. change (sum_by _ []) with 0. lia. Qed.

Lemma dep1_amt s v amount days v' d :
  dep1 s v amount days v' ->
  amt_at d (v_lps v') = amt_at d (v_lps v) + (if days =? d then amount else 0) /\
  min_unbond s <= days <= max_unbond s.
Proof.
  intros (vp & l' & _ & Hb & Hd & _ & ->). split; [|exact Hb]. cbn.
  destruct Hd as [(i & p & Hl & Hdays & Hun & _ & _ & ->)|(Hf & _ & ->)].
  - pose proof (amt_insert d _ _ _ (mkLpos (lp_amount p + amount) days (lp_vp p + vp) None) Hl) as H.
    cbn [lp_days lp_amount] in H. rewrite Hdays in H. destruct (days =? d); lia.
  - apply amt_app.
Qed.

Definition inb (s : state) (d : N) : Prop := min_unbond s <= d <= max_unbond s.

Lemma dep1_grow s v amount days v' d x :
  dep1 s v amount days v' -> amt_at d (v_lps v) <= x -> x < amt_at d (v_lps v') -> inb s d.
Proof.
  intros H Hle Hlt. destruct (dep1_amt _ _ _ _ _ d H) as [E Hb].
  destruct (N.eqb_spec days d) as [->|]; [exact Hb|lia].
Qed.

Lemma deps_grow s v l v' d : deps s v l v' -> amt_at d (v_lps v) < amt_at d (v_lps v') -> inb s d.
Proof.
  induction 1 as [|v v1 v' lp l Hd _ IH]; [lia|]. intros Hlt.
  destruct (N.lt_ge_cases (amt_at d (v_lps v1)) (amt_at d (v_lps v'))) as [?|Hge]; [auto|].
  eapply dep1_grow; [exact Hd|reflexivity|lia].
Qed.

Lemma clears_amt now v v' d : clears now v v' -> amt_at d (v_lps v') <= amt_at d (v_lps v).
Proof.
  induction 1 as [|v v1 i p _ IH Hl _ _]; [lia|]. cbn. pose proof (amt_swap d _ _ _ Hl). lia.
Qed.

Lemma vchg_grow c s o s' e vid v v' d :
  vchg c s o s' e vid v v' ->
  match o with ExtendDays _ _ | MirrorLps _ _ => False | _ => True end ->
  amt_at d (v_lps v) < amt_at d (v_lps v') -> inb s d.
Proof.
  destruct 1; intros Ho Hlt; cbn [v_lps] in *; try (exfalso; exact Ho).
  - eapply dep1_grow; [eassumption|reflexivity|exact Hlt].
  - eapply dep1_grow; [eassumption|reflexivity|exact Hlt].
  - eapply deps_grow; eauto.
  - match goal with H : v_lps v !! i = Some p |- _ =>
      pose proof (amt_insert d _ _ _ (mkLpos (lp_amount p) (lp_days p) (lp_vp p) (Some (now_ms c))) H) as E end.
    cbn [lp_days lp_amount] in E. lia.
  - rewrite amt_app in Hlt. cbn [lp_days lp_amount] in Hlt.
    match goal with H : v_lps v !! i = Some p |- _ =>
      pose proof (amt_insert d _ _ _ (mkLpos (lp_amount p - amount) (lp_days p) (lp_vp p - vp) (lp_unl p)) H) as E end.
    cbn [lp_days lp_amount] in E. destruct (lp_days p =? d); lia.
  - match goal with H : v_lps v !! i = Some p |- _ => pose proof (amt_swap d _ _ _ H) as E end.
    eapply dep1_grow; [eassumption| |exact Hlt]. cbn. lia.
  - match goal with H : v_lps v !! i = Some p |- _ =>
      pose proof (amt_insert d _ _ _ (mkLpos (lp_amount p - afp) (lp_days p) nvp (lp_unl p)) H) as E end.
    cbn [lp_days lp_amount] in E.
    eapply dep1_grow; [eassumption| |exact Hlt]. cbn. destruct (lp_days p =? d); lia.
  - match goal with H : v_lps v !! i = Some p |- _ => pose proof (amt_swap d _ _ _ H) as E end.
    eapply dep1_grow; [eassumption| |exact Hlt]. cbn. lia.
  - eapply dep1_grow; [eassumption| |exact Hlt]. reflexivity.
  - match goal with H : clears _ _ _ |- _ => apply (clears_amt _ _ _ d) in H end. lia.
  - match goal with H : clears _ _ _ |- _ => apply (clears_amt _ _ _ d) in H end. lia.
  - lia.
  - match goal with H : same_lps _ _ |- _ => destruct H as [_ E]; rewrite E in Hlt end. lia.
Qed.

(** total amount of a voter's positions of a period, from the view *)
Definition amount_at (s : state) (vid : string) (d : N) : N :=
  sum_by (fun j => if j_days j =? d then j_amount j else 0) (get_all_locking_positions 0 s vid).

Lemma sum_by_imap {A B} (f : nat -> A -> B) (g : B -> N) (h : A -> N) l :
  (forall i x, g (f i x) = h x) -> sum_by g (imap f l) = sum_by h l.
Proof.
  revert f. induction l as [|x l IH]; intros f H; [reflexivity|].
  rewrite imap_cons, !sum_by_cons. rewrite H. f_equal. apply IH. intros i y. apply H.
Qed.

Lemma amount_at_eq s vid d : amount_at s vid d = amt_at d (v_lps (get_voter s vid)).
Proof. unfold amount_at, amt_at, get_all_locking_positions. apply sum_by_imap. reflexivity. Qed.

Lemma nodup_run a s0 tr : mv_new a = Ok s0 -> NoDup (voters (run s0 tr)).*1.
Proof. intros H. apply (allv_run (fun _ => True) a s0 tr); auto. Qed.

Lemma growth_in_bounds a s0 tr c o s' e vid d :
  mv_new a = Ok s0 -> exec c (run s0 tr) o = Ok (s', e) ->
  match o with ExtendDays _ _ | MirrorLps _ _ => False | _ => True end ->
  amount_at (run s0 tr) vid d < amount_at s' vid d ->
  min_unbond (run s0 tr) <= d <= max_unbond (run s0 tr).
Proof.
  intros H0 Hx Ho. rewrite !amount_at_eq. intros Hlt. pose proof (nodup_run a s0 tr H0) as Hnd.
  revert Hnd Hx Hlt. generalize (run s0 tr) as s. intros s Hnd Hx Hlt.
  apply exec_cases in Hx as [_ [(E & _)|(w & v' & Hst & Hch)]].
  { unfold get_voter in Hlt. rewrite E in Hlt. lia. }
  destruct (store_get _ _ _ _ vid Hnd Hst) as (_ & _ & Hne & Hw).
  destruct (decide (vid = w)) as [->|Hvw]; [|rewrite (Hne Hvw) in Hlt; lia].
  destruct Hw as [E|(E & _)]; rewrite E in Hlt; [|change (amt_at d (v_lps (new_voter w))) with 0 in Hlt; lia].
  eapply vchg_grow; eauto.
Qed.

(** without extension, mirroring and changes of the bounds every period stays within them *)
Definition quiet_bounds (x : call) : Prop :=
  match x.2 with
  | ExtendDays _ _ | MirrorLps _ _ | UpdateMinUnbond _ | UpdateMaxUnbond _ => False
  | _ => True
  end.

Lemma quiet_exec_bounds c s o s' e :
  exec c s o = Ok (s', e) -> quiet_bounds (c, o) ->
  min_unbond s' = min_unbond s /\ max_unbond s' = max_unbond s.
Proof.
  intros H Hq. destruct (is_cfg_op o) eqn:Ef.
  - destruct o; try discriminate Ef; try (destruct Hq); cbn [exec] in H; apply noeff_Ok in H as [H _];
    unfold set_stnear_contract, set_operator_id, set_owner_id, update_registration_cost,
      set_lock_in_vote_filters, set_prev_gov_contract in H; rinv; split; reflexivity.
  - apply exec_cfg in H; [|exact Ef]. unfold cfg in H. split; congruence.
Qed.

Section Days.
Context (D : N -> Prop) (s : state) (HD : forall d, inb s d -> D d).
Let B (l : list lpos) : Prop := Forall (fun p => D (lp_days p)) l.

Lemma dep1_days v amount days v' : dep1 s v amount days v' -> B (v_lps v) -> B (v_lps v').
Proof.
  intros (vp & l' & _ & Hb & Hd & _ & ->) Ha. cbn.
  destruct Hd as [(i & p & _ & _ & _ & _ & _ & ->)|(_ & _ & ->)].
  - apply Forall_insert; [exact Ha|]. cbn. auto.
  - apply Forall_app. split; [exact Ha|]. constructor; [|constructor]. cbn. auto.
Qed.
Lemma deps_days v l v' : deps s v l v' -> B (v_lps v) -> B (v_lps v').
Proof. induction 1; [auto|]. intros Ha. apply IHdeps. eapply dep1_days; eauto. Qed.
Lemma clears_days now v v' : clears now v v' -> B (v_lps v) -> B (v_lps v').
Proof. induction 1; [auto|]. intros Ha. cbn. apply Forall_swap_remove. exact (IHclears Ha). Qed.
Lemma B_lookup l i p : B l -> l !! i = Some p -> D (lp_days p).
Proof. intros H Hl. apply (Forall_lookup_1 _ _ _ _ H Hl). Qed.

Lemma vchg_days c o s' e vid v v' :
  vchg c s o s' e vid v v' ->
  match o with ExtendDays _ _ | MirrorLps _ _ => False | _ => True end ->
  B (v_lps v) -> B (v_lps v').
Proof.
  destruct 1; intros Ho Ha; cbn [v_lps] in *; try (exfalso; exact Ho).
  - eapply dep1_days; eauto.
  - eapply dep1_days; eauto.
  - eapply deps_days; eauto.
  - apply Forall_insert; [exact Ha|]. cbn. eapply B_lookup; eauto.
  - apply Forall_app. split.
    + apply Forall_insert; [exact Ha|]. cbn. eapply B_lookup; eauto.
    + constructor; [|constructor]. cbn. eapply B_lookup; eauto.
  - eapply dep1_days; [eassumption|]. cbn. apply Forall_swap_remove. exact Ha.
  - eapply dep1_days; [eassumption|]. cbn. apply Forall_insert; [exact Ha|]. cbn. eapply B_lookup; eauto.
  - eapply dep1_days; [eassumption|]. cbn. apply Forall_swap_remove. exact Ha.
  - eapply dep1_days; [eassumption|]. exact Ha.
  - eapply clears_days; eauto.
  - eapply clears_days; eauto.
  - exact Ha.
  - match goal with H : same_lps _ _ |- _ => destruct H as [_ ->] end. exact Ha.
Qed.
End Days.

Lemma quiet_periods a s0 tr vid i p :
  mv_new a = Ok s0 -> Forall quiet_bounds tr ->
  get_locking_position 0 (run s0 tr) i vid = Some p -> min_unbond s0 <= j_days p <= max_unbond s0.
Proof.
  intros H0 Hq Hp. unfold get_locking_position in Hp. apply fmap_Some in Hp as (q & Hl & ->). cbn.
  set (Q := fun v : voter => Forall (fun p => min_unbond s0 <= lp_days p <= max_unbond s0) (v_lps v)).
  enough (allv Q (run s0 tr) /\ min_unbond (run s0 tr) = min_unbond s0 /\ max_unbond (run s0 tr) = max_unbond s0)
    as ((_ & H) & _). { exact (Forall_lookup_1 _ _ _ _ (H vid) Hl). }
  apply run_inv.
  { split; [|split; reflexivity]. eapply allv_init; [|exact H0]. intros w. constructor. }
  intros [c o] s s' e Hin (Ha & E1 & E2) Hx. cbn in Hx.
  rewrite Forall_forall in Hq. apply elem_of_list_In in Hin. specialize (Hq _ Hin).
  destruct (quiet_exec_bounds _ _ _ _ _ Hx Hq) as [E3 E4]. split; [|split; congruence].
  eapply allv_exec; [intros w; constructor|exact Hx| |exact Ha].
  intros w v' Hch. unfold Q. rewrite <- E1, <- E2. 
  apply (vchg_days (fun d => min_unbond s <= d <= max_unbond s) s (fun d H => H) _ _ _ _ _ _ _ Hch).
  unfold quiet_bounds in Hq. cbn in Hq. destruct o; try exact I; destruct Hq.
Qed.
