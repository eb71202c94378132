(** MVMirror.v -- mirroring of external positions (C31): effect and totality. *)

From Verif Require Export MVIso.

Lemma lp_power_vps l : forall vps,
  mapMr (fun lp => calculate_voting_power lp.2 lp.1) l = Ok vps -> vps = map lp_power l.
Proof.
  induction l as [|lp l IH]; intros vps H; cbn [mapMr] in H; [injection H as <-; reflexivity|].
  apply bind_Ok in H as (vp & Hvp & H). apply bind_Ok in H as (vps' & Hm & H). injection H as <-.
  apply calc_Ok in Hvp as (-> & _). rewrite (IH _ Hm). reflexivity.
Qed.

Lemma lp_power_sum l : sumN (map lp_power l) = sum_by lp_power l.
Proof. induction l as [|lp l IH]; [reflexivity|]. rewrite sum_by_cons, <- IH. reflexivity. Qed.

Lemma pos_data_zip now l : forall n,
  map pos_data (imap (fun i p => lp_to_json now (n + i) p)
     (zip_with (fun lp vp => mkLpos lp.2 lp.1 vp None) l (map lp_power l)))
  = map (fun lp : N * N => (lp.2, lp.1, lp_power lp, None)) l.
Proof.
  induction l as [|lp l IH]; intros n; [reflexivity|]. cbn [map zip_with]. rewrite imap_cons. cbn [map]. f_equal.
  etrans; [|apply (IH (S n))]. f_equal. apply imap_ext. intros i x _. unfold compose. f_equal. lia.
Qed.

Section Mirror.
Context (P : string -> string -> Prop) (HinjP : injP P).

Lemma listed_exact s vid L :
  vexact P (hp_vp s) (hp_vv s) vid (v_vp (get_voter s vid)) L ->
  votes_listed s vid (vabs L).
Proof.
  intros HX. split; [|split].
  - unfold vabs. rewrite <- list_fmap_compose. exact (ve_NoDup P _ _ _ _ _ HX).
  - unfold vabs. apply Forall_fmap, Forall_forall. intros [a [h m]] Hin. cbn.
    apply (ve_in _ _ _ _ _ _ HX a h m). apply om_In_get; [exact (ve_NoDup P _ _ _ _ _ HX)|].
    apply elem_of_list_In. exact Hin.
  - intros now. unfold get_voter_info. unfold get_voter in HX. destruct (om_get (voters s) vid) as [v|].
    + cbn in HX. unfold voter_to_json. rewrite (voter_votes_rep _ _ _ _ (ve_rep _ _ _ _ _ _ HX)). cbn. eauto.
    + cbn in HX. apply vexact_new in HX. subst L. eexists. split; reflexivity.
Qed.

Lemma mirror_spec c s ext l s' :
  SInv P s -> SInv P s' -> operator_mirror_lps c s ext l = Ok s' -> mirrored s s' (pseudo_near_address ext) l.
Proof.
  intros HS HS' H. destruct (mirror_exact P _ _ _ _ _ HS H)
    as (L & L' & vps & v1 & s1 & Hop & Hd & HX & Hm & Hvps & Hlen & Hor & Hle & Hsame & _ & Hshed & Hlt & Hpt & Es).
  set (vid := pseudo_near_address ext) in *. apply lp_power_vps in Hvps as ->. rewrite lp_power_sum in *.
  pose proof (vm_st _ _ _ _ _ _ _ _ Hm) as (vs & hv & hp & E1).
  set (vn := mkVoter _ _ _ _) in Es.
  assert (Ev : voters s' = om_set (voters s) vid vn) by (rewrite Es, E1; reflexivity).
  assert (Hg : get_voter s' vid = vn) by (unfold get_voter; rewrite Ev, om_get_set_eq; reflexivity).
  destruct (move_votes P HinjP s s1 s' vid v1 vn L L' HS HX Hm Ev eq_refl) as [_ Hs]; [rewrite Es; reflexivity..|].
  assert (HX' : vexact P (hp_vp s') (hp_vv s') vid (v_vp (get_voter s' vid)) L').
  { rewrite Hg, Es. exact (vm_ex _ _ _ _ _ _ _ _ Hm). }
  pose proof (i_bnd _ _ _ (si_inv _ _ HS)) as Hb.
  assert (Ht : total_vp s' = total_vp s + sum_by lp_power l - (v_avail (get_voter s vid) + used L)) by (rewrite Es; reflexivity).
  split; [|split; [|split; [|split]]].
  - intros now. unfold get_all_locking_positions. rewrite Hg. unfold vn. cbn [v_lps]. apply (pos_data_zip now l 0).
  - exists (used L), (used L').
    split. { apply (sum_used_rep s _ vid L (ve_rep _ _ _ _ _ _ HX)). lia. }
    split. { apply (sum_used_rep s' _ vid L' (ve_rep _ _ _ _ _ _ HX')). lia. }
    unfold get_available_voting_power, get_total_voting_power. rewrite Hg, Ht. cbn [v_avail vn]. unfold vn; cbn [v_avail]. lia.
  - exists (vabs L), (vabs L'). split; [apply listed_exact; exact HX|]. split; [apply listed_exact; exact HX'|exact Hshed].
  - intros a o. exists (lvotes L a o), (lvotes L' a o). split; [apply (get_votes_exact P _ _ _ _ _ HX)|].
    split; [apply Hs|]. split; [apply Hor|].
    rewrite <- (vm_tot _ _ _ _ _ _ _ _ Hm a o). rewrite Es. reflexivity.
  - unfold raw_balance. rewrite Hg. reflexivity.
Qed.

(** ** Totality *)
Definition lsize (l : vlisting) : nat := fold_right (fun e n => (length e.2 + n)%nat) O l.

Lemma lsize_perm l l' : l ≡ₚ l' -> lsize l = lsize l'.
Proof. unfold lsize. induction 1; cbn; lia. Qed.

Lemma pop_first_perm {A} (x : A) l : pop_first (x :: l) ≡ₚ l.
Proof.
  rewrite <- pop_first_swap. apply (swap_remove_perm 0 (x :: l)). cbn. lia.
Qed.

Lemma lsize_drop a o x m r : lsize (drop_first ((a, (o, x) :: m) :: r)) = (length m + lsize r)%nat.
Proof.
  unfold drop_first. pose proof (Permutation_length (pop_first_perm (o, x) m)) as Hl.
  destruct (pop_first ((o, x) :: m)) as [|e m'] eqn:E.
  - rewrite (lsize_perm _ _ (pop_first_perm _ _)). cbn in Hl. lia.
  - cbn [lsize fold_right snd]. fold (lsize r). lia.
Qed.

Lemma entries_rep s v vid L :
  vrep (hp_vp s) (hp_vv s) vid (v_vp v) L -> vote_entries s v = lsize (vabs L).
Proof.
  intros Hr. unfold vote_entries. rewrite (uvals_rep _ _ _ (vr_outer _ _ _ _ _ Hr)).
  unfold outer, vabs. rewrite <- list_fmap_compose.
  assert (Hi : forall i a hh m, L !! i = Some (a, (hh, m)) -> h_len hh = length m).
  { intros i a hh m Hl. destruct (vr_inner _ _ _ _ _ Hr _ _ _ _ Hl) as [_ [Hn _]]. exact Hn. }
  clear Hr. induction L as [|[a [hh m]] L IH]; [reflexivity|]. cbn.
  rewrite (Hi O a hh m eq_refl). f_equal. apply IH. intros i. apply (Hi (S i)).
Qed.

(** The loop ends within the number of vote entries and does not panic. *)
Lemma mirror_loop_fuel fuel : forall s vid v u new L,
  vexact P (hp_vp s) (hp_vv s) vid (v_vp v) L -> votes_nd s -> u = used L ->
  (forall a o, lvotes L a o <= get_total_votes s a o) -> v_avail v + used L < U128_SIZE ->
  (lsize (vabs L) < fuel)%nat ->
  exists r, mirror_loop fuel s vid v u new = Ok r.
Proof.
  induction fuel as [|fuel IH]; intros s vid v u new L HX Hnd Hu Htot Hpw Hf; [lia|].
  cbn [mirror_loop]. destruct (new <? u) eqn:Elt; nb; [|eauto].
  pose proof (ve_rep _ _ _ _ _ _ HX) as Hr.
  destruct L as [|[a [h m]] L0] eqn:EL; [change (used []) with 0 in Hu; lia|]. rewrite <- EL in *.
  assert (Hga : om_get L a = Some (h, m)) by (rewrite EL; cbn; rewrite decide_True by reflexivity; reflexivity).
  destruct (ve_in _ _ _ _ _ _ HX _ _ _ Hga) as (_ & Hne & Hpos).
  destruct m as [|[o x] m]; [contradiction|].
  rewrite (ukey_at_rep _ _ _ (vr_outer _ _ _ _ _ Hr)).
  assert (Ho0 : fst <$> outer L !! 0%nat = Some a) by (rewrite EL; reflexivity).
  rewrite Ho0. cbn [mbind res_bind expect].
  rewrite (ve_uget_outer P _ _ _ _ _ HX), Hga. cbn [mbind res_bind expect fmap option_fmap option_map fst].
  destruct (vr_inner _ _ _ _ _ Hr O a h ((o, x) :: m)) as [Hpf Hm]; [rewrite EL; reflexivity|].
  rewrite (ukey_at_rep _ _ _ Hm).
  cbn [lookup list_lookup fmap option_fmap option_map fst mbind res_bind expect].
  assert (Hin : (o, x) ∈ (o, x) :: m) by constructor.
  rewrite (uget_in _ _ _ _ _ Hm Hin). cbn [mbind res_bind expect].
  assert (Hgo : om_get ((o, x) :: m) o = Some x) by (cbn; rewrite decide_True by reflexivity; reflexivity).
  assert (Hlx : lvotes L a o = x) by (unfold lvotes; rewrite Hga; cbn [snd]; rewrite Hgo; reflexivity).
  specialize (Hpos _ _ Hgo).
  pose proof (used_ge L a o) as Hug. rewrite Hlx in Hug.
  assert (HP : P vid a).
  { apply (ve_P _ _ _ _ _ _ HX). eapply om_get_Some_key; exact Hga. }
  destruct (remove_vp_total P s vid v a o L HX Hnd) as [[s1 v1] Hrm]; [lia|apply Htot|lia|].
  rewrite Hrm. cbn [mbind res_bind].
  unfold sub128. destruct (N.leb_spec x u); [|lia]. cbn [mbind res_bind].
  destruct (remove_vp_exact P _ _ _ _ _ _ _ _ HX Hnd HP Hrm) as (L1 & Hm1 & _ & Hav & Hus & Hlv & h1 & EL1).
  apply (IH s1 vid v1 (u - x) new L1).
  - exact (vm_ex _ _ _ _ _ _ _ _ Hm1).
  - exact (vm_nd _ _ _ _ _ _ _ _ Hm1).
  - lia.
  - intros a2 o2. pose proof (vm_tot _ _ _ _ _ _ _ _ Hm1 a2 o2). specialize (Htot a2 o2). lia.
  - pose proof (vm_pow _ _ _ _ _ _ _ _ Hm1). lia.
  - assert (Hdrop : vabs L1 = drop_first (vabs L)).
    { rewrite EL1. apply vabs_drop; [exact Ho0|]. unfold imap_. rewrite Hga. reflexivity. }
    rewrite Hdrop. rewrite EL in Hf |- *.
    change (vabs ((a, (h, (o, x) :: m)) :: L0)) with ((a, (o, x) :: m) :: vabs L0) in Hf |- *.
    rewrite lsize_drop. change (S (length m) + lsize (vabs L0) < S fuel)%nat in Hf. lia.
Qed.

Lemma sum_by_lt_each (f : N * N -> N) l x : x ∈ l -> f x <= sum_by f l.
Proof. intros H. apply sum_by_ge_elem. apply elem_of_list_In. exact H. Qed.

Lemma vps_total l :
  Forall (fun lp => lp.2 * 10^18 < 2^128 /\ lp.1 < 3600) l -> sum_by lp_power l < 2^128 ->
  mapMr (fun lp => calculate_voting_power lp.2 lp.1) l = Ok (map lp_power l).
Proof.
  induction l as [|lp l IH]; intros HF Hs; [reflexivity|]. rewrite sum_by_cons in Hs.
  apply Forall_cons_1 in HF as [[H1 H2] HF]. cbn [mapMr map].
  assert (calculate_voting_power lp.2 lp.1 = Ok (lp_power lp)) as ->.
  { apply calc_Ok. split; [reflexivity|]. split; [exact H1|]. split; [exact H2|].
    change U128_SIZE with (2^128). lia. }
  cbn [mbind res_bind]. rewrite IH; [reflexivity|exact HF|lia].
Qed.

Lemma create_lp_total s v lp :
  lp.2 * 10^18 < 2^128 -> lp.1 < 3600 -> (forall p, In p (v_lps v) -> lp_days p <> lp.1) ->
  N.of_nat (length (v_lps v)) < max_lps s -> max_lps s < 256 ->
  total_vp s + lp_power lp < 2^128 -> v_avail v + lp_power lp < 2^128 ->
  internal_create_locking_position s v lp.2 lp.1
  = Ok (s <| total_vp := total_vp s + lp_power lp |>,
        v <| v_lps := v_lps v ++ [mkLpos lp.2 lp.1 (lp_power lp) None] |> <| v_avail := v_avail v + lp_power lp |>).
Proof.
  intros H1 H2 Hdis Hlen Hmax Ht Ha. unfold internal_create_locking_position, assert_lps_room.
  rewrite N.mod_small by lia.
  destruct (N.ltb_spec (N.of_nat (length (v_lps v))) (max_lps s)); [|lia]. cbn [require mbind res_bind].
  assert (find_locked_position v lp.1 = None) as ->.
  { apply find_locked_from_None. intros p Hp Hd. exfalso. exact (Hdis p Hp Hd). }
  cbn [require mbind res_bind].
  assert (calculate_voting_power lp.2 lp.1 = Ok (lp_power lp)) as ->.
  { apply calc_Ok. split; [reflexivity|]. split; [exact H1|]. split; [exact H2|].
    change U128_SIZE with (2^128). lia. }
  cbn [mbind res_bind]. unfold add128. change U128_SIZE with (2^128).
  destruct (N.ltb_spec (v_avail v + lp_power lp) (2^128)); [|lia]. cbn [mbind res_bind].
  destruct (N.ltb_spec (total_vp s + lp_power lp) (2^128)); [|lia]. cbn [mbind res_bind]. reflexivity.
Qed.

Lemma create_lps_total l : forall s v,
  Forall (fun lp => lp.2 * 10^18 < 2^128 /\ lp.1 < 3600) l ->
  NoDup l.*1 -> (forall p, In p (v_lps v) -> ~ lp_days p ∈ l.*1) ->
  N.of_nat (length (v_lps v)) + N.of_nat (length l) <= max_lps s -> max_lps s < 256 ->
  total_vp s + sum_by lp_power l < 2^128 -> v_avail v + sum_by lp_power l < 2^128 ->
  exists r, foldM (fun sv lp => internal_create_locking_position sv.1 sv.2 lp.2 lp.1) l (s, v) = Ok r.
Proof.
  induction l as [|lp l IH]; intros s v HF Hnd Hdis Hlen Hmax Ht Ha; [eexists; reflexivity|].
  rewrite sum_by_cons in Ht, Ha. apply Forall_cons_1 in HF as [[H1 H2] HF]. cbn [length] in Hlen.
  rewrite fmap_cons in Hnd. apply NoDup_cons in Hnd as [Hni Hnd].
  cbn [foldM fst snd]. rewrite create_lp_total; [|exact H1|exact H2| |lia|exact Hmax|lia|lia].
  2:{ intros p Hp Hd. apply (Hdis p Hp). rewrite Hd. constructor. }
  cbn [mbind res_bind].
  apply IH; cbn [v_lps v_avail total_vp max_lps].
  - exact HF.
  - exact Hnd.
  - intros p Hp. cbn in Hp. apply in_app_iff in Hp as [Hp|[<-|[]]].
    + intros Hin. apply (Hdis p Hp). constructor. exact Hin.
    + exact Hni.
  - cbn. rewrite app_length. cbn. lia.
  - exact Hmax.
  - cbn. lia.
  - cbn. lia.
Qed.

Lemma mirror_total c s ext l :
  SInv P s -> max_lps s < 256 -> operator_id s = c_pred c -> c_deposit c = 0 -> mirrorable s l ->
  exists s', operator_mirror_lps c s ext l = Ok s'.
Proof.
  intros HS Hmax Hop Hd (Hnd & Hlen & HF & Ht). unfold get_total_voting_power in Ht.
  unfold operator_mirror_lps, non_payable, assert_operator. rewrite Hd. cbn [N.eqb require mbind res_bind].
  rewrite bool_decide_true by exact Hop. cbn [require mbind res_bind]. cbn zeta.
  set (vid := pseudo_near_address ext). destruct (si_ex _ _ HS vid) as [L HX].
  destruct (sinv_power P s vid L HS HX) as [Hpw Hb].
  rewrite (sum_used_rep s _ vid L (ve_rep _ _ _ _ _ _ HX)) by lia. cbn [mbind res_bind].
  unfold add128 at 1. destruct (N.ltb_spec (v_avail (get_voter s vid) + used L) U128_SIZE); [|lia]. cbn [mbind res_bind].
  rewrite vps_total; [|exact HF|lia]. cbn [mbind res_bind].
  assert (sum128 (map lp_power l) = Ok (sum_by lp_power l)) as ->.
  { apply sum128_Ok. rewrite lp_power_sum. split; [reflexivity|]. change U128_SIZE with (2^128). lia. }
  cbn [mbind res_bind].
  destruct (mirror_loop_fuel (S (vote_entries s (get_voter s vid))) s vid (get_voter s vid) (used L)
    (sum_by lp_power l) L) as [[[s1 v1] u1] Hloop]; auto.
  { exact (si_nd _ _ HS). }
  { intros a o. apply (sinv_own P s vid L a o HS HX). }
  { rewrite (entries_rep _ _ _ _ (ve_rep _ _ _ _ _ _ HX)). lia. }
  rewrite Hloop. cbn [mbind res_bind].
  destruct (mirror_loop_exact P _ _ _ _ _ _ _ _ _ _ HX (si_nd _ _ HS) eq_refl Hloop)
    as (L' & Hm & Hu' & _ & Hnew & _).
  pose proof (vm_st _ _ _ _ _ _ _ _ Hm) as (vs & hv & hp & E1).
  assert (Et : total_vp s1 = total_vp s) by (rewrite E1; reflexivity).
  assert (Em : max_lps s1 = max_lps s) by (rewrite E1; reflexivity).
  destruct (create_lps_total l s1 (v1 <| v_lps := [] |> <| v_avail := 0 |>)) as [[s2 v3] Hcr]; auto.
  { rewrite Em. cbn. lia. }
  { lia. }
  { lia. }
  { cbn. lia. }
  rewrite Hcr. cbn [mbind res_bind].
  pose proof (vps_total l HF ltac:(lia)) as Hvps.
  destruct (create_lps_loop _ _ _ _ _ _ Hvps Hcr) as (-> & -> & _ & _).
  rewrite lp_power_sum. unfold sub128. cbn [v_avail].
  match goal with |- context [?a <=? ?b] => destruct (N.leb_spec a b) as [Hx|Hx]; [|cbn in Hx; lia] end.
  cbn [mbind res_bind]. cbn [total_vp].
  match goal with |- context [?a <=? ?b] => destruct (N.leb_spec a b) as [Hy|Hy]; [|cbn in Hy; lia] end.
  cbn [mbind res_bind]. eauto.
Qed.
End Mirror.

Lemma c31_mirror a s0 tr c ext l s' e :
  mv_new a = Ok s0 -> collision_free tr -> no_zero_votes tr ->
  exec c (run s0 tr) (MirrorLps ext l) = Ok (s', e) ->
  mirrored (run s0 tr) s' (pseudo_near_address ext) l.
Proof.
  intros Hn Hc Hz H. pose proof (sinv_run a s0 tr Hn Hc Hz) as HS.
  assert (HS' : SInv (targetsP tr) s').
  { eapply (sinv_exec _ (targets_injP _ Hc) (c, MirrorLps ext l)); [|exact I|exact HS|exact H]. discriminate. }
  cbn [exec] in H. apply noeff_Ok in H as [H _].
  eapply (mirror_spec _ (targets_injP _ Hc)); eauto.
Qed.

Lemma max_lps_run a s0 tr : mv_new a = Ok s0 -> max_lps (run s0 tr) < 256.
Proof.
  intros Hn. pose proof (run_consts s0 tr) as H. unfold consts in H. injection H as _ _ -> _ _.
  unfold mv_new in Hn. rinv. nb. cbn. 
  repeat match goal with H : _ && _ = true |- _ => apply andb_prop in H as [? ?] end. nb. assumption.
Qed.

Lemma c31_total a s0 tr c ext l :
  mv_new a = Ok s0 -> collision_free tr -> no_zero_votes tr ->
  operator_id (run s0 tr) = c_pred c -> c_deposit c = 0 -> mirrorable (run s0 tr) l ->
  exists s', exec c (run s0 tr) (MirrorLps ext l) = Ok (s', []).
Proof.
  intros Hn Hc Hz Hop Hd Hm. pose proof (sinv_run a s0 tr Hn Hc Hz) as HS.
  destruct (mirror_total _ c _ ext l HS (max_lps_run a s0 tr Hn) Hop Hd Hm) as [s' Hs].
  exists s'. cbn [exec]. rewrite Hs. reflexivity.
Qed.
