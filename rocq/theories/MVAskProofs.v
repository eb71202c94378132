(** MVAskProofs.v -- for C102: the views on the bytes answer as the views on the state. *)

From Verif Require Export MVAskSpec MVBytesProofs.
From Verif Require Import AskMv AskProofs FlatProofs MigrateProofs MpipSized KVBytesProofs.
Import MetaVote MVSized FlatProofs BoardBytes BoardStore BoardSim MVBytes MVCells MVStore MVRep MVSim MVPositions MVBallots MVMethods MVBytesSpec KVBytesProofs MVBytesProofs MVAsk MVAskSpec.

Section View.
Variables (H : string -> string) (NM : string -> Prop).
Hypothesis H32 : hash32 H.
Hypothesis Hinj : forall x y, NM x -> NM y -> H x = H y -> x = y.
Notation After := (MVSim.After H NM). Notation Hold := (MVSim.Hold H NM). Notation bvo := (MVStore.bvo H).

Lemma all_pos n id s v x : Hold n id s v x -> p_all (xst x) (w_lps (bvo id v)) = Ok (v_lps v).
Proof using. intros Hh. destruct (h_pos_of H NM _ _ _ _ _ Hh) as (V & _). exact (v_all _ _ _ V). Qed.
Lemma count_hd p n : xb_count (KVBytesProofs.hd p n) = Ok n.
Proof using. unfold xb_count, b_len. cbn [KVBytesProofs.hd um_klen um_vlen]. rewrite N.eqb_refl. cbn [require mbind res_bind]. rewrite Nat2N.id. reflexivity. Qed.
Lemma sim_eq {A} (a b : res A) : b = a -> sim eq a b.
Proof using. intros ->. destruct a; cbn; eauto. Qed.
Lemma big (a b : res N) : sim eq a b -> sim eq (in_big a) (in_big b).
Proof using. intros S. unfold in_big. eapply sim_bind; [exact S|]. intros u w _ <-. apply sim_ok. reflexivity. Qed.
Lemma for_object n s x v a o : After n s x -> cap n -> str_fits v -> NM v -> sim eq (get_votes_for_object s v a o) (xb_for_object H x v a o).
Proof using H32.
  intros A cn L N. destruct (h_get H NM H32 n s x v A cn L N) as [E Hh]. unfold get_votes_for_object, xb_for_object. rewrite E. cbn [mbind res_bind].
  change (w_vp (bvo v (get_voter s v))) with (vph H v (v_vp (get_voter s v))).
  eapply sim_bind; [exact (vp_get H NM H32 n _ s x v _ a (proj2 Hh) cn (hold_vp H NM _ _ _ _ _ Hh))|].
  intros oh ob _ [-> P]. destruct oh as [h|]; cbn [fmap option_fmap option_map]; [|apply sim_ok; reflexivity].
  eapply sim_bind; [exact (vv_get H NM n _ s x h o (proj2 Hh) cn P)|]. intros q q' _ [-> _]. apply sim_ok. reflexivity.
Qed.
Lemma total_votes n s x a o : After n s x -> cap n -> str_fits a -> str_fits o -> xb_total_votes x a o = Ok (get_total_votes s a o).
Proof using H32.
  intros A cn La Lo. unfold xb_total_votes, get_total_votes. rewrite (proj1 A). cbn [mroot n_votes].
  pose proof (rget_votes H NM H32 n _ _ a (proj2 A) cn La) as G. cbn [gof gVotes] in G. rewrite G. cbn [mbind res_bind].
  destruct (om_get (votes s) a) as [m|] eqn:E; cbn [fmap option_fmap option_map]; [|reflexivity].
  pose proof (t_all _ _ _ _ _ _ (proj1 (proj2 A LVotes Logic.I))) as F. cbn [gof gVotes] in F. destruct (all_get _ _ _ _ F E) as (_ & Na & _).
  pose proof (rget_tal H NM n _ _ a o (proj2 A) Na Lo) as G2. cbn [gof gTal] in G2. rewrite E in G2. change (default [] (Some m)) with m in G2. rewrite G2. reflexivity.
Qed.
Lemma res_assoc {A B C} (a : res A) (f : A -> res B) (g : B -> res C) : (a ≫= f) ≫= g = a ≫= (fun y => f y ≫= g).
Proof using. destruct a; reflexivity. Qed.
Lemma sim_list {A} (a b : res (list A)) : sim (Forall2 eq) a b -> sim eq a b.
Proof using. intros S. eapply sim_imp; [exact S|]. intros l l' _ F. induction F as [|? ? ? ? -> F IH]; [reflexivity|]. rewrite IH. reflexivity. Qed.
Lemma sim_list_same {A B} (f g : A -> res B) l : (forall a, In a l -> sim eq (f a) (g a)) -> sim eq (mapMr f l) (mapMr g l).
Proof using.
  intros F. apply sim_list, sim_mapMr. induction l as [|a l IH]; constructor; [apply F; left; reflexivity|]. apply IH. intros b Hb. apply F. right. exact Hb.
Qed.
Lemma keys_sim {V} (ev : V -> string) (Pk : string -> Prop) (P : V -> Prop) st p ce n :
  (forall k, Pk k -> str_fits k) -> RC ev Pk P st p ce -> small n -> sim eq (vec_elems (ce_keys ce) n) (m_keys st (KVBytesProofs.hd p n)).
Proof using.
  intros Hp R Hn. unfold vec_elems, m_keys. cbn [KVBytesProofs.hd um_klen]. rewrite Nat2N.id. fold (KVBytesProofs.hd p n). apply sim_list_same.
  intros i Hi. apply in_seq in Hi. pose proof (rc_key ev Pk P Hp st p ce n i R Hn) as S. unfold vec_get in S. destruct (Nat.ltb_spec i n); [|lia].
  destruct (ce_keys ce !! i) as [k|]; cbn [sim] in S |- *; [|destruct S as (e & ->); cbn; eauto]. destruct S as (o & -> & -> & _). cbn. eauto.
Qed.
Lemma vp_keys n id s v x : Hold n id s v x -> cap n -> sim eq (ukeys (hp_vp s) (v_vp v)) (m_keys (xst x) (w_vp (bvo id v))).
Proof using.
  intros Hh cn. destruct (hold_vp H NM _ _ _ _ _ Hh) as (Ni & Ep & Lh). rewrite <- Ep in Ni. unfold ukeys. change (w_vp (bvo id v)) with (KVBytesProofs.hd (sk1 H 1 (h_pref (v_vp v))) (h_len (v_vp v))).
  refine (keys_sim _ _ _ _ _ _ _ _ (proj2 (proj2 Hh) (LVp (h_pref (v_vp v))) Ni) (cap_small _ _ cn Lh)). intros k Hk. apply Hk.
Qed.
Lemma vv_keys n L s x h : MVSim.RX H NM n L s x -> cap n -> VP NM n h -> sim eq (ukeys (hp_vv s) h) (m_keys (xst x) (tbh H h)).
Proof using. intros R cn [Nh Lh]. refine (keys_sim _ _ _ _ _ _ _ _ (proj2 R (LVv (h_pref h)) Nh) (cap_small _ _ cn Lh)). auto. Qed.
Lemma vv_vals n L s x h : MVSim.RX H NM n L s x -> cap n -> VP NM n h -> sim eq (uvals (hp_vv s) h) (m_vals dec_u128 (xst x) (tbh H h)).
Proof using.
  intros R cn [Nh Lh]. eapply sim_imp; [exact (rc_vals (enc_uint 16) dec_u128 (fun x => x) str_fits fits128 val_x _ _ _ _ (proj2 R (LVv (h_pref h)) Nh) (cap_small _ _ cn Lh))|].
  intros a b _ F2. clear -F2. induction F2 as [|? ? ? ? [-> _] F2 IH]; [reflexivity|]. rewrite <- IH. reflexivity.
Qed.
Lemma by_voter n s x v : After n s x -> cap n -> str_fits v -> NM v -> sim eq (get_votes_by_voter s v) (xb_by_voter H x v).
Proof using H32.
  intros A cn L N. destruct (h_get H NM H32 n s x v A cn L N) as [E Hh]. unfold get_votes_by_voter, xb_by_voter. rewrite E. cbn [mbind res_bind].
  eapply sim_bind; [exact (vp_keys _ _ _ _ _ Hh cn)|]. intros addrs b _ <-. eapply (sim_bind eq); [|intros ls b _ <-; apply sim_ok; reflexivity].
  apply sim_list_same. intros a _. change (w_vp (bvo v (get_voter s v))) with (vph H v (v_vp (get_voter s v))).
  eapply sim_bind; [exact (vp_get H NM H32 n _ s x v _ a (proj2 Hh) cn (hold_vp H NM _ _ _ _ _ Hh))|].
  intros oh ob _ [-> P]. destruct oh as [h|]; cbn [fmap option_fmap option_map expect mbind res_bind]; [|cbn; eauto].
  unfold uentries. rewrite (res_assoc (ukeys (hp_vv s) h)). eapply sim_bind; [exact (vv_keys n _ s x h (proj2 Hh) cn P)|]. intros ks b _ <-.
  rewrite (res_assoc (uvals (hp_vv s) h)). eapply sim_bind; [exact (vv_vals n _ s x h (proj2 Hh) cn P)|]. intros vs b _ <-. apply sim_ok. reflexivity.
Qed.
Lemma json_sim n now id s v x : Hold n id s v x -> cap n -> sim eq (voter_to_json now s id v) (xb_json now x id (bvo id v)).
Proof using H32.
  intros Hh cn. unfold voter_to_json, voter_votes, xb_json. rewrite (all_pos _ _ _ _ _ Hh). cbn [mbind res_bind].
  rewrite (res_assoc (ukeys (hp_vp s) (v_vp v))). eapply sim_bind; [exact (vp_keys _ _ _ _ _ Hh cn)|]. intros addrs b _ <-.
  rewrite (res_assoc (mapMr _ _)). eapply (sim_bind eq); [|intros ls b _ <-; apply sim_ok; reflexivity].
  apply sim_list_same. intros a _. change (w_vp (bvo id v)) with (vph H id (v_vp v)).
  eapply sim_bind; [exact (vp_get H NM H32 n _ s x id _ a (proj2 Hh) cn (hold_vp H NM _ _ _ _ _ Hh))|].
  intros oh ob _ [-> P]. destruct oh as [h|]; cbn [fmap option_fmap option_map expect mbind res_bind]; [|cbn; eauto].
  eapply sim_bind; [exact (vv_keys n _ s x h (proj2 Hh) cn P)|]. intros objs b _ <-. apply sim_list_same. intros o _.
  eapply sim_bind; [exact (vv_get H NM n _ s x h o (proj2 Hh) cn P)|]. intros q q' _ [-> _]. destruct q; cbn; eauto.
Qed.
Lemma find_is n s x id : After n s x -> cap n -> str_fits id -> xb_find x id = Ok (bvo id <$> om_get (voters s) id).
Proof using H32.
  intros A cn L. unfold xb_find. rewrite (proj1 A). pose proof (rget_voters H NM H32 n (xst x) _ id (proj2 A) cn L) as G. cbn [gof gVoters] in G. exact G.
Qed.
Lemma info_sim n now s x id : After n s x -> cap n -> str_fits id -> sim eq (get_voter_info now s id) (xb_voter_info now x id).
Proof using H32.
  intros A cn L. unfold get_voter_info, xb_voter_info. rewrite (find_is n s x id A cn L). cbn [mbind res_bind]. destruct (om_get (voters s) id) as [v|] eqn:E; cbn [fmap option_fmap option_map]; [|apply sim_ok; reflexivity].
  exact (json_sim n now id s v x (h_some H NM n s x id v A E) cn).
Qed.
Lemma idx_hd p n from limit : indexes (KVBytesProofs.hd p n) from limit = seq from (min (from + limit) n - from).
Proof using. unfold indexes. cbn [KVBytesProofs.hd um_klen]. rewrite Nat2N.id. reflexivity. Qed.
Lemma voters_sim n now s x from limit : After n s x -> cap n -> sim eq (get_voters now s from limit) (xb_voters now x from limit).
Proof using H32.
  intros A cn. unfold get_voters, xb_voters. pose proof (proj1 A) as Er. rewrite Er. cbn [mroot n_voters]. rewrite idx_hd. apply sim_list_same. intros i Hi. apply in_seq in Hi.
  assert (Li : (i < length (voters s))%nat) by lia. destruct (lookup_lt_is_Some_2 (voters s) i Li) as [[k v] Ek].
  pose proof (proj1 (proj2 A LVoters Logic.I)) as T. cbn [gof gVoters] in T. rewrite list_lookup_fmap, Ek. cbn [fmap option_fmap option_map fst expect mbind res_bind].
  pose proof (t_all _ _ _ _ _ _ T) as F. pose proof (Forall_lookup_1 _ _ _ _ F Ek) as W. cbn [fst snd] in W.
  rewrite (t_key _ _ _ _ _ key_s (kv_ NM n) _ _ _ _ _ _ T Ek). cbn [expect mbind res_bind].
  rewrite (find_is n s x k A cn (proj1 W)). cbn [mbind res_bind]. destruct (om_get (voters s) k) as [v'|] eqn:E; cbn [fmap option_fmap option_map expect mbind res_bind]; [|cbn; eauto].
  exact (json_sim n now k s v' x (h_some H NM n s x k v' A E) cn).
Qed.
Lemma page_at {V} (d : string -> option (V * string)) st p (l : omap_t string V) is :
  (forall i k v, l !! i = Some (k, v) -> u_key dec_str st (KVBytesProofs.hd p (length l)) i = Ok (Some k) /\ u_get d st (KVBytesProofs.hd p (length l)) (enc_str k) = Ok (om_get l k)) ->
  (forall i, In i is -> (i < length l)%nat) ->
  mapMr (fun i => ok ← u_key dec_str st (KVBytesProofs.hd p (length l)) i; k ← expect ok "unwrap on None";
    ov ← u_get d st (KVBytesProofs.hd p (length l)) (enc_str k); v ← expect ov "unwrap on None"; Ok (k, v)) is =
  mapMr (fun i => k ← expect (l.*1 !! i) "unwrap on None"; v ← expect (om_get l k) "unwrap on None"; Ok (k, v)) is.
Proof using.
  intros Hl Hi. apply mapMr_same, Forall_forall. intros i Ei. apply elem_of_list_In, Hi in Ei. destruct (lookup_lt_is_Some_2 l i Ei) as [[k v] Ek].
  destruct (Hl _ _ _ Ek) as [E1 E2]. rewrite E1, list_lookup_fmap, Ek. cbn [fmap option_fmap option_map fst expect mbind res_bind]. rewrite E2. reflexivity.
Qed.
Lemma page_is {V} (d : string -> option (V * string)) st p (l : omap_t string V) from limit :
  (forall i k v, l !! i = Some (k, v) -> u_key dec_str st (KVBytesProofs.hd p (length l)) i = Ok (Some k) /\ u_get d st (KVBytesProofs.hd p (length l)) (enc_str k) = Ok (om_get l k)) ->
  u_page d st (KVBytesProofs.hd p (length l)) from limit = map_page l from limit.
Proof using. intros Hl. unfold u_page, map_page. rewrite idx_hd. apply page_at; [exact Hl|]. intros i Hi. apply in_seq in Hi. lia. Qed.
Lemma page_mp n s x from limit : After n s x -> u_page dec_u128 (xst x) (n_claimable_mpdao (xr x)) from limit = map_page (claim_mp s) from limit.
Proof using.
  intros A. rewrite (proj1 A). apply page_is. intros i k v Ek. pose proof (proj1 (proj2 A LMp Logic.I)) as T. cbn [gof gMp] in T.
  pose proof (Forall_lookup_1 _ _ _ _ (t_all _ _ _ _ _ _ T) Ek) as W. split; [exact (t_key _ _ _ _ _ key_s kn_ _ _ _ _ _ _ T Ek)|]. exact (rget_mp H NM n _ _ k (proj2 A) (proj1 W)).
Qed.
Lemma page_st n s x from limit : After n s x -> u_page dec_u128 (xst x) (n_claimable_stnear (xr x)) from limit = map_page (claim_st s) from limit.
Proof using.
  intros A. rewrite (proj1 A). apply page_is. intros i k v Ek. pose proof (proj1 (proj2 A LSt Logic.I)) as T. cbn [gof gSt] in T.
  pose proof (Forall_lookup_1 _ _ _ _ (t_all _ _ _ _ _ _ T) Ek) as W. split; [exact (t_key _ _ _ _ _ key_s kn_ _ _ _ _ _ _ T Ek)|]. exact (rget_st H NM n _ _ k (proj2 A) (proj1 W)).
Qed.
Lemma page_data n s x from limit : After n s x -> u_page dec_str (xst x) (n_associated_user_data (xr x)) from limit = map_page (user_data s) from limit.
Proof using.
  intros A. rewrite (proj1 A). apply page_is. intros i k v Ek. pose proof (proj1 (proj2 A LData Logic.I)) as T. cbn [gof gData] in T.
  pose proof (Forall_lookup_1 _ _ _ _ (t_all _ _ _ _ _ _ T) Ek) as W. split; [exact (t_key _ _ _ _ _ key_s kd_ _ _ _ _ _ _ T Ek)|]. exact (rget_data H NM n _ _ k (proj2 A) (proj1 W)).
Qed.
Lemma delegates_is n s x from limit : After n s x -> cap n -> xb_delegates x from limit = get_delegates s from limit.
Proof using.
  intros A cn. unfold xb_delegates, get_delegates, map_page. rewrite (proj1 A). cbn [mroot n_evm_delegates]. cbv zeta.
  pose proof (proj2 A LDel Logic.I) as [T Ln]. cbn [gof gDel] in T, Ln. unfold cap in cn.
  assert (Em : um_klen (KVBytesProofs.hd (sk0 9) (length (evm_delegates s))) mod U32_SIZE = N.of_nat (length (evm_delegates s))).
  { cbn [KVBytesProofs.hd um_klen]. apply N.mod_small. change U32_SIZE with (2 ^ 32)%N. lia. }
  rewrite Em, Nat2N.id.
  assert (Eb : (N.of_nat from <? N.of_nat (length (evm_delegates s)))%N = (from <? length (evm_delegates s))%nat).
  { apply Bool.eq_iff_eq_true. rewrite N.ltb_lt, Nat.ltb_lt. lia. }
  rewrite Eb. destruct (from <? length (evm_delegates s))%nat; [|reflexivity]. cbn [require mbind res_bind].
  destruct (N.of_nat from + N.of_nat limit <? U32_SIZE)%N; [|reflexivity]. cbn [require mbind res_bind].
  apply page_at; [|intros i Hi; apply in_seq in Hi; lia]. intros i k v Ek.
  pose proof (Forall_lookup_1 _ _ _ _ (t_all _ _ _ _ _ _ T) Ek) as W. split; [exact (t_key _ _ _ _ _ key_s (kl_ n) _ _ _ _ _ _ T Ek)|]. exact (rget_del H NM n _ _ k (proj2 A) cn (proj1 W)).
Qed.
Lemma by_app n s x a : After n s x -> cap n -> str_fits a -> xb_by_app x a = Ok (get_votes_by_app s a).
Proof using H32.
  intros A cn La. unfold xb_by_app, get_votes_by_app. rewrite (proj1 A). cbn [mroot n_votes].
  pose proof (rget_votes H NM H32 n _ _ a (proj2 A) cn La) as G. cbn [gof gVotes] in G. rewrite G. cbn [mbind res_bind].
  destruct (om_get (votes s) a) as [m|] eqn:E; [|reflexivity].
  pose proof (t_all _ _ _ _ _ _ (proj1 (proj2 A LVotes Logic.I))) as F. cbn [gof gVotes] in F. destruct (all_get _ _ _ _ F E) as (_ & Na & _).
  pose proof (proj1 (proj2 A (LTal a) Na)) as T. cbn [gof gTal] in T. rewrite E in T. change (default [] (Some m)) with m in T.
  change (default (umh_new (sk0 3)) (tbt H a <$> Some m)) with (KVBytesProofs.hd (sk1 H 4 a) (length m)). change (default [] (Some m)) with m.
  rewrite (t_iter _ (fun _ => enc_uint 16) _ _ (fun _ x => x) _ _ key_s val_n kn_ _ _ _ T). f_equal. clear. induction m as [|[k v] m IH]; [reflexivity|]. cbn [map]. rewrite IH. reflexivity.
Qed.
Lemma view_sim n now s x q : After n s x -> cap n -> Forall str_fits (asked q) -> (forall v, In v (about q) -> NM v) ->
  sim eq (mv_answer now s q) (xb_view H now x q).
Proof using H32.
  intros A cn Ht Ha. pose proof (proj1 A) as Er.
  assert (G : forall v, str_fits v -> NM v -> xb_get H x v = Ok (bvo v (get_voter s v)) /\ Hold n v s (get_voter s v) x) by (intros; apply h_get; assumption).
  destruct q; cbn [xb_view asked about mv_answer] in *;
    try (apply Forall_cons in Ht as [L1 Ht]); try (assert (N1 : NM v) by (apply Ha; left; reflexivity); destruct (G v L1 N1) as [Eg Hh]; pose proof (all_pos _ _ _ _ _ Hh) as Ep).
  - rewrite Er. apply sim_ok. reflexivity.
  - rewrite Er. apply sim_ok. reflexivity.
  - rewrite Er. unfold xb_info. cbn [mroot n_voters n_evm_delegates]. rewrite !count_hd. apply sim_ok. reflexivity.
  - rewrite Er. cbn [mroot n_voters]. rewrite count_hd. apply sim_ok. reflexivity.
  - rewrite Er. apply sim_ok. reflexivity.
  - eapply (sim_bind eq); [exact (info_sim n now s x v A cn L1)|]. intros j b _ <-. apply sim_ok. reflexivity.
  - unfold page. eapply (sim_bind eq); [exact (voters_sim n now s x _ _ A cn)|]. intros j b _ <-. apply sim_ok. reflexivity.
  - apply big, sim_eq. unfold xb_balance, xb_sum. rewrite Eg. cbn [mbind res_bind]. rewrite Ep. reflexivity.
  - rewrite Er. unfold xb_claimable. pose proof (rget_mp H NM n _ _ v (proj2 A) L1) as R. cbn [gof gMp] in R. cbn [mroot n_claimable_mpdao]. rewrite R. apply sim_ok. reflexivity.
  - rewrite Er. unfold xb_claimable. pose proof (rget_st H NM n _ _ v (proj2 A) L1) as R. cbn [gof gSt] in R. cbn [mroot n_claimable_stnear]. rewrite R. apply sim_ok. reflexivity.
  - apply sim_eq. unfold page. rewrite (page_st n s x _ _ A). reflexivity.
  - apply sim_eq. unfold page. rewrite (page_mp n s x _ _ A). reflexivity.
  - apply big, sim_eq. unfold xb_locked, xb_sum. rewrite Eg. cbn [mbind res_bind]. rewrite Ep. reflexivity.
  - apply big, sim_eq. unfold xb_unlocking, xb_sum. rewrite Eg. cbn [mbind res_bind]. rewrite Ep. reflexivity.
  - unfold xb_available. rewrite Eg. apply sim_ok. reflexivity.
  - apply big. unfold xb_used_power, get_used_voting_power. rewrite Eg. cbn [mbind res_bind]. exact (used_sim H NM H32 n v s _ x Hh cn).
  - rewrite Er. apply sim_ok. reflexivity.
  - unfold xb_positions. rewrite Eg. cbn [mbind res_bind]. rewrite Ep. apply sim_ok. reflexivity.
  - unfold xb_position. rewrite Eg. cbn [mbind res_bind]. destruct (h_pos_of H NM _ _ _ _ _ Hh) as (V & _).
    cbn [MVStore.bvo w_lps]. rewrite (v_get _ _ _ _ V). apply sim_ok. reflexivity.
  - apply Forall_cons in Ht as [L2 _]. rewrite (total_votes n s x addr obj A cn L1 L2). apply sim_ok. reflexivity.
  - rewrite (by_app n s x addr A cn L1). apply sim_ok. reflexivity.
  - unfold xb_by_contract. rewrite (by_app n s x addr A cn L1). apply sim_ok. reflexivity.
  - eapply (sim_bind eq); [exact (by_voter n s x v A cn L1 N1)|]. intros j b _ <-. apply sim_ok. reflexivity.
  - apply big. exact (for_object n s x v addr obj A cn L1 N1).
  - rewrite Er. apply sim_ok. reflexivity.
  - rewrite Er. apply sim_ok. reflexivity.
  - rewrite Er. apply sim_ok. reflexivity.
  - unfold xb_registered. rewrite Er. pose proof (rget_data H NM n _ _ a (proj2 A) L1) as R. cbn [gof gData] in R. cbn [mroot n_associated_user_data]. rewrite R. cbn [mbind res_bind].
    unfold check_if_registered. destruct (om_get (user_data s) a); apply sim_ok; reflexivity.
  - unfold xb_airdrop. rewrite Er. pose proof (rget_data H NM n _ _ a (proj2 A) L1) as R. cbn [gof gData] in R. cbn [mroot n_associated_user_data]. rewrite R. cbn [mbind res_bind].
    unfold get_airdrop_account. apply sim_eq. reflexivity.
  - apply sim_eq. unfold page. rewrite (page_data n s x _ _ A). reflexivity.
  - rewrite Er. apply sim_ok. reflexivity.
  - rewrite Er. pose proof (proj2 A LPre Logic.I) as R. cbn [Q gof gPre] in R. cbn [mroot n_evm_pre_delegation]. rewrite (lrep_get _ _ _ evm R). apply sim_ok. reflexivity.
  - unfold xb_delegating. rewrite Er. pose proof (rget_del H NM n _ _ a (proj2 A) cn L1) as R. cbn [gof gDel] in R. cbn [mroot n_evm_delegates]. rewrite R. apply sim_ok. reflexivity.
  - apply sim_eq. unfold page. rewrite (delegates_is n s x _ _ A cn). reflexivity.
  - rewrite Er. pose proof (proj2 A LSig Logic.I) as R. cbn [Q gof gSig] in R. cbn [mroot n_evm_delegation_signatures]. rewrite (lrep_get _ _ _ evm R). apply sim_ok. reflexivity.
  - rewrite Er. pose proof (proj2 A LSig Logic.I) as R. cbn [Q gof gSig] in R. cbn [mroot n_evm_delegation_signatures]. rewrite (lrep_get _ _ _ evm R). cbn [mbind res_bind]. apply sim_eq. reflexivity.
Qed.
End View.

Lemma sim_same_answer (a b : res val) : sim eq a b -> same_answer b a.
Proof. destruct a as [v|e]; cbn [sim]; [intros (b' & -> & <-); reflexivity|intros (e' & ->); exact I]. Qed.

Lemma c102_views H a tr s0 st0 now q : usual_init a -> usual_calls H tr -> mv_new a = Ok s0 -> xb_new ∅ a = Ok st0 ->
  usual_question H tr q -> same_answer (xb_ask H now (xb_run H (i_self a) st0 tr) q) (mv_answer now (run s0 tr) q).
Proof.
  intros U (Sz & Tx & cn & H32 & Hinj) E E0 [Qt Qa]. set (NM := fun x => hashed_in tr x \/ In x (about q)).
  assert (Hone : forall x y, In x (about q) -> In y (about q) -> x = y).
  { intros x y. destruct q; cbn [about In]; try tauto; intros [<-|[]] [<-|[]]; reflexivity. }
  assert (Hj : forall x y, NM x -> NM y -> H x = H y -> x = y).
  { intros x y [X|X] [Y|Y] Eq; [exact (Hinj _ _ X Y Eq)|exact (Qa _ _ Y X Eq)|symmetry; exact (Qa _ _ X Y (eq_sym Eq))|exact (Hone _ _ X Y)]. }
  pose proof (new_rep H NM a U) as X. rewrite E in X. destruct X as (st1 & E1 & R). rewrite E0 in E1. injection E1 as <-.
  destruct (runs_rep H NM (i_self a) tr H32 Hj (fun x Hx => or_introl Hx) Sz Tx 0 s0 st0 cn R) as [R1 _]. cbn [Nat.add] in R1.
  unfold xb_ask. rewrite (load_ok H NM _ _ _ _ R1 cn). cbn [mbind res_bind]. apply sim_same_answer.
  refine (view_sim H NM H32 (adds tr) now _ _ q _ cn Qt _); [|intros v Hv; right; exact Hv].
  split; [reflexivity|]. exact (proj1 (proj2 R1)).
Qed.
Lemma c102_before_new H now q : exists e, xb_ask H now ∅ q = Panic e.
Proof. eexists. reflexivity. Qed.
Lemma c102_questions H a tr s0 st0 now q m x : usual_init a -> usual_calls H tr -> mv_new a = Ok s0 -> xb_new ∅ a = Ok st0 -> usual_question H tr q ->
  mvq_typed q -> In m (mv_asked q).1 -> reads_as (mvq_params q) x (mv_asked q).2 ->
  same_answer (xb_reads H now (xb_run H (i_self a) st0 tr) m x) (mv_reply now (run s0 tr) q).
Proof.
  intros U C E E0 Q Ht Hm Hr. rewrite <- (c96_mv_asked now (run s0 tr) q m x Ht Hm Hr). unfold xb_reads, mv_view, ask. rewrite (mvq_complete _ _ _ Ht Hm Hr). cbn [expect mbind res_bind].
  pose proof (c102_views H a tr s0 st0 now q U C E E0 Q) as S. destruct (xb_ask _ _ _ q), (mv_answer _ _ q); cbn in *; congruence || exact I || contradiction.
Qed.
Lemma c102_answers H now st m x t : xb_reads H now st m x = Ok t -> exists q, mvq_typed q /\ In m (mv_asked q).1 /\ reads_as (mvq_params q) x (mv_asked q).2.
Proof. unfold xb_reads, ask. destruct (enter mv_views m x) as [q|] eqn:E; [|discriminate]. intros _. exists q. exact (mvq_sound _ _ _ E). Qed.
Lemma c102_no_text H now m x : exists e, xb_reads H now ∅ m x = Panic e.
Proof. unfold xb_reads, ask. destruct (enter mv_views m x) as [q|]; cbn; eauto. Qed.
