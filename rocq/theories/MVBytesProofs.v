(** MVBytesProofs.v -- for C100: histories of the voting contract on the bytes of the storage. *)

From Verif Require Export MVMethods MVBytesSpec.
From Verif Require Import FlatProofs MigrateProofs WireProofs EntryProofs AskProofs MpipSized PostProofs MVAuth MVInv MVView KVBytesProofs.
Import MetaVote MVSized FlatProofs BoardBytes BoardStore BoardSim MVBytes MVCells MVStore MVRep MVSim MVPositions MVBallots MVMethods MVBytesSpec KVBytesProofs.

Notation weight := MVMethods.weight. Notation texts := MVBytesSpec.texts. Notation named := MVBytesSpec.named. Notation short := MVBytesSpec.short. Notation listed := MVBytesSpec.listed.
(** ** The texts in the root struct *)
Definition Strs (s : state) : Prop :=
  str_fits (owner_id s) /\ str_fits (operator_id s) /\ str_fits (mpdao_addr s) /\ str_fits (stnear_addr s) /\ str_fits (prev_gov s) /\
  match lock_addr s with Some a => str_fits a | None => True end.

Section Run.
Variables (H : string -> string) (NM : string -> Prop).
Hypothesis H32 : hash32 H.
Hypothesis Hinj : forall x y, NM x -> NM y -> H x = H y -> x = y.
Notation Inv := (MVStore.Inv H NM). Notation After := (After H NM).

Lemma strs_exec c s o s' e : good NM c o -> exec c s o = Ok (s', e) -> Strs s -> Strs s'.
Proof using.
  intros (_ & _ & G) Hx (A1 & A2 & A3 & A4 & A5 & A6). destruct (is_cfg_op o) eqn:Ef.
  - destruct o; try discriminate Ef; cbn [exec] in Hx; apply noeff_Ok in Hx as [Hx _];
    unfold set_stnear_contract, set_operator_id, set_owner_id, update_registration_cost,
      set_lock_in_vote_filters, update_min_unbond_period, update_max_unbond_period, set_prev_gov_contract in Hx; rinv;
    (split; [|split; [|split; [|split; [|split]]]]); cbn; try assumption; destruct addr; assumption.
  - apply exec_cfg in Hx; [|exact Ef]. unfold cfg in Hx. injection Hx as E1 E2 E3 E4 E5 E6 E7 E8 E9 E10 E11 E12 E13 E14 E15.
    unfold Strs. rewrite E2, E3, E4, E10, E12, E14. repeat split; assumption.
Qed.

Definition Rep (n : nat) (self : string) (st : flat) (s : state) : Prop :=
  st !! "STATE" = Some (enc_new (mroot s)) /\ Inv n st (gof (posl s) s) /\ OK s /\ Strs s /\ self = self_id s.
Lemma rep_mono n m self st s : Rep n self st s -> (n <= m)%nat -> Rep m self st s.
Proof using. intros (A & B & C) L. split; [exact A|]. split; [exact (inv_mono H NM _ _ _ _ L B)|exact C]. Qed.
Lemma load_ok n self st s : Rep n self st s -> cap n -> xb_load st = Ok (mroot s).
Proof using.
  intros (E & I0 & O & (A1 & A2 & A3 & A4 & A5 & A6) & _) cn. unfold xb_load. rewrite E. cbn [expect mbind res_bind].
  assert (F : forall k x, (x <= n)%nat -> umh_fits (hd (sk0 k) x)). { intros k x L. apply hd_fits; [cbn; lia|]. exact (cap_small n x cn L). }
  pose proof (proj2 (I0 LVoters I)) as L1. pose proof (proj2 (I0 LVotes I)) as L2. pose proof (proj2 (I0 LMp I)) as L3. pose proof (proj2 (I0 LSt I)) as L4.
  pose proof (proj2 (I0 LData I)) as L5. pose proof (proj2 (I0 LDel I)) as L6. cbn [gof gVoters gVotes gMp gSt gData gDel] in *.
  assert (D : try_from_slice dec_new (enc_new (mroot s)) = Some (mroot s)); [|rewrite D; reflexivity].
  change (mroot s) with (root_with (mkOldRoot (owner_id s) (operator_id s) (hd (sk0 2) (length (voters s))) (hd (sk0 3) (length (votes s))) (min_unbond s) (max_unbond s) (min_deposit s)
    (max_lps s) (max_vps s) (mpdao_addr s) (total_vp s) (hd (sk0 6) (length (claim_mp s))) (accum_mp s) (uncl_mp s) (stnear_addr s)
    (hd (sk0 7) (length (claim_st s))) (accum_st s) (uncl_st s) (reg_cost s) (hd (sk0 8) (length (user_data s))) (prev_gov s)
    (hd (sk0 9) (length (evm_delegates s))) (sk0 11) (sk0 10)) (lock_end s) (lock_addr s) (lock_id s)).
  unfold try_from_slice. rewrite <- (sapp_nil (enc_new _)), dec_enc_new; [reflexivity| |].
  - destruct O. unfold old_fits. cbn [o_owner_id o_operator_id o_voters o_votes o_min_unbond_period o_max_unbond_period o_min_deposit_amount o_max_locking_positions
      o_max_voting_positions o_mpdao_token_contract_address o_total_voting_power o_claimable_mpdao o_accumulated_mpdao_distributed_for_claims
      o_total_unclaimed_mpdao o_stnear_token_contract_address o_claimable_stnear o_accum_distributed_stnear_for_claims o_total_unclaimed_stnear
      o_registration_cost o_associated_user_data o_prev_governance_contract o_evm_delegates o_evm_pre_delegation o_evm_delegation_signatures].
    repeat match goal with |- _ /\ _ => split end; first [assumption|apply F; assumption|vm_compute; reflexivity].
  - destruct O. unfold filters_fit. auto.
Qed.

(** ** [new] *)
Lemma inv_empty : Inv 0 ∅ (mkG [] [] [] [] [] [] ∅ ∅ (fun _ => []) (fun _ => empty_cell) (fun _ => empty_cell) (fun _ => [])).
Proof using.
  assert (K : forall K V (ek : K -> string) (ev : K -> V -> string) W p, TMap ek ev W ∅ p []) by (intros; apply t_nil).
  intros l _. destruct l; cbn [Q gVoters gVotes gMp gSt gData gDel gSig gPre gPos gVp gVv gTal]; try (split; [apply K|reflexivity]).
  - split; [intros e; rewrite !lookup_empty; reflexivity|intros e x E; rewrite lookup_empty in E; discriminate].
  - split; [intros e; rewrite !lookup_empty; reflexivity|intros e x E; rewrite lookup_empty in E; discriminate].
  - split; [|reflexivity]. split; [intros i q E; discriminate|constructor].
  - apply rc_empty.
  - apply rc_empty.
Qed.
Lemma new_rep a : usual_init a -> sim (fun s st => Rep 0 (i_self a) st s) (mv_new a) (xb_new ∅ a).
Proof using.
  intros U. destruct (mv_new a) as [s|e] eqn:E.
  - pose proof (ok_init _ _ E) as O. unfold mv_new in E. rinv. unfold xb_new. rewrite lookup_empty. rewrite bool_decide_false by (intros [x Hx]; discriminate). cbn [negb require mbind res_bind].
    repeat match goal with Hq : ?b = true |- _ => rewrite Hq; clear Hq; cbn [require mbind res_bind] end.
    apply sim_ok. split; [rewrite lookup_insert; reflexivity|]. split; [|split; [exact O|split; [|reflexivity]]].
    + apply inv_state. eapply inv_ext; [exact inv_empty|intros x; reflexivity|intros x; reflexivity|intros x; reflexivity|intros x; reflexivity].
    + unfold usual_init in U. rewrite !Forall_cons in U. destruct U as (u1 & u2 & u3 & u4 & u5 & _). unfold Strs. cbn. repeat split; assumption.
  - unfold xb_new. rewrite lookup_empty. rewrite bool_decide_false by (intros [x Hx]; discriminate). cbn [negb require mbind res_bind].
    unfold mv_new in E. cbn [sim]. destruct (require _ "deserialize") as [[]|]; [|cbn; eauto]. cbn [mbind res_bind] in *. destruct (require _ "Review the min and max locking period") as [[]|]; [discriminate|cbn; eauto].
Qed.

(** ** A call *)
Lemma call_rep n m self st s c o : Rep n self st s -> cap m -> (n + weight c o <= m)%nat -> good NM c o -> sized_call (c, o) ->
  sim (fun a b => Rep m self b.1 a.1 /\ a.2 = b.2) (exec c s o) (xb_call H self st c o).
Proof using H32 Hinj.
  intros R cm Le G Sz. assert (cn : cap n) by (apply (cap_le n m cm); lia). unfold xb_call. rewrite (load_ok _ _ _ _ R cn). cbn [mbind res_bind].
  pose proof R as (E & I0 & O & S0 & Es). pose proof (exec_sim H NM H32 Hinj self c n m s (mkX st (mroot s)) o (conj eq_refl I0) cm Le Es G Sz) as X.
  destruct (exec c s o) as [[s' out]|e] eqn:Ex; cbn [sim] in X |- *.
  - destruct X as ([x out'] & -> & [Er I1] & E2). cbn [fst snd] in *. subst out'. cbn [mbind res_bind]. eexists. split; [reflexivity|]. cbn [fst snd]. split; [|reflexivity].
    split; [rewrite lookup_insert, Er; reflexivity|]. split; [apply inv_state; exact I1|]. split; [exact (proj1 (ok_exec (c, o) s s' out Sz O Ex))|]. split; [exact (strs_exec _ _ _ _ _ G Ex S0)|].
    rewrite (exec_self _ _ _ _ _ Ex). exact Es.
  - destruct X as (e' & ->). cbn. eauto.
Qed.
End Run.

(** ** Histories *)
Lemma good_if (NM : string -> Prop) c o : Forall short (texts (c, o)) -> (forall x, In x (named (c, o)) -> NM x) -> good NM c o.
Proof.
  intros T N. unfold texts in T. apply Forall_cons in T as [Tc T]. unfold named in N. split; [exact Tc|]. split; [apply N; left; reflexivity|].
  destruct o; try exact I; try (rewrite ?Forall_cons in T; decompose [and] T; clear T; unfold KP; repeat split; first [assumption|apply N; cbn; tauto]).
  - apply Forall_app in T as [Ta Tb]. apply Forall_forall. intros p Hp. rewrite Forall_forall in Ta, Tb. split; [apply Ta|apply Tb]; apply elem_of_list_fmap; eauto.
  - destruct a as [a|]; [|exact I]. cbn [MVBytesSpec.listed] in T. apply Forall_cons in T as [T _]. exact T.
  - apply Forall_cons in T as [T1 T2]. split; [exact T1|]. split; [apply N; cbn; tauto|]. destruct data as [d|]; [|exact I]. cbn [MVBytesSpec.listed] in T2. apply Forall_cons in T2 as [T2 _]. exact T2.
  - apply Forall_cons in T as [T1 T2]. apply Forall_app in T2 as [T2 T3]. split; [exact T1|]. split; [apply N; cbn; tauto|]. split.
    + unfold claims_of. unfold claims_in in T2. destruct (c_json_claims c _) as [l|]; [|exact I]. cbn [MVBytesSpec.listed concat] in T2. rewrite app_nil_r in T2. rewrite Forall_forall in T2. apply Forall_forall. intros p Hp. apply T2, elem_of_list_fmap. eauto.
    + destruct (c_json_pair c msg) as [p|]; [|exact I]. cbn [MVBytesSpec.listed map] in T3, N. apply Forall_cons in T3 as [T3 _]. split; [exact T3|]. apply N. cbn. tauto.
Qed.
Lemma weight_is c o : weight c o = weight_of (c, o).
Proof. destruct o; try reflexivity. cbn. unfold claims_of, claims_in. destruct (c_json_claims c _); [|reflexivity]. cbn [MVBytesSpec.listed concat]. rewrite app_nil_r. reflexivity. Qed.

Lemma runs_rep H (NM : string -> Prop) self tr : hash32 H -> (forall x y, NM x -> NM y -> H x = H y -> x = y) -> (forall x, hashed_in tr x -> NM x) ->
  Forall sized_call tr -> Forall (fun y => Forall short (texts y)) tr ->
  forall n s st, cap (n + adds tr) -> Rep H NM n self st s ->
  Rep H NM (n + adds tr) self (xb_run H self st tr) (run s tr) /\ xb_gives H self st tr = mv_gives s tr.
Proof.
  intros H32 Hinj. induction tr as [|[c o] tr IH]; intros N Sz Tx n s st cn R.
  { cbn [adds fold_right]. replace (n + 0)%nat with n by lia. split; [exact R|reflexivity]. }
  apply Forall_cons in Sz as [S1 S2]. apply Forall_cons in Tx as [T1 T2]. cbn [adds fold_right] in *. fold (adds tr) in *. rewrite Nat.add_assoc in *.
  assert (G : good NM c o). { apply good_if; [exact T1|]. intros x Hx. apply N. exists (c, o). split; [left; reflexivity|exact Hx]. }
  assert (cm : cap (n + weight_of (c, o))) by (apply (cap_le _ _ cn); lia).
  assert (Le : (n + weight c o <= n + weight_of (c, o))%nat) by (rewrite weight_is; lia).
  pose proof (call_rep H NM H32 Hinj n _ self st s c o R cm Le G S1) as X.
  assert (N' : forall x, hashed_in tr x -> NM x) by (intros x (y & Hy & Hx); apply N; exists y; split; [right; exact Hy|exact Hx]).
  unfold run, xb_run. cbn [fold_left mv_gives xb_gives fst snd]. 
  assert (Ea : step s (c, o) = match exec c s o with Ok (s', _) => s' | Panic _ => s end) by reflexivity.
  assert (Eb : xb_step H self st (c, o) = match xb_call H self st c o with Ok (st', _) => st' | Panic _ => st end) by reflexivity. rewrite Ea, Eb.
  destruct (exec c s o) as [[s' out]|e]; cbn [sim] in X.
  - destruct X as ([st' out'] & -> & R' & E2). cbn [fst snd] in *. subst out'. destruct (IH N' S2 T2 _ s' st' cn R') as [A B]. split; [exact A|]. rewrite B. reflexivity.
  - destruct X as (e' & ->). destruct (IH N' S2 T2 (n + weight_of (c, o))%nat s st cn) as [A B]; [eapply rep_mono; [exact R|lia]|]. split; [exact A|]. rewrite B. reflexivity.
Qed.

Lemma c100_rep H a tr s0 : usual_init a -> usual_calls H tr -> mv_new a = Ok s0 ->
  exists st0, xb_new ∅ a = Ok st0 /\ Rep H (hashed_in tr) (adds tr) (i_self a) (xb_run H (i_self a) st0 tr) (run s0 tr) /\ xb_gives H (i_self a) st0 tr = mv_gives s0 tr.
Proof.
  intros U (Sz & Tx & cn & H32 & Hinj) E. pose proof (new_rep H (hashed_in tr) a U) as X. rewrite E in X. destruct X as (st0 & -> & R). exists st0. split; [reflexivity|].
  exact (runs_rep H (hashed_in tr) (i_self a) tr H32 Hinj (fun x Hx => Hx) Sz Tx 0 s0 st0 cn R).
Qed.
Lemma c100_new a : usual_init a -> (exists st0, xb_new ∅ a = Ok st0) <-> (exists s0, mv_new a = Ok s0).
Proof.
  intros U. pose proof (new_rep id (fun _ => True) a U) as X. destruct (mv_new a) as [s|e]; cbn [sim] in X.
  - destruct X as (st & -> & _). split; eauto.
  - destruct X as (e' & ->). split; intros [y Hy]; discriminate.
Qed.
Lemma c100_calls H a tr s0 st0 : usual_init a -> usual_calls H tr -> mv_new a = Ok s0 -> xb_new ∅ a = Ok st0 -> xb_gives H (i_self a) st0 tr = mv_gives s0 tr.
Proof. intros U C E E2. destruct (c100_rep H a tr s0 U C E) as (st & E3 & _ & G). rewrite E2 in E3. injection E3 as ->. exact G. Qed.

(** ** The bytes on disk *)
Lemma t_stored K V (ek : K -> string) (ev : K -> V -> string) W st p (l : list (K * V)) : TMap ek ev W st p l -> stored st p (map (fun e => (ek e.1, ev e.1 e.2)) l).
Proof. intros T i k v L. rewrite list_lookup_fmap in L. destruct (l !! i) as [[k' v']|] eqn:El; [|discriminate]. injection L as <- <-. exact (t_records _ _ _ _ _ _ _ _ _ T El). Qed.
Lemma rc_entry {V} (ev : V -> string) Pk P st p ce n k v : RC ev Pk P st p ce -> cget ce n k = Ok (Some v) -> entry_at st p n (enc_str k) (ev v) /\ P v.
Proof.
  intros [(R1 & R2 & R3) Ix _ Pv] G. unfold cget in G. destruct (ce_idx ce !! k) as [i|] eqn:Ei; [|discriminate]. unfold vec_get in G. destruct (Nat.ltb_spec i n) as [L|]; [|discriminate].
  cbn [mbind res_bind] in G. destruct (ce_vals ce !! i) as [w|] eqn:Ev; [|discriminate]. injection G as ->. split; [|exact (Pv _ _ Ev)]. exists i. split; [exact L|].
  pose proof (R1 (enc_str k)) as A. unfold rawc in A. cbn [ce_idx] in A. rewrite km_get, Ei in A. split; [exact A|].
  pose proof (R3 i (Ix _ _ Ei)) as B. cbn [rawc ce_vals] in B. rewrite lookup_fmap, Ev in B. unfold vec_key, vals_pref in B. rewrite sapp_assoc in B. exact B.
Qed.
Lemma c100_records H a tr s0 st0 : usual_init a -> usual_calls H tr -> mv_new a = Ok s0 -> xb_new ∅ a = Ok st0 ->
  let s := run s0 tr in let st := xb_run H (i_self a) st0 tr in
  st !! "STATE" = Some (vote_bytes s) /\
  stored st (enc_uint 1 2) (map (fun e => (enc_str e.1, voter_bytes H e.1 e.2)) (voters s)) /\
  stored st (enc_uint 1 3) (map (fun e => (enc_str e.1, map_bytes (tally_of H e.1) (length e.2))) (votes s)) /\
  stored st (enc_uint 1 6) (map (fun e => (enc_str e.1, enc_uint 16 e.2)) (claim_mp s)) /\
  stored st (enc_uint 1 7) (map (fun e => (enc_str e.1, enc_uint 16 e.2)) (claim_st s)) /\
  stored st (enc_uint 1 8) (map (fun e => (enc_str e.1, enc_str e.2)) (user_data s)) /\
  stored st (enc_uint 1 9) (map (fun e => (enc_str e.1, strings_bytes e.2)) (evm_delegates s)) /\
  (forall e, st !! (enc_uint 1 10 +:+ enc_str e) = signed_bytes <$> evm_sigs s !! e) /\
  (forall e, st !! (enc_uint 1 11 +:+ enc_str e) = signed_bytes <$> evm_pre s !! e) /\
  (forall who v i p, In (who, v) (voters s) -> v_lps v !! i = Some p -> st !! (positions_of H who +:+ enc_uint 8 (N.of_nat i)) = Some (position_bytes p)) /\
  (forall addr m, In (addr, m) (votes s) -> stored st (tally_of H addr) (map (fun e => (enc_str e.1, enc_uint 16 e.2)) m)) /\
  (forall who v addr h, In (who, v) (voters s) -> uget (hp_vp s) (v_vp v) addr = Ok (Some h) ->
     entry_at st (ballot_of H who) (h_len (v_vp v)) (enc_str addr) (map_bytes (objects_of H (h_pref h)) (h_len h)) /\
     forall obj n, uget (hp_vv s) h obj = Ok (Some n) -> entry_at st (objects_of H (h_pref h)) (h_len h) (enc_str obj) (enc_uint 16 n)).
Proof.
  intros U C E E2. destruct (c100_rep H a tr s0 U C E) as (st1 & E3 & (R & M & _) & _). rewrite E2 in E3. injection E3 as <-. cbv zeta.
  pose proof (M LVoters I) as [a1 _]. pose proof (M LVotes I) as [a2 _]. pose proof (M LMp I) as [a3 _]. pose proof (M LSt I) as [a4 _]. pose proof (M LData I) as [a5 _]. pose proof (M LDel I) as [a6 _].
  pose proof (M LSig I) as [a7 _]. pose proof (M LPre I) as [a8 _]. cbn [Q gof gVoters gVotes gMp gSt gData gDel gSig gPre] in *.
  assert (W : forall who v, In (who, v) (voters (run s0 tr)) -> om_get (voters (run s0 tr)) who = Some v /\ hashed_in tr who /\ h_pref (v_vp v) = who).
  { intros who v Hin. pose proof (om_In_get _ _ _ (t_nodup _ _ _ _ _ _ a1) Hin) as Eg. pose proof (all_get _ _ _ _ (t_all _ _ _ _ _ _ a1) Eg) as (_ & N & _ & _ & _ & _ & P). auto. }
  split; [rewrite R; reflexivity|]. split; [|split; [exact (t_stored _ _ _ _ _ _ _ _ a2)|split; [exact (t_stored _ _ _ _ _ _ _ _ a3)|split; [exact (t_stored _ _ _ _ _ _ _ _ a4)|split; [exact (t_stored _ _ _ _ _ _ _ _ a5)|split; [exact (t_stored _ _ _ _ _ _ _ _ a6)|split; [exact a7|split; [exact a8|split; [|split]]]]]]]]].
  - intros i k v L. apply (t_stored _ _ _ _ _ _ _ _ a1 i k v). rewrite <- L. rewrite !list_lookup_fmap. destruct (voters (run s0 tr) !! i) as [[who w]|] eqn:El; [|reflexivity].
    cbn [fmap option_fmap option_map fst snd]. destruct (W who w) as (_ & _ & P); [apply elem_of_list_In, (elem_of_list_lookup_2 _ _ _ El)|]. unfold MVStore.bvo. rewrite P. reflexivity.
  - intros who v i p Hin Hp. destruct (W who v Hin) as (Eg & N & _). pose proof (M (LPos who) N) as [[V _] _]. cbn [gof gPos] in V. unfold posl, get_voter in V. rewrite Eg in V. exact (V i p Hp).
  - intros addr m Hin. pose proof (om_In_get _ _ _ (t_nodup _ _ _ _ _ _ a2) Hin) as Eg. pose proof (all_get _ _ _ _ (t_all _ _ _ _ _ _ a2) Eg) as (_ & N & _).
    pose proof (M (LTal addr) N) as T. cbn [Q gof gTal] in T. rewrite Eg in T. first [exact (t_stored _ _ _ _ _ _ _ _ T)|exact (t_stored _ _ _ _ _ _ _ _ (proj1 T))].
  - intros who v addr h Hin Hu. destruct (W who v Hin) as (Eg & N & P). unfold uget in Hu. rewrite P in Hu. pose proof (M (LVp who) N) as T. cbn [Q gof gVp] in T.
    destruct (rc_entry _ _ _ _ _ _ _ _ _ T Hu) as [En [N2 _]]. split; [exact En|]. intros obj n Hn. pose proof (M (LVv (h_pref h)) N2) as T2. cbn [Q gof gVv] in T2. exact (proj1 (rc_entry _ _ _ _ _ _ _ _ _ T2 Hn)).
Qed.

(** ** The votes of a voter *)
Lemma rc_stored {V} (ev : V -> string) Pk P st p ce n (l : list (string * V)) : RC ev Pk P st p ce -> crep ce n l -> stored st p (map (fun e => (enc_str e.1, ev e.2)) l).
Proof.
  intros [(R1 & R2 & R3) Ix _ _] [_ C] i k v L. rewrite list_lookup_fmap in L. destruct (l !! i) as [[k' v']|] eqn:El; [|discriminate]. injection L as <- <-. cbn [fst snd].
  destruct (C _ _ _ El) as (Ck & Cv & Ci). pose proof (Ix _ _ Ci) as Sm.
  pose proof (R1 (enc_str k')) as A. unfold rawc in A. cbn [ce_idx] in A. rewrite km_get, Ci in A.
  pose proof (R2 i Sm) as B. cbn [rawc ce_keys] in B. rewrite lookup_fmap, Ck in B. pose proof (R3 i Sm) as D. cbn [rawc ce_vals] in D. rewrite lookup_fmap, Cv in D.
  unfold vec_key, vals_pref, keys_pref in B, D. rewrite sapp_assoc in B, D. split; [exact A|]. split; [exact B|exact D].
Qed.
Lemma crep_cget {V} (ce : cell V) n l k v : crep ce n l -> In (k, v) l -> cget ce n k = Ok (Some v).
Proof.
  intros [-> C] Hin. apply elem_of_list_In, elem_of_list_lookup in Hin as (i & L). destruct (C _ _ _ L) as (_ & Cv & Ci). unfold cget. rewrite Ci. unfold vec_get.
  pose proof (lookup_lt_Some _ _ _ L) as Lt. apply Nat.ltb_lt in Lt. rewrite Lt. cbn [mbind res_bind]. rewrite Cv. reflexivity.
Qed.
Lemma c100_ballots H a tr s0 st0 : usual_init a -> usual_calls H tr -> MVSpec.collision_free tr -> mv_new a = Ok s0 -> xb_new ∅ a = Ok st0 ->
  let s := run s0 tr in let st := xb_run H (i_self a) st0 tr in
  forall who v, In (who, v) (voters s) ->
  exists L : list (string * list (string * N)), length L = h_len (v_vp v) /\
    stored st (ballot_of H who) (map (fun e => (enc_str e.1, map_bytes (objects_of H (who +:+ "-" +:+ e.1)) (length e.2))) L) /\
    forall addr m, In (addr, m) L ->
      stored st (objects_of H (who +:+ "-" +:+ addr)) (map (fun e => (enc_str e.1, enc_uint 16 e.2)) m) /\
      forall obj n, In (obj, n) m -> get_votes_for_object s who addr obj = Ok n.
Proof.
  intros U C CF E E2. destruct (c100_rep H a tr s0 U C E) as (st1 & E3 & (R & M & _) & _). rewrite E2 in E3. injection E3 as <-. cbv zeta. intros who v Hin.
  pose proof (M LVoters I) as [a1 _]. cbn [Q gof gVoters] in a1. pose proof (om_In_get _ _ _ (t_nodup _ _ _ _ _ _ a1) Hin) as Eg. pose proof (all_get _ _ _ _ (t_all _ _ _ _ _ _ a1) Eg) as (_ & N & _ & _ & _ & _ & P).
  pose proof (MVInv.inv_run a s0 tr E CF) as J. destruct (MVInv.i_v _ _ _ J _ _ Eg) as (L & [_ Ro Ri] & _). unfold urep in Ro. rewrite P in Ro.
  pose proof (M (LVp who) N) as T. cbn [Q gof gVp] in T. exists (map (fun e => (e.1, e.2.2)) L).
  assert (IL : forall addr h m, In (addr, (h, m)) L -> h_pref h = who +:+ "-" +:+ addr /\ h_len h = length m /\ urep (hp_vv (run s0 tr)) h m /\ In (addr, h) (outer L)).
  { intros addr h m Hl. apply elem_of_list_In, elem_of_list_lookup in Hl as (i & Hl). destruct (Ri _ _ _ _ Hl) as [Pf Ru]. split; [exact Pf|]. split; [exact (proj1 Ru)|]. split; [exact Ru|].
    apply elem_of_list_In, elem_of_list_lookup. exists i. unfold outer. rewrite list_lookup_fmap, Hl. reflexivity. }
  split; [|split].
  - destruct Ro as [-> _]. unfold outer. rewrite map_length, fmap_length. reflexivity.
  - pose proof (rc_stored _ _ _ _ _ _ _ _ T Ro) as S1. intros i k w Lk. apply (S1 i k w). rewrite <- Lk. unfold outer. rewrite !list_lookup_fmap. destruct (L !! i) as [[addr [h m]]|] eqn:El; [|reflexivity].
    cbn [fmap option_fmap option_map fst snd]. destruct (IL addr h m) as (Pf & Ln & _); [apply elem_of_list_In, (elem_of_list_lookup_2 _ _ _ El)|]. unfold MVStore.tbh. rewrite Pf, Ln. reflexivity.
  - intros addr m Hl. apply in_map_iff in Hl as ((addr' & h & m') & Eq & Hl). cbn [fst snd] in Eq. injection Eq as -> ->. destruct (IL _ _ _ Hl) as (Pf & Ln & Ru & Ho).
    pose proof (crep_cget _ _ _ _ _ Ro Ho) as G. destruct (rc_entry _ _ _ _ _ _ _ _ _ T G) as [_ [N2 _]].
    pose proof (M (LVv (h_pref h)) N2) as T2. cbn [Q gof gVv] in T2. split.
    + rewrite <- Pf. exact (rc_stored _ _ _ _ _ _ _ _ T2 Ru).
    + intros obj n Hn. unfold get_votes_for_object, get_voter. rewrite Eg. cbn [default from_option id]. unfold uget. rewrite P, G. cbn [mbind res_bind].
      rewrite (crep_cget _ _ _ _ _ Ru Hn). reflexivity.
Qed.

(** ** A sign that calls are [usual_calls] *)
Definition apart_names (H : string -> string) (l : list string) : bool := forallb (fun x => forallb (fun y => negb (String.eqb (H x) (H y)) || String.eqb x y) l) l.
Definition brief (s : string) : bool := (N.of_nat (String.length s) <? 2 ^ 32)%N.
Lemma usual_calls_if H tr : (forall x, String.length (H x) = 32%nat) -> Forall sized_call tr -> forallb (fun y => forallb brief (texts y)) tr = true -> (N.of_nat (adds tr) <? 2 ^ 32)%N = true ->
  apart_names H (flat_map named tr) = true -> usual_calls H tr.
Proof.
  intros H32 Sz T A N. split; [exact Sz|]. split; [|split; [apply N.ltb_lt; exact A|split; [exact H32|]]].
  - rewrite forallb_forall in T. apply Forall_forall. intros y Hy. apply elem_of_list_In in Hy. specialize (T y Hy). rewrite forallb_forall in T. apply Forall_forall. intros x Hx.
    apply elem_of_list_In in Hx. specialize (T x Hx). apply N.ltb_lt in T. exact T.
  - assert (K : forall x, hashed_in tr x -> In x (flat_map named tr)) by (intros x (y & Hy & Hx); apply in_flat_map; eauto).
    intros x y Hx Hy E. unfold apart_names in N. rewrite forallb_forall in N. specialize (N _ (K _ Hx)). rewrite forallb_forall in N. specialize (N _ (K _ Hy)).
    rewrite E, String.eqb_refl in N. cbn [negb orb] in N. apply String.eqb_eq. exact N.
Qed.

(** ** [new] once, and what the bytes determine *)
Lemma c100_once H a tr s0 st0 a' : usual_init a -> usual_calls H tr -> mv_new a = Ok s0 -> xb_new ∅ a = Ok st0 -> exists e, xb_new (xb_run H (i_self a) st0 tr) a' = Panic e.
Proof.
  intros U C E E2. destruct (c100_rep H a tr s0 U C E) as (st1 & E3 & (R & _) & _). rewrite E2 in E3. injection E3 as <-. unfold xb_new. rewrite R.
  rewrite bool_decide_true by eauto. cbn [negb require mbind res_bind]. eauto.
Qed.
Lemma c100_before H self c o : exists e, xb_call H self ∅ c o = Panic e.
Proof. unfold xb_call, xb_load. rewrite lookup_empty. cbn [expect mbind res_bind]. eauto. Qed.
Lemma mv_gives_app s tr more : mv_gives s (tr ++ more) = mv_gives s tr ++ mv_gives (run s tr) more.
Proof. revert s. induction tr as [|x tr IH]; intros s; [reflexivity|]. cbn [List.app mv_gives]. rewrite IH. reflexivity. Qed.
Lemma xb_gives_app H self st tr more : xb_gives H self st (tr ++ more) = xb_gives H self st tr ++ xb_gives H self (xb_run H self st tr) more.
Proof. revert st. induction tr as [|x tr IH]; intros st; [reflexivity|]. cbn [List.app xb_gives]. rewrite IH. reflexivity. Qed.
Lemma adds_app tr more : adds (tr ++ more) = (adds tr + adds more)%nat.
Proof. induction tr as [|x tr IH]; [reflexivity|]. cbn [List.app adds fold_right]. fold (adds (tr ++ more)). rewrite IH. unfold adds. lia. Qed.
Lemma usual_prefix H tr more : usual_calls H (tr ++ more) -> usual_calls H tr.
Proof.
  intros (A & B & C & D & E). apply Forall_app in A as [A _]. apply Forall_app in B as [B _]. split; [exact A|]. split; [exact B|]. rewrite adds_app in C. split; [|split; [exact D|]].
  - apply (cap_le (adds tr) (adds tr + adds more)%nat C). lia.
  - intros x y (u & Hu & Hx) (v & Hv & Hy). apply E; [exists u|exists v]; (split; [apply in_or_app; left|]; assumption).
Qed.
Lemma gives_later H a tr more s0 st0 : usual_init a -> usual_calls H (tr ++ more) -> mv_new a = Ok s0 -> xb_new ∅ a = Ok st0 ->
  mv_gives (run s0 tr) more = xb_gives H (i_self a) (xb_run H (i_self a) st0 tr) more.
Proof.
  intros U C E E2. pose proof (c100_calls H a (tr ++ more) s0 st0 U C E E2) as X. rewrite xb_gives_app, mv_gives_app in X.
  rewrite (c100_calls H a tr s0 st0 U (usual_prefix _ _ _ C) E E2) in X. apply app_inv_head in X. symmetry. exact X.
Qed.
Lemma c100_future H a a' tr tr' more s0 s0' st0 st0' : usual_init a -> usual_init a' -> i_self a = i_self a' -> usual_calls H (tr ++ more) -> usual_calls H (tr' ++ more) ->
  mv_new a = Ok s0 -> xb_new ∅ a = Ok st0 -> mv_new a' = Ok s0' -> xb_new ∅ a' = Ok st0' ->
  xb_run H (i_self a) st0 tr = xb_run H (i_self a') st0' tr' -> mv_gives (run s0 tr) more = mv_gives (run s0' tr') more.
Proof.
  intros U U' Es C C' E1 E2 E3 E4 Eb. rewrite (gives_later H a tr more s0 st0 U C E1 E2), (gives_later H a' tr' more s0' st0' U' C' E3 E4), Eb, Es. reflexivity.
Qed.
