(** MVSim.v -- for C100: the methods of the voting contract, on the bytes of the storage and on the state of MetaVote.v. *)

From Verif Require Export MVRep MVSized.
From Verif Require Import FlatProofs MigrateProofs WireProofs EntryProofs AskProofs KVBytesProofs MpipSized.
Import MetaVote MVSized FlatProofs BoardBytes BoardStore BoardSim MVBytes MVCells MVStore MVRep KVBytesProofs.

Lemma sim_bind {A B C D} (R : A -> B -> Prop) (R' : C -> D -> Prop) (x : res A) (y : res B) (f : A -> res C) (g : B -> res D) :
  sim R x y -> (forall a b, x = Ok a -> R a b -> sim R' (f a) (g b)) -> sim R' (x ≫= f) (y ≫= g).
Proof. destruct x as [a|e]; cbn [sim]; intros Hx Hf; [destruct Hx as (b & -> & Hr); exact (Hf a b eq_refl Hr)|destruct Hx as (e' & ->); cbn; eauto]. Qed.
Lemma sim_req {A B} (R : A -> B -> Prop) b e e' (f : unit -> res A) (g : unit -> res B) : (b = true -> sim R (f tt) (g tt)) -> sim R (require b e ≫= f) (require b e' ≫= g).
Proof. destruct b; cbn; [auto|eauto]. Qed.
Lemma sim_imp {A B} (R R' : A -> B -> Prop) x y : sim R x y -> (forall a b, x = Ok a -> R a b -> R' a b) -> sim R' x y.
Proof. destruct x as [a|e]; cbn [sim]; [|auto]. intros (b & -> & Hr) F. exists b. split; [reflexivity|]. exact (F a b eq_refl Hr). Qed.
Lemma sim_foldM {A B X} (R : nat -> A -> B -> Prop) (f : A -> X -> res A) (g : B -> X -> res B) (k N : nat) (G : X -> Prop) :
  (forall n a b x, (n + k <= N)%nat -> G x -> R n a b -> sim (R (n + k)%nat) (f a x) (g b x)) ->
  forall l n a b, Forall G l -> (n + k * length l <= N)%nat -> R n a b -> sim (R (n + k * length l)%nat) (foldM f l a) (foldM g l b).
Proof.
  intros Hf l. induction l as [|x l IH]; intros n a b Gl Le Hr; cbn [foldM length].
  - cbn [sim]. exists b. split; [reflexivity|]. replace (n + k * 0)%nat with n by lia. exact Hr.
  - cbn [length] in Le. inversion Gl; subst. eapply sim_bind; [apply (Hf n); [nia|assumption|exact Hr]|]. intros a' b' _ Hr'. replace (n + k * S (length l))%nat with ((n + k) + k * length l)%nat by nia. apply IH; [assumption|nia|exact Hr'].
Qed.
Lemma add128_fits a b x : add128 a b = Ok x -> fits128 x.
Proof. unfold add128. destruct (N.ltb_spec (a + b) U128_SIZE); [|discriminate]. intros [= <-]. assumption. Qed.
Lemma sub128_fits a b x : sub128 a b = Ok x -> fits128 a -> fits128 x.
Proof. unfold sub128. destruct (b <=? a); [|discriminate]. intros [= <-] L. unfold fits128 in *. lia. Qed.
Lemma mul128_fits a b x : mul128 a b = Ok x -> fits128 x.
Proof. unfold mul128. destruct (N.ltb_spec (a * b) U128_SIZE); [|discriminate]. intros [= <-]. assumption. Qed.

(** ** The root struct *)
Definition mroot (s : state) : newroot :=
  mkNewRoot (owner_id s) (operator_id s) (hd (sk0 2) (length (voters s))) (hd (sk0 3) (length (votes s))) (min_unbond s) (max_unbond s) (min_deposit s)
    (max_lps s) (max_vps s) (mpdao_addr s) (total_vp s) (hd (sk0 6) (length (claim_mp s))) (accum_mp s) (uncl_mp s) (stnear_addr s)
    (hd (sk0 7) (length (claim_st s))) (accum_st s) (uncl_st s) (reg_cost s) (hd (sk0 8) (length (user_data s))) (prev_gov s)
    (hd (sk0 9) (length (evm_delegates s))) (sk0 11) (sk0 10) (lock_end s) (lock_addr s) (lock_id s).
Definition gof (L : string -> list lpos) (s : state) : gv :=
  mkG (voters s) (votes s) (claim_mp s) (claim_st s) (user_data s) (evm_delegates s) (evm_sigs s) (evm_pre s) L (cell_at (hp_vp s)) (cell_at (hp_vv s))
    (fun a => default [] (om_get (votes s) a)).
Definition posl (s : state) (j : string) : list lpos := v_lps (get_voter s j).

Section Sim.
Variables (H : string -> string) (NM : string -> Prop).
Hypothesis H32 : hash32 H.
Hypothesis Hinj : forall x y, NM x -> NM y -> H x = H y -> x = y.
Notation Inv := (Inv H NM). Notation bvo := (bvo H). Notation tbt := (tbt H). Notation tbh := (tbh H). Notation WV := (WV NM). Notation WT := (WT NM). Notation VP := (VP NM).

Lemma inv_ext n st a b c d e f g h L L' P P' V V' T T' :
  Inv n st (mkG a b c d e f g h L P V T) -> (forall x, L x = L' x) -> (forall x, P x = P' x) -> (forall x, V x = V' x) -> (forall x, T x = T' x) -> Inv n st (mkG a b c d e f g h L' P' V' T').
Proof using. intros I E1 E2 E3 E4 l Hl. specialize (I l Hl). destruct l; try exact I; cbn [Q gPos gVp gVv gTal] in *; rewrite <- ?E1, <- ?E2, <- ?E3, <- ?E4; exact I. Qed.

Definition RX (n : nat) (L : string -> list lpos) (s : state) (x : bx) : Prop := xr x = mroot s /\ Inv n (xst x) (gof L s).
Lemma rx_ext n L L' s x : RX n L s x -> (forall j, L j = L' j) -> RX n L' s x.
Proof using. intros [A B] E. split; [exact A|]. eapply inv_ext; [exact B|exact E|reflexivity..]. Qed.
Lemma rx_mono n m L s x : RX n L s x -> (n <= m)%nat -> RX m L s x.
Proof using. intros [A B] E. split; [exact A|]. exact (inv_mono H NM _ _ _ _ E B). Qed.
Definition After (n : nat) (s : state) (x : bx) : Prop := RX n (posl s) s x.
Definition Hold (n : nat) (id : string) (s : state) (v : voter) (x : bx) : Prop := WV n id v /\ RX n (upd (posl s) id (v_lps v)) s x.
Definition Pr (n : nat) (id : string) (a : state * voter) (b : bx * bvoter) : Prop := b.2 = bvo id a.2 /\ Hold n id a.1 a.2 b.1.
Lemma WV_mono n m id v : WV n id v -> (n <= m)%nat -> WV m id v.
Proof using. intros (A & B & C & D & E & F & G) L. repeat split; try assumption; lia. Qed.
Lemma hold_mono n m id s v x : Hold n id s v x -> (n <= m)%nat -> Hold m id s v x.
Proof using. intros [A B] L. split; [exact (WV_mono _ _ _ _ A L)|exact (rx_mono _ _ _ _ _ B L)]. Qed.

(** *** voters *)
Lemma upd_self (f : string -> list lpos) k j : f j = upd f k (f k) j.
Proof using. unfold upd. destruct (decide (j = k)) as [->|]; reflexivity. Qed.
Lemma h_new n s x id : After n s x -> str_fits id -> NM id -> om_get (voters s) id = None -> Hold n id s (new_voter id) x.
Proof using.
  intros R L N E. split.
  - repeat split; try assumption; cbn; try lia; reflexivity.
  - eapply rx_ext; [exact R|]. intros j. replace (v_lps (new_voter id)) with (posl s id); [apply upd_self|]. unfold posl, get_voter. rewrite E. reflexivity.
Qed.
Lemma h_some n s x id v : After n s x -> om_get (voters s) id = Some v -> Hold n id s v x.
Proof using.
  intros R E. split.
  - pose proof (t_all _ _ _ _ _ _ (proj1 (proj2 R LVoters Logic.I))) as F. exact (all_get _ _ _ _ F E).
  - eapply rx_ext; [exact R|]. intros j. replace (v_lps v) with (posl s id); [apply upd_self|]. unfold posl, get_voter. rewrite E. reflexivity.
Qed.
Lemma h_get n s x id : After n s x -> cap n -> str_fits id -> NM id -> xb_get H x id = Ok (bvo id (get_voter s id)) /\ Hold n id s (get_voter s id) x.
Proof using H32.
  intros R bn L N. pose proof (rget_voters H NM H32 n (xst x) _ id (proj2 R) bn L) as G. unfold xb_get, xb_find. rewrite (proj1 R). cbn [mroot n_voters]. cbn [gof gVoters] in G. rewrite G. cbn [mbind res_bind].
  unfold get_voter. destruct (om_get (voters s) id) as [v|] eqn:E; cbn [default fmap option_fmap option_map]; (split; [reflexivity|]).
  - exact (h_some _ _ _ _ _ R E).
  - exact (h_new _ _ _ _ R L N E).
Qed.
Lemma h_voter n s x id : After n s x -> cap n -> str_fits id -> sim (fun v w => w = bvo id v /\ Hold n id s v x) (get_voter_or_panic s id) (xb_voter x id).
Proof using H32.
  intros R bn L. pose proof (rget_voters H NM H32 n (xst x) _ id (proj2 R) bn L) as G. unfold get_voter_or_panic, xb_voter, xb_find. rewrite (proj1 R). cbn [mroot n_voters]. cbn [gof gVoters] in G. rewrite G. cbn [mbind res_bind].
  destruct (om_get (voters s) id) as [v|] eqn:E; cbn [expect fmap option_fmap option_map sim]; [|eauto]. eexists. split; [reflexivity|]. split; [reflexivity|]. exact (h_some _ _ _ _ _ R E).
Qed.
Lemma posl_save s id v j : upd (posl s) id (v_lps v) j = posl (save_voter s id v) j.
Proof using.
  unfold posl, get_voter, save_voter. cbn [voters set]. destruct (decide (j = id)) as [->|N]; [rewrite upd_eq, om_get_set_eq; reflexivity|]. rewrite upd_ne by exact N. rewrite om_get_set_ne by congruence. reflexivity.
Qed.
Lemma h_save n s x id v : Hold n id s v x -> cap (S n) -> exists x', xb_save x id (bvo id v) = Ok x' /\ After (S n) (save_voter s id v) x'.
Proof using H32 Hinj.
  intros [W [A B]] bn. destruct x as [st r]. cbn [xst xr] in *. subst r.
  destruct (rput_voters H NM H32 Hinj n st _ id v B bn) as (st' & E & I'); [exact (WV_mono _ _ _ _ W (Nat.le_succ_diag_r n))|]. cbn [gof gVoters] in E.
  unfold xb_save. cbn [xst xr mroot n_voters]. rewrite E. cbn [mbind res_bind]. eexists. split; [reflexivity|]. split; [reflexivity|]. cbn [xst].
  eapply inv_ext; [exact I'|..]; [exact (posl_save s id v)|reflexivity..].
Qed.
Lemma s_save n s x id v m : Hold n id s v x -> cap m -> (S n <= m)%nat -> sim (After m) (Ok (save_voter s id v)) (xb_save x id (bvo id v)).
Proof using H32 Hinj. intros Hh bm L. destruct (h_save n s x id v Hh) as (x' & E & A); [exact (cap_le _ _ bm L)|]. cbn [sim]. exists x'. split; [exact E|]. exact (rx_mono _ _ _ _ _ A L). Qed.
Lemma posl_drop s id v j : v_lps v = [] -> NoDup (voters s).*1 -> upd (posl s) id (v_lps v) j = posl (s <| voters := om_remove (voters s) id |>) j.
Proof using.
  intros E Nd. unfold posl, get_voter. cbn [voters set]. destruct (decide (j = id)) as [->|N]; [rewrite upd_eq, om_get_remove_eq by exact Nd; exact E|]. rewrite upd_ne by exact N. rewrite om_get_remove_ne by congruence. reflexivity.
Qed.
Lemma h_drop n s x id v : Hold n id s v x -> cap n -> v_lps v = [] -> exists x', xb_drop x id = Ok x' /\ After n (s <| voters := om_remove (voters s) id |>) x'.
Proof using H32 Hinj.
  intros [W [A B]] bn Ev. destruct x as [st r]. cbn [xst xr] in *. subst r. pose proof (t_nodup _ _ _ _ _ _ (proj1 (B LVoters Logic.I))) as Nd.
  destruct (rdel_voters H NM H32 Hinj n st _ id B bn (kv_ NM n id v W)) as (st' & E & I'). cbn [gof gVoters] in E.
  unfold xb_drop. cbn [xst xr mroot n_voters]. rewrite E. cbn [mbind res_bind]. eexists. split; [reflexivity|]. split; [reflexivity|]. cbn [xst].
  eapply inv_ext; [exact I'|..]; [|reflexivity..]. intros j. apply posl_drop; [exact Ev|exact Nd].
Qed.
(** a voter in memory whose positions are unchanged *)
Lemma h_field n id s v v' x : Hold n id s v x -> v_lps v' = v_lps v -> v_vp v' = v_vp v -> fits128 (v_bal v') -> fits128 (v_avail v') -> Hold n id s v' x.
Proof using. intros [(A & B & C & D & E & F & G) R] E1 E2 L1 L2. split; [|rewrite E1; exact R]. repeat split; try assumption; rewrite ?E1, ?E2; assumption. Qed.
Lemma h_total n id s v x t : Hold n id s v x -> Hold n id (s <| total_vp := t |>) v (with_total x t).
Proof using. intros [W [A B]]. split; [exact W|]. destruct x as [st r]. cbn [xst xr] in *. subst r. split; [reflexivity|exact B]. Qed.
Lemma h_pos_of n id s v x : Hold n id s v x -> VRep (xst x) (sk1 H 0 id) (v_lps v) /\ (length (v_lps v) <= n)%nat /\ NM id.
Proof using. intros [W [A B]]. destruct W as (_ & N & _). pose proof (B (LPos id) N) as Hq. cbn [Q gof gPos] in Hq. rewrite upd_eq in Hq. destruct Hq. auto. Qed.
Lemma h_at n id s v x i p : Hold n id s v x -> v_lps v !! i = Some p -> okpos p.
Proof using. intros Hh E. destruct (h_pos_of _ _ _ _ _ Hh) as ([_ F] & _). exact (Forall_lookup_1 _ _ _ _ F E). Qed.
Lemma h_pos n id s v x i : Hold n id s v x -> xb_pos x (bvo id v) i = get_position v i.
Proof using. intros Hh. destruct (h_pos_of _ _ _ _ _ Hh) as (V & _). unfold xb_pos. cbn [MVStore.bvo w_lps]. rewrite (v_get _ _ _ _ V). reflexivity. Qed.
Lemma h_find n id s v x d : Hold n id s v x -> xb_find_locked x (bvo id v) d = Ok (find_locked_position v d).
Proof using. intros Hh. destruct (h_pos_of _ _ _ _ _ Hh) as (V & _). unfold xb_find_locked. cbn [MVStore.bvo w_lps]. rewrite (v_all _ _ _ V). reflexivity. Qed.
Lemma h_idx n id s v x now : Hold n id s v x -> xb_unlocked_indexes now x (bvo id v) = Ok (unlocked_indexes now (v_lps v)).
Proof using. intros Hh. destruct (h_pos_of _ _ _ _ _ Hh) as (V & _). unfold xb_unlocked_indexes. cbn [MVStore.bvo w_lps]. rewrite (v_all _ _ _ V). reflexivity. Qed.
Lemma upd2 (f : string -> list lpos) k a b j : upd (upd f k a) k b j = upd f k b j.
Proof using. unfold upd. destruct (decide (j = k)); reflexivity. Qed.
Lemma h_set n m id s v x l st' : Hold n id s v x -> (n <= m)%nat -> (length l <= m)%nat -> VRep st' (sk1 H 0 id) l -> frame (xst x) st' (sk1 H 0 id) -> Hold m id s (v <| v_lps := l |>) (mkX st' (xr x)).
Proof using H32 Hinj.
  intros [W [A B]] Le Ll V f. pose proof W as (_ & N & _). split.
  - destruct W as (? & ? & ? & ? & ? & ? & ?). repeat split; try assumption; cbn [v_lps v_vp set]; try assumption; cbn; lia.
  - split; [exact A|]. cbn [xst]. pose proof (set_pos H NM H32 Hinj n m _ st' _ id l B N Le Ll V f) as I'. eapply inv_ext; [exact I'|..]; [|reflexivity..]. intros j. apply upd2.
Qed.
Lemma h_replace n id s v x i p q : Hold n id s v x -> cap n -> v_lps v !! i = Some q -> okpos p -> exists x', xb_replace_pos x (bvo id v) i p = Ok x' /\ Hold n id s (replace_position v i p) x' /\ xr x' = xr x.
Proof using H32 Hinj.
  intros Hh bn E Lp. destruct (h_pos_of _ _ _ _ _ Hh) as (V & Ll & N). destruct (v_replace _ _ _ i p V (cap_small _ _ bn Ll) Lp) as (st' & E' & V' & f); [exact (lookup_lt_Some _ _ _ E)|].
  unfold xb_replace_pos. cbn [MVStore.bvo w_lps]. rewrite E'. cbn [mbind res_bind]. eexists. split; [reflexivity|]. split; [|reflexivity]. apply (h_set n n id s v x _ st' Hh); [lia|rewrite insert_length; exact Ll|exact V'|exact f].
Qed.
Lemma h_push n id s v x p : Hold n id s v x -> cap (S n) -> okpos p ->
  exists x', xb_push_pos x (bvo id v) p = Ok (x', bvo id (v <| v_lps := v_lps v ++ [p] |>)) /\ Hold (S n) id s (v <| v_lps := v_lps v ++ [p] |>) x' /\ xr x' = xr x.
Proof using H32 Hinj.
  intros Hh bn Lp. destruct (h_pos_of _ _ _ _ _ Hh) as (V & Ll & N). destruct (v_push _ _ _ p V (cap_small (S n) (S (length (v_lps v))) bn (le_n_S _ _ Ll)) Lp) as (st' & E' & V' & f).
  unfold xb_push_pos. cbn [MVStore.bvo w_lps]. rewrite E'. cbn [mbind res_bind]. eexists. split; [reflexivity|]. split; [|reflexivity]. apply (h_set n (S n) id s v x _ st' Hh); [lia|rewrite app_length; cbn; lia|exact V'|exact f].
Qed.
Lemma h_remove n id s v x i : Hold n id s v x -> cap n ->
  sim (fun v' b => b.2 = bvo id v' /\ Hold n id s v' b.1 /\ xr b.1 = xr x) (remove_position v i) (xb_remove_pos x (bvo id v) i).
Proof using H32 Hinj.
  intros Hh bn. destruct (h_pos_of _ _ _ _ _ Hh) as (V & Ll & N). unfold remove_position, xb_remove_pos. cbn [MVStore.bvo w_lps]. destruct (Nat.ltb_spec i (length (v_lps v))) as [Li|Li]; cbn [require mbind res_bind sim].
  - destruct (v_swap _ _ _ i V (cap_small _ _ bn Ll) Li) as (st' & E' & V' & f). rewrite E'. cbn [mbind res_bind]. eexists. split; [reflexivity|]. split; [reflexivity|]. split; [|reflexivity].
    apply (h_set n n id s v x _ st' Hh); [lia| |exact V'|exact f]. rewrite swap_remove_length by exact Li. lia.
  - destruct (v_swap_out (xst x) (sk1 H 0 id) _ i Li) as (e & ->). cbn. eauto.
Qed.
End Sim.
