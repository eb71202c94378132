(** MVBallots.v -- for C100: ballots and tallies, on the bytes of the storage and on the state of MetaVote.v. *)

From Verif Require Export MVPositions.
From Verif Require Import FlatProofs MigrateProofs WireProofs EntryProofs AskProofs KVBytesProofs MpipSized.
Import MetaVote MVSized FlatProofs BoardBytes BoardStore BoardSim MVBytes MVCells MVStore MVRep MVSim MVPositions KVBytesProofs.

Notation upd := BoardStore.upd.
Section Votes.
Variables (H : string -> string) (NM : string -> Prop).
Hypothesis H32 : hash32 H.
Hypothesis Hinj : forall x y, NM x -> NM y -> H x = H y -> x = y.
Notation Inv := (MVStore.Inv H NM). Notation bvo := (bvo H). Notation tbt := (tbt H). Notation tbh := (tbh H). Notation WV := (WV NM). Notation WT := (WT NM). Notation VP := (VP NM).
Notation RX := (RX H NM). Notation After := (After H NM). Notation Hold := (Hold H NM). Notation Pr := (Pr H NM).

Lemma len_same {V} (m : omap_t string V) k v v' : om_get m k = Some v -> length (om_set m k v') = length m.
Proof using. induction m as [|[k2 v2] m IH]; cbn [om_set om_get length]; [discriminate|]. destruct (decide (k = k2)); [reflexivity|]. intros E. cbn [length]. rewrite (IH E). reflexivity. Qed.
Lemma tally_is n L s x addr : RX n L s x -> cap n -> str_fits addr -> xb_tally H x addr = Ok (tbt addr (default [] (om_get (votes s) addr))).
Proof using H32.
  intros [E I0] cn La. unfold xb_tally. rewrite E. cbn [mroot n_votes]. pose proof (rget_votes H NM H32 n _ _ addr I0 cn La) as G. cbn [gof gVotes] in G. rewrite G. cbn [mbind res_bind]. destruct (om_get (votes s) addr); reflexivity.
Qed.
Lemma tal_set s addr m j : upd (fun a => default [] (om_get (votes s) a)) addr m j = default [] (om_get (om_set (votes s) addr m) j).
Proof using. destruct (decide (j = addr)) as [->|N]; [rewrite upd_eq, om_get_set_eq; reflexivity|]. rewrite upd_ne by exact N. rewrite om_get_set_ne by congruence. reflexivity. Qed.
Lemma tal_del s addr j : NoDup (votes s).*1 -> upd (fun a => default [] (om_get (votes s) a)) addr [] j = default [] (om_get (om_remove (votes s) addr) j).
Proof using. intros Nd. destruct (decide (j = addr)) as [->|N]; [rewrite upd_eq, om_get_remove_eq by exact Nd; reflexivity|]. rewrite upd_ne by exact N. rewrite om_get_remove_ne by (try exact Nd; congruence). reflexivity. Qed.
Definition Tot (n : nat) (L : string -> list lpos) (s s' : state) (x' : bx) : Prop := RX n L s' x' /\ voters s' = voters s.
Lemma increase_total_sim n L s x vp addr obj : RX n L s x -> cap (S n) -> str_fits addr -> NM addr -> str_fits obj ->
  sim (Tot (S n) L s) (increase_total_votes s vp addr obj) (xb_increase_total H x vp addr obj).
Proof using H32 Hinj.
  intros R cn La Na Lo. unfold increase_total_votes, xb_increase_total. cbv zeta. rewrite (tally_is n L s x addr R (cap_le n (S n) cn (Nat.le_succ_diag_r n)) La). cbn [mbind res_bind]. destruct x as [st r], R as [Er I0]. cbn [xst xr] in *. subst r.
  pose proof (rget_tal H NM _ _ _ addr obj I0 Na Lo) as G. cbn [gof gTal] in G. rewrite G. cbn [mbind res_bind]. same.
  pose proof (proj2 (I0 LVotes Logic.I)) as L1. pose proof (proj2 (I0 (LTal addr) Na)) as L2. cbn [gof gVotes gTal] in L1, L2.
  pose proof (olen_set (default [] (om_get (votes s) addr)) obj u) as O2. pose proof (olen_set (votes s) addr (om_set (default [] (om_get (votes s) addr)) obj u)) as O1.
  destruct (rput_tal H NM H32 Hinj n (S n) st _ addr obj u I0 (Nat.le_succ_diag_r n) cn) as (st1 & E1 & I1); [cbn [gof gTal]; lia|exact Na|exact (conj Lo (add128_fits _ _ _ Eu))|].
  cbn [gof gTal] in E1. rewrite E1. cbn [mbind res_bind].
  destruct (rput_votes H NM H32 Hinj (S n) (S n) st1 _ addr (om_set (default [] (om_get (votes s) addr)) obj u) I1 (le_n _) cn) as (st2 & E2 & I2); [cbn [gof gVotes set]; lia|repeat split; [exact La|exact Na|lia]|].
  cbn [gof gVotes set] in E2. cbn [mroot n_votes]. rewrite E2. cbn [mbind res_bind]. apply sim_ok. split; [|reflexivity]. split; [reflexivity|]. eapply inv_ext; [exact I2|reflexivity..|]. intros j. apply tal_set.
Qed.
Lemma tal_fits n L s x addr obj v : RX n L s x -> NM addr -> om_get (default [] (om_get (votes s) addr)) obj = Some v -> fits128 v.
Proof using. intros R Na E. pose proof (t_all _ _ _ _ _ _ (proj1 (proj2 R (LTal addr) Na))) as F. cbn [gof gTal] in F. exact (proj2 (all_get _ _ _ _ F E)). Qed.
Lemma decrease_total_sim n L s x vp addr obj : RX n L s x -> cap n -> str_fits addr -> NM addr -> str_fits obj ->
  sim (Tot n L s) (decrease_total_votes s vp addr obj) (xb_decrease_total H x vp addr obj).
Proof using H32 Hinj.
  intros R cn La Na Lo. unfold decrease_total_votes, xb_decrease_total. cbv zeta. rewrite (tally_is n L s x addr R cn La). cbn [mbind res_bind]. pose proof (tal_fits n L s x addr obj) as Tf. specialize (fun v => Tf v R Na). destruct x as [st r], R as [Er I0]. cbn [xst xr] in *. subst r.
  pose proof (rget_tal H NM _ _ _ addr obj I0 Na Lo) as G. cbn [gof gTal] in G. rewrite G. cbn [mbind res_bind].
  pose proof (proj2 (I0 LVotes Logic.I)) as L1. pose proof (proj2 (I0 (LTal addr) Na)) as L2. cbn [gof gVotes gTal] in L1, L2. pose proof (t_nodup _ _ _ _ _ _ (proj1 (I0 LVotes Logic.I))) as Nd. cbn [gof gVotes] in Nd.
  destruct (om_get (default [] (om_get (votes s) addr)) obj) as [v|] eqn:Ev; [|cbn; eauto]. cbn [expect mbind res_bind]. same_. same. pose proof (sub128_fits _ _ _ Eu (Tf v eq_refl)) as Lu.
  assert (Hv : exists m0, om_get (votes s) addr = Some m0). { destruct (om_get (votes s) addr) eqn:E; [eauto|discriminate Ev]. } destruct Hv as (m0 & Em0).
  set (m := default [] (om_get (votes s) addr)) in *.
  assert (T : exists st1, (if (u =? 0)%N then u_del dec_u128 st (tbt addr m) (enc_str obj) else u_put dec_u128 st (tbt addr m) (enc_str obj) (enc_uint 16 u)) = Ok (st1, tbt addr (if (u =? 0)%N then om_remove m obj else om_set m obj u))
     /\ Inv n st1 (gof L s <| gTal := upd (gTal (gof L s)) addr (if (u =? 0)%N then om_remove m obj else om_set m obj u) |>) /\ (length (if (u =? 0)%N then om_remove m obj else om_set m obj u) <= n)%nat).
  { destruct (u =? 0)%N.
    - destruct (rdel_tal H NM H32 Hinj n st _ addr obj I0 Na Lo) as (st1 & E1 & I1 & Ll). eauto.
    - pose proof (len_same m obj v u Ev) as O2. destruct (rput_tal H NM H32 Hinj n n st _ addr obj u I0 (le_n _) cn) as (st1 & E1 & I1); [cbn [gof gTal]; fold m; lia|exact Na|exact (conj Lo Lu)|]. exists st1. split; [exact E1|]. split; [exact I1|lia]. }
  destruct T as (st1 & E1 & I1 & Ll). rewrite E1. cbn [mbind res_bind]. set (m' := if (u =? 0)%N then om_remove m obj else om_set m obj u) in *. clearbody m'. change (b_len (tbt addr m')) with (b_len (hd (sk1 H 4 addr) (length m'))). rewrite hd_len. cbn [mbind res_bind mroot n_votes].
  destruct (N.eqb_spec (N.of_nat (length m')) 0) as [Z|Z].
  - destruct m' as [|e m2]; [|cbn [length] in Z; lia]. destruct (rdel_votes H NM H32 Hinj n st1 _ addr I1 cn La) as (st2 & E2 & I2). cbn [gof gVotes set] in E2. rewrite E2. cbn [mbind res_bind]. apply sim_ok. split; [|reflexivity]. split; [reflexivity|].
    eapply inv_ext; [exact I2|reflexivity..|]. intros j. apply tal_del. exact Nd.
  - destruct (rput_votes H NM H32 Hinj n n st1 _ addr m' I1 (le_n _) cn) as (st2 & E2 & I2); [cbn [gof gVotes set]; rewrite (len_same _ _ _ m' Em0); exact L1|repeat split; [exact La|exact Na|exact Ll]|].
    cbn [gof gVotes set] in E2. rewrite E2. cbn [mbind res_bind]. destruct m' as [|e m2]; [cbn [length] in Z; lia|]. apply sim_ok. split; [|reflexivity]. split; [reflexivity|]. eapply inv_ext; [exact I2|reflexivity..|]. intros j. apply tal_set.
Qed.

(** *** ballots *)
Lemma cell_set {V} (hp : heap V) x ce j : upd (cell_at hp) x ce j = cell_at (<[x := ce]> hp) j.
Proof using. unfold cell_at. destruct (decide (j = x)) as [->|N]; [rewrite upd_eq, lookup_insert; reflexivity|]. rewrite upd_ne by exact N. rewrite lookup_insert_ne by congruence. reflexivity. Qed.
Lemma vv_get n L s x h obj : RX n L s x -> cap n -> VP n h ->
  sim (fun o o' => o' = o /\ match o with Some y => fits128 y | None => True end) (uget (hp_vv s) h obj) (u_get dec_u128 (xst x) (tbh h) (enc_str obj)).
Proof using.
  intros [_ I0] cn [Nh Lh]. eapply sim_imp; [exact (rc_get (enc_uint 16) dec_u128 (fun x => x) str_fits fits128 val_x _ _ _ (h_len h) obj (I0 (LVv (h_pref h)) Nh) (cap_small _ _ cn Lh))|]. intros a b _ [-> P]. split; [destruct a; reflexivity|exact P].
Qed.
Lemma vv_put n L s x h obj v : RX n L s x -> cap (S n) -> VP n h -> str_fits obj -> fits128 v ->
  sim (fun a b => b.2 = tbh a.2 /\ VP (S n) a.2 /\ RX n L (s <| hp_vv := a.1 |>) (mkX b.1 (xr x))) (uinsert (hp_vv s) h obj v) (u_put dec_u128 (xst x) (tbh h) (enc_str obj) (enc_uint 16 v)).
Proof using H32 Hinj.
  intros [Er I0] cn [Nh Lh] Lo Lv. pose proof (rc_put (enc_uint 16) dec_u128 (fun x => x) str_fits fits128 val_x _ _ _ (h_len h) obj v (I0 (LVv (h_pref h)) Nh) (cap_small (S n) _ cn (le_n_S _ _ Lh)) Lo Lv) as S0.
  unfold uinsert. change (gVv (gof L s) (h_pref h)) with (cell_at (hp_vv s) (h_pref h)) in S0. destruct (cinsert (cell_at (hp_vv s) (h_pref h)) (h_len h) obj v) as [[ce len]|e]; cbn [sim mbind res_bind fst snd] in *; [|exact S0].
  destruct S0 as ([st' h'] & E & Eh & R & f & Ll). cbn [fst snd] in *. subst h'. eexists. split; [exact E|]. cbn [fst snd]. split; [reflexivity|]. split; [split; [exact Nh|cbn [h_len]; lia]|]. split; [exact Er|]. cbn [xst].
  pose proof (set_vv H NM H32 Hinj n _ st' _ (h_pref h) ce I0 Nh R f) as I1. eapply inv_ext; [exact I1|reflexivity|reflexivity|intros j; apply cell_set|reflexivity].
Qed.
Lemma vv_del n L s x h obj : RX n L s x -> cap n -> VP n h ->
  sim (fun a b => b.2 = tbh a.2 /\ VP n a.2 /\ RX n L (s <| hp_vv := a.1 |>) (mkX b.1 (xr x))) (uremove (hp_vv s) h obj) (u_del dec_u128 (xst x) (tbh h) (enc_str obj)).
Proof using H32 Hinj.
  intros [Er I0] cn [Nh Lh]. pose proof (rc_del (enc_uint 16) dec_u128 (fun x => x) str_fits fits128 val_x _ _ _ (h_len h) obj (I0 (LVv (h_pref h)) Nh) (cap_small n _ cn Lh)) as S0.
  unfold uremove. change (gVv (gof L s) (h_pref h)) with (cell_at (hp_vv s) (h_pref h)) in S0. destruct (cremove (cell_at (hp_vv s) (h_pref h)) (h_len h) obj) as [[ce len]|e]; cbn [sim mbind res_bind fst snd] in *; [|exact S0].
  destruct S0 as ([st' h'] & E & Eh & R & f & Ll). cbn [fst snd] in *. subst h'. eexists. split; [exact E|]. cbn [fst snd]. split; [reflexivity|]. split; [split; [exact Nh|cbn [h_len]; lia]|]. split; [exact Er|]. cbn [xst].
  pose proof (set_vv H NM H32 Hinj n _ st' _ (h_pref h) ce I0 Nh R f) as I1. eapply inv_ext; [exact I1|reflexivity|reflexivity|intros j; apply cell_set|reflexivity].
Qed.
Definition vph (id : string) (h : hmap) : umh := hd (sk1 H 1 (h_pref h)) (h_len h).
Definition okvp (n : nat) (id : string) (h : hmap) : Prop := NM id /\ h_pref h = id /\ (h_len h <= n)%nat.
Lemma hold_vp n id s v x : Hold n id s v x -> okvp n id (v_vp v).
Proof using. intros [(A & B & C & D & E & F & G) _]. repeat split; assumption. Qed.
Lemma vp_get n L s x id h addr : RX n L s x -> cap n -> okvp n id h ->
  sim (fun o o' => o' = tbh <$> o /\ match o with Some y => VP n y | None => True end) (uget (hp_vp s) h addr) (u_get dec_umh (xst x) (vph id h) (enc_str addr)).
Proof using H32.
  intros [_ I0] cn (Ni & Ep & Lh). subst id. exact (rc_get (fun h => enc_umh (tbh h)) dec_umh tbh (KP NM (h_pref h)) (VP n) (val_h H NM H32 n cn) _ _ _ (h_len h) addr (I0 (LVp (h_pref h)) Ni) (cap_small _ _ cn Lh)).
Qed.
Lemma insert_has {V} (hp : heap V) h k v o hp' h' : uget hp h k = Ok (Some o) -> uinsert hp h k v = Ok (hp', h') -> h_len h' = h_len h.
Proof using.
  unfold uget, uinsert, cget, cinsert. destruct (ce_idx (cell_at hp (h_pref h)) !! k) as [i|]; [|discriminate]. intros _. destruct (i <? h_len h)%nat; [|discriminate]. destruct (ce_vals _ !! i); [|discriminate]. intros [= _ <-]. reflexivity.
Qed.
Lemma vp_put n L s x id h addr h1 : RX n L s x -> cap (S n) -> okvp n id h -> KP NM id addr -> VP n h1 ->
  sim (fun a b => b.2 = vph id a.2 /\ okvp (S n) id a.2 /\ RX n L (s <| hp_vp := a.1 |>) (mkX b.1 (xr x))) (uinsert (hp_vp s) h addr h1) (u_put dec_umh (xst x) (vph id h) (enc_str addr) (enc_umh (tbh h1))).
Proof using H32 Hinj.
  intros [Er I0] cn (Ni & Ep & Lh) Lo Lv. subst id.
  pose proof (rc_put (fun h => enc_umh (tbh h)) dec_umh tbh (KP NM (h_pref h)) (VP n) (val_h H NM H32 n (cap_le n (S n) cn (Nat.le_succ_diag_r n))) _ _ _ (h_len h) addr h1 (I0 (LVp (h_pref h)) Ni) (cap_small (S n) _ cn (le_n_S _ _ Lh)) Lo Lv) as S0.
  unfold uinsert. change (gVp (gof L s) (h_pref h)) with (cell_at (hp_vp s) (h_pref h)) in S0. destruct (cinsert (cell_at (hp_vp s) (h_pref h)) (h_len h) addr h1) as [[ce len]|e]; cbn [sim mbind res_bind fst snd] in *; [|exact S0].
  destruct S0 as ([st' h'] & E & Eh & R & f & Ll). cbn [fst snd] in *. subst h'. eexists. split; [exact E|]. cbn [fst snd]. split; [reflexivity|]. split; [repeat split; [exact Ni|cbn [h_len]; lia]|]. split; [exact Er|]. cbn [xst].
  pose proof (set_vp H NM H32 Hinj n _ st' _ (h_pref h) ce I0 Ni R f) as I1. eapply inv_ext; [exact I1|reflexivity|intros j; apply cell_set|reflexivity..].
Qed.
Lemma vp_del n L s x id h addr : RX n L s x -> cap n -> okvp n id h ->
  sim (fun a b => b.2 = vph id a.2 /\ okvp n id a.2 /\ RX n L (s <| hp_vp := a.1 |>) (mkX b.1 (xr x))) (uremove (hp_vp s) h addr) (u_del dec_umh (xst x) (vph id h) (enc_str addr)).
Proof using H32 Hinj.
  intros [Er I0] cn (Ni & Ep & Lh). subst id.
  pose proof (rc_del (fun h => enc_umh (tbh h)) dec_umh tbh (KP NM (h_pref h)) (VP n) (val_h H NM H32 n cn) _ _ _ (h_len h) addr (I0 (LVp (h_pref h)) Ni) (cap_small n _ cn Lh)) as S0.
  unfold uremove. change (gVp (gof L s) (h_pref h)) with (cell_at (hp_vp s) (h_pref h)) in S0. destruct (cremove (cell_at (hp_vp s) (h_pref h)) (h_len h) addr) as [[ce len]|e]; cbn [sim mbind res_bind fst snd] in *; [|exact S0].
  destruct S0 as ([st' h'] & E & Eh & R & f & Ll). cbn [fst snd] in *. subst h'. eexists. split; [exact E|]. cbn [fst snd]. split; [reflexivity|]. split; [repeat split; [exact Ni|cbn [h_len]; lia]|]. split; [exact Er|]. cbn [xst].
  pose proof (set_vp H NM H32 Hinj n _ st' _ (h_pref h) ce I0 Ni R f) as I1. eapply inv_ext; [exact I1|reflexivity|intros j; apply cell_set|reflexivity..].
Qed.
Lemma votes_for_sim n id s v x addr : Hold n id s v x -> cap n -> NM (vkey id addr) ->
  sim (fun h hb => hb = tbh h /\ VP n h) (get_vote_position_for_address s v id addr) (xb_votes_for H x (bvo id v) id addr).
Proof using H32.
  intros Hh cn Nk. unfold get_vote_position_for_address, xb_votes_for. eapply sim_bind; [exact (vp_get n _ s x id (v_vp v) addr (proj2 Hh) cn (hold_vp _ _ _ _ _ Hh))|].
  intros o o' _ [-> P]. destruct o as [h|]; apply sim_ok; cbn [default fmap option_fmap option_map]; [split; [reflexivity|exact P]|]. split; [reflexivity|]. split; [exact Nk|cbn; lia].
Qed.
Lemma back n id s s' v v' x : RX n (upd (posl s) id (v_lps v)) s' x -> voters s' = voters s -> v_lps v' = v_lps v -> okvp n id (v_vp v') -> fits128 (v_bal v') -> fits128 (v_avail v') -> WV n id v -> Hold n id s' v' x.
Proof using.
  intros R Ev El (_ & Ep & Lh) F1 F2 (A & B & C & D & E & F & G). split; [repeat split; try assumption; rewrite El; exact E|]. eapply rx_ext; [exact R|]. intros j. rewrite El. unfold upd, posl, get_voter. rewrite Ev. reflexivity.
Qed.
Lemma add_vote_sim n id s v x vp addr obj : Hold n id s v x -> cap (S (S n)) -> KP NM id addr -> str_fits obj ->
  sim (Pr (S (S n)) id) (internal_create_voting_position s id v vp addr obj) (xb_add_vote H x id (bvo id v) vp addr obj).
Proof using H32 Hinj.
  intros Hh cn Kp Lo. pose proof (cap_le n _ cn ltac:(lia)) as c0. pose proof (cap_le (S n) _ cn ltac:(lia)) as c1. pose proof Kp as (La & Na & Nk).
  unfold internal_create_voting_position, xb_add_vote. same_. change (w_vp (bvo id v)) with (vph id (v_vp v)). change (b_len (vph id (v_vp v))) with (b_len (hd (sk1 H 1 (h_pref (v_vp v))) (h_len (v_vp v)))). rewrite hd_len. cbn [mbind res_bind]. rewrite (hold_root H NM _ _ _ _ _ Hh). same_.
  eapply sim_bind; [exact (votes_for_sim n id s v x addr Hh c0 Nk)|]. intros h hb _ [-> Vh]. eapply sim_bind; [exact (vv_get n _ s x h obj (proj2 Hh) c0 Vh)|]. intros o o' _ [-> Fo]. same. same.
  eapply sim_bind; [exact (vv_put n _ s x h obj u0 (proj2 Hh) c1 Vh Lo (add128_fits _ _ _ Eu0))|]. intros [hpv h'] [st1 hb1] _ (Eb & V1 & R1). cbn [fst snd] in *. subst hb1.
  eapply sim_bind; [exact (vp_put (S n) _ _ _ id (v_vp v) addr h' (rx_mono H NM _ (S n) _ _ _ R1 (Nat.le_succ_diag_r n)) cn (match hold_vp _ _ _ _ _ Hh with conj a (conj b c) => conj a (conj b (le_S _ _ c)) end) Kp V1)|].
  intros [hpp h2] [st2 hb2] E2 (Eb & V2 & R2). cbn [fst snd] in *. subst hb2. rewrite (hold_root H NM _ _ _ _ _ Hh) in R2. cbn [xr] in R2.
  eapply sim_bind; [exact (increase_total_sim (S n) _ _ _ vp addr obj R2 cn La Na Lo)|]. intros s' x' _ [R3 Ev]. apply sim_ok. split; [reflexivity|]. cbn [fst snd].
  apply (back (S (S n)) id s s' v); [exact R3|exact Ev|reflexivity|exact V2|exact (hold_bal H NM _ _ _ _ _ Hh)|exact (sub128_fits _ _ _ Eu (hold_av H NM _ _ _ _ _ Hh))|exact (WV_mono NM _ _ _ _ (proj1 Hh) (le_S _ _ (Nat.le_succ_diag_r n)))].
Qed.
Lemma vote_sim n s x id vp addr obj : After n s x -> cap (S (S (S n))) -> str_fits id -> KP NM id addr -> str_fits obj -> sim (After (S (S (S n)))) (internal_vote s id vp addr obj) (xb_vote H x id vp addr obj).
Proof using H32 Hinj.
  intros A cn L Kp Lo. unfold internal_vote, xb_vote. eapply sim_bind; [apply (h_voter H NM H32 n); [exact A|eapply cap_le; [exact cn|lia]|exact L]|]. intros v w _ [-> Hh].
  eapply sim_bind; [apply (add_vote_sim n); [exact Hh|eapply cap_le; [exact cn|lia]|exact Kp|exact Lo]|]. intros [s1 v1] [x1 w1] _ [E Hh1]. cbn [fst snd] in *. subst w1. apply (s_save H NM H32 Hinj (S (S n))); [exact Hh1|exact cn|lia].
Qed.
Lemma no_get {V} (hp : heap V) k obj x : uget hp (unew k) obj <> Ok (Some x).
Proof using. unfold uget, cget, unew. cbn [h_pref h_len]. destruct (ce_idx _ !! obj); [|discriminate]. unfold vec_get. destruct (Nat.ltb_spec n 0); [lia|]. cbn. discriminate. Qed.
Lemma remove_vote_sim n id s v x addr obj : Hold n id s v x -> cap (S n) -> KP NM id addr -> str_fits obj ->
  sim (Pr n id) (internal_remove_voting_position s id v addr obj) (xb_remove_vote H x id (bvo id v) addr obj).
Proof using H32 Hinj.
  intros Hh cn Kp Lo. pose proof (cap_le n _ cn ltac:(lia)) as c0. pose proof Kp as (La & Na & Nk). unfold internal_remove_voting_position, xb_remove_vote.
  eapply sim_bind; [exact (votes_for_sim n id s v x addr Hh c0 Nk)|]. intros h hb Eh [-> Vh]. eapply sim_bind; [exact (vv_get n _ s x h obj (proj2 Hh) c0 Vh)|]. intros o o' Eo [-> Fo].
  destruct o as [y|]; [|cbn; eauto]. cbn [expect mbind res_bind]. same.
  assert (Hg : exists z, uget (hp_vp s) (v_vp v) addr = Ok (Some z)). { unfold get_vote_position_for_address in Eh. destruct (uget (hp_vp s) (v_vp v) addr) as [[z|]|]; [eauto| |discriminate]. injection Eh as <-. destruct (no_get _ _ _ _ Eo). }
  eapply sim_bind; [exact (vv_del n _ s x h obj (proj2 Hh) c0 Vh)|]. intros [hpv h'] [st1 hb1] _ (Eb & V1 & R1). cbn [fst snd] in *. subst hb1. change (b_len (tbh h')) with (b_len (hd (sk1 H 5 (h_pref h')) (h_len h'))). rewrite hd_len. cbn [mbind res_bind].
  eapply (sim_bind (fun a b => b.2 = vph id a.2 /\ okvp n id a.2 /\ RX n (upd (posl s) id (v_lps v)) (s <| hp_vv := hpv |> <| hp_vp := a.1 |>) (mkX b.1 (xr x)))).
  - replace (N.of_nat (h_len h') =? 0)%N with (h_len h' =? 0)%nat by (destruct (h_len h'); reflexivity). destruct (h_len h' =? 0)%nat.
    + exact (vp_del n _ _ _ id (v_vp v) addr R1 c0 (hold_vp _ _ _ _ _ Hh)).
    + eapply sim_imp; [exact (vp_put n _ _ _ id (v_vp v) addr h' R1 cn (hold_vp _ _ _ _ _ Hh) Kp V1)|]. intros [hp2 h2] b E2 (X & (Y1 & Y2 & Y3) & Z). split; [exact X|]. split; [|exact Z]. split; [exact Y1|]. split; [exact Y2|]. cbn [snd] in *.
      destruct Hg as (z & Ez). cbn [hp_vp set] in E2. rewrite (insert_has _ _ _ _ _ _ _ Ez E2). exact (proj2 (proj2 (hold_vp _ _ _ _ _ Hh))).
  - intros [hpp h2] [st2 hb2] _ (Eb & V2 & R2). cbn [fst snd] in *. subst hb2. eapply sim_bind; [exact (decrease_total_sim n _ _ _ y addr obj R2 c0 La Na Lo)|]. intros s' x' _ [R3 Ev]. apply sim_ok. split; [reflexivity|]. cbn [fst snd].
    apply (back n id s s' v); [exact R3|exact Ev|reflexivity|exact V2|exact (hold_bal H NM _ _ _ _ _ Hh)|exact (add128_fits _ _ _ Eu)|exact (proj1 Hh)].
Qed.
Lemma unvote_sim n c s x id addr obj : After n s x -> cap (S n) -> str_fits id -> KP NM id addr -> str_fits obj -> sim (After (S n)) (internal_unvote c s id addr obj) (xb_unvote H c x id addr obj).
Proof using H32 Hinj.
  intros A cn L Kp Lo. unfold internal_unvote, xb_unvote, votes_locked_in, xb_locked_in. rewrite (after_root H NM _ _ _ A). same_. eapply sim_bind; [apply (h_voter H NM H32 n); [exact A|eapply cap_le; [exact cn|lia]|exact L]|]. intros v w _ [-> Hh].
  eapply sim_bind; [apply (remove_vote_sim n); [exact Hh|exact cn|exact Kp|exact Lo]|]. intros [s1 v1] [x1 w1] _ [E Hh1]. cbn [fst snd] in *. subst w1. apply (s_save H NM H32 Hinj n); [exact Hh1|exact cn|lia].
Qed.
Lemma rebalance_sim n c s x vp addr obj : After n s x -> cap (S (S (S n))) -> str_fits (c_pred c) -> KP NM (c_pred c) addr -> str_fits obj -> sim (After (S (S (S n)))) (rebalance c s vp addr obj) (xb_rebalance H c x vp addr obj).
Proof using H32 Hinj.
  intros A cn L Kp Lo. pose proof (cap_le n _ cn ltac:(lia)) as c0. pose proof (cap_le (S n) _ cn ltac:(lia)) as c1. pose proof (cap_le (S (S n)) _ cn ltac:(lia)) as c2. pose proof Kp as (La & Na & Nk). unfold rebalance, xb_rebalance. cbv zeta. same_.
  eapply sim_bind; [apply (h_voter H NM H32 n); [exact A|exact c0|exact L]|]. intros v w _ [-> Hh].
  eapply sim_bind; [exact (votes_for_sim n _ s v x addr Hh c0 Nk)|]. intros h hb Eh [-> Vh]. eapply sim_bind; [exact (vv_get n _ s x h obj (proj2 Hh) c0 Vh)|]. intros o o' Eo [-> Fo].
  destruct o as [y|]; [|cbn; eauto]. cbn [expect mbind res_bind]. same_. destruct (vp =? 0)%N.
  { eapply sim_imp; [apply (unvote_sim n); assumption|]. intros a b _ R. refine (rx_mono H NM _ _ _ _ _ R _). lia. }
  eapply (sim_bind (fun a b => Tot (S n) (upd (posl s) (c_pred c) (v_lps v)) s a.1.1 b.1.1 /\ a.1.2 = b.1.2 /\ a.2 = b.2 /\ fits128 a.1.2 /\ fits128 a.2)).
  - destruct (y <? vp)%N.
    + same. same_. same. same. eapply sim_bind; [exact (increase_total_sim n _ s x u addr obj (proj2 Hh) c1 La Na Lo)|]. intros s1 x1 _ T. apply sim_ok. cbn [fst snd]. repeat (split; [first [exact T|reflexivity|exact (sub128_fits _ _ _ Eu0 (hold_av H NM _ _ _ _ _ Hh))]|]). exact (add128_fits _ _ _ Eu1).
    + same. same. same. eapply sim_bind; [exact (decrease_total_sim n _ s x u addr obj (proj2 Hh) c0 La Na Lo)|]. intros s1 x1 _ [T1 T2]. apply sim_ok. cbn [fst snd]. split; [split; [exact (rx_mono H NM _ _ _ _ _ T1 (Nat.le_succ_diag_r n))|exact T2]|].
      split; [reflexivity|]. split; [reflexivity|]. split; [exact (add128_fits _ _ _ Eu0)|exact (sub128_fits _ _ _ Eu1 Fo)].
  - intros [[s1 av] y'] [[x1 av'] y''] _ ([R1 Ev] & E1 & E2 & F1 & F2). cbn [fst snd] in *. subst av' y''.
    assert (Vh' : VP (S n) h) by (destruct Vh; split; [assumption|lia]).
    eapply sim_bind; [exact (vv_put (S n) _ s1 x1 h obj y' R1 c2 Vh' Lo F2)|]. intros [hpv h'] [st1 hb1] _ (Eb & V1 & R2). cbn [fst snd] in *. subst hb1.
    eapply sim_bind; [exact (vp_put (S (S n)) _ _ _ (c_pred c) (v_vp v) addr h' (rx_mono H NM _ (S (S n)) _ _ _ R2 (Nat.le_succ_diag_r _)) cn (match hold_vp _ _ _ _ _ Hh with conj a (conj b c) => conj a (conj b (le_S _ _ (le_S _ _ c))) end) Kp V1)|].
    intros [hpp h2] [st2 hb2] E2 (Eb & V2 & R3). cbn [fst snd] in *. subst hb2.
    assert (V2' : okvp (S (S n)) (c_pred c) h2).
    { assert (Hg : exists z, uget (hp_vp s) (v_vp v) addr = Ok (Some z)). { unfold get_vote_position_for_address in Eh. destruct (uget (hp_vp s) (v_vp v) addr) as [[z|]|]; [eauto| |discriminate]. injection Eh as <-. destruct (no_get _ _ _ _ Eo). }
      destruct V2 as (X & Y & Z). split; [exact X|]. split; [exact Y|]. unfold uinsert, cinsert in E2. destruct (ce_idx _ !! addr) as [i|]; cbn [mbind res_bind] in E2.
      - destruct (i <? _)%nat; [|discriminate]. destruct (ce_vals _ !! i); [|discriminate]. injection E2 as _ <-. cbn [h_len]. pose proof (proj2 (proj2 (hold_vp _ _ _ _ _ Hh))). lia.
      - injection E2 as _ <-. cbn [h_len]. pose proof (proj2 (proj2 (hold_vp _ _ _ _ _ Hh))). lia. }
    change (bvo (c_pred c) v <| w_avail := av |> <| w_vp := vph (c_pred c) h2 |>) with (bvo (c_pred c) (v <| v_avail := av |> <| v_vp := h2 |>)).
    apply (s_save H NM H32 Hinj (S (S n)) _ _ _ (v <| v_avail := av |> <| v_vp := h2 |>)); [|exact cn|lia].
    apply (back (S (S n)) (c_pred c) s _ v); [exact R3|exact Ev|reflexivity|exact V2'|exact (hold_bal H NM _ _ _ _ _ Hh)|exact F1|exact (WV_mono NM _ _ _ _ (proj1 Hh) (le_S _ _ (Nat.le_succ_diag_r n)))].
Qed.

(** *** operator_mirror_lps *)
Lemma used_sim n id s v x : Hold n id s v x -> cap n -> sim eq (sum_used_votes s v) (xb_used x (bvo id v)).
Proof using H32.
  intros Hh cn. pose proof (hold_vp _ _ _ _ _ Hh) as (Ni & Ep & Lh). unfold sum_used_votes, xb_used, uvals. change (w_vp (bvo id v)) with (hd (sk1 H 1 (h_pref (v_vp v))) (h_len (v_vp v))).
  rewrite <- Ep in Ni. eapply sim_bind; [exact (rc_vals (fun h => enc_umh (tbh h)) dec_umh tbh (KP NM _) (VP n) (val_h H NM H32 n cn) _ _ _ _ (proj2 (proj2 Hh) (LVp (h_pref (v_vp v))) Ni) (cap_small _ _ cn Lh))|].
  intros hs hs' _ F. generalize 0%N at 1 2. induction F as [|h hb hs hs' [-> [Nh Ll]] F IH]; intros acc; cbn [foldM]; [apply sim_ok; reflexivity|].
  eapply (sim_bind eq); [|intros a b _ <-; apply IH].
  eapply (sim_bind eq); [|intros a b _ <-; same; destruct (add128 acc u); cbn; eauto]. eapply sim_imp; [exact (rc_vals (enc_uint 16) dec_u128 (fun x => x) str_fits fits128 val_x _ _ _ _ (proj2 (proj2 Hh) (LVv (h_pref h)) Nh) (cap_small _ _ cn Ll))|].
  intros a b _ F2. clear -F2. induction F2 as [|? ? ? ? [-> _] F2 IH]; [reflexivity|]. rewrite <- IH. reflexivity.
Qed.
Lemma entries_same n id s v x : Hold n id s v x -> cap n -> xb_entries x (bvo id v) = vote_entries s v.
Proof using H32.
  intros Hh cn. pose proof (hold_vp _ _ _ _ _ Hh) as (Ni & Ep & Lh). unfold vote_entries, xb_entries, uvals. change (w_vp (bvo id v)) with (hd (sk1 H 1 (h_pref (v_vp v))) (h_len (v_vp v))).
  rewrite <- Ep in Ni. pose proof (rc_vals (fun h => enc_umh (tbh h)) dec_umh tbh (KP NM _) (VP n) (val_h H NM H32 n cn) _ _ _ _ (proj2 (proj2 Hh) (LVp (h_pref (v_vp v))) Ni) (cap_small _ _ cn Lh)) as S0.
  change (gVp (gof (upd (posl s) id (v_lps v)) s) (h_pref (v_vp v))) with (cell_at (hp_vp s) (h_pref (v_vp v))) in S0. destruct (vec_elems _ _) as [hs|e]; cbn [sim] in S0; [|destruct S0 as (e' & ->); reflexivity]. destruct S0 as (hs' & -> & F).
  induction F as [|h hb hs hs' [-> _] F IH]; [reflexivity|]. cbn [fold_right]. rewrite IH. unfold MVStore.tbh. cbn [hd um_klen]. rewrite Nat2N.id. reflexivity.
Qed.
Lemma mirror_loop_sim fuel : forall n id s v x used new, Hold n id s v x -> cap (S n) ->
  sim (fun a b => Pr n id a.1 b.1 /\ a.2 = b.2) (mirror_loop fuel s id v used new) (xb_mirror_loop H fuel x id (bvo id v) used new).
Proof using H32 Hinj.
  induction fuel as [|fuel IH]; intros n id s v x used new Hh cn; cbn [mirror_loop xb_mirror_loop]; (destruct (new <? used)%N; [|apply sim_ok; split; [split; [reflexivity|exact Hh]|reflexivity]]); [cbn; eauto|].
  pose proof (cap_le n _ cn ltac:(lia)) as c0. pose proof (hold_vp _ _ _ _ _ Hh) as (Ni & Ep & Lh).
  eapply (sim_bind (fun o o' => o' = o /\ match o with Some k => KP NM id k | None => True end)).
  { rewrite <- Ep. unfold ukey_at. change (w_vp (bvo (h_pref (v_vp v)) v)) with (hd (sk1 H 1 (h_pref (v_vp v))) (h_len (v_vp v))). pose proof Ni as Ni'. rewrite <- Ep in Ni'.
    exact (rc_key (fun h => enc_umh (tbh h)) (KP NM (h_pref (v_vp v))) (VP n) (kp_ NM (h_pref (v_vp v))) _ _ _ (h_len (v_vp v)) 0%nat (proj2 (proj2 Hh) (LVp (h_pref (v_vp v))) Ni') (cap_small _ _ cn (le_S _ _ Lh))). }
  intros o o' _ [-> K]. destruct o as [addr|]; [|cbn; eauto]. cbn [expect mbind res_bind].
  eapply sim_bind; [exact (vp_get n _ s x id (v_vp v) addr (proj2 Hh) c0 (hold_vp _ _ _ _ _ Hh))|]. intros oh oh' _ [-> Vh]. destruct oh as [h|]; [|cbn; eauto]. cbn [expect fmap option_fmap option_map mbind res_bind]. pose proof Vh as [Nh Ll].
  eapply (sim_bind (fun o o' => o' = o /\ match o with Some k => str_fits k | None => True end)).
  { exact (rc_key (enc_uint 16) str_fits fits128 (fun k L => L) _ _ _ (h_len h) 0%nat (proj2 (proj2 Hh) (LVv (h_pref h)) Nh) (cap_small _ _ c0 Ll)). }
  intros o o' _ [-> Lo]. destruct o as [obj|]; [|cbn; eauto]. cbn [expect mbind res_bind]. eapply sim_bind; [exact (vv_get n _ s x h obj (proj2 Hh) c0 Vh)|]. intros o o' _ [-> Fo]. destruct o as [y|]; [|cbn; eauto]. cbn [expect mbind res_bind].
  eapply sim_bind; [apply (remove_vote_sim n); [exact Hh|exact cn|exact K|exact Lo]|]. intros [s1 v1] [x1 w1] _ [E Hh1]. cbn [fst snd] in *. subst w1. same. apply IH; assumption.
Qed.
Lemma mirror_sim n m c s x ext l : After n s x -> cap m -> (n + length l + 1 <= m)%nat -> str_fits (pseudo_near_address ext) -> NM (pseudo_near_address ext) -> Forall (fun p => fits128 p.2) l ->
  sim (After m) (operator_mirror_lps c s ext l) (xb_mirror H c x ext l).
Proof using H32 Hinj.
  intros A cm Le L N Fl. assert (c0 : cap n) by (eapply cap_le; [exact cm|lia]). unfold operator_mirror_lps, xb_mirror, assert_operator, xb_operator. cbv zeta. rewrite (after_root H NM _ _ _ A). same_. same_.
  set (id := pseudo_near_address ext) in *. destruct (h_get H NM H32 n s x id A c0 L N) as [E Hh]. rewrite E. cbn [mbind res_bind].
  eapply (sim_bind eq); [exact (used_sim n id s _ x Hh c0)|]. intros used used' _ <-. same. same. same. rewrite (entries_same n id s _ x Hh c0).
  eapply sim_bind; [apply (mirror_loop_sim _ n); [exact Hh|eapply cap_le; [exact cm|lia]]|]. intros [[s1 v1] used1] [[x1 w1] used1'] _ [[Ew Hh1] Eu']. cbn [fst snd] in *. subst w1 used1'.
  destruct (h_pos_of H NM _ _ _ _ _ Hh1) as (V & Ll & Ni). destruct (v_clear (xst x1) (sk1 H 0 id) (v_lps v1)) as (V' & f & Eh). change (w_lps (bvo id v1)) with (vhd (sk1 H 0 id) (v_lps v1)). destruct (p_clear (xst x1) (vhd (sk1 H 0 id) (v_lps v1))) as [st' h'] eqn:Ec. cbn [fst snd] in *. subst h'.
  pose proof (h_set H NM H32 Hinj n n id s1 v1 x1 [] st' Hh1 (le_n _) ltac:(cbn; lia) V' f) as Hh2.
  assert (Hh3 : Hold n id s1 (v1 <| v_lps := [] |> <| v_avail := 0%N |>) (mkX st' (xr x1))). { eapply h_field; [exact Hh2|reflexivity|reflexivity|exact (hold_bal H NM _ _ _ _ _ Hh1)|reflexivity]. }
  eapply (sim_bind (Pr (n + 1 * length l)%nat id)).
  - apply (sim_foldM (fun k a b => Pr k id a b) (fun sv lp => internal_create_locking_position sv.1 sv.2 lp.2 lp.1) (fun xw lp => xb_create xw.1 xw.2 lp.2 lp.1) 1 (n + length l)%nat (fun p => fits128 p.2)).
    + intros k [sa va] [xa wa] [d a] Lk Fa [Ew Ha]. cbn [fst snd] in *. subst wa. replace (k + 1)%nat with (S k) by lia. apply create_sim; [exact H32|exact Hinj|exact Ha|eapply cap_le; [exact cm|lia]|exact Fa].
    + exact Fl.
    + lia.
    + split; [reflexivity|exact Hh3].
  - intros [s2 v3] [x2 w3] _ [Ew Hh4]. cbn [fst snd] in *. subst w3. same. rewrite (hold_root H NM _ _ _ _ _ Hh4). same.
    change (bvo id v3 <| w_avail := u2 |>) with (bvo id (v3 <| v_avail := u2 |>)).
    apply (s_save H NM H32 Hinj (n + 1 * length l)%nat _ _ _ (v3 <| v_avail := u2 |>)); [|exact cm|lia]. eapply h_field; [apply h_total; exact Hh4|reflexivity|reflexivity|exact (hold_bal H NM _ _ _ _ _ Hh4)|exact (sub128_fits _ _ _ Eu2 (hold_av H NM _ _ _ _ _ Hh4))].
Qed.
End Votes.
