(** MVStore.v -- for C100: when the bytes in the storage of the voting contract stand for a state of MetaVote.v. *)

From Verif Require Export MVCells.
From Verif Require Import FlatProofs MigrateProofs WireProofs EntryProofs AskProofs KVBytesProofs MpipSized.
Import FlatProofs MpipSized MetaVote BoardBytes BoardStore BoardSim MVBytes MVCells KVBytesProofs.

(** ** The positions of a voter: a Vector; cells past its end may hold anything *)
Definition okpos (p : lpos) : Prop := fits128 (lp_amount p) /\ fits16 (lp_days p) /\ fits128 (lp_vp p) /\ opt_fits fits64 (lp_unl p).
Lemma de_lpos p r : okpos p -> dec_lpos (enc_lpos p +:+ r) = Some (p, r).
Proof.
  intros (H1 & H2 & H3 & H4). unfold dec_lpos, enc_lpos. rewrite !sapp_assoc, de_u128 by exact H1. cbn [mbind option_bind]. rewrite de_u16 by exact H2. cbn [mbind option_bind].
  rewrite de_u128 by exact H3. cbn [mbind option_bind]. rewrite de_o64 by exact H4. cbn [mbind option_bind]. destruct p; reflexivity.
Qed.
Lemma de_pos p : okpos p -> de dec_lpos (enc_lpos p) = Ok p.
Proof. intros L. unfold de. rewrite (slice_ok dec_lpos _ p) by (intros r; apply de_lpos, L). reflexivity. Qed.
Record VRep (st : flat) (p : string) (l : list lpos) : Prop := {
  vr_at : forall i q, l !! i = Some q -> st !! vec_key p i = Some (enc_lpos q);
  vr_ok : Forall okpos l }.
Notation vhd p l := (mkVech (N.of_nat (length l)) p).
Lemma v_get st p l i : VRep st p l -> p_get st (vhd p l) i = Ok (l !! i).
Proof.
  intros [A F]. unfold p_get, fvec_get. cbn [vh_pre vh_len]. rewrite Nat2N.id. destruct (Nat.ltb_spec i (length l)) as [L|L].
  - destruct (lookup_lt_is_Some_2 l i L) as [q E]. rewrite (A _ _ E), E. cbn [mbind res_bind de_o]. rewrite de_pos by exact (Forall_lookup_1 _ _ _ _ F E). reflexivity.
  - rewrite lookup_ge_None_2 by exact L. reflexivity.
Qed.
Lemma v_all st p l : VRep st p l -> p_all st (vhd p l) = Ok l.
Proof. intros R. unfold p_all. cbn [vh_len]. rewrite Nat2N.id. apply mapMr_seq. intros i q E. cbn [Nat.add]. rewrite (v_get _ _ _ _ R), E. reflexivity. Qed.
Lemma v_push st p l q : VRep st p l -> small (S (length l)) -> okpos q ->
  exists st', p_push st (vhd p l) q = Ok (st', vhd p (l ++ [q])) /\ VRep st' p (l ++ [q]) /\ frame st st' p.
Proof.
  intros [A F] Hs Lq. unfold p_push. cbn [vh_len vh_pre]. unfold add64. assert (E : (N.of_nat (length l) + 1 <? U64_SIZE) = true) by (apply N.ltb_lt; unfold small in Hs; lia). rewrite E. cbn [mbind res_bind].
  rewrite Nat2N.id. eexists. split; [f_equal; f_equal; f_equal; rewrite app_length; cbn [length]; lia|]. split.
  - constructor; [|apply Forall_app; split; [exact F|constructor; [exact Lq|constructor]]]. intros i x Ei.
    destruct (decide (i = length l)) as [->|N].
    + rewrite list_lookup_middle in Ei by reflexivity. injection Ei as <-. apply lookup_insert.
    + assert (Li : (i < length l)%nat). { apply lookup_lt_Some in Ei. rewrite app_length in Ei. cbn [length] in Ei. lia. }
      rewrite lookup_app_l in Ei by exact Li. rewrite lookup_insert_ne; [exact (A _ _ Ei)|]. intros Ek. apply N. symmetry. apply (vec_inj p); [unfold small in *; lia..|exact Ek].
  - intros key Hn. apply lookup_insert_ne. intros <-. apply Hn, under_vec.
Qed.
Lemma v_replace st p l i q : VRep st p l -> small (length l) -> okpos q -> (i < length l)%nat ->
  exists st', p_replace st (vhd p l) i q = Ok st' /\ VRep st' p (<[i := q]> l) /\ frame st st' p.
Proof.
  intros [A F] Hs Lq Li. unfold p_replace. cbn [vh_len vh_pre]. rewrite Nat2N.id. destruct (Nat.ltb_spec i (length l)); [|lia]. cbn [require mbind res_bind].
  destruct (lookup_lt_is_Some_2 l i Li) as [q0 E]. rewrite (A _ _ E), de_pos by exact (Forall_lookup_1 _ _ _ _ F E). cbn [mbind res_bind]. eexists. split; [reflexivity|]. split.
  - constructor; [|apply Forall_insert; assumption]. intros j x Ej. destruct (decide (i = j)) as [->|N].
    + rewrite list_lookup_insert in Ej by exact Li. injection Ej as <-. apply lookup_insert.
    + rewrite list_lookup_insert_ne in Ej by exact N. rewrite lookup_insert_ne; [exact (A _ _ Ej)|]. apply lookup_lt_Some in Ej. intros Ek. apply N. apply (vec_inj p); [unfold small in *; lia..|exact Ek].
  - intros key Hn. apply lookup_insert_ne. intros <-. apply Hn, under_vec.
Qed.
Lemma v_swap st p l i : VRep st p l -> small (length l) -> (i < length l)%nat ->
  exists st', p_swap_remove st (vhd p l) i = Ok (st', vhd p (swap_remove i l)) /\ VRep st' p (swap_remove i l) /\ frame st st' p.
Proof.
  intros [A F] Hs Li. unfold p_swap_remove. cbn [vh_len vh_pre]. rewrite Nat2N.id. unfold fvec_get. destruct (Nat.ltb_spec i (length l)); [|lia].
  destruct (lookup_lt_is_Some_2 l i Li) as [q0 E0]. rewrite (A _ _ E0). cbn [mbind res_bind]. unfold fvec_swap_remove, fvec_pop. destruct (Nat.ltb_spec i (length l)); [|lia].
  destruct (lookup_lt_is_Some_2 l (length l - 1)) as [z Ez]; [lia|]. rewrite (A _ _ Ez). cbn [mbind res_bind].
  assert (Ln : (N.of_nat (length l) - 1 = N.of_nat (length (swap_remove i l)))%N) by (rewrite swap_remove_length by exact Li; lia).
  assert (El : swap_remove i l = take (length l - 1) (<[i := z]> l)).
  { unfold swap_remove. rewrite last_lookup. replace (pred (length l)) with (length l - 1)%nat by lia. rewrite Ez. reflexivity. }
  assert (Fs : Forall okpos (swap_remove i l)). { rewrite El. apply Forall_take, Forall_insert; [exact F|exact (Forall_lookup_1 _ _ _ _ F Ez)]. }
  assert (At : forall j x, swap_remove i l !! j = Some x -> (j < length l - 1)%nat /\ ((j = i /\ x = z) \/ (j <> i /\ l !! j = Some x))).
  { intros j x Ej. rewrite El in Ej. apply lookup_take_Some in Ej as [Ej Lj]. split; [exact Lj|]. destruct (decide (i = j)) as [->|N]; [rewrite list_lookup_insert in Ej by exact Li; injection Ej as <-; left; split; reflexivity|].
    rewrite list_lookup_insert_ne in Ej by exact N. right. split; [congruence|exact Ej]. }
  assert (Ne : forall j k, (j < length l)%nat -> (k < length l)%nat -> j <> k -> vec_key p j <> vec_key p k).
  { intros j k Lj Lk N Ek. apply N, (vec_inj p); [unfold small in *; lia..|exact Ek]. }
  destruct (Nat.eqb_spec i (length l - 1)) as [->|N].
  - cbn [mbind res_bind de_o]. rewrite de_pos by exact (Forall_lookup_1 _ _ _ _ F E0). cbn [mbind res_bind]. eexists. split; [rewrite Ln; reflexivity|]. split.
    + constructor; [|exact Fs]. intros j x Ej. destruct (At _ _ Ej) as [Lj [[-> _]|[Nj Ej']]]; [lia|]. rewrite lookup_delete_ne by (apply Ne; lia). exact (A _ _ Ej').
    + intros key Hn. apply lookup_delete_ne. intros <-. apply Hn, under_vec.
  - rewrite lookup_delete_ne by (apply Ne; lia). rewrite (A _ _ E0). cbn [mbind res_bind de_o]. rewrite de_pos by exact (Forall_lookup_1 _ _ _ _ F E0). cbn [mbind res_bind]. eexists. split; [rewrite Ln; reflexivity|]. split.
    + constructor; [|exact Fs]. intros j x Ej. destruct (At _ _ Ej) as [Lj [[-> ->]|[Nj Ej']]]; [apply lookup_insert|]. rewrite lookup_insert_ne by (apply Ne; lia). rewrite lookup_delete_ne by (apply Ne; lia). exact (A _ _ Ej').
    + intros key Hn. rewrite lookup_insert_ne by (intros <-; apply Hn, under_vec). apply lookup_delete_ne. intros <-. apply Hn, under_vec.
Qed.
Lemma v_swap_out st p (l : list lpos) i : (length l <= i)%nat -> exists e, p_swap_remove st (vhd p l) i = Panic e.
Proof. intros L. unfold p_swap_remove. cbn [vh_len vh_pre]. rewrite Nat2N.id. unfold fvec_get, fvec_swap_remove. destruct (Nat.ltb_spec i (length l)); [lia|]. cbn. eauto. Qed.
Lemma v_clear st p (l : list lpos) : VRep (p_clear st (vhd p l)).1 p [] /\ frame st (p_clear st (vhd p l)).1 p /\ (p_clear st (vhd p l)).2 = vhd p ([] : list lpos).
Proof.
  split; [constructor; [intros i q E; discriminate|constructor]|]. split; [|reflexivity]. unfold p_clear. cbn [fst vh_len vh_pre]. rewrite Nat2N.id. generalize (seq 0 (length l)). intros js. revert st.
  induction js as [|j js IH]; intros st key Hn; [reflexivity|]. cbn [fold_left]. rewrite IH by exact Hn. apply lookup_delete_ne. intros <-. apply Hn, under_vec.
Qed.
Lemma v_other st st' p l : (forall key, under p key -> st' !! key = st !! key) -> VRep st p l -> VRep st' p l.
Proof. intros X [A F]. constructor; [|exact F]. intros i q E. rewrite X by apply under_vec. exact (A _ _ E). Qed.

Lemma TMap_weaken {K V} ek (ev : K -> V -> string) (W W' : K -> V -> Prop) st p l : (forall k v, W k v -> W' k v) -> TMap ek ev W st p l -> TMap ek ev W' st p l.
Proof. intros F (ce & A & B & C & D & E). exists ce. split; [exact A|]. split; [exact B|]. split; [exact C|]. split; [|exact E]. unfold all in *. eapply Forall_impl; [exact D|]. intros [k v]. apply F. Qed.
Lemma de_strs l r : Forall str_fits l -> N.of_nat (length l) < 2 ^ 32 -> dec_strs (enc_strs l +:+ r) = Some (l, r).
Proof.
  intros F L. unfold dec_strs, enc_strs. rewrite sapp_assoc, de_u32 by exact L. cbn [mbind option_bind]. rewrite Nat2N.id. clear L. induction F as [|x l Hx F IH]; [reflexivity|].
  cbn [fold_right length dec_strs_n]. rewrite sapp_assoc, dec_enc_str by exact Hx. cbn [mbind option_bind]. rewrite IH. reflexivity.
Qed.
Lemma de_pair x r : str_fits x.1 -> str_fits x.2 -> dec_pair (enc_pair x +:+ r) = Some (x, r).
Proof. intros A B. unfold dec_pair, enc_pair. rewrite sapp_assoc, dec_enc_str by exact A. cbn [mbind option_bind]. rewrite dec_enc_str by exact B. destruct x; reflexivity. Qed.

(** ** What the storage holds, collection by collection *)
Record gv := mkG { gVoters : omap_t string voter; gVotes : omap_t string (omap_t string N); gMp : omap_t string N; gSt : omap_t string N;
  gData : omap_t string string; gDel : omap_t string (list string); gSig : gmap string (string * string); gPre : gmap string (string * string);
  gPos : string -> list lpos; gVp : string -> cell hmap; gVv : string -> cell N; gTal : string -> omap_t string N }.
Global Instance eta_gv : Settable gv := settable! mkG <gVoters; gVotes; gMp; gSt; gData; gDel; gSig; gPre; gPos; gVp; gVv; gTal>.
Inductive loc := LVoters | LVotes | LMp | LSt | LData | LDel | LSig | LPre | LPos (id : string) | LVp (x : string) | LVv (x : string) | LTal (a : string).
Global Instance loc_dec : EqDecision loc. Proof. solve_decision. Defined.
Lemma upd_eq {K V} `{EqDecision K} (f : K -> V) k v : upd f k v k = v. Proof. unfold upd. rewrite decide_True by reflexivity. reflexivity. Qed.
Lemma upd_ne {K V} `{EqDecision K} (f : K -> V) k v j : j <> k -> upd f k v j = f j. Proof. intros N. unfold upd. rewrite decide_False by exact N. reflexivity. Qed.

Section Store.
Variables (H : string -> string) (NM : string -> Prop).
Hypothesis H32 : hash32 H.
Hypothesis Hinj : forall x y, NM x -> NM y -> H x = H y -> x = y.

Definition pre (l : loc) : string :=
  match l with LVoters => sk0 2 | LVotes => sk0 3 | LMp => sk0 6 | LSt => sk0 7 | LData => sk0 8 | LDel => sk0 9 | LSig => sk0 10 | LPre => sk0 11
  | LPos id => sk1 H 0 id | LVp x => sk1 H 1 x | LVv x => sk1 H 5 x | LTal a => sk1 H 4 a end.
Definition okl (l : loc) : Prop := match l with LPos x | LVp x | LVv x | LTal x => NM x | _ => True end.
Lemma apart_sk1 t a b : NM a -> NM b -> a <> b -> apart (sk1 H t a) (sk1 H t b).
Proof using H32 Hinj. intros Na Nb N x y E. apply sk1_app_inj in E as [E _]; [|exact H32]. apply N, Hinj; assumption. Qed.
Lemma apart_loc l l' : okl l -> okl l' -> l <> l' -> apart (pre l) (pre l').
Proof using H32 Hinj.
  intros A B N. destruct l, l'; cbn [pre okl] in *; try (exfalso; apply N; reflexivity);
    try (apply apart_sk1; [assumption|assumption|congruence]); unfold sk0, sk1; cbn [enc_uint]; apply apart_byte; vm_compute; congruence.
Qed.
Lemma not_state l x : "STATE" <> pre l +:+ x.
Proof using. destruct l; cbn [pre]; unfold sk0, sk1; cbn [enc_uint]; intros E; injection E; intros _ E'; vm_compute in E'; congruence. Qed.

Definition tbh (h : hmap) : umh := hd (sk1 H 5 (h_pref h)) (h_len h).
Definition tbt (a : string) (m : omap_t string N) : umh := hd (sk1 H 4 a) (length m).
Definition bvo (id : string) (v : voter) : bvoter := mkBvoter (v_bal v) (mkVech (N.of_nat (length (v_lps v))) (sk1 H 0 id)) (v_avail v) (hd (sk1 H 1 (h_pref (v_vp v))) (h_len (v_vp v))).
Definition WV (n : nat) (id : string) (v : voter) : Prop :=
  str_fits id /\ NM id /\ fits128 (v_bal v) /\ fits128 (v_avail v) /\ (length (v_lps v) <= n)%nat /\ (h_len (v_vp v) <= n)%nat /\ h_pref (v_vp v) = id.
Definition WT (n : nat) (a : string) (m : omap_t string N) : Prop := str_fits a /\ NM a /\ (length m <= n)%nat.
Definition WN (k : string) (x : N) : Prop := str_fits k /\ fits128 x.
Definition WD (k d : string) : Prop := str_fits k /\ str_fits d.
Definition WL (n : nat) (k : string) (l : list string) : Prop := str_fits k /\ Forall str_fits l /\ (length l <= n)%nat.
Definition KP (x k : string) : Prop := str_fits k /\ NM k /\ NM (vkey x k).
Definition VP (n : nat) (h : hmap) : Prop := NM (h_pref h) /\ (h_len h <= n)%nat.
Definition LRep (st : flat) (p : string) (m : gmap string (string * string)) : Prop :=
  (forall e, st !! (p +:+ enc_str e) = enc_pair <$> m !! e) /\ (forall e x, m !! e = Some x -> str_fits x.1 /\ str_fits x.2).

Definition TV n := TMap enc_str (fun id v => enc_bvoter (bvo id v)) (WV n).
Definition TT n := TMap enc_str (fun a m => enc_umh (tbt a m)) (WT n).
Definition TN := TMap enc_str (fun _ => enc_uint 16) WN.
Definition TD := TMap enc_str (fun _ => enc_str) WD.
Definition TL n := TMap enc_str (fun _ => enc_strs) (WL n).
Definition RP n x := RC (fun h => enc_umh (tbh h)) (KP x) (VP n).
Definition RV := RC (enc_uint 16) str_fits fits128.

Definition Q (n : nat) (g : gv) (l : loc) (st : flat) : Prop :=
  match l with
  | LVoters => TV n st (sk0 2) (gVoters g) /\ (length (gVoters g) <= n)%nat
  | LVotes => TT n st (sk0 3) (gVotes g) /\ (length (gVotes g) <= n)%nat
  | LMp => TN st (sk0 6) (gMp g) /\ (length (gMp g) <= n)%nat
  | LSt => TN st (sk0 7) (gSt g) /\ (length (gSt g) <= n)%nat
  | LData => TD st (sk0 8) (gData g) /\ (length (gData g) <= n)%nat
  | LDel => TL n st (sk0 9) (gDel g) /\ (length (gDel g) <= n)%nat
  | LSig => LRep st (sk0 10) (gSig g)
  | LPre => LRep st (sk0 11) (gPre g)
  | LPos id => VRep st (sk1 H 0 id) (gPos g id) /\ (length (gPos g id) <= n)%nat
  | LVp x => RP n x st (sk1 H 1 x) (gVp g x)
  | LVv x => RV st (sk1 H 5 x) (gVv g x)
  | LTal a => TN st (sk1 H 4 a) (gTal g a) /\ (length (gTal g a) <= n)%nat
  end.
Lemma Q_mono n m g l st : (n <= m)%nat -> Q n g l st -> Q m g l st.
Proof using.
  intros Le. destruct l; cbn [Q]; intros Hq; try exact Hq; try (destruct Hq as [T L]; split; [|lia]; try exact T).
  - eapply TMap_weaken; [|exact T]. intros k v (A & B & C & D & E & F & G). repeat split; try assumption; lia.
  - eapply TMap_weaken; [|exact T]. intros k v (A & B & C). repeat split; try assumption; lia.
  - eapply TMap_weaken; [|exact T]. intros k v (A & B & C). repeat split; try assumption; lia.
  - eapply RC_weaken; [| |exact Hq]; [auto|]. intros v (A & B). split; [exact A|lia].
Qed.
Lemma Q_other n g l st st' q : frame st st' q -> apart q (pre l) -> Q n g l st -> Q n g l st'.
Proof using.
  intros Hf Ha. assert (X : forall key, under (pre l) key -> st' !! key = st !! key).
  { intros key [x ->]. apply Hf. intros [y E]. exact (Ha y x (eq_sym E)). }
  destruct l; cbn [Q pre] in *; try (intros [T L]; split; [|exact L]); try (eapply t_other; [exact Hf|exact Ha|exact T]).
  - intros e. rewrite X by (eexists; reflexivity). apply T.
  - intros e. rewrite X by (eexists; reflexivity). apply T.
  - eapply v_other; [exact X|exact T].
  - apply rc_other. exact X.
  - apply rc_other. exact X.
Qed.
Definition Inv (n : nat) (st : flat) (g : gv) : Prop := forall l, okl l -> Q n g l st.
Lemma inv_mono n m st g : (n <= m)%nat -> Inv n st g -> Inv m st g.
Proof using. intros Le I l Hl. exact (Q_mono _ _ _ _ _ Le (I l Hl)). Qed.
Lemma inv_step n st st' g g' l : Inv n st g -> okl l -> frame st st' (pre l) -> (forall l', okl l' -> l' <> l -> Q n g l' st' -> Q n g' l' st') -> Q n g' l st' -> Inv n st' g'.
Proof using H32 Hinj.
  intros I Hl Hf Ho Hq l' Hl'. destruct (decide (l' = l)) as [->|N]; [exact Hq|]. apply Ho; [exact Hl'|exact N|]. eapply Q_other; [exact Hf|apply apart_loc; auto|exact (I l' Hl')].
Qed.
Lemma inv_state n st g b : Inv n st g -> Inv n (<["STATE" := b]> st) g.
Proof using.
  intros I l Hl. specialize (I l Hl). apply (Q_other n g l st _ "STATE"); [| |exact I].
  - intros key Hn. apply lookup_insert_ne. intros <-. apply Hn. exists "". reflexivity.
  - intros a b' E. destruct l; cbn [pre] in E; unfold sk0, sk1 in E; cbn [enc_uint] in E; injection E; intros _ E'; vm_compute in E'; congruence.
Qed.
End Store.
