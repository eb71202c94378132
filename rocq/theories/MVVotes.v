(** MVVotes.v -- representation of a voter's votes in the storage heaps (weak form, tolerating
    stale index records) and the effect of the voting functions on it. *)

From Verif Require Export MVBase.

(** A voter's votes: (address, (handle, [(object, power)])). *)
Notation vmap := (list (string * (hmap * list (string * N)))) (only parsing).
Definition outer (L : vmap) : list (string * hmap) := (fun e => (e.1, e.2.1)) <$> L.
Definition mpow (m : list (string * N)) : N := sum_by snd m.
Definition used (L : vmap) : N := sum_by (fun e => mpow e.2.2) L.

Global Arguments mpow : simpl never.
Global Arguments used : simpl never.
Global Arguments outer : simpl never.

Record vrep (hp : heap hmap) (hv : heap N) (vid : string) (h : hmap) (L : vmap) : Prop := {
  vr_pref : h_pref h = vid;
  vr_outer : urep hp h (outer L);
  vr_inner : forall i a hh m, L !! i = Some (a, (hh, m)) ->
     h_pref hh = vkey vid a /\ urep hv hh m;
}.

Lemma string_append_inj_l (p a b : string) : p +:+ a = p +:+ b -> a = b.
Proof. induction p; simpl; intros H; [exact H|]. injection H as H. auto. Qed.

Lemma vkey_inj_addr vid a b : vkey vid a = vkey vid b -> a = b.
Proof. unfold vkey. intros H. apply string_append_inj_l in H. apply string_append_inj_l in H. exact H. Qed.

Lemma vrep_nil hp hv vid : vrep hp hv vid (unew vid) [].
Proof.
  constructor; [reflexivity|apply crep_nil|]. intros i a hh m H. rewrite lookup_nil in H. discriminate.
Qed.

Lemma outer_lookup L i a h : outer L !! i = Some (a, h) <-> exists m, L !! i = Some (a, (h, m)).
Proof.
  unfold outer. rewrite list_lookup_fmap. destruct (L !! i) as [[a' [h' m']]|]; simpl.
  - split; [intros [= -> ->]; eauto|intros (m & [= -> -> _]); reflexivity].
  - split; [discriminate|intros (m & ?); discriminate].
Qed.

Lemma outer_keys L : (outer L).*1 = L.*1.
Proof. unfold outer. rewrite <- list_fmap_compose. reflexivity. Qed.

Lemma vrep_NoDup hp hv vid h L : vrep hp hv vid h L -> NoDup L.*1.
Proof. intros H. rewrite <- outer_keys. eapply crep_NoDup. apply (vr_outer _ _ _ _ _ H). Qed.

Lemma vrep_frame hp hv hp' hv' vid h L :
  vrep hp hv vid h L ->
  cell_at hp' vid = cell_at hp vid ->
  (forall a, a ∈ L.*1 -> cell_at hv' (vkey vid a) = cell_at hv (vkey vid a)) ->
  vrep hp' hv' vid h L.
Proof.
  intros [Hp Ho Hi] E1 E2. constructor; [exact Hp| |].
  - unfold urep in *. rewrite Hp in *. rewrite E1. exact Ho.
  - intros i a hh m Hl. destruct (Hi _ _ _ _ Hl) as [Hpr Hr]. split; [exact Hpr|].
    unfold urep in *. rewrite Hpr in *. rewrite E2; [exact Hr|].
    apply elem_of_list_fmap. exists (a, (hh, m)). split; [reflexivity|].
    eapply elem_of_list_lookup_2; exact Hl.
Qed.

(** Sum of the votes stored, without overflow checks (specification of [sum_used_votes]). *)
Definition handle_pow (hv : heap N) (hh : hmap) : N :=
  match uvals hv hh with Ok l => sumN l | Panic _ => 0 end.
Definition used_raw (hp : heap hmap) (hv : heap N) (h : hmap) : N :=
  match uvals hp h with Ok l => sum_by (handle_pow hv) l | Panic _ => 0 end.

Lemma uvals_rep {V} (hp : heap V) h l : urep hp h l -> uvals hp h = Ok l.*2.
Proof. apply crep_vals. Qed.
Lemma ukeys_rep {V} (hp : heap V) h l : urep hp h l -> ukeys hp h = Ok l.*1.
Proof. apply crep_keys. Qed.

Lemma outer_vals L : (outer L).*2 = (fun e => e.2.1) <$> L.
Proof. unfold outer. rewrite <- list_fmap_compose. reflexivity. Qed.

Lemma handle_pow_rep hv hh m : urep hv hh m -> handle_pow hv hh = mpow m.
Proof. intros H. unfold handle_pow. rewrite (uvals_rep _ _ _ H). reflexivity. Qed.

Lemma sum_by_fmap {A B} (g : A -> B) (f : B -> N) l : sum_by f (g <$> l) = sum_by (fun a => f (g a)) l.
Proof. unfold sum_by. f_equal. apply List.map_map. Qed.

Lemma used_raw_rep hp hv vid h L : vrep hp hv vid h L -> used_raw hp hv h = used L.
Proof.
  intros [Hp Ho Hi]. unfold used_raw. rewrite (uvals_rep _ _ _ Ho), outer_vals, sum_by_fmap.
  apply sum_by_ext. intros [a [hh m]] Hin. simpl.
  apply elem_of_list_In in Hin. apply elem_of_list_lookup in Hin as [i Hl].
  apply handle_pow_rep. apply (Hi _ _ _ _ Hl).
Qed.

(** The view does not overflow when the sum fits. *)
Lemma sum_used_rep s v vid L :
  vrep (hp_vp s) (hp_vv s) vid (v_vp v) L -> used L < U128_SIZE -> sum_used_votes s v = Ok (used L).
Proof.
  intros [Hp Ho Hi] Hlt. unfold sum_used_votes. rewrite (uvals_rep _ _ _ Ho). cbn [mbind res_bind].
  rewrite outer_vals.
  enough (forall acc, acc + used L < U128_SIZE ->
    foldM (fun acc h => vs ← uvals (hp_vv s) h; t ← sum128 vs; add128 acc t)
      ((fun e => e.2.1) <$> L) acc = Ok (acc + used L)) as H.
  { rewrite (H 0); [rewrite N.add_0_l; reflexivity|lia]. }
  clear Hp Ho Hlt. induction L as [|[a [hh m]] L IH]; intros acc Hacc.
  { change (used []) with 0. rewrite N.add_0_r. reflexivity. }
  csimpl. unfold used in Hacc. rewrite sum_by_cons in Hacc. cbn [snd] in Hacc.
  destruct (Hi O _ _ _ eq_refl) as [_ Hr]. rewrite (uvals_rep _ _ _ Hr). cbn [mbind res_bind].
  assert (sum128 m.*2 = Ok (mpow m)) as ->.
  { apply sum128_Ok. unfold mpow, sum_by in *. change (map snd m) with (m.*2) in *. split; [reflexivity|]. lia. }
  cbn [mbind res_bind]. unfold add128. destruct (N.ltb_spec (acc + mpow m) U128_SIZE); [|lia].
  rewrite IH.
  - unfold used. rewrite sum_by_cons. cbn [snd]. f_equal. lia.
  - intros i. apply (Hi (S i)).
  - unfold used. lia.
Qed.

(** ** Effect of storing a vote *)
Section VoteStore.
Context (vid : string) (hp : heap hmap) (hv : heap N) (hd : hmap) (L : vmap).
Context (Hrep : vrep hp hv vid hd L).

Definition vframe (hp' : heap hmap) (hv' : heap N) (L' : vmap) : Prop :=
  (forall q, q <> vid -> cell_at hp' q = cell_at hp q) /\
  (forall q, (forall a, a ∈ L'.*1 -> q <> vkey vid a) -> cell_at hv' q = cell_at hv q).

Lemma uget_outer_Some addr h :
  uget hp hd addr = Ok (Some h) ->
  exists i a m, ce_idx (cell_at hp vid) !! addr = Some i /\ L !! i = Some (a, (h, m)).
Proof.
  intros H. destruct (cget_Some_inv _ _ _ _ _ (vr_outer _ _ _ _ _ Hrep) H) as (i & a & Hi & Hl).
  rewrite (vr_pref _ _ _ _ _ Hrep) in Hi.
  apply outer_lookup in Hl as [m Hl]. eauto 6.
Qed.

Lemma uget_outer_None addr : uget hp hd addr = Ok None ->
  ce_idx (cell_at hp vid) !! addr = None /\ addr ∉ L.*1.
Proof.
  intros H. apply cget_None_inv in H. pose proof (vr_outer _ _ _ _ _ Hrep) as [_ Ho].
  rewrite (vr_pref _ _ _ _ _ Hrep) in *. split; [exact H|].
  intros Hin. rewrite <- outer_keys in Hin. apply elem_of_list_fmap in Hin as ([a h] & -> & Hin).
  apply elem_of_list_lookup in Hin as [i Hl]. apply Ho in Hl as (_ & _ & Hl). simpl in H. congruence.
Qed.

Lemma uinsert_inv {V} (g : heap V) (h : hmap) k (x : V) g' h' :
  uinsert g h k x = Ok (g', h') ->
  exists ce' len', cinsert (cell_at g (h_pref h)) (h_len h) k x = Ok (ce', len') /\
    g' = <[h_pref h := ce']> g /\ h' = mkH (h_pref h) len'.
Proof. intros H. unfold uinsert in H. rinv. eauto. Qed.

Lemma uremove_inv {V} (g : heap V) (h : hmap) k g' h' :
  uremove g h k = Ok (g', h') ->
  exists ce' len', cremove (cell_at g (h_pref h)) (h_len h) k = Ok (ce', len') /\
    g' = <[h_pref h := ce']> g /\ h' = mkH (h_pref h) len'.
Proof. intros H. unfold uremove in H. rinv. eauto. Qed.

(** Replacing the inner map at position [i] (new inner heap differs only at its prefix). *)
Lemma vrep_replace i a h m hv' h' m' hp' ce' len' :
  L !! i = Some (a, (h, m)) ->
  h_pref h' = h_pref h -> urep hv' h' m' ->
  (forall q, q <> vkey vid a -> cell_at hv' q = cell_at hv q) ->
  crep ce' len' (<[i := (a, h')]> (outer L)) ->
  hp' = <[vid := ce']> hp ->
  vrep hp' hv' vid (mkH vid len') (<[i := (a, (h', m'))]> L) /\
  vframe hp' hv' (<[i := (a, (h', m'))]> L).
Proof.
  intros Hl Hpr Hr Hfr Hc ->. destruct Hrep as [Hp Ho Hi].
  pose proof (vrep_NoDup _ _ _ _ _ Hrep) as Hnd.
  destruct (Hi _ _ _ _ Hl) as [Hpa _].
  assert (Hlt : (i < length L)%nat) by (eapply lookup_lt_Some; exact Hl).
  assert (Hkeys : (<[i := (a, (h', m'))]> L).*1 = L.*1).
  { rewrite list_fmap_insert. apply list_insert_id. rewrite list_lookup_fmap, Hl. reflexivity. }
  split; [constructor|split].
  - reflexivity.
  - unfold urep. cbn. rewrite cell_at_insert_eq. unfold outer. rewrite list_fmap_insert. exact Hc.
  - intros j b hh mm Hj. destruct (decide (j = i)) as [->|Hne].
    + rewrite list_lookup_insert in Hj by exact Hlt. injection Hj as <- <- <-.
      split; [congruence|exact Hr].
    + rewrite list_lookup_insert_ne in Hj by congruence. destruct (Hi _ _ _ _ Hj) as [Hpb Hrb].
      split; [exact Hpb|]. unfold urep in *. rewrite Hpb in *. rewrite Hfr; [exact Hrb|].
      intros E. apply vkey_inj_addr in E. subst b. apply Hne.
      eapply (NoDup_lookup L.*1); [exact Hnd| |]; rewrite list_lookup_fmap.
      * rewrite Hj. reflexivity.
      * rewrite Hl. reflexivity.
  - intros q Hq. apply cell_at_insert_ne. congruence.
  - intros q Hq. apply Hfr. apply Hq. rewrite Hkeys. apply elem_of_list_fmap.
    exists (a, (h, m)). split; [reflexivity|]. eapply elem_of_list_lookup_2; exact Hl.
Qed.

Lemma used_insert i a h m h' m' :
  L !! i = Some (a, (h, m)) -> used (<[i := (a, (h', m'))]> L) + mpow m = used L + mpow m'.
Proof. intros Hl. unfold used. apply (sum_by_insert (fun e => mpow e.2.2) L i _ (a, (h', m')) Hl). Qed.

Lemma keys_insert i a h m h' m' :
  L !! i = Some (a, (h, m)) -> (<[i := (a, (h', m'))]> L).*1 = L.*1.
Proof.
  intros Hl. rewrite list_fmap_insert. apply list_insert_id. rewrite list_lookup_fmap, Hl. reflexivity.
Qed.

Lemma set_vote_weak addr obj o oo x hv' h' hp' hd' :
  uget hp hd addr = Ok o ->
  uget hv (default (unew (vkey vid addr)) o) obj = Ok oo ->
  uinsert hv (default (unew (vkey vid addr)) o) obj x = Ok (hv', h') ->
  uinsert hp hd addr h' = Ok (hp', hd') ->
  exists L', vrep hp' hv' vid hd' L' /\ vframe hp' hv' L' /\
    used L' + default 0 oo = used L + x /\
    (forall a, a ∈ L'.*1 -> a ∈ L.*1 \/ (o = None /\ a = addr)) /\
    (forall a, a ∈ L.*1 -> a ∈ L'.*1) /\
    ((length L' <= length L)%nat \/ (o = None /\ length L' = S (length L))).
Proof.
  intros Ho Hoo Hiv Hip.
  pose proof (vr_pref _ _ _ _ _ Hrep) as Hp.
  apply uinsert_inv in Hiv as (ce1 & len1 & Hiv & -> & ->).
  apply uinsert_inv in Hip as (ce2 & len2 & Hip & -> & ->). rewrite Hp in *.
  destruct o as [h|]; cbn [default from_option id] in *.
  - (* existing handle *)
    destruct (uget_outer_Some _ _ Ho) as (i & a & m & Hidx & Hl).
    destruct (vr_inner _ _ _ _ _ Hrep _ _ _ _ Hl) as [Hpa Hra].
    destruct (cinsert_spec _ _ _ _ _ _ _ (vr_outer _ _ _ _ _ Hrep) ltac:(rewrite Hp; exact Hip))
      as [(i2 & k2 & v2 & Hi2 & Hl2 & Hc2 & _)|(Hn & _)]; rewrite Hp in *; [|congruence].
    rewrite Hidx in Hi2. injection Hi2 as <-.
    assert (k2 = a) as ->. { apply outer_lookup in Hl2 as [m2 Hl2]. congruence. }
    assert (exists m', crep ce1 len1 m' /\ mpow m' + default 0 oo = mpow m + x) as (m' & Hc1 & Hpow).
    { destruct (cinsert_spec _ _ _ _ _ _ _ Hra Hiv) as [(j & kj & vj & Hj & Hlj & Hcj & _)|(Hn & Hcj & _)].
      - eexists. split; [exact Hcj|].
        assert (oo = Some vj) as ->.
        { unfold uget, cget in Hoo. rewrite Hj in Hoo. unfold vec_get in Hoo.
          destruct Hra as [Hlen Hra]. rewrite Hlen in Hoo.
          pose proof (lookup_lt_Some _ _ _ Hlj).
          destruct (Nat.ltb_spec j (length m)); [|lia].
          destruct (Hra _ _ _ Hlj) as (_ & Hv & _). rewrite Hv in Hoo. cbn in Hoo. congruence. }
        unfold mpow. cbn. apply (sum_by_insert snd m j _ (kj, x) Hlj).
      - eexists. split; [exact Hcj|].
        assert (oo = None) as ->.
        { unfold uget, cget in Hoo. rewrite Hn in Hoo. congruence. }
        unfold mpow. rewrite sum_by_app, sum_by_cons, sum_by_nil. cbn. lia. }
    exists (<[i := (a, (mkH (h_pref h) len1, m'))]> L).
    destruct (vrep_replace i a h m (<[h_pref h := ce1]> hv) (mkH (h_pref h) len1) m'
                (<[vid := ce2]> hp) ce2 len2 Hl) as [Hr' Hf'].
    + reflexivity.
    + unfold urep. cbn. rewrite cell_at_insert_eq. exact Hc1.
    + intros q Hq. apply cell_at_insert_ne. congruence.
    + exact Hc2.
    + reflexivity.
    + split; [exact Hr'|]. split; [exact Hf'|].
      pose proof (used_insert i a h m (mkH (h_pref h) len1) m' Hl) as Hu.
      rewrite (keys_insert _ _ _ _ (mkH (h_pref h) len1) m' Hl).
      split; [lia|]. split; [auto|]. split; [auto|]. left. rewrite insert_length. lia.
  - (* fresh handle *)
    destruct (uget_outer_None _ Ho) as [Hidx Hnin]. cbn [unew h_pref h_len] in *.
    destruct (cinsert_spec _ _ _ _ _ _ _ (vr_outer _ _ _ _ _ Hrep) ltac:(rewrite Hp; exact Hip))
      as [(i2 & k2 & v2 & Hi2 & _)|(_ & Hc2 & _)]; [rewrite Hp in Hi2; congruence|].
    destruct (cinsert_spec _ _ [] _ _ _ _ (crep_nil _) Hiv)
      as [(j & kj & vj & Hj & Hlj & _)|(Hn & Hc1 & _)]; [rewrite lookup_nil in Hlj; discriminate|].
    assert (oo = None) as ->.
    { unfold uget, cget in Hoo. cbn in Hoo. rewrite Hn in Hoo. congruence. }
    exists (L ++ [(addr, (mkH (vkey vid addr) len1, [(obj, x)]))]).
    assert (Hkeys : (L ++ [(addr, (mkH (vkey vid addr) len1, [(obj, x)]))]).*1 = L.*1 ++ [addr]).
    { rewrite fmap_app. reflexivity. }
    split; [constructor|split; [split|]].
    + reflexivity.
    + unfold urep. cbn. rewrite cell_at_insert_eq. unfold outer in *. rewrite fmap_app. exact Hc2.
    + intros j b hh mm Hj. apply lookup_app_Some in Hj as [Hj|[Hlen Hj]].
      * destruct (vr_inner _ _ _ _ _ Hrep _ _ _ _ Hj) as [Hpb Hrb]. split; [exact Hpb|].
        unfold urep in *. rewrite Hpb in *. rewrite cell_at_insert_ne; [exact Hrb|].
        intros E. apply vkey_inj_addr in E. subst b. apply Hnin. apply elem_of_list_fmap.
        exists (addr, (hh, mm)). split; [reflexivity|]. eapply elem_of_list_lookup_2; exact Hj.
      * apply list_lookup_singleton_Some in Hj as [_ [= <- <- <-]]. split; [reflexivity|].
        unfold urep. cbn. rewrite cell_at_insert_eq. exact Hc1.
    + intros q Hq. apply cell_at_insert_ne. congruence.
    + intros q Hq. apply cell_at_insert_ne. apply not_eq_sym, Hq.
      rewrite Hkeys. apply elem_of_app. right. apply elem_of_list_singleton. reflexivity.
    + rewrite Hkeys. unfold used. rewrite sum_by_app, sum_by_cons, sum_by_nil. cbn.
      change (mpow [(obj, x)]) with (x + 0).
      split; [lia|].
      split; [intros b Hb; apply elem_of_app in Hb as [Hb|Hb]; [auto|right; split; [reflexivity|apply elem_of_list_singleton; exact Hb]]|].
      split; [intros b Hb; apply elem_of_app; auto|]. right. split; [reflexivity|].
      rewrite app_length. cbn. lia.
Qed.

Lemma remove_vote_weak addr obj o x hv' h' hp' hd' :
  uget hp hd addr = Ok o ->
  uget hv (default (unew (vkey vid addr)) o) obj = Ok (Some x) ->
  uremove hv (default (unew (vkey vid addr)) o) obj = Ok (hv', h') ->
  (if (h_len h' =? 0)%nat then uremove hp hd addr else uinsert hp hd addr h') = Ok (hp', hd') ->
  exists L', vrep hp' hv' vid hd' L' /\ vframe hp' hv' L /\
    used L' + x = used L /\ (forall a, a ∈ L'.*1 -> a ∈ L.*1) /\ (length L' <= length L)%nat.
Proof.
  intros Ho Hoo Hrv Hrp.
  pose proof (vr_pref _ _ _ _ _ Hrep) as Hp.
  destruct o as [h|]; cbn [default from_option id] in *.
  2:{ unfold uget, cget, unew in Hoo. cbn in Hoo. destruct (ce_idx _ !! obj); [|discriminate].
      unfold vec_get in Hoo. destruct (Nat.ltb_spec n 0); [lia|]. cbn in Hoo. discriminate. }
  destruct (uget_outer_Some _ _ Ho) as (i & a & m & Hidx & Hl).
  destruct (vr_inner _ _ _ _ _ Hrep _ _ _ _ Hl) as [Hpa Hra].
  destruct (cget_Some_inv _ _ _ _ _ Hra Hoo) as (j & kj & Hj & Hlj).
  apply uremove_inv in Hrv as (ce1 & len1 & Hrv & -> & ->).
  destruct (cremove_spec _ _ _ _ _ _ Hra Hrv) as [(Hn & _)|(j2 & k2 & v2 & Hj2 & Hl2 & Hc1 & _)]; [congruence|].
  rewrite Hj in Hj2. injection Hj2 as <-. rewrite Hlj in Hl2. injection Hl2 as <- <-.
  assert (Hpow : mpow (swap_remove j m) + x = mpow m).
  { unfold mpow. apply (sum_by_swap_remove snd m j _ Hlj). }
  cbn [h_len] in Hrp. destruct (Nat.eqb_spec len1 0) as [Hz|Hz].
  - (* inner map now empty: outer entry removed *)
    apply uremove_inv in Hrp as (ce2 & len2 & Hrp & -> & ->). rewrite Hp in *.
    destruct (cremove_spec _ _ _ _ _ _ (vr_outer _ _ _ _ _ Hrep) ltac:(rewrite Hp; exact Hrp))
      as [(Hn & _)|(i2 & k2 & v2 & Hi2 & Hl2 & Hc2 & _)]; rewrite Hp in *; [congruence|].
    rewrite Hidx in Hi2. injection Hi2 as <-.
    assert (Hlt : (i < length L)%nat) by (eapply lookup_lt_Some; exact Hl).
    assert (mpow (swap_remove j m) = 0) as Hz2.
    { destruct Hc1 as [Hlen _]. destruct (swap_remove j m); [reflexivity|cbn in Hlen; lia]. }
    assert (Hsub : forall b, b ∈ (swap_remove i L).*1 -> b ∈ L.*1).
    { intros b Hb. apply elem_of_list_fmap in Hb as (e & -> & Hb). apply elem_of_list_fmap.
      exists e. split; [reflexivity|]. apply elem_of_list_In. apply (swap_remove_In i L e Hlt).
      apply elem_of_list_In. exact Hb. }
    exists (swap_remove i L). split; [constructor|split; [split|]].
    + reflexivity.
    + unfold urep. cbn. rewrite cell_at_insert_eq. unfold outer in *.
      assert ((fun e => (e.1, e.2.1)) <$> swap_remove i L
              = swap_remove i ((fun e => (e.1, e.2.1)) <$> L)) as ->; [|exact Hc2].
      apply list_eq. intros n. rewrite list_lookup_fmap, !lookup_swap_remove, fmap_length;
        [|rewrite fmap_length; exact Hlt|exact Hlt].
      repeat case_decide; rewrite ?list_lookup_fmap; reflexivity.
    + intros n b hh mm Hn. rewrite lookup_swap_remove in Hn by exact Hlt.
      assert (exists n', n' <> i /\ L !! n' = Some (b, (hh, mm))) as (n' & Hne & Hn').
      { destruct (decide (n < length L - 1)%nat); [|discriminate].
        destruct (decide (n = i)); [exists (length L - 1)%nat; split; [lia|exact Hn]|eauto]. }
      destruct (vr_inner _ _ _ _ _ Hrep _ _ _ _ Hn') as [Hpb Hrb]. split; [exact Hpb|].
      unfold urep in *. rewrite Hpb in *. rewrite cell_at_insert_ne; [exact Hrb|].
      rewrite Hpa. intros E. apply vkey_inj_addr in E. subst b. apply Hne.
      eapply (NoDup_lookup L.*1); [eapply vrep_NoDup; exact Hrep| |]; rewrite list_lookup_fmap.
      * rewrite Hn'. reflexivity.
      * rewrite Hl. reflexivity.
    + intros q Hq. apply cell_at_insert_ne. congruence.
    + intros q Hq. apply cell_at_insert_ne. rewrite Hpa. apply not_eq_sym, Hq.
      apply elem_of_list_fmap. exists (a, (h, m)). split; [reflexivity|].
      eapply elem_of_list_lookup_2; exact Hl.
    + assert (used (swap_remove i L) + mpow m = used L).
      { unfold used. apply (sum_by_swap_remove (fun e => mpow e.2.2) L i _ Hl). }
      split; [lia|]. split; [exact Hsub|]. rewrite swap_remove_length by exact Hlt. lia.
  - apply uinsert_inv in Hrp as (ce2 & len2 & Hip & -> & ->). rewrite Hp in *.
    destruct (cinsert_spec _ _ _ _ _ _ _ (vr_outer _ _ _ _ _ Hrep) ltac:(rewrite Hp; exact Hip))
      as [(i2 & k2 & v2 & Hi2 & Hl2 & Hc2 & _)|(Hn & _)]; rewrite Hp in *; [|congruence].
    rewrite Hidx in Hi2. injection Hi2 as <-.
    assert (k2 = a) as ->. { apply outer_lookup in Hl2 as [m2 Hl2]. congruence. }
    exists (<[i := (a, (mkH (h_pref h) len1, swap_remove j m))]> L).
    destruct (vrep_replace i a h m (<[h_pref h := ce1]> hv) (mkH (h_pref h) len1) (swap_remove j m)
                (<[vid := ce2]> hp) ce2 len2 Hl) as [Hr' [Hf1 Hf2]].
    + reflexivity.
    + unfold urep. cbn. rewrite cell_at_insert_eq. exact Hc1.
    + intros q Hq. apply cell_at_insert_ne. congruence.
    + exact Hc2.
    + reflexivity.
    + pose proof (keys_insert _ _ _ _ (mkH (h_pref h) len1) (swap_remove j m) Hl) as Hk.
      rewrite Hk. split; [exact Hr'|]. split; [split; [exact Hf1|rewrite Hk in Hf2; exact Hf2]|].
      pose proof (used_insert i a h m (mkH (h_pref h) len1) (swap_remove j m) Hl) as Hu.
      split; [lia|]. split; [auto|]. rewrite insert_length. lia.
Qed.

End VoteStore.
