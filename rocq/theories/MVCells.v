(** MVCells.v -- for C100: a map inside a record of another map, on the bytes of the storage, behaves as the cell of UMap.v -- with
    the panics, since such a map can meet records left behind by an earlier one. *)

From Verif Require Export MVBytes BoardMaps BoardStore BoardSim.
From Verif Require Import FlatProofs WireProofs EntryProofs AskProofs KVBytesProofs MpipSized.
Import FlatProofs BoardSim KVBytesProofs.

Lemma swap_back st q m len i e : small len -> Rvec st q m -> vec_swap_remove m len i = Panic e -> exists e', fvec_swap_remove st q len i = Panic e'.
Proof.
  intros Hl H. unfold vec_swap_remove, fvec_swap_remove, fvec_pop. destruct (Nat.ltb_spec i len) as [Hi|]; [|eauto].
  assert (Hs : small (len - 1)) by (unfold small in *; lia). assert (Hsi : small i) by (unfold small in *; lia).
  rewrite (H _ Hs). destruct (m !! (len - 1)%nat) as [a|] eqn:Ea; [|eauto]. cbn [mbind res_bind].
  pose proof (Rvec_delete _ _ _ _ Hs H) as Hd. destruct (Nat.eqb_spec i (len - 1)) as [->|Hne]; [discriminate|].
  rewrite (Hd _ Hsi), lookup_delete_ne by lia. destruct (m !! i); [discriminate|eauto].
Qed.
Lemma insert_back st p n k v e : fget st (mkH p n) k = Panic e -> exists e', b_insert st (hd p n) k v = Panic e'.
Proof.
  unfold fget, b_insert. rewrite hd_idx. cbn [hd um_vlen um_vpre um_klen um_kpre um_pre h_pref h_len]. rewrite !Nat2N.id. intros Hg.
  destruct (st !! idx_key_raw p k) as [b|]; [|discriminate]. destruct (fidx b) as [i|]; cbn [mbind res_bind] in *; [|eauto].
  unfold fvec_get in Hg. destruct (i <? n)%nat; cbn [require mbind res_bind]; [|eauto]. fold (vals_pref p).
  destruct (st !! vec_key (vals_pref p) i); [discriminate|eauto].
Qed.
Lemma cget_cinsert {V} (ce : cell V) n k v : match cget ce n k with Ok _ => exists ce' n', cinsert ce n k v = Ok (ce', n') /\ (n' <= S n)%nat | Panic _ => exists e, cinsert ce n k v = Panic e end.
Proof.
  unfold cget, cinsert. destruct (ce_idx ce !! k) as [i|]; [|eauto]. unfold vec_get. destruct (i <? n)%nat; cbn [mbind res_bind]; [|eauto].
  destruct (ce_vals ce !! i); cbn [mbind res_bind]; eauto.
Qed.

Section RC.
Context {V B : Type}.
Variables (ev : V -> string) (dv : string -> option (B * string)) (tb : V -> B).
Definition km (m : gmap string nat) : gmap string nat := kmap enc_str m.
Definition rawc (ce : cell V) : cell string := mkCell (km (ce_idx ce)) (enc_str <$> ce_keys ce) (ev <$> ce_vals ce).
Lemma km_empty : km ∅ = ∅.
Proof using. apply kmap_empty. Qed.
Lemma km_get (m : gmap string nat) k : km m !! enc_str k = m !! k.
Proof using. apply (@lookup_kmap _ _ _ _ _ _ _ _ _ _ _ _ _ _ _ _ _ _ _ _ _ _ enc_str enc_inj). Qed.
Lemma km_set (m : gmap string nat) k i : km (<[k := i]> m) = <[enc_str k := i]> (km m).
Proof using. apply (@kmap_insert _ _ _ _ _ _ _ _ _ _ _ _ _ _ _ _ _ _ _ _ _ _ enc_str enc_inj). Qed.
Lemma km_del (m : gmap string nat) k : km (delete k m) = delete (enc_str k) (km m).
Proof using. apply (@kmap_delete _ _ _ _ _ _ _ _ _ _ _ _ _ _ _ _ _ _ _ _ _ _ enc_str enc_inj). Qed.
Lemma rawc_get ce n k : cget (rawc ce) n (enc_str k) = match cget ce n k with Ok o => Ok (ev <$> o) | Panic e => Panic e end.
Proof using.
  unfold cget. cbn [rawc ce_idx ce_vals]. rewrite km_get. destruct (ce_idx ce !! k) as [i|]; [|reflexivity]. unfold vec_get. destruct (i <? n)%nat; [|reflexivity].
  rewrite lookup_fmap. destruct (ce_vals ce !! i); reflexivity.
Qed.
Lemma rawc_insert ce n k v : cinsert (rawc ce) n (enc_str k) (ev v) = match cinsert ce n k v with Ok (c, m) => Ok (rawc c, m) | Panic e => Panic e end.
Proof using.
  unfold cinsert. cbn [rawc ce_idx ce_vals ce_keys]. rewrite km_get. destruct (ce_idx ce !! k) as [i|].
  - destruct (i <? n)%nat; [|reflexivity]. rewrite lookup_fmap. destruct (ce_vals ce !! i); [|reflexivity]. cbn [fmap option_fmap option_map mbind res_bind]. unfold rawc. cbn [ce_idx ce_keys ce_vals]. rewrite fmap_insert. reflexivity.
  - cbn [mbind res_bind]. unfold rawc. cbn [ce_idx ce_keys ce_vals]. rewrite !fmap_insert, km_set. reflexivity.
Qed.
Lemma fmap_swap {A C} (f : A -> C) (m : gmap nat A) n i : vec_swap_remove (f <$> m : gmap nat C) n i = match vec_swap_remove m n i with Ok r => Ok (f <$> r : gmap nat C) | Panic e => Panic e end.
Proof using.
  unfold vec_swap_remove. destruct (i <? n)%nat; [|reflexivity]. rewrite !lookup_fmap. destruct (m !! (n - 1)%nat); [|reflexivity]. cbn [fmap option_fmap option_map].
  destruct (i =? n - 1)%nat; [cbn [mbind res_bind]; rewrite fmap_delete; reflexivity|]. destruct (m !! i); [|reflexivity]. cbn [fmap option_fmap option_map mbind res_bind]. rewrite fmap_insert, fmap_delete. reflexivity.
Qed.
Lemma rawc_remove ce n k : cremove (rawc ce) n (enc_str k) = match cremove ce n k with Ok (c, m) => Ok (rawc c, m) | Panic e => Panic e end.
Proof using.
  unfold cremove. cbn [rawc ce_idx ce_vals ce_keys]. rewrite km_get. destruct (ce_idx ce !! k) as [i|]; [|reflexivity].
  rewrite <- km_del.
  match goal with |- (?X ≫= _) = match (?Y ≫= _) with _ => _ end => assert (E : X = match Y with Ok x => Ok (km x) | Panic e => Panic e end) end.
  { destruct (n =? 1)%nat; [reflexivity|]. destruct (n =? 0)%nat; [reflexivity|]. unfold vec_get. destruct (n - 1 <? n)%nat; [|reflexivity]. rewrite lookup_fmap. destruct (ce_keys ce !! (n - 1)%nat) as [lk|]; [|reflexivity].
    cbn [fmap option_fmap option_map mbind res_bind]. cbv zeta. destruct (decide (lk = k)) as [->|N].
    - rewrite !bool_decide_true by reflexivity. reflexivity.
    - rewrite bool_decide_false by (intros E; apply N, enc_inj, E). rewrite bool_decide_false by exact N. rewrite km_set. reflexivity. }
  rewrite E. clear E. rewrite !fmap_swap. destruct (if (n =? 1)%nat then _ else _) as [x|]; [|reflexivity]. cbn [mbind res_bind].
  destruct (vec_swap_remove (ce_keys ce) n i) as [ks|]; [|reflexivity]. cbn [mbind res_bind]. destruct (vec_swap_remove (ce_vals ce) n i) as [vs|]; reflexivity.
Qed.

Variables (Pk : string -> Prop) (P : V -> Prop).
Hypothesis Hk : forall k, Pk k -> str_fits k.
Hypothesis Hv : forall v, P v -> try_from_slice dv (ev v) = Some (tb v).
Record RC (st : flat) (p : string) (ce : cell V) : Prop := {
  rc_cell : Rcell st p (rawc ce);
  rc_idx : forall k i, ce_idx ce !! k = Some i -> small i;
  rc_keys : forall i k, ce_keys ce !! i = Some k -> Pk k;
  rc_valsP : forall i v, ce_vals ce !! i = Some v -> P v }.
Lemma rawc_small st p ce : RC st p ce -> forall k i, ce_idx (rawc ce) !! k = Some i -> small i.
Proof using. intros R k i E. cbn [rawc ce_idx] in E. apply lookup_kmap_Some in E as (k' & -> & E); [|exact enc_inj]. exact (rc_idx _ _ _ R _ _ E). Qed.
Lemma rc_de (o : option V) : match o with Some v => P v | None => True end -> de_o dv (ev <$> o) = Ok (tb <$> o).
Proof using Hv. destruct o as [v|]; [|reflexivity]. intros L. cbn [fmap option_fmap option_map de_o]. unfold de. rewrite (Hv _ L). reflexivity. Qed.
Lemma rc_got st p ce n k o : RC st p ce -> cget ce n k = Ok o -> match o with Some v => P v | None => True end.
Proof using.
  intros R. unfold cget, vec_get. destruct (ce_idx ce !! k) as [i|]; [|intros [= <-]; exact I]. destruct (i <? n)%nat; [|discriminate]. destruct (ce_vals ce !! i) as [v|] eqn:E; [|discriminate].
  cbn [mbind res_bind]. intros [= <-]. exact (rc_valsP _ _ _ R _ _ E).
Qed.
Lemma rc_fget st p ce n k : RC st p ce -> small n -> fget st (mkH p n) (enc_str k) = match cget ce n k with Ok o => Ok (ev <$> o) | Panic e => Panic e end.
Proof using. intros R Hn. rewrite (fget_sim _ _ _ _ _ Hn (rc_cell _ _ _ R) (rawc_small _ _ _ R)). apply rawc_get. Qed.
Lemma rc_get st p ce n k : RC st p ce -> small n ->
  sim (fun o o' => o' = tb <$> o /\ match o with Some v => P v | None => True end) (cget ce n k) (u_get dv st (hd p n) (enc_str k)).
Proof using Hv.
  intros R Hn. unfold u_get. rewrite b_get_f, (rc_fget _ _ _ _ _ R Hn). destruct (cget ce n k) as [o|e] eqn:E; cbn [sim mbind res_bind]; [|eauto].
  pose proof (rc_got _ _ _ _ _ _ R E) as L. rewrite (rc_de _ L). eauto.
Qed.
Lemma rc_put st p ce n k v : RC st p ce -> small (S n) -> Pk k -> P v ->
  sim (fun x y => y.2 = hd p x.2 /\ RC y.1 p x.1 /\ frame st y.1 p /\ (x.2 <= S n)%nat) (cinsert ce n k v) (u_put dv st (hd p n) (enc_str k) (ev v)).
Proof using Hv.
  intros R Hn Lk Lv. assert (Hn0 : small n) by (unfold small in *; lia). pose proof (rc_fget _ _ _ _ k R Hn0) as Hg. pose proof (cget_cinsert ce n k v) as Hc. unfold u_put.
  destruct (cget ce n k) as [o|e] eqn:E.
  - destruct Hc as (ce' & n' & Ei & Ln). rewrite Ei. cbn [sim]. pose proof (rawc_insert ce n k v) as Er. rewrite Ei in Er. cbn [mbind res_bind] in Er.
    destruct (finsert_sim _ _ _ _ _ _ _ _ Hn0 (rc_cell _ _ _ R) (rawc_small _ _ _ R) Er) as (st' & Ef & Hr' & Hf).
    assert (Hs' : small n') by (unfold small in *; lia). rewrite (b_insert_f _ _ _ _ _ _ _ _ Hg Ef Hs'). cbn [mbind res_bind]. rewrite (rc_de _ (rc_got _ _ _ _ _ _ R E)). cbn [mbind res_bind].
    eexists. split; [reflexivity|]. cbn [fst snd]. split; [reflexivity|]. split; [|split; [exact Hf|exact Ln]].
    destruct R as [R1 R2 R3 R4]. constructor; [exact Hr'|..]; unfold cinsert in Ei; destruct (ce_idx ce !! k) as [i|] eqn:Ek.
    + destruct (i <? n)%nat; [|discriminate]. destruct (ce_vals ce !! i); [|discriminate]. injection Ei as <- <-. exact R2.
    + injection Ei as <- <-. intros k0 j. cbn [ce_idx]. destruct (decide (k = k0)) as [->|N]; [rewrite lookup_insert; intros [= <-]; exact Hn0|rewrite lookup_insert_ne by exact N; apply R2].
    + destruct (i <? n)%nat; [|discriminate]. destruct (ce_vals ce !! i); [|discriminate]. injection Ei as <- <-. exact R3.
    + injection Ei as <- <-. intros j k0. cbn [ce_keys]. destruct (decide (n = j)) as [->|N]; [rewrite lookup_insert; intros [= <-]; exact Lk|rewrite lookup_insert_ne by exact N; apply R3].
    + destruct (i <? n)%nat; [|discriminate]. destruct (ce_vals ce !! i); [|discriminate]. injection Ei as <- <-. intros j v9. cbn [ce_vals].
      destruct (decide (i = j)) as [->|N]; [rewrite lookup_insert; intros [= <-]; exact Lv|rewrite lookup_insert_ne by exact N; apply R4].
    + injection Ei as <- <-. intros j v9. cbn [ce_vals]. destruct (decide (n = j)) as [->|N]; [rewrite lookup_insert; intros [= <-]; exact Lv|rewrite lookup_insert_ne by exact N; apply R4].
  - destruct Hc as (e' & ->). cbn [sim]. destruct (insert_back _ _ _ _ (ev v) _ Hg) as (e2 & ->). cbn [mbind res_bind]. eauto.
Qed.
Lemma swap_keeps {A} (Q : A -> Prop) (m : gmap nat A) n i m' : (forall j a, m !! j = Some a -> Q a) -> vec_swap_remove m n i = Ok m' -> forall j a, m' !! j = Some a -> Q a.
Proof using.
  intros F. unfold vec_swap_remove. destruct (i <? n)%nat; [|discriminate]. destruct (m !! (n - 1)%nat) as [a|] eqn:E; [|discriminate]. destruct (i =? n - 1)%nat.
  - intros [= <-] j b L. apply lookup_delete_Some in L as [_ L]. exact (F _ _ L).
  - destruct (m !! i); [|discriminate]. intros [= <-] j b L. apply lookup_insert_Some in L as [[_ <-]|[_ L]]; [exact (F _ _ E)|]. apply lookup_delete_Some in L as [_ L]. exact (F _ _ L).
Qed.
Lemma fremove_back st p ce n k e : small n -> Rcell st p ce -> (forall k' i, ce_idx ce !! k' = Some i -> small i) -> cremove ce n k = Panic e -> exists e', b_remove st (hd p n) k = Panic e'.
Proof using.
  intros Hl (Hi & Hkk & Hvv) Hs. unfold b_remove, cremove. rewrite hd_idx, hd_len. cbn [hd um_vlen um_vpre um_klen um_kpre um_pre]. rewrite !Nat2N.id. rewrite Hi.
  destruct (ce_idx ce !! k) as [i|] eqn:E; cbn [fmap option_fmap option_map]; [|discriminate]. pose proof (Hs _ _ E) as Hsi. cbn [mbind res_bind].
  fold (keys_pref p) (vals_pref p).
  match goal with |- (?X ≫= _) = _ -> exists e', (?Y ≫= _) = _ => assert (M : match X with Ok idx' => exists st1, Y = Ok st1 /\ (forall key, (forall k', key <> idx_key_raw p k') -> st1 !! key = st !! key) | Panic _ => exists e', Y = Panic e' end) end.
  { assert (Hfd : forall key, (forall k', key <> idx_key_raw p k') -> delete (idx_key_raw p k) st !! key = st !! key).
    { intros key F. apply lookup_delete_ne. intros <-. eapply F; reflexivity. }
    destruct (Nat.eqb_spec n 1) as [->|H1]; [eexists; split; [reflexivity|exact Hfd]|]. destruct (N.eqb_spec (N.of_nat n) 1); [lia|].
    destruct (Nat.eqb_spec n 0) as [->|H0]; [eexists; reflexivity|]. destruct (N.eqb_spec (N.of_nat n) 0); [lia|]. replace (N.to_nat (N.of_nat n - 1)) with (n - 1)%nat by lia.
    rewrite (fvec_get_sim _ _ _ _ _ Hl Hkk). destruct (vec_get (ce_keys ce) n (n - 1)) as [[lk|]|]; cbn [mbind res_bind]; [|eauto|eauto]. cbv zeta.
    eexists. split; [reflexivity|]. destruct (bool_decide (lk = k)); [exact Hfd|]. intros key F.
    rewrite lookup_insert_ne; [apply Hfd; exact F|]. intros <-. apply (F lk). unfold idx_key_raw. apply sapp_assoc. }
  destruct (if (n =? 1)%nat then _ else _) as [idx'|]; [|destruct M as (e' & ->); cbn [mbind res_bind]; eauto]. destruct M as (st1 & -> & Hf1). cbn [mbind res_bind].
  rewrite fidx_enc by exact Hsi. cbn [mbind res_bind].
  assert (Hk1 : Rvec st1 (keys_pref p) (ce_keys ce)).
  { eapply Rvec_other; [|exact Hkk]. intros j. apply Hf1. intros k' F. symmetry in F. exact (idx_ne_keys _ _ _ F). }
  destruct (vec_swap_remove (ce_keys ce) n i) as [ks|] eqn:H2; [|destruct (swap_back _ _ _ _ _ _ Hl Hk1 H2) as (e' & ->); cbn [mbind res_bind]; eauto].
  destruct (swap_remove_sim _ _ _ _ _ _ Hl Hk1 H2) as (st2 & E2 & Hk2 & Hf2). rewrite E2. cbn [mbind res_bind].
  assert (Hv2 : Rvec st2 (vals_pref p) (ce_vals ce)).
  { eapply Rvec_other; [|exact Hvv]. intros j. rewrite Hf2 by (intros j' F; symmetry in F; exact (keys_ne_vals _ _ _ F)).
    apply Hf1. intros k' F. symmetry in F. exact (idx_ne_vals _ _ _ F). }
  destruct (vec_swap_remove (ce_vals ce) n i) as [vs|] eqn:H3; [discriminate|]. intros _. destruct (fvec_get st2 (vals_pref p) n i) as [old|]; cbn [mbind res_bind]; [|eauto].
  destruct (swap_back _ _ _ _ _ _ Hl Hv2 H3) as (e' & ->). cbn [mbind res_bind]. eauto.
Qed.
Lemma cremove_len (ce : cell V) n k ce' n' : cremove ce n k = Ok (ce', n') -> (n' <= n)%nat.
Proof using. unfold cremove. destruct (ce_idx ce !! k); [|intros [= _ <-]; lia]. intros E. apply bind_Ok in E as (? & _ & E). apply bind_Ok in E as (? & _ & E). apply bind_Ok in E as (? & _ & E). injection E as _ <-. lia. Qed.
Lemma cremove_get (ce : cell V) n k x : cremove ce n k = Ok x -> exists o, cget ce n k = Ok o.
Proof using.
  unfold cremove, cget. destruct (ce_idx ce !! k) as [i|]; [|eauto]. intros E. apply bind_Ok in E as (? & _ & E). apply bind_Ok in E as (? & _ & E). apply bind_Ok in E as (vs & Ev & E).
  unfold vec_swap_remove in Ev. unfold vec_get. destruct (i <? n)%nat; [|discriminate]. destruct (ce_vals ce !! (n - 1)%nat) eqn:E1; [|discriminate]. destruct (Nat.eqb_spec i (n - 1)) as [->|].
  - rewrite E1. cbn. eauto.
  - destruct (ce_vals ce !! i); [|discriminate]. cbn. eauto.
Qed.
Lemma rc_del st p ce n k : RC st p ce -> small n ->
  sim (fun x y => y.2 = hd p x.2 /\ RC y.1 p x.1 /\ frame st y.1 p /\ (x.2 <= n)%nat) (cremove ce n k) (u_del dv st (hd p n) (enc_str k)).
Proof using Hv.
  intros R Hn. unfold u_del. pose proof (rawc_remove ce n k) as Er. destruct (cremove ce n k) as [[ce' n']|e] eqn:E; cbn [mbind res_bind] in Er.
  - cbn [sim]. destruct (cremove_get _ _ _ _ E) as (o & Eo). pose proof (rc_fget _ _ _ _ k R Hn) as Hg. rewrite Eo in Hg.
    destruct (fremove_sim _ _ _ _ _ _ _ Hn (rc_cell _ _ _ R) (rawc_small _ _ _ R) Er) as (st' & Ef & Hr' & Hf). rewrite (b_remove_f _ _ _ _ _ _ _ Hg Ef). cbn [mbind res_bind].
    rewrite (rc_de _ (rc_got _ _ _ _ _ _ R Eo)). cbn [mbind res_bind]. eexists. split; [reflexivity|]. cbn [fst snd]. split; [reflexivity|]. split; [|split; [exact Hf|exact (cremove_len _ _ _ _ _ E)]].
    destruct R as [R1 R2 R3 R4]. constructor; [exact Hr'|..]; unfold cremove in E; (destruct (ce_idx ce !! k) as [i|] eqn:Ek; [|injection E as <- <-; assumption]);
      apply bind_Ok in E as (ix & E1 & E); apply bind_Ok in E as (ks & E2 & E); apply bind_Ok in E as (vs & E3 & E); injection E as <- <-.
    + cbn [ce_idx]. assert (Fd : forall k0 j, delete k (ce_idx ce) !! k0 = Some j -> small j) by (intros k0 j L; apply lookup_delete_Some in L as [_ L]; exact (R2 _ _ L)).
      destruct (n =? 1)%nat; [injection E1 as <-; exact Fd|]. destruct (n =? 0)%nat; [discriminate|]. apply bind_Ok in E1 as (ol & _ & E1). destruct ol as [lk|]; [|discriminate]. injection E1 as <-.
      destruct (bool_decide (lk = k)); [exact Fd|]. intros k0 j L. apply lookup_insert_Some in L as [[_ <-]|[_ L]]; [exact (R2 _ _ Ek)|exact (Fd _ _ L)].
    + exact (swap_keeps _ _ _ _ _ R3 E2).
    + exact (swap_keeps _ _ _ _ _ R4 E3).
  - destruct (fremove_back _ _ _ _ _ _ Hn (rc_cell _ _ _ R) (rawc_small _ _ _ R) Er) as (e' & ->). cbn. eauto.
Qed.
Lemma rc_key st p ce n i : RC st p ce -> small n ->
  sim (fun o o' => o' = o /\ match o with Some k => Pk k | None => True end) (vec_get (ce_keys ce) n i) (u_key dec_str st (hd p n) i).
Proof using Hk.
  intros R Hn. unfold u_key. cbn [hd um_kpre um_klen]. rewrite Nat2N.id. fold (keys_pref p). pose proof (rc_cell _ _ _ R) as (_ & Rk & _). rewrite (fvec_get_sim _ _ _ _ _ Hn Rk).
  unfold vec_get. cbn [rawc ce_keys]. rewrite lookup_fmap. destruct (i <? n)%nat; [|cbn; eauto]. destruct (ce_keys ce !! i) as [k|] eqn:E; [|cbn; eauto].
  cbn [fmap option_fmap option_map mbind res_bind de_o sim]. pose proof (rc_keys _ _ _ R _ _ E) as L. unfold de. rewrite (slice_ok dec_str (enc_str k) k) by (intros r; apply dec_enc_str, Hk, L).
  cbn. eauto.
Qed.
Lemma sim_mapMr {A C D E} (R : C -> D -> Prop) (f : A -> res C) (g : E -> res D) (la : list A) (le : list E) :
  Forall2 (fun a e => sim R (f a) (g e)) la le -> sim (Forall2 R) (mapMr f la) (mapMr g le).
Proof using.
  intros F. induction F as [|a e la le Hx F IH]; cbn [mapMr sim]; [eauto|]. destruct (f a) as [c|]; cbn [sim mbind res_bind] in *; [|destruct Hx as (? & ->); cbn; eauto].
  destruct Hx as (d & -> & Hx). cbn [mbind res_bind]. destruct (mapMr f la) as [l|]; cbn [sim mbind res_bind] in *; [|destruct IH as (? & ->); cbn; eauto]. destruct IH as (l' & -> & IH). cbn. eauto.
Qed.
Lemma rc_vals st p ce n : RC st p ce -> small n ->
  sim (Forall2 (fun v b => b = tb v /\ P v)) (vec_elems (ce_vals ce) n) (m_vals dv st (hd p n)).
Proof using Hv.
  intros R Hn. unfold vec_elems, m_vals. cbn [hd um_vlen]. rewrite Nat2N.id. fold (hd p n). apply sim_mapMr. apply Forall2_same_length_lookup_2; [reflexivity|]. intros j a b Ea Eb. rewrite Ea in Eb. injection Eb as <-.
  apply lookup_seq in Ea as [-> Lj]. cbn [Nat.add]. unfold u_val. cbn [hd um_vpre um_vlen]. rewrite Nat2N.id. fold (vals_pref p). pose proof (rc_cell _ _ _ R) as (_ & _ & Rv). rewrite (fvec_get_sim _ _ _ _ _ Hn Rv).
  unfold vec_get. cbn [rawc ce_vals]. rewrite lookup_fmap. destruct (Nat.ltb_spec j n); [|lia]. destruct (ce_vals ce !! j) as [v|] eqn:E; [|cbn; eauto].
  cbn [fmap option_fmap option_map mbind res_bind de_o sim]. pose proof (rc_valsP _ _ _ R _ _ E) as L. unfold de. rewrite (Hv _ L). cbn. eauto.
Qed.
Lemma rc_other st st' p ce : (forall key, under p key -> st' !! key = st !! key) -> RC st p ce -> RC st' p ce.
Proof using.
  intros X [(R1 & R2 & R3) H2 H3 H4]. constructor; [|assumption..]. split; [|split].
  - apply (Ridx_other st); [|exact R1]. intros k. apply X, under_idx.
  - apply (Rvec_other st); [|exact R2]. intros i. apply X, under_keys.
  - apply (Rvec_other st); [|exact R3]. intros i. apply X, under_vals.
Qed.
Lemma rc_empty p : RC ∅ p empty_cell.
Proof using.
  constructor.
  - unfold rawc, empty_cell. cbn [ce_idx ce_keys ce_vals]. rewrite !fmap_empty, km_empty. split; [|split].
    + intros k. cbn [ce_idx]. rewrite !lookup_empty. reflexivity.
    + intros i _. cbn [ce_keys]. rewrite !lookup_empty. reflexivity.
    + intros i _. cbn [ce_vals]. rewrite !lookup_empty. reflexivity.
  - intros k i E. cbn [empty_cell ce_idx] in E. rewrite lookup_empty in E. discriminate.
  - intros i k E. cbn [empty_cell ce_keys] in E. rewrite lookup_empty in E. discriminate.
  - intros i k E. cbn [empty_cell ce_vals] in E. rewrite lookup_empty in E. discriminate.
Qed.
End RC.
Lemma RC_weaken {V} (ev : V -> string) (Pk Pk' : string -> Prop) (P P' : V -> Prop) st p ce : (forall k, Pk k -> Pk' k) -> (forall v, P v -> P' v) -> RC ev Pk P st p ce -> RC ev Pk' P' st p ce.
Proof. intros F G [R1 R2 R3 R4]. constructor; [exact R1|exact R2|intros i k E; exact (F _ (R3 _ _ E))|intros i v E; exact (G _ (R4 _ _ E))]. Qed.
