(** BoardMaps.v -- for C99: an UnorderedMap of typed keys and values on the bytes of the storage behaves as an ordered map. *)

From Verif Require Export BoardBytes.
From Verif Require Import FlatProofs WireProofs EntryProofs AskProofs KVBytesProofs MpipSized.
Import FlatProofs KVBytesProofs.

(** two prefixes of which none goes on as the other *)
Definition apart (p q : string) : Prop := forall a b, p +:+ a <> q +:+ b.

(** every key under [p] that is present belongs to an entry of [r] *)
Definition rfoot (st : flat) (p : string) (r : list (string * string)) : Prop :=
  forall key, under p key -> is_Some (st !! key) -> (exists k, k ∈ r.*1 /\ key = idx_key_raw p k) \/
    (exists i, (i < length r)%nat /\ (key = vec_key (keys_pref p) i \/ key = vec_key (vals_pref p) i)).
Lemma raw_get st p r ce k : Rcell st p ce -> crep ce (length r) r -> cexact ce r -> small (length r) -> fget st (mkH p (length r)) k = Ok (om_get r k).
Proof.
  intros Hr Hc Hx Hs. rewrite (fget_sim _ _ _ _ _ Hs Hr), (cget_exact _ _ _ _ Hc Hx); [reflexivity|].
  intros k' i E. destruct (Hx _ _ E) as [v L]. apply lookup_lt_Some in L. unfold small in *. lia.
Qed.
Lemma raw_absent st p r ce k : Rcell st p ce -> crep ce (length r) r -> cexact ce r -> small (length r) -> st !! idx_key_raw p k = None -> om_get r k = None.
Proof. intros Hr Hc Hx Hs E. pose proof (raw_get _ _ _ _ k Hr Hc Hx Hs) as Hg. unfold fget in Hg. cbn [h_pref] in Hg. rewrite E in Hg. injection Hg as <-. reflexivity. Qed.
Lemma raw_present st p r ce k : Rcell st p ce -> crep ce (length r) r -> cexact ce r -> small (length r) -> is_Some (st !! idx_key_raw p k) -> exists v, om_get r k = Some v.
Proof.
  intros Hr Hc Hx Hs [b E]. pose proof (raw_get _ _ _ _ k Hr Hc Hx Hs) as Hg. unfold fget in Hg. cbn [h_pref h_len] in Hg. rewrite E in Hg. apply bind_Ok in Hg as (i & _ & Hg).
  apply bind_Ok in Hg as (o & _ & Hg). destruct o as [v|]; [|discriminate]. injection Hg as <-. eauto.
Qed.
Lemma rfoot_insert st p r ce k v st' h o : Rcell st p ce -> crep ce (length r) r -> cexact ce r -> small (length r) -> rfoot st p r ->
  b_insert st (hd p (length r)) k v = Ok (st', h, o) -> rfoot st' p (om_set r k v).
Proof.
  intros Hr Hc Hx Hs HF E. unfold b_insert in E. rewrite hd_idx in E. cbn [hd um_vlen um_vpre um_klen um_kpre um_pre] in E. rewrite !Nat2N.id in E.
  assert (Hold : forall key, under p key -> is_Some (st !! key) -> (exists k0, k0 ∈ (om_set r k v).*1 /\ key = idx_key_raw p k0) \/
     (exists i, (i < length (om_set r k v))%nat /\ (key = vec_key (keys_pref p) i \/ key = vec_key (vals_pref p) i))).
  { intros key Hu Hk. destruct (HF key Hu Hk) as [(k0 & H0 & H1)|(i & H0 & H1)].
    - left. exists k0. split; [apply set_keys; right; exact H0|exact H1].
    - right. exists i. split; [rewrite len_set; destruct (om_get r k); lia|exact H1]. }
  destruct (st !! idx_key_raw p k) as [b|] eqn:Ei.
  - apply bind_Ok in E as (i & Efi & E). apply bind_Ok in E as (u & El & E). apply require_Ok in El. apply Nat.ltb_lt in El.
    destruct (st !! vec_key (p +:+ "v") i) eqn:Ev; [|discriminate]. injection E as <- <- <-. intros key Hu Hk. apply Hold; [exact Hu|].
    destruct (decide (key = vec_key (p +:+ "v") i)) as [->|Hne]; [rewrite Ev; eauto|]. rewrite lookup_insert_ne in Hk by congruence. exact Hk.
  - pose proof (raw_absent _ _ _ _ _ Hr Hc Hx Hs Ei) as Eg. assert (Hl : length (om_set r k v) = S (length r)) by (rewrite len_set, Eg; reflexivity).
    change (mkUmh (p +:+ "i") (N.of_nat (length r)) (p +:+ "k") (N.of_nat (length r)) (p +:+ "v")) with (hd p (length r)) in E. rewrite hd_len in E. cbn [mbind res_bind] in E.
    apply bind_Ok in E as (x & _ & E). apply bind_Ok in E as (y & _ & E). injection E as <- <- <-. intros key Hu Hk.
    destruct (decide (key = vec_key (p +:+ "v") (length r))) as [->|H1]; [right; exists (length r); split; [lia|right; reflexivity]|]. rewrite lookup_insert_ne in Hk by congruence.
    destruct (decide (key = vec_key (p +:+ "k") (length r))) as [->|H2]; [right; exists (length r); split; [lia|left; reflexivity]|]. rewrite lookup_insert_ne in Hk by congruence.
    destruct (decide (key = idx_key_raw p k)) as [->|H3]; [left; exists k; split; [apply set_keys; left; reflexivity|reflexivity]|]. rewrite lookup_insert_ne in Hk by congruence.
    apply Hold; [exact Hu|exact Hk].
Qed.
Lemma rfoot_remove st p r ce k st' h o : Rcell st p ce -> crep ce (length r) r -> cexact ce r -> small (length r) -> rfoot st p r ->
  b_remove st (hd p (length r)) k = Ok (st', h, o) -> rfoot st' p (om_remove r k).
Proof.
  intros Hr Hc Hx Hs HF E. unfold b_remove in E. rewrite hd_idx, hd_len in E. cbn [hd um_vlen um_vpre um_klen um_kpre um_pre] in E. rewrite !Nat2N.id in E.
  destruct (st !! idx_key_raw p k) as [b|] eqn:Ei.
  2: { injection E as <- <- <-. rewrite om_remove_None by exact (raw_absent _ _ _ _ _ Hr Hc Hx Hs Ei). exact HF. }
  destruct (raw_present _ _ _ _ k Hr Hc Hx Hs (ex_intro _ _ Ei)) as (v & Eg). pose proof (Permutation_length (om_remove_cons _ _ _ Eg)) as Hl. cbn [length] in Hl.
  cbn [mbind res_bind] in E. apply bind_Ok in E as (s1 & E1 & E). apply bind_Ok in E as (i & Efi & E). apply bind_Ok in E as (s2 & E2 & E). apply bind_Ok in E as (old & Eo & E).
  apply bind_Ok in E as (s3 & E3 & E). injection E as <- <- <-.
  intros key Hu Hk. apply (swap_some _ _ _ _ _ _ Hs E3) in Hk as [Hk Nv]. apply (swap_some _ _ _ _ _ _ Hs E2) in Hk as [Hk Nk].
  assert (Hm : is_Some (st !! key) /\ key <> idx_key_raw p k).
  { assert (Hd : is_Some (delete (idx_key_raw p k) st !! key) -> is_Some (st !! key) /\ key <> idx_key_raw p k).
    { intros [w Hw]. apply lookup_delete_Some in Hw as [Hne Hw]. split; [eauto|congruence]. }
    destruct (N.eqb_spec (N.of_nat (length r)) 1) as [_|N1]; [injection E1 as <-; apply Hd; exact Hk|].
    destruct (N.eqb_spec (N.of_nat (length r)) 0) as [_|N0]; [discriminate|]. apply bind_Ok in E1 as (ol & Eol & E1). destruct ol as [lk|]; [|discriminate].
    replace (N.to_nat (N.of_nat (length r) - 1)) with (length r - 1)%nat in Eol by lia. injection E1 as <-. case_bool_decide as Hlk; [apply Hd; exact Hk|].
    destruct (decide (key = (p +:+ "i") +:+ lk)) as [->|Hne]; [|rewrite lookup_insert_ne in Hk by congruence; apply Hd; exact Hk].
    destruct (lookup_lt_is_Some_2 r (length r - 1)) as [[k0 v0] H0]; [lia|]. destruct Hr as (R1 & R2 & _). destruct Hc as [_ Hc].
    destruct (Hc (length r - 1)%nat k0 v0 H0) as (C1 & _ & C3).
    unfold fvec_get in Eol. destruct (length r - 1 <? length r)%nat; [|discriminate]. fold (keys_pref p) in Eol. rewrite R2 in Eol by (unfold small in *; lia). rewrite C1 in Eol. injection Eol as <-.
    assert (Ek : (p +:+ "i") +:+ k0 = idx_key_raw p k0) by (unfold idx_key_raw; rewrite sapp_assoc; reflexivity). rewrite Ek.
    split; [|intros E; apply Hlk; unfold idx_key_raw in E; apply sapp_inj, sapp_inj in E; exact E].
    rewrite R1, C3. cbn. eauto. }
  destruct Hm as [Hm Ni]. destruct (HF key Hu Hm) as [(k0 & H0 & ->)|(j & Hj & Hkey)].
  - left. exists k0. split; [|reflexivity]. assert (Hne : k <> k0) by (intros ->; contradiction).
    destruct (om_get (om_remove r k) k0) as [w|] eqn:Ew; [exact (om_get_Some_key _ _ _ Ew)|]. rewrite om_get_remove_ne in Ew; [apply om_get_None in Ew; contradiction|exact (crep_NoDup _ _ _ Hc)|exact Hne].
  - right. exists j. split; [|exact Hkey]. assert (j <> length r - 1)%nat; [|lia]. intros ->. destruct Hkey as [->| ->]; [apply Nk; reflexivity|apply Nv; reflexivity].
Qed.

Section Typed.
Context {K V B : Type} `{EqDecision K}.
Variables (ek : K -> string) (ev : K -> V -> string) (dk : string -> option (K * string)) (dv : string -> option (B * string)) (tb : K -> V -> B).
Variables (Pk : K -> Prop) (W : K -> V -> Prop).
Hypothesis Hk : forall k, Pk k -> try_from_slice dk (ek k) = Some k.
Hypothesis Hv : forall k v, W k v -> try_from_slice dv (ev k v) = Some (tb k v).
Hypothesis Hw : forall k v, W k v -> Pk k.

Definition traw (l : omap_t K V) : list (string * string) := map (fun e => (ek e.1, ev e.1 e.2)) l.
Definition TMap (st : flat) (p : string) (l : omap_t K V) : Prop :=
  exists ce, Rcell st p ce /\ crep ce (length l) (traw l) /\ cexact ce (traw l) /\ all W l /\ small (length l) /\ rfoot st p (traw l).

Lemma ek_inj a b : Pk a -> Pk b -> ek a = ek b -> a = b.
Proof using Hk. intros Ha Hb E. apply Hk in Ha, Hb. rewrite E in Ha. congruence. Qed.
Lemma traw_get l k : all W l -> Pk k -> om_get (traw l) (ek k) = ev k <$> om_get l k.
Proof using Hk Hw.
  intros F P. induction F as [|[k' v] l Hx F IH]; [reflexivity|]. cbn [traw map om_get fst snd] in *. destruct (decide (k = k')) as [->|N].
  - rewrite decide_True by reflexivity. reflexivity.
  - rewrite decide_False by (intros E; apply N, ek_inj; eauto). exact IH.
Qed.
Lemma traw_set l k v : all W l -> Pk k -> om_set (traw l) (ek k) (ev k v) = traw (om_set l k v).
Proof using Hk Hw.
  intros F P. induction F as [|[k' v'] l Hx F IH]; [reflexivity|]. cbn [traw map om_set fst snd] in *. destruct (decide (k = k')) as [->|N].
  - rewrite decide_True by reflexivity. reflexivity.
  - rewrite decide_False by (intros E; apply N, ek_inj; eauto). cbn [map fst snd]. f_equal. exact IH.
Qed.
Lemma traw_index l k : all W l -> Pk k -> om_index (traw l) (ek k) = om_index l k.
Proof using Hk Hw.
  intros F P. induction F as [|[k' v'] l Hx F IH]; [reflexivity|]. cbn [traw map om_index fst snd] in *. destruct (decide (k = k')) as [->|N].
  - rewrite decide_True by reflexivity. reflexivity.
  - rewrite decide_False by (intros E; apply N, ek_inj; eauto). f_equal. exact IH.
Qed.
Lemma traw_remove l k : all W l -> Pk k -> om_remove (traw l) (ek k) = traw (om_remove l k).
Proof using Hk Hw.
  intros F P. unfold om_remove. rewrite (traw_index _ _ F P). destruct (om_index l k) as [i|]; [|reflexivity]. unfold swap_remove.
  assert (E : last (traw l) = (fun e => (ek e.1, ev e.1 e.2)) <$> last l) by apply fmap_last. rewrite E. destruct (last l) as [x|]; [|reflexivity].
  cbn [fmap option_fmap option_map]. unfold traw. rewrite map_length, <- firstn_map. f_equal.
  symmetry. exact (list_fmap_insert (fun e : K * V => (ek e.1, ev e.1 e.2)) l i x).
Qed.
Lemma traw_lookup l i : traw l !! i = (fun e => (ek e.1, ev e.1 e.2)) <$> l !! i.
Proof using. apply list_lookup_fmap. Qed.
Lemma traw_len l : length (traw l) = length l. Proof using. apply map_length. Qed.
Lemma traw_nodup l : NoDup (traw l).*1 -> NoDup l.*1.
Proof using.
  intros N. apply (NoDup_fmap_1 ek). replace (ek <$> l.*1) with (traw l).*1; [exact N|]. unfold traw. clear N. induction l as [|e l IH]; [reflexivity|]. cbn. f_equal. exact IH.
Qed.
Lemma t_small ce l : cexact ce (traw l) -> small (length l) -> forall k i, ce_idx ce !! k = Some i -> small i.
Proof using. intros Hx Hs k i E. destruct (Hx _ _ E) as [v L]. apply lookup_lt_Some in L. rewrite traw_len in L. unfold small in *. lia. Qed.
Lemma t_raw st p l k : TMap st p l -> Pk k -> fget st (mkH p (length l)) (ek k) = Ok (ev k <$> om_get l k).
Proof using Hk Hw.
  intros (ce & Hr & Hc & Hx & F & Hs & Hft) P. rewrite (fget_sim _ _ _ _ _ Hs Hr (t_small _ _ Hx Hs)), (cget_exact _ _ _ _ Hc Hx), traw_get by assumption. reflexivity.
Qed.
Lemma t_all st p l : TMap st p l -> all W l. Proof using. intros (ce & _ & _ & _ & F & _). exact F. Qed.
Lemma t_len st p l : TMap st p l -> small (length l). Proof using. intros (ce & _ & _ & _ & _ & F & _). exact F. Qed.
Lemma t_nodup st p l : TMap st p l -> NoDup l.*1.
Proof using. intros (ce & _ & Hc & _). apply traw_nodup. exact (crep_NoDup _ _ _ Hc). Qed.
Lemma t_de l k : all W l -> de_o dv (ev k <$> om_get l k) = Ok (tb k <$> om_get l k).
Proof using Hv. intros F. destruct (om_get l k) as [v|] eqn:E; [|reflexivity]. cbn [fmap option_fmap option_map de_o]. unfold de. rewrite (Hv _ _ (all_get _ _ _ _ F E)). reflexivity. Qed.
Lemma t_get st p l k : TMap st p l -> Pk k -> u_get dv st (hd p (length l)) (ek k) = Ok (tb k <$> om_get l k).
Proof using Hk Hw Hv. intros T P. unfold u_get. rewrite b_get_f, (t_raw _ _ _ _ T P). cbn [mbind res_bind]. apply t_de. exact (t_all _ _ _ T). Qed.
Lemma t_put st p l k v : TMap st p l -> W k v -> small (length (om_set l k v)) ->
  exists st', u_put dv st (hd p (length l)) (ek k) (ev k v) = Ok (st', hd p (length (om_set l k v))) /\ TMap st' p (om_set l k v) /\ frame st st' p.
Proof using Hk Hw Hv.
  intros T P Hs'. pose proof (t_raw _ _ _ _ T (Hw _ _ P)) as Hg. pose proof T as (ce & Hr & Hc & Hx & F & Hs & Hft).
  destruct (cinsert_exact _ _ _ (ek k) (ev k v) Hc Hx) as (ce' & n' & Ei & Hc' & Hx'). rewrite traw_set in Hc', Hx' by eauto.
  destruct (finsert_sim _ _ _ _ _ _ _ _ Hs Hr (t_small _ _ Hx Hs) Ei) as (st' & Ef & Hr' & Hf). pose proof (proj1 Hc') as E. rewrite traw_len in E. subst n'.
  exists st'. split; [|split; [|exact Hf]].
  - unfold u_put. rewrite (b_insert_f _ _ _ _ _ _ _ _ Hg Ef Hs'). cbn [mbind res_bind]. rewrite (t_de _ _ F). reflexivity.
  - exists ce'. split; [exact Hr'|]. split; [exact Hc'|]. split; [exact Hx'|]. split; [apply all_set; assumption|]. split; [exact Hs'|].
    rewrite <- traw_set by eauto. eapply rfoot_insert; [exact Hr|rewrite traw_len; exact Hc|exact Hx|rewrite traw_len; exact Hs|exact Hft|]. rewrite traw_len. exact (b_insert_f _ _ _ _ _ _ _ _ Hg Ef Hs').
Qed.
Lemma olen_remove (l : omap_t K V) k : (length (om_remove l k) <= length l)%nat.
Proof using.
  destruct (om_get l k) as [v|] eqn:E; [|rewrite om_remove_None by exact E; lia]. pose proof (Permutation_length (om_remove_cons _ _ _ E)) as L. cbn [length] in L. lia.
Qed.
Lemma olen_set (l : omap_t K V) k v : (length (om_set l k v) <= S (length l))%nat.
Proof using. induction l as [|[k' v'] l IH]; cbn [om_set length]; [lia|]. destruct (decide (k = k')); cbn [length]; lia. Qed.
Lemma t_del st p l k : TMap st p l -> Pk k ->
  exists st', u_del dv st (hd p (length l)) (ek k) = Ok (st', hd p (length (om_remove l k))) /\ TMap st' p (om_remove l k) /\ frame st st' p.
Proof using Hk Hw Hv.
  intros T P. pose proof (t_raw _ _ _ _ T P) as Hg. pose proof T as (ce & Hr & Hc & Hx & F & Hs & Hft).
  destruct (cremove_exact _ _ _ (ek k) Hc Hx) as (ce' & n' & Ei & Hc' & Hx'). rewrite traw_remove in Hc', Hx' by eauto.
  destruct (fremove_sim _ _ _ _ _ _ _ Hs Hr (t_small _ _ Hx Hs) Ei) as (st' & Ef & Hr' & Hf). pose proof (proj1 Hc') as E. rewrite traw_len in E. subst n'.
  exists st'. split; [|split; [|exact Hf]].
  - unfold u_del. rewrite (b_remove_f _ _ _ _ _ _ _ Hg Ef). cbn [mbind res_bind]. rewrite (t_de _ _ F). reflexivity.
  - exists ce'. split; [exact Hr'|]. split; [exact Hc'|]. split; [exact Hx'|]. split; [apply all_remove; exact F|]. split; [pose proof (olen_remove l k); unfold small in *; lia|].
    rewrite <- traw_remove by eauto. eapply rfoot_remove; [exact Hr|rewrite traw_len; exact Hc|exact Hx|rewrite traw_len; exact Hs|exact Hft|]. rewrite traw_len. exact (b_remove_f _ _ _ _ _ _ _ Hg Ef).
Qed.
Lemma t_key st p l i k v : TMap st p l -> l !! i = Some (k, v) -> u_key dk st (hd p (length l)) i = Ok (Some k).
Proof using Hk Hw.
  intros (ce & Hr & Hc & Hx & F & Hs & Hft) L. unfold u_key. cbn [hd um_kpre um_klen]. rewrite Nat2N.id. fold (keys_pref p).
  destruct Hr as (_ & Hkk & _). rewrite (fvec_get_sim _ _ _ _ _ Hs Hkk). destruct Hc as [_ Hc]. destruct (Hc i (ek k) (ev k v)) as (E & _ & _); [rewrite traw_lookup, L; reflexivity|].
  unfold vec_get. destruct (Nat.ltb_spec i (length l)) as [_|X]; [|apply lookup_lt_Some in L; lia]. rewrite E. cbn [mbind res_bind de_o]. unfold de.
  pose proof (Forall_lookup_1 _ _ _ _ F L) as Wx. cbn [fst snd] in Wx. rewrite Hk by eauto. reflexivity.
Qed.
Lemma t_val st p l i k v : TMap st p l -> l !! i = Some (k, v) -> u_val dv st (hd p (length l)) i = Ok (Some (tb k v)).
Proof using Hv.
  intros (ce & Hr & Hc & Hx & F & Hs & Hft) L. unfold u_val. cbn [hd um_vpre um_vlen]. rewrite Nat2N.id. fold (vals_pref p).
  destruct Hr as (_ & _ & Hvv). rewrite (fvec_get_sim _ _ _ _ _ Hs Hvv). destruct Hc as [_ Hc]. destruct (Hc i (ek k) (ev k v)) as (_ & E & _); [rewrite traw_lookup, L; reflexivity|].
  unfold vec_get. destruct (Nat.ltb_spec i (length l)) as [_|X]; [|apply lookup_lt_Some in L; lia]. rewrite E. cbn [mbind res_bind de_o]. unfold de.
  pose proof (Forall_lookup_1 _ _ _ _ F L) as Wx. cbn [fst snd] in Wx. rewrite Hv by exact Wx. reflexivity.
Qed.
Lemma t_iter st p l : TMap st p l -> u_iter dk dv st (hd p (length l)) = Ok (map (fun e => (e.1, tb e.1 e.2)) l).
Proof using Hk Hw Hv.
  intros T. unfold u_iter. cbn [hd um_klen]. rewrite Nat2N.id. rewrite <- (map_length (fun e => (e.1, tb e.1 e.2)) l). fold (hd p (length l)).
  apply mapMr_seq. intros i [k x] L. rewrite map_length. change (map (fun e => (e.1, tb e.1 e.2)) l) with ((fun e : K * V => (e.1, tb e.1 e.2)) <$> l) in L.
  rewrite list_lookup_fmap in L. destruct (l !! i) as [[k0 v]|] eqn:E; [|discriminate]. injection L as <- <-.
  change (mkUmh (p +:+ "i") (N.of_nat (length l)) (p +:+ "k") (N.of_nat (length l)) (p +:+ "v")) with (hd p (length l)).
  cbn [Nat.add]. rewrite (t_key _ _ _ _ _ _ T E). cbn [mbind res_bind expect]. rewrite (t_val _ _ _ _ _ _ T E). reflexivity.
Qed.
Lemma t_other st st' p q l : frame st st' q -> apart q p -> TMap st p l -> TMap st' p l.
Proof using.
  intros Hf Ha (ce & (R1 & R2 & R3) & Hc & Hx & F & Hs & Hft). exists ce.
  assert (X : forall key, under p key -> st' !! key = st !! key).
  { intros key [x ->]. apply Hf. intros [y E]. exact (Ha y x (eq_sym E)). }
  split; [|split; [exact Hc|split; [exact Hx|split; [exact F|split; [exact Hs|]]]]]; [|intros key Hu Hp; apply Hft; [exact Hu|]; rewrite <- X by exact Hu; exact Hp].
  split; [|split].
  - apply (Ridx_other st); [|exact R1]. intros k. apply X, under_idx.
  - apply (Rvec_other st); [|exact R2]. intros i. apply X, under_keys.
  - apply (Rvec_other st); [|exact R3]. intros i. apply X, under_vals.
Qed.
Lemma t_nil p : TMap ∅ p [].
Proof using.
  exists (mkCell ∅ ∅ ∅). split; [|split; [|split; [|split; [|split]]]].
  - split; [|split].
    + intros k. rewrite lookup_empty. cbn [ce_idx]. rewrite lookup_empty. reflexivity.
    + intros i _. rewrite lookup_empty. cbn [ce_keys]. rewrite lookup_empty. reflexivity.
    + intros i _. rewrite lookup_empty. cbn [ce_vals]. rewrite lookup_empty. reflexivity.
  - split; [reflexivity|]. intros i k v E. discriminate.
  - intros k i E. cbn [ce_idx] in E. rewrite lookup_empty in E. discriminate.
  - constructor.
  - reflexivity.
  - intros key _ [b E]. rewrite lookup_empty in E. discriminate.
Qed.
(** the records of an entry *)
Lemma t_records st p l i k v : TMap st p l -> l !! i = Some (k, v) ->
  st !! (p +:+ "i" +:+ ek k) = Some (enc_uint 8 (N.of_nat i)) /\
  st !! (p +:+ "k" +:+ enc_uint 8 (N.of_nat i)) = Some (ek k) /\
  st !! (p +:+ "v" +:+ enc_uint 8 (N.of_nat i)) = Some (ev k v).
Proof using.
  intros (ce & (R1 & R2 & R3) & [_ Hc] & _ & _ & Hs & _) L.
  destruct (Hc i (ek k) (ev k v)) as (E1 & E2 & E3); [rewrite traw_lookup, L; reflexivity|].
  assert (small i) by (apply lookup_lt_Some in L; unfold small in *; lia).
  split; [|split].
  - transitivity (st !! idx_key_raw p (ek k)); [reflexivity|]. rewrite R1, E3. reflexivity.
  - transitivity (st !! vec_key (keys_pref p) i); [unfold vec_key, keys_pref; rewrite sapp_assoc; reflexivity|]. rewrite R2 by assumption. exact E1.
  - transitivity (st !! vec_key (vals_pref p) i); [unfold vec_key, vals_pref; rewrite sapp_assoc; reflexivity|]. rewrite R3 by assumption. exact E2.
Qed.
(** and no others *)
Lemma t_foot st p l key : TMap st p l -> under p key -> is_Some (st !! key) ->
  exists i k v, l !! i = Some (k, v) /\ (key = p +:+ "i" +:+ ek k \/ key = p +:+ "k" +:+ enc_uint 8 (N.of_nat i) \/ key = p +:+ "v" +:+ enc_uint 8 (N.of_nat i)).
Proof using.
  intros (ce & _ & _ & _ & _ & _ & Hft) Hu Hk'. destruct (Hft key Hu Hk') as [(k & Hi & ->)|(i & Hi & Hor)].
  - apply elem_of_list_lookup in Hi as [i Hi]. rewrite list_lookup_fmap, traw_lookup in Hi. destruct (l !! i) as [[k' v]|] eqn:E; [|discriminate]. injection Hi as <-.
    exists i, k', v. split; [exact E|]. left. reflexivity.
  - rewrite traw_len in Hi. destruct (lookup_lt_is_Some_2 l i Hi) as [[k v] E]. exists i, k, v. split; [exact E|]. right.
    destruct Hor as [->| ->]; [left; unfold vec_key, keys_pref; rewrite sapp_assoc; reflexivity|right; unfold vec_key, vals_pref; rewrite sapp_assoc; reflexivity].
Qed.
End Typed.
