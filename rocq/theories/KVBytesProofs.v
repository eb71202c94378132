(** KVBytesProofs.v -- C97: the key-value store from text to bytes. *)

From Verif Require Export KVBytesSpec.
From Verif Require Import FlatProofs WireProofs EntryProofs AskProofs.
Import FlatProofs KVBytesSpec.

(** ** The list of entries *)
Lemma value_om l k : value_of l k = om_get l k.
Proof.
  unfold value_of. induction l as [|[k' v] l IH]; [reflexivity|]. cbn [find om_get fst]. destruct (String.eqb_spec k' k) as [->|H].
  - rewrite decide_True by reflexivity. reflexivity.
  - rewrite decide_False by congruence. exact IH.
Qed.
Lemma exists_key l k : existsb (fun e : string * string => (e.1 =? k)%string) l = true <-> k ∈ l.*1.
Proof.
  rewrite existsb_exists. split.
  - intros (e & H & E). apply String.eqb_eq in E as <-. apply elem_of_list_fmap. exists e. split; [reflexivity|]. apply elem_of_list_In. exact H.
  - intros H. apply elem_of_list_fmap in H as (e & -> & H). exists e. split; [apply elem_of_list_In; exact H|]. apply String.eqb_refl.
Qed.
Lemma map_absent l k v : k ∉ l.*1 -> map (fun e : string * string => if decide (e.1 = k) then (k, v) else e) l = l.
Proof.
  induction l as [|e l IH]; intros H; [reflexivity|]. cbn [map]. cbn in H. apply not_elem_of_cons in H as [H1 H2].
  rewrite decide_False by congruence. f_equal. apply IH. exact H2.
Qed.
Lemma put_om l k v : NoDup l.*1 -> put l k v = om_set l k v.
Proof.
  unfold put. intros Hn. destruct (existsb _ l) eqn:E.
  - apply exists_key in E. induction l as [|[k' v'] l IH]; [apply elem_of_nil in E; contradiction|]. cbn [map om_set fst]. cbn in Hn, E.
    apply NoDup_cons in Hn as [H1 H2]. destruct (decide (k' = k)) as [->|H].
    + rewrite decide_True by reflexivity. f_equal. apply map_absent. exact H1.
    + rewrite decide_False by congruence. f_equal. apply IH; [exact H2|]. apply elem_of_cons in E as [E|E]; [congruence|exact E].
  - assert (H : k ∉ l.*1) by (intros H; apply exists_key in H; congruence). clear E. induction l as [|[k' v'] l IH]; [reflexivity|].
    cbn in H, Hn. apply not_elem_of_cons in H as [H1 H2]. apply NoDup_cons in Hn as [_ Hn]. cbn [app om_set]. rewrite decide_False by congruence. f_equal. apply IH; assumption.
Qed.
Lemma split_key_some l k l1 l2 : split_key l k = Some (l1, l2) -> (exists v, l = l1 ++ (k, v) :: l2) /\ om_index l k = Some (length l1).
Proof.
  revert l1. induction l as [|[k' v] l IH]; intros l1 H; [discriminate|]. cbn [split_key om_index fst] in *. destruct (decide (k' = k)) as [->|Hk].
  - injection H as <- <-. split; [exists v; reflexivity|]. rewrite decide_True by reflexivity. reflexivity.
  - destruct (split_key l k) as [[x y]|] eqn:E; [|discriminate]. injection H as <- <-. destruct (IH x eq_refl) as [[w ->] Hi]. split; [exists w; reflexivity|].
    rewrite decide_False by congruence. rewrite Hi. reflexivity.
Qed.
Lemma split_key_none l k : split_key l k = None -> om_index l k = None.
Proof.
  induction l as [|[k' v] l IH]; intros H; [reflexivity|]. cbn [split_key om_index fst] in *. destruct (decide (k' = k)) as [->|Hk]; [discriminate|].
  destruct (split_key l k) as [[x y]|] eqn:E; [discriminate|]. rewrite decide_False by congruence. rewrite IH by reflexivity. reflexivity.
Qed.
Lemma take_out_om l k : take_out l k = om_remove l k.
Proof.
  unfold take_out, om_remove. destruct (split_key l k) as [[l1 l2]|] eqn:E; [|rewrite (split_key_none _ _ E); reflexivity].
  apply split_key_some in E as [[v ->] Hi]. rewrite Hi. unfold swap_remove.
  destruct (rev l2) as [|x r] eqn:Er.
  - apply (f_equal (@rev _)) in Er. rewrite rev_involutive in Er. cbn in Er. subst l2. rewrite last_snoc. rewrite app_length. cbn [length].
    rewrite insert_app_r_alt by lia. rewrite Nat.sub_diag. cbn [insert list_insert].
    replace (length l1 + 1 - 1)%nat with (length l1) by lia. rewrite take_app. reflexivity.
  - apply (f_equal (@rev _)) in Er. rewrite rev_involutive in Er. cbn [rev] in Er. subst l2.
    replace (l1 ++ (k, v) :: rev r ++ [x]) with ((l1 ++ (k, v) :: rev r) ++ [x]) by (rewrite <- app_assoc; reflexivity). rewrite last_snoc.
    rewrite app_length. cbn [length]. replace (length (l1 ++ (k, v) :: rev r) + 1 - 1)%nat with (length (l1 ++ (k, v) :: rev r)) by lia.
    rewrite insert_app_l by (rewrite app_length; cbn [length]; lia). rewrite insert_app_r_alt by lia. rewrite Nat.sub_diag. cbn [insert list_insert].
    assert (Hl : length (l1 ++ (k, v) :: rev r) = length (l1 ++ x :: rev r)) by (rewrite !app_length; reflexivity). rewrite Hl, take_app. reflexivity.
Qed.

(** ** The list as bytes *)
Definition raw (l : list (string * string)) : list (string * string) := map (fun e => (enc_str e.1, enc_str e.2)) l.
Definition sh (e : string * string) : Prop := short e.1 /\ short e.2.
Lemma enc_inj a b : enc_str a = enc_str b -> a = b.
Proof. unfold enc_str. intros E. apply sapp_inj2 in E as [_ E]; [exact E|]. rewrite !enc_uint_len. reflexivity. Qed.
Lemma de_enc s : short s -> de_str (enc_str s) = Ok s.
Proof.
  intros H. unfold de_str, try_from_slice. rewrite <- (sapp_nil (enc_str s)), dec_enc_str; [reflexivity|exact H].
Qed.
Lemma raw_get l k : om_get (raw l) (enc_str k) = enc_str <$> om_get l k.
Proof.
  induction l as [|[k' v] l IH]; [reflexivity|]. cbn [raw map om_get fst snd]. destruct (decide (k = k')) as [->|H].
  - rewrite decide_True by reflexivity. reflexivity.
  - rewrite decide_False by (intros E; apply H, enc_inj, E). exact IH.
Qed.
Lemma raw_set l k v : om_set (raw l) (enc_str k) (enc_str v) = raw (om_set l k v).
Proof.
  induction l as [|[k' v'] l IH]; [reflexivity|]. cbn [raw map om_set fst snd]. destruct (decide (k = k')) as [->|H].
  - rewrite decide_True by reflexivity. reflexivity.
  - rewrite decide_False by (intros E; apply H, enc_inj, E). cbn [map fst snd]. f_equal. exact IH.
Qed.
Lemma raw_index l k : om_index (raw l) (enc_str k) = om_index l k.
Proof.
  induction l as [|[k' v] l IH]; [reflexivity|]. cbn [raw map om_index fst snd]. destruct (decide (k = k')) as [->|H].
  - rewrite decide_True by reflexivity. reflexivity.
  - rewrite decide_False by (intros E; apply H, enc_inj, E). f_equal. exact IH.
Qed.
Lemma raw_remove l k : om_remove (raw l) (enc_str k) = raw (om_remove l k).
Proof.
  unfold om_remove. rewrite raw_index. destruct (om_index l k) as [i|]; [|reflexivity]. unfold swap_remove.
  assert (E : last (raw l) = (fun e => (enc_str e.1, enc_str e.2)) <$> last l) by apply fmap_last. rewrite E. destruct (last l) as [x|]; [|reflexivity].
  cbn [fmap option_fmap option_map]. unfold raw. rewrite map_length, <- firstn_map. f_equal.
  symmetry. exact (list_fmap_insert (fun e : string * string => (enc_str e.1, enc_str e.2)) l i x).
Qed.
Lemma raw_lookup l i : raw l !! i = (fun e => (enc_str e.1, enc_str e.2)) <$> l !! i.
Proof. apply list_lookup_fmap. Qed.
Lemma raw_nodup l : NoDup (raw l).*1 -> NoDup l.*1.
Proof.
  intros H. apply (NoDup_fmap_1 enc_str). replace (enc_str <$> l.*1) with (raw l).*1; [exact H|]. unfold raw. induction l as [|e l IH]; [reflexivity|].
  cbn. f_equal. apply IH. cbn in H. apply NoDup_cons in H. tauto.
Qed.

(** ** The map on the storage *)
Definition hd (p : string) (n : nat) : umh := mkUmh (p +:+ "i") (N.of_nat n) (p +:+ "k") (N.of_nat n) (p +:+ "v").
Lemma hd_idx p n k : um_pre (hd p n) +:+ k = idx_key_raw p k.
Proof. apply sapp_assoc. Qed.
Lemma hd_len p n : b_len (hd p n) = Ok (N.of_nat n).
Proof. unfold b_len, hd. cbn [um_klen um_vlen]. rewrite N.eqb_refl. reflexivity. Qed.
Lemma b_get_f st p n k : b_get st (hd p n) k = fget st (mkH p n) k.
Proof. unfold b_get, fget. rewrite hd_idx. cbn [hd um_vlen um_vpre h_pref h_len]. rewrite Nat2N.id. reflexivity. Qed.
Lemma b_insert_f st p n k v o st' n' : fget st (mkH p n) k = Ok o -> finsert st (mkH p n) k v = Ok (st', mkH p n') -> small n' ->
  b_insert st (hd p n) k v = Ok (st', hd p n', o).
Proof.
  unfold fget, finsert, b_insert. rewrite hd_idx. cbn [hd um_vlen um_vpre um_klen um_kpre um_pre h_pref h_len]. rewrite !Nat2N.id. intros Hg Hi Hs.
  destruct (st !! idx_key_raw p k) as [b|].
  - apply bind_Ok in Hi as (i & Ei & Hi). rewrite Ei in *. cbn [mbind res_bind] in *. unfold fvec_get in Hg. destruct (i <? n)%nat; [|discriminate]. cbn [require mbind res_bind].
    fold (vals_pref p). destruct (st !! vec_key (vals_pref p) i) as [old|]; [|discriminate]. injection Hi as <- <-. cbn [mbind res_bind] in Hg. injection Hg as <-. reflexivity.
  - injection Hi as <- <-. injection Hg as <-. change (mkUmh (p +:+ "i") (N.of_nat n) (p +:+ "k") (N.of_nat n) (p +:+ "v")) with (hd p n). rewrite hd_len. cbn [mbind res_bind].
    unfold add64. assert (E : (N.of_nat n + 1 <? U64_SIZE) = true) by (apply N.ltb_lt; unfold small in Hs; lia). rewrite E. cbn [mbind res_bind].
    unfold hd. do 3 f_equal. f_equal; lia.
Qed.
Lemma swap_frame st q n i st' key : fvec_swap_remove st q n i = Ok st' -> (forall j, key <> vec_key q j) -> st' !! key = st !! key.
Proof.
  unfold fvec_swap_remove, fvec_pop. intros H Hk. destruct (i <? n)%nat; [|discriminate]. destruct (st !! vec_key q (n - 1)); [|discriminate]. cbn [mbind res_bind] in H.
  destruct (i =? n - 1)%nat; [injection H as <-; apply lookup_delete_ne; intros E; exact (Hk _ (eq_sym E))|].
  destruct (_ !! vec_key q i); [|discriminate]. injection H as <-. rewrite lookup_insert_ne by (intros E; exact (Hk _ (eq_sym E))). apply lookup_delete_ne; intros E; exact (Hk _ (eq_sym E)).
Qed.
Lemma move_frame st p n k b st' key : fmove_index st p n k b = Ok st' -> (forall k', key <> idx_key_raw p k') -> st' !! key = st !! key.
Proof.
  unfold fmove_index. intros H Hk. destruct (n =? 1)%nat; [injection H as <-; apply lookup_delete_ne; intros E; exact (Hk _ (eq_sym E))|].
  destruct (n =? 0)%nat; [discriminate|]. apply bind_Ok in H as (o & _ & H). destruct o as [lk|]; [|discriminate]. cbn zeta in H. injection H as <-.
  destruct (bool_decide (lk = k)); rewrite ?lookup_insert_ne by (intros E; exact (Hk _ (eq_sym E))); apply lookup_delete_ne; intros E; exact (Hk _ (eq_sym E)).
Qed.
Lemma b_remove_f st p n k o st' n' : fget st (mkH p n) k = Ok o -> fremove st (mkH p n) k = Ok (st', mkH p n') -> b_remove st (hd p n) k = Ok (st', hd p n', o).
Proof.
  unfold fget, fremove, b_remove. rewrite hd_idx, hd_len. cbn [hd um_vlen um_vpre um_klen um_kpre um_pre h_pref h_len]. rewrite !Nat2N.id. intros Hg Hr.
  destruct (st !! idx_key_raw p k) as [b|]; [|injection Hr as <- <-; injection Hg as <-; reflexivity]. cbn [mbind res_bind].
  apply bind_Ok in Hr as (st1 & E1 & Hr). apply bind_Ok in Hr as (i & Ei & Hr). apply bind_Ok in Hr as (st2 & E2 & Hr). apply bind_Ok in Hr as (st3 & E3 & Hr). injection Hr as <- <-.
  match goal with |- (?X ≫= _) = _ => assert (M : X = Ok st1) end.
  { rewrite <- E1. unfold fmove_index. destruct (Nat.eqb_spec n 1) as [->|H1]; [reflexivity|]. destruct (N.eqb_spec (N.of_nat n) 1); [lia|].
    destruct (Nat.eqb_spec n 0) as [->|H0]; [reflexivity|]. destruct (N.eqb_spec (N.of_nat n) 0); [lia|]. replace (N.to_nat (N.of_nat n - 1)) with (n - 1)%nat by lia.
    fold (keys_pref p). destruct (fvec_get st (keys_pref p) n (n - 1)) as [[lk|]|]; cbn [mbind res_bind]; [|reflexivity|reflexivity]. cbv zeta. unfold idx_key_raw at 2. rewrite sapp_assoc. reflexivity. }
  rewrite M. cbn [mbind res_bind]. rewrite Ei in *. cbn [mbind res_bind] in *. fold (keys_pref p) (vals_pref p). rewrite E2. cbn [mbind res_bind].
  assert (Ev : fvec_get st2 (vals_pref p) n i = fvec_get st (vals_pref p) n i).
  { unfold fvec_get. destruct (i <? n)%nat; [|reflexivity].
    rewrite (swap_frame _ _ _ _ _ _ E2) by (intros j E; exact (keys_ne_vals _ _ _ (eq_sym E))). rewrite (move_frame _ _ _ _ _ _ _ E1) by (intros k' E; exact (idx_ne_vals _ _ _ (eq_sym E))). reflexivity. }
  rewrite Ev. apply bind_Ok in Hg as (o' & Eo & Hg). rewrite Eo. cbn [mbind res_bind]. rewrite E3. cbn [mbind res_bind]. destruct o' as [v|]; [|discriminate]. injection Hg as <-.
  unfold hd. do 3 f_equal. f_equal; lia.
Qed.

(** ** What the storage holds *)
Notation P0 := (sk0 0).
Definition Data (st : flat) (l : list (string * string)) : Prop :=
  exists ce, Rcell st P0 ce /\ crep ce (length l) (raw l) /\ cexact ce (raw l) /\ Forall sh l /\ small (length l).
Lemma data_small ce l : cexact ce (raw l) -> small (length l) -> forall k i, ce_idx ce !! k = Some i -> small i.
Proof.
  intros Hx Hs k i E. destruct (Hx _ _ E) as [v Hv]. apply lookup_lt_Some in Hv. unfold raw in Hv. rewrite map_length in Hv. unfold small in *. lia.
Qed.
Lemma crep_n ce n l : crep ce n (raw l) -> n = length l.
Proof. intros [-> _]. unfold raw. apply map_length. Qed.
Lemma data_get st l k : Data st l -> fget st (mkH P0 (length l)) (enc_str k) = Ok (enc_str <$> om_get l k).
Proof.
  intros (ce & Hr & Hc & Hx & _ & Hs). rewrite (fget_sim _ _ _ _ _ Hs Hr (data_small _ _ Hx Hs)), (cget_exact _ _ _ _ Hc Hx), raw_get. reflexivity.
Qed.
Lemma om_get_sh l k v : Forall sh l -> om_get l k = Some v -> short v.
Proof. intros F H. apply om_get_Some_In in H. rewrite Forall_forall in F. apply elem_of_list_In in H. apply F in H. apply H. Qed.
Lemma de_opt_get l k : Forall sh l -> de_opt (enc_str <$> om_get l k) = Ok (om_get l k).
Proof.
  intros F. destruct (om_get l k) as [v|] eqn:E; [|reflexivity]. cbn [fmap option_fmap option_map de_opt]. rewrite (de_enc v (om_get_sh _ _ _ F E)). reflexivity.
Qed.
Lemma data_nodup st l : Data st l -> NoDup l.*1.
Proof. intros (ce & _ & Hc & _). apply raw_nodup. exact (crep_NoDup _ _ _ Hc). Qed.
Lemma data_sh st l : Data st l -> Forall sh l. Proof. intros (ce & _ & _ & _ & H & _). exact H. Qed.
Lemma s_get_ok st l k : Data st l -> s_get st (hd P0 (length l)) k = Ok (om_get l k).
Proof. intros H. unfold s_get. rewrite b_get_f, (data_get _ _ _ H). cbn [mbind res_bind]. apply de_opt_get. exact (data_sh _ _ H). Qed.
Lemma sh_set l k v : Forall sh l -> sh (k, v) -> Forall sh (om_set l k v).
Proof.
  intros F Hv. induction F as [|[k' v'] l Hx F IH]; cbn [om_set]; [apply Forall_singleton; exact Hv|].
  destruct (decide (k = k')) as [->|]; apply Forall_cons; split; assumption.
Qed.
Lemma sh_remove l k : Forall sh l -> Forall sh (om_remove l k).
Proof.
  intros F. destruct (om_get l k) as [v|] eqn:E; [|rewrite om_remove_None by exact E; exact F].
  pose proof (om_remove_cons _ _ _ E) as Hp. rewrite Hp in F. apply Forall_cons in F. tauto.
Qed.
Lemma len_remove (l : list (string * string)) k : (length (om_remove l k) <= length l)%nat.
Proof.
  destruct (om_get l k) as [v|] eqn:E; [|rewrite om_remove_None by exact E; lia].
  pose proof (Permutation_length (om_remove_cons _ _ _ E)) as H. cbn [length] in H. lia.
Qed.
Lemma s_insert_ok st l k v : Data st l -> sh (k, v) -> small (length (om_set l k v)) ->
  exists st', s_insert st (hd P0 (length l)) k v = Ok (st', hd P0 (length (om_set l k v))) /\ Data st' (om_set l k v) /\ frame st st' P0.
Proof.
  intros H Hv Hs'. pose proof (data_get _ _ k H) as Hg. pose proof H as (ce & Hr & Hc & Hx & F & Hs).
  destruct (cinsert_exact _ _ _ (enc_str k) (enc_str v) Hc Hx) as (ce' & n' & Ei & Hc' & Hx'). rewrite raw_set in Hc', Hx'.
  destruct (finsert_sim _ _ _ _ _ _ _ _ Hs Hr (data_small _ _ Hx Hs) Ei) as (st' & Ef & Hr' & Hf). pose proof (crep_n _ _ _ Hc') as ->.
  exists st'. split; [|split; [|exact Hf]].
  - unfold s_insert. rewrite (b_insert_f _ _ _ _ _ _ _ _ Hg Ef Hs'). cbn [mbind res_bind]. rewrite (de_opt_get _ _ F). reflexivity.
  - exists ce'. split; [exact Hr'|]. split; [exact Hc'|]. split; [exact Hx'|]. split; [apply sh_set; assumption|exact Hs'].
Qed.
Lemma s_remove_ok st l k : Data st l ->
  exists st', s_remove st (hd P0 (length l)) k = Ok (st', hd P0 (length (om_remove l k)), om_get l k) /\ Data st' (om_remove l k) /\ frame st st' P0.
Proof.
  intros H. pose proof (data_get _ _ k H) as Hg. pose proof H as (ce & Hr & Hc & Hx & F & Hs).
  destruct (cremove_exact _ _ _ (enc_str k) Hc Hx) as (ce' & n' & Ei & Hc' & Hx'). rewrite raw_remove in Hc', Hx'.
  destruct (fremove_sim _ _ _ _ _ _ _ Hs Hr (data_small _ _ Hx Hs) Ei) as (st' & Ef & Hr' & Hf). pose proof (crep_n _ _ _ Hc') as ->.
  exists st'. split; [|split; [|exact Hf]].
  - unfold s_remove. rewrite (b_remove_f _ _ _ _ _ _ _ Hg Ef). cbn [mbind res_bind]. rewrite (de_opt_get _ _ F). reflexivity.
  - exists ce'. split; [exact Hr'|]. split; [exact Hc'|]. split; [exact Hx'|]. split; [apply sh_remove; exact F|].
    pose proof (len_remove l k). unfold small in *. lia.
Qed.
Lemma s_key_ok st l i k v : Data st l -> l !! i = Some (k, v) -> s_key_at st (hd P0 (length l)) i = Ok (Some k).
Proof.
  intros (ce & Hr & Hc & Hx & F & Hs) Hi. unfold s_key_at. cbn [hd um_kpre um_klen]. rewrite Nat2N.id. fold (keys_pref P0).
  destruct Hr as (_ & Hk & _). rewrite (fvec_get_sim _ _ _ _ _ Hs Hk). destruct Hc as [_ Hc]. destruct (Hc i (enc_str k) (enc_str v)) as (E & _ & _); [rewrite raw_lookup, Hi; reflexivity|].
  unfold vec_get. destruct (Nat.ltb_spec i (length l)) as [_|Hl]; [|apply lookup_lt_Some in Hi; lia]. rewrite E. cbn [mbind res_bind de_opt].
  rewrite de_enc; [reflexivity|]. apply (Forall_lookup_1 _ _ _ _ F Hi).
Qed.
Lemma page_ok st l from limit : Data st l ->
  mapMr (fun i => ok ← s_key_at st (hd P0 (length l)) i; k ← expect ok "unwrap on None"; ov ← s_get st (hd P0 (length l)) k; v ← expect ov "unwrap on None"; Ok (k, v))
    (seq from (min (from + limit) (length l) - from)) = Ok (take limit (drop from l)).
Proof.
  intros H. assert (E : (min (from + limit) (length l) - from)%nat = length (take limit (drop from l))) by (rewrite take_length, drop_length; lia). rewrite E.
  apply mapMr_seq. intros i [k v] Hi. apply lookup_take_Some in Hi as [Hi _]. rewrite lookup_drop in Hi.
  rewrite (s_key_ok _ _ _ _ _ H Hi). cbn [mbind res_bind expect]. rewrite (s_get_ok _ _ _ H).
  assert (Eg : om_get l k = Some v) by (exact (om_get_lookup _ _ _ _ (data_nodup _ _ H) Hi)).
  rewrite Eg. reflexivity.
Qed.

(** ** What the texts mean *)
Definition new_tbl : list (string * method (string * string)) :=
  [("new", ([("owner_id", TAcc); ("operator_id", TAcc)], fun vs => match vs with [VStr a; VStr b] => Some (a, b) | _ => None end))].
Lemma new_sound m a x y : enter new_tbl m a = Some (x, y) -> new_means m a x y.
Proof.
  unfold enter, new_tbl. intros H. entries H; try discriminate H. parsed2 H. injection H as <- <-. backed.
  unfold new_means. split; [assumption|]. split; [assumption|]. split; [reflexivity|]. reads.
Qed.
Lemma new_read a : enter new_tbl "new" a =
  match read_args [("owner_id", TAcc); ("operator_id", TAcc)] a with Some vs => match vs with [VStr a; VStr b] => Some (a, b) | _ => None end | None => None end.
Proof. reflexivity. Qed.
Lemma new_plain x y : account_id x -> account_id y -> enter new_tbl "new" (obj [("owner_id", quote x); ("operator_id", quote y)]) = Some (x, y).
Proof. intros Hx Hy. given. Qed.
Lemma new_iff m a x y : enter new_tbl m a = Some (x, y) <-> new_means m a x y.
Proof.
  split; [apply new_sound|]. intros (Hx & Hy & -> & Hr). rewrite <- (new_plain x y Hx Hy). eapply enter_says; [reflexivity|exact Hr].
Qed.
Lemma kvq_iff m a q : enter kv_views m a = Some q <-> kvq_means m a q.
Proof. split; [apply kvq_sound|]. intros (Ht & -> & Hr). apply kvq_complete; assumption. Qed.
Lemma new_not_op m a x y o : new_means m a x y -> kv_means m a o -> False.
Proof. intros (_ & _ & -> & _) (Ht & E & _). destruct o; cbn in *; solve [discriminate|contradiction]. Qed.
Lemma new_not_view m a x y q : new_means m a x y -> kvq_means m a q -> False.
Proof. intros (_ & _ & -> & _) (_ & E & _). destruct q; cbn in E; discriminate E. Qed.
Lemma op_not_view m a o q : kv_means m a o -> kvq_means m a q -> False.
Proof. intros (_ & -> & _) (_ & E & _). destruct o, q; cbn in E; discriminate E. Qed.

Lemma call_new st c m a x y : new_means m a x y -> kb_call st c m a = (_ ← non_payable c; st' ← kb_new st x y; Ok (st', "")).
Proof.
  intros H. pose proof H as (_ & _ & -> & _). apply new_iff in H. rewrite new_read in H.
  unfold kb_call. rewrite bool_decide_eq_true_2 by reflexivity. destruct (read_args [("owner_id", TAcc); ("operator_id", TAcc)] a) as [vs|]; [|discriminate].
  destruct vs as [|[] [|[] [|]]]; try discriminate. injection H as <- <-. reflexivity.
Qed.
Lemma call_op st c m a o : kv_means m a o -> kb_call st c m a = (r ← kb_load st; '(st', r', t) ← kb_exec c st r o; Ok (kb_save st' r', t)).
Proof.
  intros H. unfold kb_call. rewrite bool_decide_eq_false_2; [rewrite (proj2 (kv_iff _ _ _) H); reflexivity|]. intros ->. destruct H as (Ht & E & _). destruct o; cbn in *; solve [discriminate|contradiction].
Qed.
Lemma call_view st c m a q : kvq_means m a q -> kb_call st c m a = (r ← kb_load st; t ← kb_answer st r q; Ok (st, t)).
Proof.
  intros H. unfold kb_call. rewrite bool_decide_eq_false_2.
  - destruct (kv_entry m a) as [o|] eqn:E; [apply kv_iff in E; destruct (op_not_view _ _ _ _ E H)|]. rewrite (proj2 (kvq_iff _ _ _) H). reflexivity.
  - intros ->. destruct H as (_ & E & _). destruct q; discriminate.
Qed.
Lemma call_cases st c m a z : kb_call st c m a = Ok z -> (exists x y, new_means m a x y) \/ (exists o, kv_means m a o) \/ (exists q, kvq_means m a q).
Proof.
  unfold kb_call. destruct (bool_decide_reflect (m = "new")) as [->|Hm]; intros H.
  - left. destruct (read_args _ a) as [vs|] eqn:E; [|discriminate]. destruct vs as [|[] [|[] [|]]]; try discriminate.
    eexists _, _. apply new_iff. rewrite new_read, E. reflexivity.
  - right. destruct (kv_entry m a) as [o|] eqn:E; [left; exists o; apply kv_iff; exact E|]. destruct (enter kv_views m a) as [q|] eqn:E2; [|discriminate]. right. exists q. apply kvq_iff. exact E2.
Qed.
Lemma accepts_det b c m a b1 t1 b2 t2 : accepts b c m a b1 t1 -> accepts b c m a b2 t2 -> b1 = b2 /\ t1 = t2.
Proof.
  intros [(x & y & E & H & _ & -> & ->)|[(k & o & E & H & _ & -> & ->)|(k & q & E & H & -> & ->)]]
    [(x' & y' & E' & H' & _ & -> & ->)|[(k' & o' & E' & H' & _ & -> & ->)|(k' & q' & E' & H' & -> & ->)]]; try congruence.
  - apply new_iff in H, H'. rewrite H in H'. injection H' as -> ->. auto.
  - apply kv_iff in H, H'. rewrite H in H'. injection H' as ->. rewrite E in E'. injection E' as ->. auto.
  - destruct (op_not_view _ _ _ _ H H').
  - destruct (op_not_view _ _ _ _ H' H).
  - apply kvq_iff in H, H'. rewrite H in H'. injection H' as ->. rewrite E in E'. injection E' as ->. auto.
Qed.

(** ** The record of the contract *)
Definition root_of (b : book) : kvroot := mkKVRoot (bk_owner b) (bk_operator b) (hd P0 (length (bk_entries b))).
Lemma id_short s : account_id s -> str_fits s.
Proof. intros [_ H]. unfold str_fits, U32_SIZE. lia. Qed.
Lemma root_back b : account_id (bk_owner b) -> account_id (bk_operator b) -> small (length (bk_entries b)) -> try_from_slice dec_root (enc_root (root_of b)) = Some (root_of b).
Proof.
  intros Ho Hp Hs. unfold try_from_slice, dec_root, enc_root, root_of. cbn [r_owner r_operator r_data]. unfold dec_id.
  rewrite (dec_enc_str _ _ (id_short _ Ho)). cbn [mbind option_bind]. rewrite (proj2 (valid_id_spec _) Ho). cbn [mbind option_bind].
  rewrite (dec_enc_str _ _ (id_short _ Hp)). cbn [mbind option_bind]. rewrite (proj2 (valid_id_spec _) Hp). cbn [mbind option_bind].
  rewrite <- (sapp_nil (enc_umh _)), dec_enc_umh; [reflexivity|]. unfold umh_fits, hd. cbn [um_pre um_klen um_kpre um_vlen um_vpre].
  split; [reflexivity|]. split; [exact Hs|]. split; [reflexivity|]. split; [exact Hs|reflexivity].
Qed.
Lemma state_not_under : ~ under P0 "STATE".
Proof. intros [x E]. discriminate. Qed.
Definition Rep (st : flat) (ob : option book) : Prop :=
  match ob with
  | None => st = ∅
  | Some b => st !! "STATE" = Some (enc_root (root_of b)) /\ Data st (bk_entries b) /\ account_id (bk_owner b) /\ account_id (bk_operator b)
  end.
Lemma data_save st r l : Data st l -> Data (kb_save st r) l.
Proof.
  intros (ce & (H1 & H2 & H3) & H). exists ce. split; [|exact H]. unfold kb_save. split; [|split].
  - intros k. rewrite lookup_insert_ne; [apply H1|]. intros E. exact (state_not_under (eq_ind_r (under P0) (under_idx P0 k) E)).
  - intros i Hi. rewrite lookup_insert_ne; [apply H2; exact Hi|]. intros E. exact (state_not_under (eq_ind_r (under P0) (under_keys P0 i) E)).
  - intros i Hi. rewrite lookup_insert_ne; [apply H3; exact Hi|]. intros E. exact (state_not_under (eq_ind_r (under P0) (under_vals P0 i) E)).
Qed.
Lemma rep_save st b : Data st (bk_entries b) -> account_id (bk_owner b) -> account_id (bk_operator b) -> Rep (kb_save st (root_of b)) (Some b).
Proof. intros H Ho Hp. split; [apply lookup_insert|]. split; [apply data_save; exact H|]. split; assumption. Qed.
Lemma data_len st l : Data st l -> small (length l). Proof. intros (ce & _ & _ & _ & _ & H). exact H. Qed.
Lemma rep_load st b : Rep st (Some b) -> kb_load st = Ok (root_of b).
Proof.
  intros (E & H & Ho & Hp). unfold kb_load. rewrite E. cbn [expect mbind res_bind]. rewrite (root_back b Ho Hp (data_len _ _ H)). reflexivity.
Qed.
Lemma rep_none st : Rep st None -> kb_load st = Panic "The contract is not initialized".
Proof. intros ->. unfold kb_load. rewrite lookup_empty. reflexivity. Qed.
Lemma data_new : Data ∅ [].
Proof.
  exists (mkCell ∅ ∅ ∅). split; [|split; [|split; [|split]]].
  - split; [|split].
    + intros k. rewrite lookup_empty. cbn [ce_idx]. rewrite lookup_empty. reflexivity.
    + intros i _. rewrite lookup_empty. cbn [ce_keys]. rewrite lookup_empty. reflexivity.
    + intros i _. rewrite lookup_empty. cbn [ce_vals]. rewrite lookup_empty. reflexivity.
  - split; [reflexivity|]. intros i k v E. discriminate.
  - intros k i E. cbn [ce_idx] in E. rewrite lookup_empty in E. discriminate.
  - constructor.
  - reflexivity.
Qed.

(** ** One call *)
Lemma len_put (l : list (string * string)) k v : (length l <= length (om_set l k v))%nat.
Proof. induction l as [|[k' v'] l IH]; cbn [om_set length]; [lia|]. destruct (decide (k = k')); cbn [length]; lia. Qed.
Lemma len_puts (ws l : list (string * string)) : (length l <= length (fold_left (fun m e => om_set m e.1 e.2) ws l))%nat.
Proof. revert l. induction ws as [|w ws IH]; intros l; cbn [fold_left]; [lia|]. specialize (IH (om_set l w.1 w.2)). pose proof (len_put l w.1 w.2). lia. Qed.
Lemma puts_om ws l : NoDup l.*1 -> fold_left (fun m e => put m e.1 e.2) ws l = fold_left (fun m e => om_set m e.1 e.2) ws l.
Proof.
  revert l. induction ws as [|w ws IH]; intros l H; [reflexivity|]. cbn [fold_left]. rewrite (put_om _ _ _ H). apply IH. apply om_set_NoDup. exact H.
Qed.
Lemma s_insert_all ws : forall st l, Data st l -> Forall sh ws -> small (length (fold_left (fun m e => om_set m e.1 e.2) ws l)) ->
  exists st', foldM (fun (x : flat * umh) kv => s_insert x.1 x.2 kv.1 kv.2) ws (st, hd P0 (length l)) = Ok (st', hd P0 (length (fold_left (fun m e => om_set m e.1 e.2) ws l))) /\
    Data st' (fold_left (fun m e => om_set m e.1 e.2) ws l).
Proof.
  induction ws as [|w ws IH]; intros st l H F Hs; [exists st; split; [reflexivity|exact H]|]. cbn [fold_left foldM] in *. apply Forall_cons in F as [Fw F].
  destruct (s_insert_ok st l w.1 w.2 H) as (st1 & E & H1 & _).
  - destruct w; exact Fw.
  - pose proof (len_puts ws (om_set l w.1 w.2)). unfold small in *. lia.
  - cbn [fst snd]. rewrite E. cbn [mbind res_bind]. exact (IH _ _ H1 F Hs).
Qed.
Lemma wrote_opt o : write (opt VStr o) = or_null quote o.
Proof. symmetry. apply w_oopt. intros x. apply w_str. Qed.
Lemma answer_ok st b q : Data st (bk_entries b) -> kb_answer st (root_of b) q = Ok (shown b q).
Proof.
  intros H. destruct q; cbn [kb_answer root_of r_data r_owner r_operator shown].
  - rewrite (s_get_ok _ _ _ H). cbn [mbind res_bind]. rewrite wrote_opt, value_om. reflexivity.
  - cbv zeta. cbn [hd um_klen]. rewrite Nat2N.id. fold (hd P0 (length (bk_entries b))). rewrite (page_ok _ _ _ _ H). cbn [mbind res_bind]. f_equal.
    symmetry. unfold texts. wr.
  - f_equal.
  - f_equal.
  - rewrite hd_len. cbn [mbind res_bind]. f_equal. symmetry. apply w_big.
Qed.
Lemma pays c : c_deposit c = 0 -> non_payable c = Ok tt. Proof. unfold non_payable. intros ->. reflexivity. Qed.
Lemma yocto c : c_deposit c = 1 -> assert_one_yocto c = Ok tt. Proof. unfold assert_one_yocto. intros ->. reflexivity. Qed.
Lemma owns c b : c_pred c = bk_owner b -> kb_owner c (root_of b) = Ok tt.
Proof. intros E. unfold kb_owner. rewrite E. cbn [root_of r_owner]. rewrite bool_decide_eq_true_2 by reflexivity. reflexivity. Qed.
Lemma operates c b : c_pred c = bk_operator b -> kb_operator c (root_of b) = Ok tt.
Proof. intros E. unfold kb_operator. rewrite E. cbn [root_of r_operator]. rewrite bool_decide_eq_true_2 by reflexivity. reflexivity. Qed.
Lemma exec_yes st b c o : Data st (bk_entries b) -> kv_typed o -> allowed b c o -> Forall sh (writes o) -> small (length (bk_entries (after b o))) ->
  exists st', kb_exec c st (root_of b) o = Ok (st', root_of (after b o), returned b o) /\ Data st' (bk_entries (after b o)).
Proof.
  intros H Ht Ha Hw Hs. pose proof (data_nodup _ _ H) as Hn. destruct o as [x y|x|x|k v|l|k]; cbn [allowed] in Ha; [contradiction| | | | |]; destruct Ha as [Hd Hp]; cbn [kb_exec].
  - rewrite (yocto _ Hd), (owns _ _ Hp). cbn [mbind res_bind]. exists st. split; [reflexivity|exact H].
  - rewrite (yocto _ Hd), (owns _ _ Hp). cbn [mbind res_bind]. exists st. split; [reflexivity|exact H].
  - rewrite (pays _ Hd), (operates _ _ Hp). cbn [mbind res_bind after bk_entries writes] in *. rewrite (put_om _ _ _ Hn) in *. apply Forall_cons in Hw as [Hw _].
    destruct (s_insert_ok _ _ _ _ H Hw Hs) as (st' & E & H' & _). exists st'. cbn [root_of r_data]. rewrite E. split; [reflexivity|exact H'].
  - rewrite (pays _ Hd), (operates _ _ Hp). cbn [mbind res_bind after bk_entries writes] in *. rewrite (puts_om _ _ Hn) in *.
    destruct (s_insert_all _ _ _ H Hw Hs) as (st' & E & H'). exists st'. cbn [root_of r_data]. rewrite E. split; [reflexivity|exact H'].
  - rewrite (pays _ Hd), (operates _ _ Hp). cbn [mbind res_bind after bk_entries returned] in *. rewrite take_out_om in *.
    destruct (s_remove_ok _ _ k H) as (st' & E & H' & _). exists st'. cbn [root_of r_data]. rewrite E. cbn [mbind res_bind]. rewrite wrote_opt, value_om. split; [reflexivity|exact H'].
Qed.
Lemma call_yes st ob c m a b' t : Rep st ob -> accepts ob c m a b' t ->
  (forall o, kv_means m a o -> Forall sh (writes o)) -> (forall b, b' = Some b -> small (length (bk_entries b))) ->
  exists st', kb_call st c m a = Ok (st', t) /\ Rep st' b'.
Proof.
  intros HR [(x & y & -> & H & Hd & -> & ->)|[(b & o & -> & H & Ha & -> & ->)|(b & q & -> & H & -> & ->)]] Hw Hs.
  - rewrite (call_new _ _ _ _ _ _ H), (pays _ Hd). cbn [mbind res_bind]. unfold kb_new. cbn [Rep] in HR. subst st. rewrite lookup_empty.
    rewrite bool_decide_eq_false_2 by (intros [? E]; discriminate). cbn [require negb mbind res_bind].
    eexists. split; [reflexivity|]. apply (rep_save _ (mkBook x y [])); [|apply H|apply H].
    exact data_new.
  - rewrite (call_op _ _ _ _ _ H), (rep_load _ _ HR). cbn [mbind res_bind]. destruct HR as (_ & HD & Ho & Hp).
    destruct (exec_yes st b c o HD (proj1 H) Ha (Hw _ H) (Hs _ eq_refl)) as (st' & E & HD'). rewrite E. cbn [mbind res_bind]. eexists. split; [reflexivity|].
    apply rep_save; [exact HD'| |]; destruct H as (Ht & _); destruct o; cbn [after bk_owner bk_operator kv_typed] in *; assumption.
  - rewrite (call_view _ _ _ _ _ H), (rep_load _ _ HR). cbn [mbind res_bind]. rewrite (answer_ok st b q); [|apply HR]. exists st. split; [reflexivity|exact HR].
Qed.
Lemma exec_allowed st b c o z : kb_exec c st (root_of b) o = Ok z -> allowed b c o.
Proof.
  destruct o as [x y|x|x|k v|l|k]; cbn [kb_exec allowed]; intros H; [discriminate| | | | |]; apply bind_Ok in H as (u1 & E1 & H); apply bind_Ok in H as (u2 & E2 & _);
    unfold assert_one_yocto, non_payable, kb_owner, kb_operator in *; apply require_Ok in E1, E2; apply N.eqb_eq in E1; apply bool_decide_eq_true in E2; cbn [root_of r_owner r_operator] in E2; auto.
Qed.
Lemma exec_gives st b c o st' r t : Data st (bk_entries b) -> kb_exec c st (root_of b) o = Ok (st', r, t) -> t = returned b o.
Proof.
  intros HD H. destruct o as [x y|x|x|k v|l|k]; cbn [kb_exec returned] in *; [discriminate| | | | |]; apply bind_Ok in H as (u1 & E1 & H); apply bind_Ok in H as (u2 & E2 & H).
  - congruence.
  - congruence.
  - apply bind_Ok in H as ([s1 h1] & _ & H). congruence.
  - apply bind_Ok in H as ([s1 h1] & _ & H). congruence.
  - destruct (s_remove_ok _ _ k HD) as (s2 & E & _). cbn [root_of r_data] in H. rewrite E in H. cbn [mbind res_bind] in H. rewrite wrote_opt in H. rewrite value_om. congruence.
Qed.
Lemma call_no st ob c m a st' t : Rep st ob -> kb_call st c m a = Ok (st', t) -> exists b', accepts ob c m a b' t.
Proof.
  intros HR H. destruct (call_cases _ _ _ _ _ H) as [(x & y & Hm)|[(o & Hm)|(q & Hm)]].
  - rewrite (call_new _ _ _ _ _ _ Hm) in H. apply bind_Ok in H as (u & Ed & H). apply bind_Ok in H as (s1 & En & H). injection H as <- <-.
    unfold non_payable in Ed. apply require_Ok in Ed. apply N.eqb_eq in Ed. unfold kb_new in En. apply bind_Ok in En as (u' & En & _). apply require_Ok in En.
    destruct ob as [b|]; [destruct HR as [E _]; rewrite E, bool_decide_eq_true_2 in En by eauto; discriminate|]. eexists. left. eauto 8.
  - rewrite (call_op _ _ _ _ _ Hm) in H. destruct ob as [b|]; [|rewrite (rep_none _ HR) in H; discriminate]. rewrite (rep_load _ _ HR) in H. cbn [mbind res_bind] in H.
    apply bind_Ok in H as ([[s1 r1] t1] & E & H). injection H as <- <-. pose proof (exec_allowed _ _ _ _ _ E) as Ha. destruct HR as (_ & HD & _). rewrite (exec_gives _ _ _ _ _ _ _ HD E).
    eexists. right. left. eauto 8.
  - rewrite (call_view _ _ _ _ _ Hm) in H. destruct ob as [b|]; [|rewrite (rep_none _ HR) in H; discriminate]. rewrite (rep_load _ _ HR) in H. cbn [mbind res_bind] in H.
    rewrite (answer_ok st b q) in H by apply HR. cbn [mbind res_bind] in H. injection H as <- <-. eexists. right. right. eauto 8.
Qed.

(** ** All calls *)
Lemma returns_app st tr1 tr2 : returns st (tr1 ++ tr2) = returns st tr1 ++ returns (fold_left kb_step tr1 st) tr2.
Proof. revert st. induction tr1 as [|x tr1 IH]; intros st; [reflexivity|]. cbn [app returns fold_left]. rewrite IH. reflexivity. Qed.
Lemma within_before tr x : within (tr ++ [x]) -> within tr.
Proof.
  intros [H1 H2]. split.
  - intros c m a o Hi. apply (H1 c). apply in_or_app. left. exact Hi.
  - intros tr1 tr2 b ts ->. apply (H2 tr1 (tr2 ++ [x])). rewrite app_assoc. reflexivity.
Qed.
Lemma c97_all tr : within tr -> exists b, history tr b (returns ∅ tr) /\ Rep (kb_run tr) b.
Proof.
  induction tr as [|[[c m] a] tr IH] using rev_ind; intros Hw; [exists None; split; [constructor|reflexivity]|].
  destruct (IH (within_before _ _ Hw)) as (b & Hh & HR). rewrite returns_app. fold (kb_run tr). cbn [returns fst snd].
  unfold kb_run. rewrite fold_left_app. fold (kb_run tr). cbn [fold_left]. unfold kb_step at 1. cbn [fst snd].
  destruct (kb_call (kb_run tr) c m a) as [[st' t]|e] eqn:E.
  - destruct (call_no _ _ _ _ _ _ _ HR E) as (b' & Ha). pose proof (hist_yes _ _ _ _ _ _ _ _ Hh Ha) as Hh'. destruct Hw as [H1 H2].
    destruct (call_yes _ _ _ _ _ _ _ HR Ha) as (st2 & E2 & HR').
    + intros o Ho. apply (H1 c m a o); [apply in_or_app; right; left; reflexivity|exact Ho].
    + intros b2 ->. apply (H2 (tr ++ [(c, m, a)]) [] b2 _ (eq_sym (app_nil_r _)) Hh').
    + rewrite E in E2. injection E2 as <-. exists b'. split; assumption.
  - exists b. split; [|exact HR]. apply hist_no; [exact Hh|]. intros b' t Ha. pose proof (hist_yes _ _ _ _ _ _ _ _ Hh Ha) as Hh'. destruct Hw as [H1 H2].
    destruct (call_yes _ _ _ _ _ _ _ HR Ha) as (st2 & E2 & HR').
    + intros o Ho. apply (H1 c m a o); [apply in_or_app; right; left; reflexivity|exact Ho].
    + intros b2 ->. apply (H2 (tr ++ [(c, m, a)]) [] b2 _ (eq_sym (app_nil_r _)) Hh').
    + congruence.
Qed.
Lemma snoc_eq {A} (l l' : list A) x x' : l ++ [x] = l' ++ [x'] -> l = l' /\ x = x'.
Proof. apply app_inj_tail. Qed.
Lemma history_det tr : forall b ts b' ts', history tr b ts -> history tr b' ts' -> b = b' /\ ts = ts'.
Proof.
  induction tr as [|x tr IH] using rev_ind; intros b ts b' ts' H H'.
  - inversion H as [|? ? ? ? ? ? ? ? ? ? E|? ? ? ? ? ? ? ? E]; [|destruct tr; discriminate|destruct tr; discriminate].
    inversion H' as [|? ? ? ? ? ? ? ? ? ? E|? ? ? ? ? ? ? ? E]; [auto|destruct tr; discriminate|destruct tr; discriminate].
  - inversion H as [E|tr1 b1 ts1 c m a b2 t H1 Ha E|tr1 b1 ts1 c m a H1 Ha E]; [destruct tr; discriminate| |]; apply snoc_eq in E as [-> <-];
    (inversion H' as [E|tr2 b1' ts1' c' m' a' b2' t' H1' Ha' E|tr2 b1' ts1' c' m' a' H1' Ha' E]; [destruct tr; discriminate| |]; apply snoc_eq in E as [-> E]; injection E as <- <- <-);
    destruct (IH _ _ _ _ H1 H1') as [<- <-].
    + subst. destruct (accepts_det _ _ _ _ _ _ _ _ Ha Ha') as [-> ->]. auto.
    + destruct (Ha' _ _ Ha).
    + destruct (Ha _ _ Ha').
    + auto.
Qed.
Lemma c97_history tr : within tr -> exists b, history tr b (returns ∅ tr).
Proof. intros H. destruct (c97_all tr H) as (b & Hh & _). eauto. Qed.
Lemma c97_once tr b ts b' ts' : history tr b ts -> history tr b' ts' -> b = b' /\ ts = ts'.
Proof. apply history_det. Qed.
Lemma c97_records tr b ts : within tr -> history tr (Some b) ts ->
  kb_run tr !! "STATE" = Some (enc_str (bk_owner b) +:+ enc_str (bk_operator b) +:+ enc_umh (mkUmh (P0 +:+ "i") (N.of_nat (length (bk_entries b))) (P0 +:+ "k") (N.of_nat (length (bk_entries b))) (P0 +:+ "v"))) /\
  forall i k v, bk_entries b !! i = Some (k, v) ->
    kb_run tr !! (P0 +:+ "i" +:+ enc_str k) = Some (enc_uint 8 (N.of_nat i)) /\
    kb_run tr !! (P0 +:+ "k" +:+ enc_uint 8 (N.of_nat i)) = Some (enc_str k) /\
    kb_run tr !! (P0 +:+ "v" +:+ enc_uint 8 (N.of_nat i)) = Some (enc_str v).
Proof.
  intros Hw H. destruct (c97_all tr Hw) as (b' & Hh & HR). destruct (history_det _ _ _ _ _ H Hh) as [<- _]. destruct HR as (E & HD & _). split; [exact E|].
  intros i k v Hi. destruct HD as (ce & (R1 & R2 & R3) & [_ Hc] & _ & _ & Hs).
  destruct (Hc i (enc_str k) (enc_str v)) as (E1 & E2 & E3); [rewrite raw_lookup, Hi; reflexivity|].
  assert (small i) by (apply lookup_lt_Some in Hi; unfold small in *; lia).
  split; [|split].
  - transitivity (kb_run tr !! idx_key_raw P0 (enc_str k)); [reflexivity|]. rewrite R1, E3. reflexivity.
  - transitivity (kb_run tr !! vec_key (keys_pref P0) i); [reflexivity|]. rewrite R2 by assumption. exact E1.
  - transitivity (kb_run tr !! vec_key (vals_pref P0) i); [reflexivity|]. rewrite R3 by assumption. exact E2.
Qed.

(** ** A sign that a history is [within] *)
Definition weight (x : bcall) : nat := match kv_entry x.1.2 x.2 with Some o => length (writes o) | None => 0 end.
Definition weights (tr : list bcall) : nat := fold_right (fun x n => (weight x + n)%nat) 0%nat tr.
Definition short_calls (tr : list bcall) : bool :=
  forallb (fun x : bcall => match kv_entry x.1.2 x.2 with
                    | Some o => forallb (fun e => (N.of_nat (String.length e.1) <? 2 ^ 32) && (N.of_nat (String.length e.2) <? 2 ^ 32)) (writes o)
                    | None => true end) tr.
Lemma put_len l k v : (length (put l k v) <= 1 + length l)%nat.
Proof. unfold put. destruct (existsb _ l); rewrite ?map_length, ?app_length; cbn [length]; lia. Qed.
Lemma puts_len ws l : (length (fold_left (fun m e => put m e.1 e.2) ws l) <= length ws + length l)%nat.
Proof. revert l. induction ws as [|w ws IH]; intros l; cbn [fold_left length]; [lia|]. specialize (IH (put l w.1 w.2)). pose proof (put_len l w.1 w.2). lia. Qed.
Lemma after_len b o : (length (bk_entries (after b o)) <= length (writes o) + length (bk_entries b))%nat.
Proof.
  destruct o; cbn [after bk_entries writes length]; try lia.
  - apply put_len.
  - apply puts_len.
  - rewrite take_out_om. pose proof (len_remove (bk_entries b) k). lia.
Qed.
Lemma weights_snoc tr x : weights (tr ++ [x]) = (weight x + weights tr)%nat.
Proof. induction tr as [|y tr IH]; cbn [app weights fold_right]; [lia|]. fold (weights (tr ++ [x])) (weights tr). lia. Qed.
Lemma history_len tr ob ts : history tr ob ts -> match ob with Some b => (length (bk_entries b) <= weights tr)%nat | None => True end.
Proof.
  induction 1 as [|tr b ts c m a b' t _ IH Ha|tr b ts c m a _ IH _]; [exact I| |].
  - rewrite weights_snoc. destruct Ha as [(x & y & -> & _ & _ & -> & _)|[(k & o & -> & Hm & _ & -> & _)|(k & q & -> & _ & -> & _)]].
    + cbn [bk_entries length]. lia.
    + pose proof (after_len k o). unfold weight. cbn [fst snd]. rewrite (proj2 (kv_iff _ _ _) Hm). lia.
    + lia.
  - rewrite weights_snoc. destruct b; [lia|exact I].
Qed.
Lemma weights_app tr1 tr2 : weights (tr1 ++ tr2) = (weights tr1 + weights tr2)%nat.
Proof. induction tr1 as [|x tr1 IH]; cbn [app weights fold_right]; [reflexivity|]. fold (weights (tr1 ++ tr2)) (weights tr1). lia. Qed.
Lemma within_if tr : short_calls tr = true -> N.of_nat (weights tr) < 2 ^ 64 -> within tr.
Proof.
  intros H1 H2. split.
  - intros c m a o Hi Hm. unfold short_calls in H1. rewrite forallb_forall in H1. specialize (H1 _ Hi). cbn [fst snd] in H1. rewrite (proj2 (kv_iff _ _ _) Hm) in H1.
    apply Forall_forall. intros e He. rewrite forallb_forall in H1. apply elem_of_list_In in He. apply H1 in He. apply andb_prop in He as [Ha Hb].
    apply N.ltb_lt in Ha, Hb. split; assumption.
  - intros tr1 tr2 b ts -> Hh. apply history_len in Hh. rewrite weights_app in H2. eapply N.le_lt_trans; [|exact H2]. lia.
Qed.

(** ** Nothing else is stored *)
Definition Foot (st : flat) (l : list (string * string)) : Prop :=
  forall key, is_Some (st !! key) -> key = "STATE" \/ (exists k, k ∈ l.*1 /\ key = idx_key_raw P0 (enc_str k)) \/
    (exists i, (i < length l)%nat /\ (key = vec_key (keys_pref P0) i \/ key = vec_key (vals_pref P0) i)).
Lemma foot_save st r l : Foot st l -> Foot (kb_save st r) l.
Proof. intros H key Hk. destruct (decide (key = "STATE")) as [->|Hne]; [left; reflexivity|]. apply H. unfold kb_save in Hk. rewrite lookup_insert_ne in Hk by congruence. exact Hk. Qed.
Lemma set_keys (l : list (string * string)) k v k' : k' ∈ (om_set l k v).*1 <-> k' = k \/ k' ∈ l.*1.
Proof.
  destruct (decide (k' = k)) as [->|Hne].
  - split; [left; reflexivity|]. intros _. apply (om_get_Some_key _ _ v). apply om_get_set_eq.
  - split.
    + intros H. right. destruct (om_get l k') as [w|] eqn:E; [exact (om_get_Some_key _ _ _ E)|]. rewrite <- (om_get_set_ne l k k' v) in E by congruence. apply om_get_None in E. contradiction.
    + intros [H|H]; [congruence|]. destruct (om_get (om_set l k v) k') as [w|] eqn:E; [exact (om_get_Some_key _ _ _ E)|]. rewrite om_get_set_ne in E by congruence. apply om_get_None in E. contradiction.
Qed.
Lemma absent_get st l k : Data st l -> st !! idx_key_raw P0 (enc_str k) = None -> om_get l k = None.
Proof. intros H E. pose proof (data_get _ _ k H) as Hg. unfold fget in Hg. cbn [h_pref] in Hg. rewrite E in Hg. destruct (om_get l k); [discriminate|reflexivity]. Qed.
Lemma present_get st l k : Data st l -> is_Some (st !! idx_key_raw P0 (enc_str k)) -> exists v, om_get l k = Some v.
Proof.
  intros H [b E]. pose proof (data_get _ _ k H) as Hg. unfold fget in Hg. cbn [h_pref h_len] in Hg. rewrite E in Hg. apply bind_Ok in Hg as (i & _ & Hg).
  apply bind_Ok in Hg as (o & _ & Hg). destruct o; [|discriminate]. destruct (om_get l k); [eauto|discriminate].
Qed.
Lemma len_set (l : list (string * string)) k v : length (om_set l k v) = match om_get l k with Some _ => length l | None => S (length l) end.
Proof.
  induction l as [|[k' v'] l IH]; [reflexivity|]. cbn [om_set om_get length]. destruct (decide (k = k')); [reflexivity|]. cbn [length]. rewrite IH. destruct (om_get l k); reflexivity.
Qed.
Lemma foot_insert st l k v st' h : Data st l -> Foot st l -> s_insert st (hd P0 (length l)) k v = Ok (st', h) -> Foot st' (om_set l k v).
Proof.
  intros HD HF H. unfold s_insert in H. apply bind_Ok in H as ([[st1 h1] o] & E & H). apply bind_Ok in H as (o' & _ & H). injection H as <- <-.
  unfold b_insert in E. rewrite hd_idx in E. cbn [hd um_vlen um_vpre um_klen um_kpre um_pre] in E. rewrite !Nat2N.id in E.
  assert (Hold : forall key, is_Some (st !! key) -> key = "STATE" \/ (exists k0, k0 ∈ (om_set l k v).*1 /\ key = idx_key_raw P0 (enc_str k0)) \/
     (exists i, (i < length (om_set l k v))%nat /\ (key = vec_key (keys_pref P0) i \/ key = vec_key (vals_pref P0) i))).
  { intros key Hk. destruct (HF key Hk) as [H|[(k0 & H0 & H1)|(i & H0 & H1)]]; [left; exact H| |].
    - right. left. exists k0. split; [apply set_keys; right; exact H0|exact H1].
    - right. right. exists i. split; [pose proof (len_put l k v); lia|exact H1]. }
  destruct (st !! idx_key_raw P0 (enc_str k)) as [b|] eqn:Ei.
  - apply bind_Ok in E as (i & Efi & E). apply bind_Ok in E as (u & El & E). apply require_Ok in El. apply Nat.ltb_lt in El.
    destruct (st !! vec_key (P0 +:+ "v") i) eqn:Ev; [|discriminate]. injection E as <- <- <-. intros key Hk. apply Hold.
    destruct (decide (key = vec_key (P0 +:+ "v") i)) as [->|Hne]; [rewrite Ev; eauto|]. rewrite lookup_insert_ne in Hk by congruence. exact Hk.
  - pose proof (absent_get _ _ _ HD Ei) as Eg. assert (Hl : length (om_set l k v) = S (length l)) by (rewrite len_set, Eg; reflexivity).
    change (mkUmh (P0 +:+ "i") (N.of_nat (length l)) (P0 +:+ "k") (N.of_nat (length l)) (P0 +:+ "v")) with (hd P0 (length l)) in E. rewrite hd_len in E. cbn [mbind res_bind] in E.
    apply bind_Ok in E as (x & _ & E). apply bind_Ok in E as (y & _ & E). injection E as <- <- <-. intros key Hk.
    destruct (decide (key = vec_key (P0 +:+ "v") (length l))) as [->|H1]; [right; right; exists (length l); split; [lia|right; reflexivity]|]. rewrite lookup_insert_ne in Hk by congruence.
    destruct (decide (key = vec_key (P0 +:+ "k") (length l))) as [->|H2]; [right; right; exists (length l); split; [lia|left; reflexivity]|]. rewrite lookup_insert_ne in Hk by congruence.
    destruct (decide (key = idx_key_raw P0 (enc_str k))) as [->|H3]; [right; left; exists k; split; [apply set_keys; left; reflexivity|reflexivity]|]. rewrite lookup_insert_ne in Hk by congruence.
    apply Hold. exact Hk.
Qed.
Lemma swap_some st q n i st' key : small n -> fvec_swap_remove st q n i = Ok st' -> is_Some (st' !! key) -> is_Some (st !! key) /\ key <> vec_key q (n - 1).
Proof.
  unfold fvec_swap_remove, fvec_pop. intros Hs H Hk. destruct (Nat.ltb_spec i n) as [Hi|]; [|discriminate]. destruct (st !! vec_key q (n - 1)) eqn:El; [|discriminate]. cbn [mbind res_bind] in H.
  assert (Hd : is_Some (delete (vec_key q (n - 1)) st !! key) -> is_Some (st !! key) /\ key <> vec_key q (n - 1)).
  { intros [w Hw]. apply lookup_delete_Some in Hw as [Hne Hw]. split; [eauto|congruence]. }
  destruct (Nat.eqb_spec i (n - 1)) as [->|Hne]; [injection H as <-; apply Hd; exact Hk|].
  destruct (_ !! vec_key q i) eqn:E; [|discriminate]. injection H as <-. destruct (decide (key = vec_key q i)) as [->|Hn].
  - apply Hd. rewrite E. eauto.
  - rewrite lookup_insert_ne in Hk by congruence. apply Hd. exact Hk.
Qed.
Lemma foot_remove st l k st' h o : Data st l -> Foot st l -> s_remove st (hd P0 (length l)) k = Ok (st', h, o) -> Foot st' (om_remove l k).
Proof.
  intros HD HF H. unfold s_remove in H. apply bind_Ok in H as ([[st1 h1] o1] & E & H). apply bind_Ok in H as (o' & _ & H). injection H as <- <- <-.
  unfold b_remove in E. rewrite hd_idx, hd_len in E. cbn [hd um_vlen um_vpre um_klen um_kpre um_pre] in E. rewrite !Nat2N.id in E.
  destruct (st !! idx_key_raw P0 (enc_str k)) as [b|] eqn:Ei.
  2: { injection E as <- <- <-. rewrite om_remove_None by exact (absent_get _ _ _ HD Ei). exact HF. }
  destruct (present_get _ _ k HD (ex_intro _ _ Ei)) as (v & Eg). pose proof (Permutation_length (om_remove_cons _ _ _ Eg)) as Hl. cbn [length] in Hl.
  pose proof (data_nodup _ _ HD) as Hn. pose proof (data_len _ _ HD) as Hs.
  cbn [mbind res_bind] in E. apply bind_Ok in E as (s1 & E1 & E). apply bind_Ok in E as (i & Efi & E). apply bind_Ok in E as (s2 & E2 & E). apply bind_Ok in E as (old & Eo & E).
  apply bind_Ok in E as (s3 & E3 & E). injection E as <- <- <-.
  intros key Hk. apply (swap_some _ _ _ _ _ _ Hs E3) in Hk as [Hk Nv]. apply (swap_some _ _ _ _ _ _ Hs E2) in Hk as [Hk Nk].
  assert (Hm : is_Some (st !! key) /\ key <> idx_key_raw P0 (enc_str k)).
  { assert (Hd : is_Some (delete (idx_key_raw P0 (enc_str k)) st !! key) -> is_Some (st !! key) /\ key <> idx_key_raw P0 (enc_str k)).
    { intros [w Hw]. apply lookup_delete_Some in Hw as [Hne Hw]. split; [eauto|congruence]. }
    destruct (N.eqb_spec (N.of_nat (length l)) 1) as [_|N1]; [injection E1 as <-; apply Hd; exact Hk|].
    destruct (N.eqb_spec (N.of_nat (length l)) 0) as [_|N0]; [discriminate|]. apply bind_Ok in E1 as (ol & Eol & E1). destruct ol as [lk|]; [|discriminate].
    replace (N.to_nat (N.of_nat (length l) - 1)) with (length l - 1)%nat in Eol by lia. injection E1 as <-. case_bool_decide as Hlk; [apply Hd; exact Hk|].
    destruct (decide (key = (P0 +:+ "i") +:+ lk)) as [->|Hne]; [|rewrite lookup_insert_ne in Hk by congruence; apply Hd; exact Hk].
    destruct (lookup_lt_is_Some_2 l (length l - 1)) as [[k0 v0] H0]; [lia|]. destruct HD as (ce & (R1 & R2 & _) & [_ Hc] & _).
    destruct (Hc (length l - 1)%nat (enc_str k0) (enc_str v0)) as (C1 & _ & C3); [rewrite raw_lookup, H0; reflexivity|].
    unfold fvec_get in Eol. destruct (length l - 1 <? length l)%nat; [|discriminate]. fold (keys_pref P0) in Eol. rewrite R2 in Eol by (unfold small in *; lia). rewrite C1 in Eol. injection Eol as <-.
    split; [|intros E; apply Hlk; unfold idx_key_raw in E; rewrite sapp_assoc in E; apply sapp_inj, sapp_inj in E; exact E].
    change ((P0 +:+ "i") +:+ enc_str k0) with (idx_key_raw P0 (enc_str k0)). rewrite R1, C3. cbn. eauto. }
  destruct Hm as [Hm Ni]. destruct (HF key Hm) as [H|[(k0 & H0 & ->)|(j & Hj & Hkey)]]; [left; exact H| |].
  - right. left. exists k0. split; [|reflexivity]. assert (Hne : k <> k0) by (intros ->; contradiction).
    destruct (om_get (om_remove l k) k0) as [w|] eqn:Ew; [exact (om_get_Some_key _ _ _ Ew)|]. rewrite om_get_remove_ne in Ew by assumption. apply om_get_None in Ew. contradiction.
  - right. right. exists j. split; [|exact Hkey]. assert (j <> length l - 1)%nat; [|lia]. intros ->. destruct Hkey as [->| ->]; [apply Nk; reflexivity|apply Nv; reflexivity].
Qed.
Lemma foot_exec st b c o st' r t : Data st (bk_entries b) -> Foot st (bk_entries b) -> Forall sh (writes o) -> small (length (bk_entries (after b o))) ->
  kb_exec c st (root_of b) o = Ok (st', r, t) -> Foot st' (bk_entries (after b o)).
Proof.
  intros HD HF Hw Hs H. pose proof (data_nodup _ _ HD) as Hn. destruct o as [x y|x|x|k v|l|k]; cbn [kb_exec after bk_entries writes] in *; [discriminate| | | | |]; apply bind_Ok in H as (u1 & _ & H); apply bind_Ok in H as (u2 & _ & H).
  - injection H as <- <- <-. exact HF.
  - injection H as <- <- <-. exact HF.
  - apply bind_Ok in H as ([s1 h1] & E & H). injection H as <- <- <-. rewrite put_om by exact Hn. exact (foot_insert _ _ _ _ _ _ HD HF E).
  - rewrite (puts_om _ _ Hn) in *. apply bind_Ok in H as ([s1 h1] & E & H). injection H as <- <- <-. cbn [root_of r_data] in E. clear Hn.
    revert E. generalize dependent st. generalize dependent (bk_entries b). induction l as [|w l IH]; intros es Hs st HD HF E; [injection E as <- <-; exact HF|].
    cbn [fold_left foldM] in *. apply Forall_cons in Hw as [Hw1 Hw]. apply bind_Ok in E as ([s2 h2] & E2 & E). cbn [fst snd] in E2.
    destruct (s_insert_ok st es w.1 w.2 HD) as (s2' & E2' & HD' & _); [destruct w; exact Hw1|pose proof (len_puts l (om_set es w.1 w.2)); unfold small in *; lia|].
    rewrite E2' in E2. injection E2 as <- <-. exact (IH Hw _ Hs _ HD' (foot_insert _ _ _ _ _ _ HD HF E2') E).
  - apply bind_Ok in H as ([[s1 h1] o1] & E & H). injection H as <- <- <-. rewrite take_out_om. exact (foot_remove _ _ _ _ _ _ HD HF E).
Qed.
Lemma foot_all tr b ts : within tr -> history tr (Some b) ts -> Foot (kb_run tr) (bk_entries b).
Proof.
  revert b ts. induction tr as [|[[c m] a] tr IH] using rev_ind; intros b ts Hw Hh.
  - inversion Hh; match goal with H : _ ++ [_] = [] |- _ => apply app_eq_nil in H as [_ H]; discriminate H end.
  - unfold kb_run. rewrite fold_left_app. fold (kb_run tr). cbn [fold_left]. unfold kb_step. cbn [fst snd]. pose proof (within_before _ _ Hw) as Hwb. destruct (c97_all _ Hwb) as (b1 & H1 & HR).
    inversion Hh as [E|tr1 b0 ts1 c' m' a' b2 t H1' Ha E|tr1 b0 ts1 c' m' a' H1' Ha E]; apply snoc_eq in E as [-> E]; injection E as -> -> ->; subst;
      destruct (history_det _ _ _ _ _ H1 H1') as [-> _].
    + destruct Hw as [W1 W2]. assert (Hs : small (length (bk_entries b))) by exact (W2 (tr ++ [(c, m, a)]) [] b _ (eq_sym (app_nil_r _)) Hh).
      assert (Wo : forall o, kv_means m a o -> Forall sh (writes o)) by (intros o Ho; apply (W1 c m a o); [apply in_or_app; right; left; reflexivity|exact Ho]).
      destruct (call_yes _ _ _ _ _ _ _ HR Ha Wo) as (st' & E & _); [intros ? [= <-]; exact Hs|]. rewrite E. clear Hh.
      destruct Ha as [(x & y & -> & Hm & _ & [= ->] & ->)|[(k & o & -> & Hm & Hal & [= ->] & ->)|(k & q & -> & Hm & [= ->] & ->)]].
      * rewrite (call_new _ _ _ _ _ _ Hm) in E. apply bind_Ok in E as (u & _ & E). apply bind_Ok in E as (s1 & En & E). injection E as <-. unfold kb_new in En. apply bind_Ok in En as (u' & _ & En). injection En as <-.
        cbn [Rep] in HR. rewrite HR. cbn [bk_entries]. intros key Hk. left. unfold kb_save in Hk. destruct (decide (key = "STATE")) as [->|Hne]; [reflexivity|].
        rewrite lookup_insert_ne, lookup_empty in Hk by congruence. destruct Hk. discriminate.
      * rewrite (call_op _ _ _ _ _ Hm), (rep_load _ _ HR) in E. cbn [mbind res_bind] in E. apply bind_Ok in E as ([[s1 r1] t1] & Ee & E). injection E as <- _.
        apply foot_save. destruct HR as (_ & HD & _). exact (foot_exec _ _ _ _ _ _ _ HD (IH _ _ Hwb H1) (Wo _ Hm) Hs Ee).
      * rewrite (call_view _ _ _ _ _ Hm), (rep_load _ _ HR) in E. cbn [mbind res_bind] in E. apply bind_Ok in E as (t1 & _ & E). injection E as <- _. exact (IH _ _ Hwb H1).
    + destruct (kb_call (kb_run tr) c m a) as [[st' t]|e] eqn:E; [destruct (call_no _ _ _ _ _ _ _ HR E) as (b' & Hb); destruct (Ha _ _ Hb)|]. exact (IH _ _ Hwb H1).
Qed.
Lemma c97_nothing_else tr b ts : within tr -> history tr (Some b) ts -> forall key, is_Some (kb_run tr !! key) ->
  key = "STATE" \/ exists i k v, bk_entries b !! i = Some (k, v) /\
    (key = P0 +:+ "i" +:+ enc_str k \/ key = P0 +:+ "k" +:+ enc_uint 8 (N.of_nat i) \/ key = P0 +:+ "v" +:+ enc_uint 8 (N.of_nat i)).
Proof.
  intros Hw Hh key Hk. destruct (foot_all _ _ _ Hw Hh key Hk) as [H|[(k & H & ->)|(i & Hi & H)]]; [left; exact H| |]; right.
  - apply elem_of_list_fmap in H as ([k' v] & -> & H). apply elem_of_list_lookup in H as [i H]. exists i, k', v. split; [exact H|]. left. reflexivity.
  - destruct (lookup_lt_is_Some_2 _ _ Hi) as [[k v] H0]. exists i, k, v. split; [exact H0|]. right. destruct H as [->| ->]; [left|right]; reflexivity.
Qed.
