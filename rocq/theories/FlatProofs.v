(** FlatProofs.v -- C68: the records of different collections never overlap. *)

From Verif Require Export Flat MigrateProofs Collections.

(** *** Specification *)

(** no prefix goes on as another one *)
Definition prefix_free (P : string -> Prop) : Prop :=
  forall p q a b, P p -> P q -> p +:+ a = q +:+ b -> p = q.

Inductive kind := KMap | KVec | KLook.
Definition op_prefix (o : fop) : string :=
  match o with
  | FIns p _ _ | FRem p _ | FNew p | VPush p _ | VReplace p _ _ | VSwapRemove p _ | VNew p | LSet p _ _ | LRemove p _ => p
  end.
Definition op_kind (o : fop) : kind :=
  match o with
  | FIns _ _ _ | FRem _ _ | FNew _ => KMap
  | VPush _ _ | VReplace _ _ _ | VSwapRemove _ _ | VNew _ => KVec
  | LSet _ _ _ | LRemove _ _ => KLook
  end.

(** the last value written under a key of a map and not removed *)
Definition ftouch (o : fop) (p k : string) : option (option string) :=
  match o with
  | FIns p' k' v | LSet p' k' v => if decide (p' = p /\ k' = k) then Some (Some v) else None
  | FRem p' k' | LRemove p' k' => if decide (p' = p /\ k' = k) then Some None else None
  | _ => None
  end.
Fixpoint flast (tr : list fop) (p k : string) : option (option string) :=
  match tr with
  | [] => None
  | o :: tr' => match flast tr' p k with Some r => Some r | None => ftouch o p k end
  end.
Definition fvalue (tr : list fop) (p k : string) : option string := default None (flast tr p k).
(** the elements of a vector *)
Definition vstep (p : string) (l : list string) (o : fop) : list string :=
  if decide (op_prefix o = p) then
    match o with
    | VPush _ b => l ++ [b]
    | VReplace _ i b => <[i := b]> l
    | VSwapRemove _ i => swap_remove i l
    | VNew _ => []
    | _ => l
    end
  else l.
Definition vlist (tr : list fop) (p : string) : list string := fold_left (vstep p) tr [].

(** every collection is used as one kind; an unordered map is created again only while it is
    empty; vectors are accessed within their bounds *)
Definition fdisciplined (P : string -> Prop) (kd : string -> kind) (tr : list fop) : Prop :=
  forall tr1 o tr2, tr = tr1 ++ o :: tr2 ->
    P (op_prefix o) /\ kd (op_prefix o) = op_kind o /\
    match o with
    | FNew p => forall k, fvalue tr1 p k = None
    | VReplace p i _ | VSwapRemove p i => (i < length (vlist tr1 p))%nat
    | _ => True
    end.

(** ** Proofs *)
Local Open Scope string_scope.
Lemma sapp_len (a b : string) : String.length (a +:+ b) = (String.length a + String.length b)%nat.
Proof. induction a as [|x a IH]; [reflexivity|]. change (S (String.length (a +:+ b)) = S (String.length a + String.length b)). rewrite IH. reflexivity. Qed.
Lemma sapp_inj2 : forall (a c b d : string), String.length a = String.length c -> a +:+ b = c +:+ d -> a = c /\ b = d.
Proof.
  induction a as [|x a IH]; intros [|y c] b d Hl E; try discriminate Hl.
  - split; [reflexivity|exact E].
  - change (String x (a +:+ b) = String y (c +:+ d)) in E. injection E as -> E. injection Hl as Hl.
    destruct (IH c b d Hl E) as [-> ->]. split; reflexivity.
Qed.
Lemma sapp_inj (a b d : string) : a +:+ b = a +:+ d -> b = d.
Proof. intros E. exact (proj2 (sapp_inj2 a a b d eq_refl E)). Qed.
Lemma enc_uint_len n : forall x, String.length (enc_uint n x) = n.
Proof. induction n as [|n IH]; intros x; [reflexivity|]. cbn [enc_uint String.length]. rewrite IH. reflexivity. Qed.
Lemma enc_uint_inj n x y : x < 256 ^ N.of_nat n -> y < 256 ^ N.of_nat n -> enc_uint n x = enc_uint n y -> x = y.
Proof.
  intros Hx Hy E. pose proof (dec_enc_uint n x "" Hx) as A. pose proof (dec_enc_uint n y "" Hy) as B.
  rewrite E in A. congruence.
Qed.
Lemma enc_str_inj a b : str_fits a -> str_fits b -> enc_str a = enc_str b -> a = b.
Proof.
  intros Ha Hb E. pose proof (dec_enc_str a "" Ha) as A. pose proof (dec_enc_str b "" Hb) as B. rewrite E in A. congruence.
Qed.
Lemma fidx_enc i : N.of_nat i < U64_SIZE -> fidx (enc_uint 8 (N.of_nat i)) = Ok i.
Proof.
  intros H. unfold fidx. rewrite <- (sapp_nil (enc_uint 8 (N.of_nat i))). rewrite dec_u64 by exact H. rewrite Nat2N.id. reflexivity.
Qed.

(** the three groups of records under one prefix do not overlap *)
Lemma idx_ne_keys p k i : idx_key_raw p k <> vec_key (keys_pref p) i.
Proof. unfold idx_key_raw, vec_key, keys_pref. rewrite sapp_assoc. intros E. apply sapp_inj in E. discriminate. Qed.
Lemma idx_ne_vals p k i : idx_key_raw p k <> vec_key (vals_pref p) i.
Proof. unfold idx_key_raw, vec_key, vals_pref. rewrite sapp_assoc. intros E. apply sapp_inj in E. discriminate. Qed.
Lemma keys_ne_vals p i j : vec_key (keys_pref p) i <> vec_key (vals_pref p) j.
Proof. unfold vec_key, keys_pref, vals_pref. rewrite !sapp_assoc. intros E. apply sapp_inj in E. discriminate. Qed.
Lemma idx_inj p k k' : idx_key_raw p k = idx_key_raw p k' -> k = k'.
Proof. unfold idx_key_raw. intros E. apply sapp_inj in E. apply (sapp_inj "i") in E. exact E. Qed.
Definition small (i : nat) : Prop := N.of_nat i < U64_SIZE.
Lemma vec_inj q i j : small i -> small j -> vec_key q i = vec_key q j -> i = j.
Proof. unfold vec_key. intros Hi Hj E. apply sapp_inj in E. apply (enc_uint_inj 8) in E; [lia|exact Hi|exact Hj]. Qed.
Definition under (p key : string) : Prop := exists x, key = p +:+ x.
Lemma under_idx p k : under p (idx_key_raw p k).
Proof. eexists. reflexivity. Qed.
Lemma under_vec q i : under q (vec_key q i).
Proof. eexists. reflexivity. Qed.
Lemma under_keys p i : under p (vec_key (keys_pref p) i).
Proof. unfold vec_key, keys_pref. rewrite sapp_assoc. eexists. reflexivity. Qed.
Lemma under_vals p i : under p (vec_key (vals_pref p) i).
Proof. unfold vec_key, vals_pref. rewrite sapp_assoc. eexists. reflexivity. Qed.

(** vectors *)
Definition Rvec (st : flat) (q : string) (m : gmap nat string) : Prop :=
  forall i, small i -> st !! vec_key q i = m !! i.
Definition Ridx (st : flat) (p : string) (m : gmap string nat) : Prop :=
  forall k, st !! idx_key_raw p k = (fun i => enc_uint 8 (N.of_nat i)) <$> m !! k.
Definition Rcell (st : flat) (p : string) (ce : cell string) : Prop :=
  Ridx st p (ce_idx ce) /\ Rvec st (keys_pref p) (ce_keys ce) /\ Rvec st (vals_pref p) (ce_vals ce).
Definition frame (st st' : flat) (q : string) : Prop := forall key, ~ under q key -> st' !! key = st !! key.

Lemma Rvec_insert st q m i b : small i -> Rvec st q m -> Rvec (<[vec_key q i := b]> st) q (<[i := b]> m).
Proof.
  intros Hi H j Hj. destruct (decide (i = j)) as [->|Hne]; [rewrite !lookup_insert; reflexivity|].
  rewrite !lookup_insert_ne; [apply H; exact Hj|exact Hne|]. intros E. apply Hne. eapply vec_inj; eassumption.
Qed.
Lemma Rvec_delete st q m i : small i -> Rvec st q m -> Rvec (delete (vec_key q i) st) q (delete i m).
Proof.
  intros Hi H j Hj. destruct (decide (i = j)) as [->|Hne]; [rewrite !lookup_delete; reflexivity|].
  rewrite !lookup_delete_ne; [apply H; exact Hj|exact Hne|]. intros E. apply Hne. eapply vec_inj; eassumption.
Qed.
Lemma Rvec_other st st' q m : (forall i, st' !! vec_key q i = st !! vec_key q i) -> Rvec st q m -> Rvec st' q m.
Proof. intros E H i Hi. rewrite E. apply H. exact Hi. Qed.
Lemma Ridx_other st st' p m : (forall k, st' !! idx_key_raw p k = st !! idx_key_raw p k) -> Ridx st p m -> Ridx st' p m.
Proof. intros E H k. rewrite E. apply H. Qed.
Lemma Ridx_insert st p m k i : Ridx st p m -> Ridx (<[idx_key_raw p k := enc_uint 8 (N.of_nat i)]> st) p (<[k := i]> m).
Proof.
  intros H k'. destruct (decide (k = k')) as [->|Hne]; [rewrite !lookup_insert; reflexivity|].
  rewrite !lookup_insert_ne; [apply H|exact Hne|]. intros E. apply Hne. eapply idx_inj; eassumption.
Qed.
Lemma Ridx_delete st p m k : Ridx st p m -> Ridx (delete (idx_key_raw p k) st) p (delete k m).
Proof.
  intros H k'. destruct (decide (k = k')) as [->|Hne]; [rewrite !lookup_delete; reflexivity|].
  rewrite !lookup_delete_ne; [apply H|exact Hne|]. intros E. apply Hne. eapply idx_inj; eassumption.
Qed.

Lemma fvec_get_sim st q m len i : small len -> Rvec st q m -> fvec_get st q len i = vec_get m len i.
Proof.
  intros Hl H. unfold fvec_get, vec_get. destruct (Nat.ltb_spec i len) as [Hi|]; [|reflexivity].
  rewrite H by (unfold small in *; lia). reflexivity.
Qed.
Lemma swap_remove_sim st q m len i m' :
  small len -> Rvec st q m -> vec_swap_remove m len i = Ok m' ->
  exists st', fvec_swap_remove st q len i = Ok st' /\ Rvec st' q m' /\
    (forall key, (forall j, key <> vec_key q j) -> st' !! key = st !! key).
Proof.
  intros Hl H. unfold vec_swap_remove, fvec_swap_remove, fvec_pop. destruct (Nat.ltb_spec i len) as [Hi|]; [|discriminate].
  assert (Hs : small (len - 1)) by (unfold small in *; lia). assert (Hsi : small i) by (unfold small in *; lia).
  rewrite (H _ Hs). destruct (m !! (len - 1)%nat) as [a|] eqn:Ea; [|discriminate]. cbn [mbind res_bind].
  pose proof (Rvec_delete _ _ _ _ Hs H) as Hd. destruct (Nat.eqb_spec i (len - 1)) as [->|Hne].
  - intros [= <-]. eexists. split; [reflexivity|]. split; [exact Hd|]. intros key Hk. apply lookup_delete_ne. intros <-. eapply Hk; reflexivity.
  - rewrite (Hd _ Hsi), lookup_delete_ne by lia. destruct (m !! i); [|discriminate]. intros [= <-].
    eexists. split; [reflexivity|]. split; [apply Rvec_insert; assumption|]. intros key Hk.
    rewrite lookup_insert_ne by (intros <-; eapply Hk; reflexivity). apply lookup_delete_ne. intros <-. eapply Hk; reflexivity.
Qed.

(** maps *)
Lemma fget_sim st p ce len k :
  small len -> Rcell st p ce -> (forall k' i, ce_idx ce !! k' = Some i -> small i) ->
  fget st (mkH p len) k = cget ce len k.
Proof.
  intros Hl (Hi & Hk & Hv) Hs. unfold fget, cget. cbn [h_pref h_len]. rewrite Hi.
  destruct (ce_idx ce !! k) as [i|] eqn:E; cbn [fmap option_fmap option_map]; [|reflexivity].
  rewrite fidx_enc by (eapply Hs; exact E). cbn [mbind res_bind]. rewrite (fvec_get_sim _ _ _ _ _ Hl Hv). reflexivity.
Qed.
Lemma finsert_sim st p ce len k v ce' len' :
  small len -> Rcell st p ce -> (forall k' i, ce_idx ce !! k' = Some i -> small i) ->
  cinsert ce len k v = Ok (ce', len') ->
  exists st', finsert st (mkH p len) k v = Ok (st', mkH p len') /\ Rcell st' p ce' /\ frame st st' p.
Proof.
  intros Hl (Hi & Hk & Hv) Hs. unfold finsert, cinsert. cbn [h_pref h_len]. rewrite Hi.
  destruct (ce_idx ce !! k) as [i|] eqn:E; cbn [fmap option_fmap option_map].
  - pose proof (Hs _ _ E) as Hsi. rewrite fidx_enc by exact Hsi. cbn [mbind res_bind].
    destruct (i <? len)%nat; [|discriminate]. rewrite (Hv _ Hsi). destruct (ce_vals ce !! i); [|discriminate].
    intros [= <- <-]. eexists. split; [reflexivity|]. split.
    + split; [|split]; cbn [ce_idx ce_keys ce_vals].
      * eapply Ridx_other; [|exact Hi]. intros k'. apply lookup_insert_ne. intros F. symmetry in F. exact (idx_ne_vals _ _ _ F).
      * eapply Rvec_other; [|exact Hk]. intros j. apply lookup_insert_ne. intros F. symmetry in F. exact (keys_ne_vals _ _ _ F).
      * apply Rvec_insert; assumption.
    + intros key Hn. apply lookup_insert_ne. intros <-. apply Hn. apply under_vals.
  - intros [= <- <-]. eexists. split; [reflexivity|]. split.
    + split; [|split]; cbn [ce_idx ce_keys ce_vals].
      * eapply Ridx_other; [|apply Ridx_insert; exact Hi]. intros k'.
        rewrite lookup_insert_ne by (intros F; symmetry in F; exact (idx_ne_vals _ _ _ F)).
        apply lookup_insert_ne. intros F; symmetry in F; exact (idx_ne_keys _ _ _ F).
      * eapply Rvec_other; [|apply Rvec_insert; [exact Hl|]].
        -- intros j. apply lookup_insert_ne. intros F. symmetry in F. exact (keys_ne_vals _ _ _ F).
        -- eapply Rvec_other; [|exact Hk]. intros j. apply lookup_insert_ne. apply idx_ne_keys.
      * apply Rvec_insert; [exact Hl|]. eapply Rvec_other; [|exact Hv]. intros j.
        rewrite lookup_insert_ne by apply keys_ne_vals. apply lookup_insert_ne. apply idx_ne_vals.
    + intros key Hn. rewrite !lookup_insert_ne; [reflexivity|intros <-; apply Hn..]; [apply under_idx|apply under_keys|apply under_vals].
Qed.
Lemma fremove_sim st p ce len k ce' len' :
  small len -> Rcell st p ce -> (forall k' i, ce_idx ce !! k' = Some i -> small i) ->
  cremove ce len k = Ok (ce', len') ->
  exists st', fremove st (mkH p len) k = Ok (st', mkH p len') /\ Rcell st' p ce' /\ frame st st' p.
Proof.
  intros Hl (Hi & Hk & Hv) Hs. unfold fremove, cremove. cbn [h_pref h_len]. rewrite Hi.
  destruct (ce_idx ce !! k) as [i|] eqn:E; cbn [fmap option_fmap option_map].
  2:{ intros [= <- <-]. eexists. split; [reflexivity|]. split; [split; [exact Hi|split; [exact Hk|exact Hv]]|intros key _; reflexivity]. }
  pose proof (Hs _ _ E) as Hsi. intros H. apply bind_Ok in H as (idx' & H1 & H). apply bind_Ok in H as (keys' & H2 & H).
  apply bind_Ok in H as (vals' & H3 & H). injection H as <- <-.
  assert (exists st1, fmove_index st p len k (enc_uint 8 (N.of_nat i)) = Ok st1 /\
     Ridx st1 p idx' /\ forall key, (forall k', key <> idx_key_raw p k') -> st1 !! key = st !! key) as (st1 & Hst1 & Hx1 & Hf1).
  { unfold fmove_index. pose proof (Ridx_delete _ _ _ k Hi) as Hd.
    assert (Hfd : forall key, (forall k', key <> idx_key_raw p k') -> delete (idx_key_raw p k) st !! key = st !! key).
    { intros key F. apply lookup_delete_ne. intros <-. eapply F; reflexivity. }
    destruct (len =? 1)%nat; [injection H1 as <-; eexists; split; [reflexivity|]; split; [exact Hd|exact Hfd]|].
    destruct (len =? 0)%nat; [discriminate|]. rewrite (fvec_get_sim _ _ _ _ _ Hl Hk).
    apply bind_Ok in H1 as (ol & Ho & H1). rewrite Ho. cbn [mbind res_bind]. destruct ol as [lk|]; [|discriminate].
    injection H1 as <-. eexists. split; [reflexivity|]. destruct (bool_decide (lk = k)); [split; [exact Hd|exact Hfd]|].
    split; [apply Ridx_insert; exact Hd|]. intros key F. rewrite lookup_insert_ne by (intros <-; eapply F; reflexivity). apply Hfd. exact F. }
  rewrite Hst1. cbn [mbind res_bind]. rewrite fidx_enc by exact Hsi. cbn [mbind res_bind].
  assert (Hk1 : Rvec st1 (keys_pref p) (ce_keys ce)).
  { eapply Rvec_other; [|exact Hk]. intros j. apply Hf1. intros k' F. symmetry in F. exact (idx_ne_keys _ _ _ F). }
  destruct (swap_remove_sim _ _ _ _ _ _ Hl Hk1 H2) as (st2 & E2 & Hk2 & Hf2). rewrite E2. cbn [mbind res_bind].
  assert (Hv2 : Rvec st2 (vals_pref p) (ce_vals ce)).
  { eapply Rvec_other; [|exact Hv]. intros j. rewrite Hf2 by (intros j' F; symmetry in F; exact (keys_ne_vals _ _ _ F)).
    apply Hf1. intros k' F. symmetry in F. exact (idx_ne_vals _ _ _ F). }
  destruct (swap_remove_sim _ _ _ _ _ _ Hl Hv2 H3) as (st3 & E3 & Hv3 & Hf3). rewrite E3. cbn [mbind res_bind].
  eexists. split; [reflexivity|]. split.
  - split; [|split]; cbn [ce_idx ce_keys ce_vals].
    + eapply Ridx_other; [|exact Hx1]. intros k'. rewrite Hf3 by (intros j F; exact (idx_ne_vals _ _ _ F)).
      apply Hf2. intros j F. exact (idx_ne_keys _ _ _ F).
    + eapply Rvec_other; [|exact Hk2]. intros j. apply Hf3. intros j' F. exact (keys_ne_vals _ _ _ F).
    + exact Hv3.
  - intros key Hn. rewrite Hf3 by (intros j ->; apply Hn; apply under_vals).
    rewrite Hf2 by (intros j ->; apply Hn; apply under_keys). apply Hf1. intros k' ->. apply Hn. apply under_idx.
Qed.

(** all collections *)
Definition inv_at (kd : string -> kind) (s : fstate) (tr : list fop) (p : string) : Prop :=
  (flen s p <= length tr)%nat /\
  match kd p with
  | KMap => exists ce l, Rcell (fs_st s) p ce /\ crep ce (flen s p) l /\ cexact ce l /\ forall k, om_get l k = fvalue tr p k
  | KVec => flen s p = length (vlist tr p) /\ forall i b, vlist tr p !! i = Some b -> fs_st s !! vec_key p i = Some b
  | KLook => forall k, fs_st s !! (p +:+ k) = fvalue tr p k
  end.

Lemma flast_snoc tr o p k : flast (tr ++ [o]) p k = match ftouch o p k with Some r => Some r | None => flast tr p k end.
Proof. induction tr as [|x tr IH]; cbn; [destruct (ftouch o p k); reflexivity|]. rewrite IH. destruct (ftouch o p k); reflexivity. Qed.
Lemma fvalue_snoc tr o p k : fvalue (tr ++ [o]) p k = match ftouch o p k with Some r => r | None => fvalue tr p k end.
Proof. unfold fvalue. rewrite flast_snoc. destruct (ftouch o p k); reflexivity. Qed.
Lemma vlist_snoc tr o p : vlist (tr ++ [o]) p = vstep p (vlist tr p) o.
Proof. unfold vlist. rewrite fold_left_app. reflexivity. Qed.
Lemma ftouch_other o p k : op_prefix o <> p -> ftouch o p k = None.
Proof. intros H. destruct o; cbn in *; try reflexivity; rewrite decide_False by (intros [? _]; contradiction); reflexivity. Qed.
Lemma vstep_other o p l : op_prefix o <> p -> vstep p l o = l.
Proof. intros H. unfold vstep. rewrite decide_False by exact H. reflexivity. Qed.
Lemma vlist_small tr p i b : N.of_nat (length tr) < U64_SIZE -> (length (vlist tr p) <= length tr)%nat -> vlist tr p !! i = Some b -> small i.
Proof. intros H1 H2 H3. apply lookup_lt_Some in H3. unfold small. lia. Qed.

Section Steps.
Context (P : string -> Prop) (HP : prefix_free P) (kd : string -> kind).

Lemma not_under p q x : P p -> P q -> p <> q -> ~ under q (p +:+ x).
Proof. intros Hp Hq Hne [y E]. apply Hne. eapply HP; eassumption. Qed.

Lemma inv_other s s' tr o p q :
  P p -> P q -> p <> q -> op_prefix o = q -> frame (fs_st s) (fs_st s') q -> flen s' p = flen s p ->
  inv_at kd s tr p -> inv_at kd s' (tr ++ [o]) p.
Proof.
  intros Hp Hq Hne Ho Hf Hl [Hb H]. split; [rewrite Hl, app_length; cbn; lia|]. rewrite Hl.
  assert (Hop : op_prefix o <> p) by congruence.
  assert (Hv : forall k, fvalue (tr ++ [o]) p k = fvalue tr p k) by (intros k; rewrite fvalue_snoc, ftouch_other by exact Hop; reflexivity).
  assert (Hagree : forall x, fs_st s' !! (p +:+ x) = fs_st s !! (p +:+ x)) by (intros x; apply Hf; apply not_under; assumption).
  destruct (kd p).
  - destruct H as (ce & l & (Hi & Hk & Hvl) & Hr & Hx & Hg). exists ce, l. split; [|split; [exact Hr|split; [exact Hx|]]].
    + split; [|split].
      * eapply Ridx_other; [|exact Hi]. intros k. apply Hagree.
      * eapply Rvec_other; [|exact Hk]. intros i. unfold vec_key, keys_pref. rewrite sapp_assoc. apply Hagree.
      * eapply Rvec_other; [|exact Hvl]. intros i. unfold vec_key, vals_pref. rewrite sapp_assoc. apply Hagree.
    + intros k. rewrite Hv. apply Hg.
  - rewrite vlist_snoc, vstep_other by exact Hop. destruct H as [H1 H2]. split; [exact H1|]. intros i b Hi.
    unfold vec_key. rewrite Hagree. apply H2. exact Hi.
  - intros k. rewrite Hagree, Hv. apply H.
Qed.

Definition finv (s : fstate) (tr : list fop) : Prop := forall p, P p -> inv_at kd s tr p.

Lemma flen_set st m p n q : flen (mkF st (<[p := n]> m)) q = if decide (p = q) then n else default 0%nat (m !! q).
Proof. unfold flen. cbn [fs_len]. case_decide; [subst; rewrite lookup_insert; reflexivity|rewrite lookup_insert_ne by assumption; reflexivity]. Qed.

Lemma finv_step s tr o :
  finv s tr -> N.of_nat (length tr) < U64_SIZE -> P (op_prefix o) -> kd (op_prefix o) = op_kind o ->
  match o with
  | FNew p => forall k, fvalue tr p k = None
  | VReplace p i _ | VSwapRemove p i => (i < length (vlist tr p))%nat
  | _ => True
  end ->
  exists s', fstep s o = Ok s' /\ finv s' (tr ++ [o]) /\ frame (fs_st s) (fs_st s') (op_prefix o).
Proof.
  intros HI Hn HPo Hk Hside.
  (* it is enough to look at the prefix of the operation *)
  assert (Hgen : forall s', fstep s o = Ok s' -> frame (fs_st s) (fs_st s') (op_prefix o) ->
             (forall p, p <> op_prefix o -> flen s' p = flen s p) -> inv_at kd s' (tr ++ [o]) (op_prefix o) ->
             exists s', fstep s o = Ok s' /\ finv s' (tr ++ [o]) /\ frame (fs_st s) (fs_st s') (op_prefix o)).
  { intros s' E Hf Hl Ha. exists s'. split; [exact E|]. split; [|exact Hf]. intros p Hp. destruct (decide (p = op_prefix o)) as [->|Hne]; [exact Ha|].
    eapply inv_other; [exact Hp|exact HPo|exact Hne|reflexivity|exact Hf|apply Hl; exact Hne|apply HI; exact Hp]. }
  pose proof (HI _ HPo) as [Hb Hat]. rewrite Hk in Hat.
  assert (Hsl : small (flen s (op_prefix o))) by (unfold small; lia).
  assert (HLn : length (tr ++ [o]) = S (length tr)) by (rewrite app_length; cbn; lia).
  unfold inv_at in Hgen. rewrite Hk, HLn in Hgen.
  destruct o as [p k v|p k|p|p b|p i b|p i|p|p k v|p k]; cbn [op_prefix op_kind] in *.
  - (* FIns *)
    destruct Hat as (ce & l & HR & Hr & Hx & Hg). destruct (cinsert_exact _ _ _ k v Hr Hx) as (ce' & len' & E & Hr' & Hx').
    assert (Hsi : forall k' i, ce_idx ce !! k' = Some i -> small i).
    { intros k' i Hi. destruct (Hx _ _ Hi) as [v' Hl]. apply lookup_lt_Some in Hl. destruct Hr as [Hr _]. unfold small in *. lia. }
    destruct (finsert_sim _ _ _ _ _ _ _ _ Hsl HR Hsi E) as (st' & E' & HR' & Hf).
    eapply Hgen; [cbn [fstep]; unfold fhandle; rewrite E'; reflexivity|exact Hf| |].
    + intros q Hq. cbn [h_len]. rewrite flen_set, decide_False by congruence. reflexivity.
    + rewrite flen_set, decide_True by reflexivity. cbn [h_len fs_st]. split.
      * destruct (cinsert_spec _ _ _ _ _ _ _ Hr E) as [(i0 & k0 & v0 & _ & _ & [HH _] & _)|(_ & [HH _] & _)]; destruct Hr as [Hr _].
        -- rewrite insert_length in HH. lia.
        -- rewrite app_length in HH. cbn in HH. lia.
      * exists ce', (om_set l k v). split; [exact HR'|]. split; [exact Hr'|]. split; [exact Hx'|]. intros k'.
        rewrite fvalue_snoc. cbn [ftouch]. destruct (decide (k = k')) as [<-|Hkk].
        -- rewrite om_get_set_eq, decide_True by auto. reflexivity.
        -- rewrite om_get_set_ne by exact Hkk. rewrite decide_False by (intros [_ ?]; contradiction). apply Hg.
  - (* FRem *)
    destruct Hat as (ce & l & HR & Hr & Hx & Hg). destruct (cremove_exact _ _ _ k Hr Hx) as (ce' & len' & E & Hr' & Hx').
    assert (Hsi : forall k' i, ce_idx ce !! k' = Some i -> small i).
    { intros k' i Hi. destruct (Hx _ _ Hi) as [v' Hl]. apply lookup_lt_Some in Hl. destruct Hr as [Hr _]. unfold small in *. lia. }
    destruct (fremove_sim _ _ _ _ _ _ _ Hsl HR Hsi E) as (st' & E' & HR' & Hf).
    eapply Hgen; [cbn [fstep]; unfold fhandle; rewrite E'; reflexivity|exact Hf| |].
    + intros q Hq. cbn [h_len]. rewrite flen_set, decide_False by congruence. reflexivity.
    + rewrite flen_set, decide_True by reflexivity. cbn [h_len fs_st]. split.
      * clear -E Hb. unfold cremove in E. destruct (ce_idx ce !! k); [|injection E as _ <-; lia].
        apply bind_Ok in E as (? & _ & E). apply bind_Ok in E as (? & _ & E). apply bind_Ok in E as (? & _ & E). injection E as _ <-. lia.
      * exists ce', (om_remove l k). split; [exact HR'|]. split; [exact Hr'|]. split; [exact Hx'|]. intros k'.
        pose proof (crep_NoDup _ _ _ Hr) as Hnd.
        rewrite fvalue_snoc. cbn [ftouch]. destruct (decide (k = k')) as [<-|Hkk].
        -- rewrite om_get_remove_eq, decide_True by auto. reflexivity.
        -- rewrite om_get_remove_ne by assumption. rewrite decide_False by (intros [_ ?]; contradiction). apply Hg.
  - (* FNew *)
    destruct Hat as (ce & l & HR & Hr & Hx & Hg).
    assert (l = []) as ->.
    { destruct l as [|[k v] l]; [reflexivity|]. exfalso. specialize (Hg k). cbn in Hg. rewrite decide_True in Hg by reflexivity.
      rewrite Hside in Hg. discriminate. }
    eapply Hgen; [reflexivity|intros key _; reflexivity| |].
    + intros q Hq. rewrite flen_set, decide_False by congruence. reflexivity.
    + rewrite flen_set, decide_True by reflexivity. split; [lia|]. exists ce, []. split; [exact HR|]. split; [apply crep_nil|]. split; [exact Hx|].
      intros k. rewrite fvalue_snoc. apply Hg.
  - (* VPush *)
    destruct Hat as [Hlen Hv]. eapply Hgen; [reflexivity| | |].
    + intros key Hu. cbn [fs_st]. apply lookup_insert_ne. intros <-. apply Hu. apply under_vec.
    + intros q Hq. rewrite flen_set, decide_False by congruence. reflexivity.
    + rewrite flen_set, decide_True by reflexivity. rewrite vlist_snoc. unfold vstep. cbn [op_prefix fs_st]. rewrite decide_True by reflexivity.
      split; [lia|]. split; [rewrite app_length; cbn; lia|]. intros i c Hi. apply lookup_app_Some in Hi as [Hi|[Hi Hc]].
      * pose proof (lookup_lt_Some _ _ _ Hi). rewrite lookup_insert_ne; [apply Hv; exact Hi|].
        intros E. apply vec_inj in E; [lia|exact Hsl|unfold small in *; lia].
      * destruct (i - length (vlist tr p))%nat as [|n] eqn:En; [|discriminate Hc].
        injection Hc as <-. assert (i = flen s p) as -> by lia. apply lookup_insert.
  - (* VReplace *)
    destruct Hat as [Hlen Hv]. destruct (lookup_lt_is_Some_2 _ _ Hside) as [c Hc].
    eapply Hgen with (s' := mkF (<[vec_key p i := b]> (fs_st s)) (fs_len s)).
    + cbn [fstep]. destruct (Nat.ltb_spec i (flen s p)); [|lia]. rewrite (Hv _ _ Hc). reflexivity.
    + intros key Hu. cbn [fs_st]. apply lookup_insert_ne. intros <-. apply Hu. apply under_vec.
    + intros q Hq. reflexivity.
    + change (flen (mkF (<[vec_key p i := b]> (fs_st s)) (fs_len s)) p) with (flen s p). rewrite vlist_snoc. unfold vstep. cbn [op_prefix fs_st].
      rewrite decide_True by reflexivity. split; [lia|]. split; [rewrite insert_length; exact Hlen|]. intros j d Hj.
      pose proof (lookup_lt_Some _ _ _ Hj) as Hjl. rewrite insert_length in Hjl. destruct (decide (i = j)) as [->|Hne].
      * rewrite list_lookup_insert in Hj by exact Hside. injection Hj as <-. apply lookup_insert.
      * rewrite list_lookup_insert_ne in Hj by exact Hne. rewrite lookup_insert_ne; [apply Hv; exact Hj|].
        intros E. apply vec_inj in E; [contradiction|unfold small in *; lia..].
  - (* VSwapRemove *)
    destruct Hat as [Hlen Hv].
    assert (exists st', fvec_swap_remove (fs_st s) p (flen s p) i = Ok st' /\
       (forall j d, swap_remove i (vlist tr p) !! j = Some d -> st' !! vec_key p j = Some d) /\
       frame (fs_st s) st' p) as (st' & E & Hv' & Hf).
    { destruct (lookup_lt_is_Some_2 (vlist tr p) (length (vlist tr p) - 1)) as [d Hd]; [lia|].
      destruct (lookup_lt_is_Some_2 _ _ Hside) as [c Hc].
      assert (Hsm : forall j, (j < length (vlist tr p))%nat -> small j) by (intros j Hj; unfold small in *; lia).
      assert (Hdel : forall j e, (j < length (vlist tr p) - 1)%nat -> vlist tr p !! j = Some e ->
                delete (vec_key p (length (vlist tr p) - 1)) (fs_st s) !! vec_key p j = Some e).
      { intros j e Hj He. rewrite lookup_delete_ne; [apply Hv; exact He|]. intros E. apply vec_inj in E; [lia|apply Hsm; lia..]. }
      unfold fvec_swap_remove, fvec_pop. destruct (Nat.ltb_spec i (flen s p)); [|lia]. rewrite Hlen. rewrite (Hv _ _ Hd). cbn [mbind res_bind].
      destruct (Nat.eqb_spec i (length (vlist tr p) - 1)) as [Ei|Hne].
      - eexists. split; [reflexivity|]. split; [|intros key Hu; apply lookup_delete_ne; intros <-; apply Hu; apply under_vec].
        intros j e Hj. pose proof (lookup_lt_Some _ _ _ Hj) as Hjl. rewrite swap_remove_length in Hjl by exact Hside.
        rewrite lookup_swap_remove in Hj by exact Hside. repeat case_decide; try lia. apply Hdel; [lia|exact Hj].
      - rewrite (Hdel i c) by (assumption || lia). eexists. split; [reflexivity|]. split.
        + intros j e Hj. pose proof (lookup_lt_Some _ _ _ Hj) as Hjl. rewrite swap_remove_length in Hjl by exact Hside.
          rewrite lookup_swap_remove in Hj by exact Hside. destruct (decide (i = j)) as [<-|Hij].
          * rewrite lookup_insert. repeat case_decide; try lia; congruence.
          * rewrite lookup_insert_ne by (intros E; apply vec_inj in E; [lia|apply Hsm; lia..]).
            repeat case_decide; try lia. apply Hdel; [lia|exact Hj].
        + intros key Hu. rewrite lookup_insert_ne by (intros <-; apply Hu; apply under_vec).
          apply lookup_delete_ne. intros <-. apply Hu. apply under_vec. }
    eapply Hgen; [cbn [fstep]; rewrite E; reflexivity|exact Hf| |].
    + intros q Hq. rewrite flen_set, decide_False by congruence. reflexivity.
    + rewrite flen_set, decide_True by reflexivity. rewrite vlist_snoc. unfold vstep. cbn [op_prefix fs_st]. rewrite decide_True by reflexivity.
      split; [lia|]. split; [rewrite swap_remove_length by exact Hside; lia|exact Hv'].
  - (* VNew *)
    eapply Hgen; [reflexivity|intros key _; reflexivity| |].
    + intros q Hq. rewrite flen_set, decide_False by congruence. reflexivity.
    + rewrite flen_set, decide_True by reflexivity. rewrite vlist_snoc. unfold vstep. cbn [op_prefix]. rewrite decide_True by reflexivity.
      split; [lia|]. split; [reflexivity|]. intros i b H. rewrite lookup_nil in H. discriminate.
  - (* LSet *)
    eapply Hgen; [reflexivity| |intros q Hq; reflexivity|].
    + intros key Hu. cbn [fs_st]. apply lookup_insert_ne. intros <-. apply Hu. eexists; reflexivity.
    + split; [exact (Nat.le_trans _ _ _ Hb (Nat.le_succ_diag_r _))|]. intros k'. cbn [fs_st]. rewrite fvalue_snoc. cbn [ftouch].
      destruct (decide (k = k')) as [<-|Hne].
      * rewrite decide_True by auto. apply lookup_insert.
      * rewrite decide_False by (intros [_ ?]; contradiction). rewrite lookup_insert_ne; [apply Hat|]. intros E. apply sapp_inj in E. contradiction.
  - (* LRemove *)
    eapply Hgen; [reflexivity| |intros q Hq; reflexivity|].
    + intros key Hu. cbn [fs_st]. apply lookup_delete_ne. intros <-. apply Hu. eexists; reflexivity.
    + split; [exact (Nat.le_trans _ _ _ Hb (Nat.le_succ_diag_r _))|]. intros k'. cbn [fs_st]. rewrite fvalue_snoc. cbn [ftouch].
      destruct (decide (k = k')) as [<-|Hne].
      * rewrite decide_True by auto. apply lookup_delete.
      * rewrite decide_False by (intros [_ ?]; contradiction). rewrite lookup_delete_ne; [apply Hat|]. intros E. apply sapp_inj in E. contradiction.
Qed.
End Steps.

(** *** Specification of the whole store *)
Definition coll_ok (kd : string -> kind) (s : fstate) (tr : list fop) (p : string) : Prop :=
  match kd p with
  | KMap =>
      (forall k, fget (fs_st s) (fhandle s p) k = Ok (fvalue tr p k)) /\
      exists l, fentries (fs_st s) (fhandle s p) = Ok l /\ NoDup l.*1 /\ length l = flen s p /\
        (forall k v, In (k, v) l <-> fvalue tr p k = Some v)
  | KVec => fvec_elems (fs_st s) p (flen s p) = Ok (vlist tr p)
  | KLook => forall k, fs_st s !! (p +:+ k) = fvalue tr p k
  end.

Lemma fvec_elems_list st q (l : list string) :
  (forall i b, l !! i = Some b -> st !! vec_key q i = Some b) -> fvec_elems st q (length l) = Ok l.
Proof.
  unfold fvec_elems.
  assert (G : forall l n, (forall i b, l !! i = Some b -> st !! vec_key q (n + i)%nat = Some b) ->
    mapMr (fun i => match st !! vec_key q i with Some a => Ok a | None => Panic "inconsistent state" end) (seq n (length l)) = Ok l).
  { clear l. induction l as [|b l IH]; intros n H; [reflexivity|]. cbn [length seq mapMr].
    pose proof (H 0%nat b eq_refl) as H0. rewrite Nat.add_0_r in H0. rewrite H0. cbn [mbind res_bind]. rewrite IH; [reflexivity|].
    intros i c Hi. specialize (H (S i) c Hi). rewrite <- Nat.add_succ_comm in H. exact H. }
  intros H. apply (G l 0%nat). exact H.
Qed.

Lemma inv_coll kd s tr p : small (flen s p) -> inv_at kd s tr p -> coll_ok kd s tr p.
Proof.
  intros Hs [Hb H]. unfold coll_ok. destruct (kd p).
  - destruct H as (ce & l & HR & Hr & Hx & Hg). split.
    + intros k. unfold fhandle. rewrite (fget_sim _ _ _ _ _ Hs HR).
      * rewrite (cget_exact _ _ _ _ Hr Hx), Hg. reflexivity.
      * intros k' i Hi. destruct (Hx _ _ Hi) as [v' Hl]. apply lookup_lt_Some in Hl. destruct Hr as [Hr _]. unfold small in *. lia.
    + exists l. destruct HR as (_ & Hk & Hv). destruct Hr as [Hlen Hr0]. pose proof (crep_NoDup _ _ _ (conj Hlen Hr0)) as Hnd.
      unfold fentries, fhandle. cbn [h_pref h_len]. rewrite Hlen in *.
      rewrite <- (fmap_length fst l) at 1. rewrite <- (fmap_length snd l).
      assert (Hsm : forall i kv, l !! i = Some kv -> small i) by (intros i kv Hi; apply lookup_lt_Some in Hi; unfold small in *; lia).
      rewrite !fvec_elems_list; [cbn [mbind res_bind]| |].
      * split; [f_equal; apply zip_fst_snd|]. split; [exact Hnd|]. split; [rewrite fmap_length; reflexivity|].
        intros k v. rewrite <- Hg. split; [apply om_In_get; exact Hnd|apply om_get_Some_In].
      * intros i b Hi. apply list_lookup_fmap_Some in Hi as ([k v] & Hi & ->). rewrite (Hk i (Hsm _ _ Hi)). apply Hr0 in Hi as (E & _ & _). exact E.
      * intros i b Hi. apply list_lookup_fmap_Some in Hi as ([k v] & Hi & ->). rewrite (Hv i (Hsm _ _ Hi)). apply Hr0 in Hi as (_ & E & _). exact E.
  - destruct H as [-> H]. apply fvec_elems_list. exact H.
  - exact H.
Qed.

Lemma fdisc_prefix P kd tr o : fdisciplined P kd (tr ++ [o]) -> fdisciplined P kd tr.
Proof. intros H tr1 o' tr2 ->. apply (H tr1 o' (tr2 ++ [o])%list). rewrite <- app_assoc. reflexivity. Qed.

Lemma c68_store P kd st0 tr :
  prefix_free P -> (forall p x, P p -> st0 !! (p +:+ x) = None) ->
  fdisciplined P kd tr -> N.of_nat (length tr) < U64_SIZE ->
  exists s, frun (mkF st0 ∅) tr = Ok s /\ (forall p, P p -> coll_ok kd s tr p) /\
    (forall key, (forall p x, P p -> key <> p +:+ x) -> fs_st s !! key = st0 !! key).
Proof.
  intros HP H0. assert (G : fdisciplined P kd tr -> N.of_nat (length tr) < U64_SIZE ->
    exists s, frun (mkF st0 ∅) tr = Ok s /\ finv P kd s tr /\
      (forall key, (forall p x, P p -> key <> p +:+ x) -> fs_st s !! key = st0 !! key)).
  { induction tr as [|o tr IH] using rev_ind; intros Hd Hn.
    - exists (mkF st0 ∅). split; [reflexivity|]. split; [|intros; reflexivity]. intros p Hp. unfold inv_at, flen. cbn [fs_len fs_st].
      rewrite lookup_empty. cbn [default from_option]. split; [cbn; lia|]. destruct (kd p).
      + exists empty_cell, []. split; [|split; [apply crep_nil|split; [|reflexivity]]].
        * split; [|split].
          -- intros k. unfold idx_key_raw. rewrite H0 by exact Hp. reflexivity.
          -- intros i _. unfold vec_key, keys_pref. rewrite sapp_assoc, H0 by exact Hp. reflexivity.
          -- intros i _. unfold vec_key, vals_pref. rewrite sapp_assoc, H0 by exact Hp. reflexivity.
        * intros k i Hi. cbn in Hi. rewrite lookup_empty in Hi. discriminate.
      + split; [reflexivity|]. intros i b Hi. discriminate Hi.
      + intros k. apply H0. exact Hp.
    - rewrite app_length in Hn. cbn [length] in Hn.
      destruct (IH (fdisc_prefix _ _ _ _ Hd) ltac:(lia)) as (s & Hs & HI & Hf).
      destruct (Hd tr o [] eq_refl) as (HPo & Hk & Hside).
      destruct (finv_step P HP kd s tr o HI ltac:(lia) HPo Hk Hside) as (s' & E & HI' & Hfr).
      exists s'. split; [|split; [exact HI'|]].
      + unfold frun in *. rewrite foldM_app, Hs. cbn [mbind res_bind foldM]. rewrite E. reflexivity.
      + intros key Hk'. rewrite Hfr; [apply Hf; exact Hk'|]. intros [x Hx]. exact (Hk' _ x HPo Hx). }
  intros Hd Hn. destruct (G Hd Hn) as (s & Hs & HI & Hf). exists s. split; [exact Hs|]. split; [|exact Hf].
  intros p Hp. apply inv_coll; [|apply HI; exact Hp]. destruct (HI p Hp) as [Hb _]. unfold small. lia.
Qed.

(** *** Specification of the keys of the four contracts *)
Definition urec_fits (r : urec) : Prop :=
  match r with UIdx k => str_fits k | UKey i | UVal i => i < U64_SIZE end.
Definition nrec_fits (r : nrec) : Prop :=
  match r with NIdx k => k < U32_SIZE | NKey i | NVal i => i < U64_SIZE end.
Definition mv_fits (x : mv_item) : Prop :=
  match x with
  | MState => True
  | MLockingPosition _ i => i < U64_SIZE
  | MVotePosition _ r | MVoters r | MVotes r | MContractVotes _ r | MVoterVotes _ _ r | MClaimable r | MClaimableStNear r
  | MAirdropData r | MEvmDelegates r => urec_fits r
  | MEvmDelegationSignatures e | MEvmPreDelegation e => str_fits e
  end.
(** what is hashed into the key *)
Definition mv_id (x : mv_item) : option string :=
  match x with
  | MLockingPosition v _ | MVotePosition v _ => Some v
  | MContractVotes a _ => Some a
  | MVoterVotes v a _ => Some (v +:+ "-" +:+ a)
  | _ => None
  end.
(** the same record: the maps of a voter's votes count as the same if "voter-address" is *)
Definition mv_same (x y : mv_item) : Prop :=
  match x, y with
  | MVoterVotes v a r, MVoterVotes v' a' r' => v +:+ "-" +:+ a = v' +:+ "-" +:+ a' /\ r = r'
  | _, _ => x = y
  end.
Definition mp_fits (x : mp_item) : Prop :=
  match x with
  | PState => True
  | PMpips r | PMpipVotes r | PVotes _ r => nrec_fits r
  | PHasVoted _ r | PVoters r | PProposers r => urec_fits r
  end.
Definition mp_id (x : mp_item) : option string :=
  match x with PHasVoted id _ => Some (pretty id) | PVotes v _ => Some v | _ => None end.
(** two different strings with the same hash *)
Definition collide (H : string -> string) (a b : option string) : Prop :=
  exists s t, a = Some s /\ b = Some t /\ s <> t /\ H s = H t.
Definition hash32 (H : string -> string) : Prop := forall s, String.length (H s) = 32%nat.

(** ** Proofs *)
Lemma urec_inj p r r' : urec_fits r -> urec_fits r' -> urec_key p r = urec_key p r' -> r = r'.
Proof.
  intros Hr Hr' E. unfold urec_key in E. destruct r, r'; apply sapp_inj in E; cbn [urec_fits] in *;
    try discriminate E; f_equal.
  - apply (sapp_inj "i") in E. apply enc_str_inj; assumption.
  - apply (sapp_inj "k") in E. apply (enc_uint_inj 8) in E; assumption.
  - apply (sapp_inj "v") in E. apply (enc_uint_inj 8) in E; assumption.
Qed.
Lemma nrec_inj p r r' : nrec_fits r -> nrec_fits r' -> nrec_key p r = nrec_key p r' -> r = r'.
Proof.
  intros Hr Hr' E. unfold nrec_key in E. destruct r, r'; apply sapp_inj in E; cbn [nrec_fits] in *;
    try discriminate E; f_equal.
  - apply (sapp_inj "i") in E. apply (enc_uint_inj 4) in E; assumption.
  - apply (sapp_inj "k") in E. apply (enc_uint_inj 8) in E; assumption.
  - apply (sapp_inj "v") in E. apply (enc_uint_inj 8) in E; assumption.
Qed.
Lemma urec_split p r : exists x, urec_key p r = p +:+ x.
Proof. destruct r; eexists; reflexivity. Qed.
Lemma nrec_split p r : exists x, nrec_key p r = p +:+ x.
Proof. destruct r; eexists; reflexivity. Qed.
Lemma sk1_len H t id : hash32 H -> String.length (sk1 H t id) = 33%nat.
Proof. intros HH. unfold sk1. rewrite sapp_len, enc_uint_len, HH. reflexivity. Qed.
Lemma sk1_app_inj H t a b x y : hash32 H -> sk1 H t a +:+ x = sk1 H t b +:+ y -> H a = H b /\ x = y.
Proof.
  intros HH E. apply sapp_inj2 in E as [E E']; [|rewrite !sk1_len by exact HH; reflexivity].
  unfold sk1 in E. apply sapp_inj in E. split; assumption.
Qed.
Lemma hash_cases (H : string -> string) a b : H a = H b -> a = b \/ collide H (Some a) (Some b).
Proof. intros E. destruct (decide (a = b)) as [->|Hne]; [left; reflexivity|right; exists a, b; split; [reflexivity|split; [reflexivity|split; assumption]]]. Qed.
Lemma hashed_urec H t a b r r' :
  hash32 H -> urec_fits r -> urec_fits r' -> urec_key (sk1 H t a) r = urec_key (sk1 H t b) r' ->
  r = r' /\ (a = b \/ collide H (Some a) (Some b)).
Proof.
  intros HH Hr Hr' E. destruct (urec_split (sk1 H t a) r) as [x Ex]. destruct (urec_split (sk1 H t b) r') as [y Ey].
  rewrite Ex, Ey in E. apply sk1_app_inj in E as [Eh Exy]; [|exact HH].
  assert (sk1 H t a = sk1 H t b) as Es by (unfold sk1; rewrite Eh; reflexivity).
  split; [|apply hash_cases; exact Eh]. apply (urec_inj (sk1 H t b)); [assumption..|]. rewrite <- Es at 1. rewrite Ex, Ey, Es, Exy. reflexivity.
Qed.
Lemma hashed_nrec H t a b r r' :
  hash32 H -> nrec_fits r -> nrec_fits r' -> nrec_key (sk1 H t a) r = nrec_key (sk1 H t b) r' ->
  r = r' /\ (a = b \/ collide H (Some a) (Some b)).
Proof.
  intros HH Hr Hr' E. destruct (nrec_split (sk1 H t a) r) as [x Ex]. destruct (nrec_split (sk1 H t b) r') as [y Ey].
  rewrite Ex, Ey in E. apply sk1_app_inj in E as [Eh Exy]; [|exact HH].
  assert (sk1 H t a = sk1 H t b) as Es by (unfold sk1; rewrite Eh; reflexivity).
  split; [|apply hash_cases; exact Eh]. apply (nrec_inj (sk1 H t b)); [assumption..|]. rewrite <- Es at 1. rewrite Ex, Ey, Es, Exy. reflexivity.
Qed.
Definition byte0 (s : string) : option ascii := match s with String c _ => Some c | EmptyString => None end.
Lemma byte0_urec p c q r : p = String c q -> byte0 (urec_key p r) = Some c.
Proof. intros ->. destruct r; reflexivity. Qed.
Lemma byte0_nrec p c q r : p = String c q -> byte0 (nrec_key p r) = Some c.
Proof. intros ->. destruct r; reflexivity. Qed.
Definition mv_tag (x : mv_item) : N :=
  match x with
  | MState => 83 | MLockingPosition _ _ => 0 | MVotePosition _ _ => 1 | MVoters _ => 2 | MVotes _ => 3 | MContractVotes _ _ => 4
  | MVoterVotes _ _ _ => 5 | MClaimable _ => 6 | MClaimableStNear _ => 7 | MAirdropData _ => 8 | MEvmDelegates _ => 9
  | MEvmDelegationSignatures _ => 10 | MEvmPreDelegation _ => 11
  end.
Lemma mv_byte0 H x : byte0 (mv_key H x) = Some (ascii_of_N (mv_tag x)).
Proof. destruct x; cbn [mv_key mv_tag]; try reflexivity; apply (byte0_urec _ _ _ _ eq_refl). Qed.
Lemma mv_tag_eq H x y : mv_key H x = mv_key H y -> mv_tag x = mv_tag y.
Proof.
  intros E. assert (B : Some (ascii_of_N (mv_tag x)) = Some (ascii_of_N (mv_tag y))) by (rewrite <- !(mv_byte0 H), E; reflexivity).
  injection B as B. rewrite <- (N_ascii_embedding (mv_tag x)), <- (N_ascii_embedding (mv_tag y)), B; [reflexivity|destruct y; reflexivity|destruct x; reflexivity].
Qed.
Lemma c68_mv H x y : hash32 H -> mv_fits x -> mv_fits y -> mv_key H x = mv_key H y -> mv_same x y \/ collide H (mv_id x) (mv_id y).
Proof.
  intros HH Hx Hy E. pose proof (mv_tag_eq _ _ _ E) as T.
  destruct x, y; try discriminate T; cbn [mv_key mv_fits mv_same mv_id] in *; clear T.
  all: try (left; reflexivity).
  all: try (left; f_equal; eapply urec_inj; eassumption).
  - apply sk1_app_inj in E as [Eh Ei]; [|exact HH]. apply (enc_uint_inj 8) in Ei; [|assumption..]. subst. destruct (hash_cases _ _ _ Eh) as [->|]; [left; reflexivity|right; assumption].
  - apply hashed_urec in E as [-> [->|C]]; [left; reflexivity|right; exact C|assumption..].
  - apply hashed_urec in E as [-> [->|C]]; [left; reflexivity|right; exact C|assumption..].
  - apply hashed_urec in E as [-> [Ev|C]]; [left; split; [exact Ev|reflexivity]|right; exact C|assumption..].
  - left. apply sapp_inj in E. f_equal. apply enc_str_inj; assumption.
  - left. apply sapp_inj in E. f_equal. apply enc_str_inj; assumption.
Qed.
Definition mp_tag (x : mp_item) : N :=
  match x with
  | PState => 83 | PMpips _ => 0 | PHasVoted _ _ => 1 | PMpipVotes _ => 2 | PVoters _ => 3 | PProposers _ => 4 | PVotes _ _ => 5
  end.
Lemma mp_byte0 H x : byte0 (mp_key H x) = Some (ascii_of_N (mp_tag x)).
Proof. destruct x; cbn [mp_key mp_tag]; try reflexivity; first [apply (byte0_urec _ _ _ _ eq_refl) | apply (byte0_nrec _ _ _ _ eq_refl)]. Qed.
Lemma mp_tag_eq H x y : mp_key H x = mp_key H y -> mp_tag x = mp_tag y.
Proof.
  intros E. assert (B : Some (ascii_of_N (mp_tag x)) = Some (ascii_of_N (mp_tag y))) by (rewrite <- !(mp_byte0 H), E; reflexivity).
  injection B as B. rewrite <- (N_ascii_embedding (mp_tag x)), <- (N_ascii_embedding (mp_tag y)), B; [reflexivity|destruct y; reflexivity|destruct x; reflexivity].
Qed.
Lemma c68_mp H x y : hash32 H -> mp_fits x -> mp_fits y -> mp_key H x = mp_key H y -> x = y \/ collide H (mp_id x) (mp_id y).
Proof.
  intros HH Hx Hy E. pose proof (mp_tag_eq _ _ _ E) as T.
  destruct x, y; try discriminate T; cbn [mp_key mp_fits mp_id] in *; clear T.
  all: try (left; reflexivity).
  all: try (left; f_equal; first [eapply urec_inj; eassumption | eapply nrec_inj; eassumption]).
  - apply hashed_urec in E as [-> [Ei|C]]; [left|right; exact C|assumption..]. apply (inj pretty) in Ei. subst. reflexivity.
  - apply hashed_nrec in E as [-> [->|C]]; [left; reflexivity|right; exact C|assumption..].
Qed.
Lemma c68_kv x y :
  (match x with KData r => urec_fits r | _ => True end) -> (match y with KData r => urec_fits r | _ => True end) ->
  kv_key x = kv_key y -> x = y.
Proof.
  destruct x as [|r], y as [|r']; cbn [kv_key]; intros Hx Hy E; [reflexivity| | |f_equal; eapply urec_inj; eassumption].
  - destruct (urec_split (sk0 0) r') as [z Ez]. rewrite Ez in E. discriminate E.
  - destruct (urec_split (sk0 0) r) as [z Ez]. rewrite Ez in E. discriminate E.
Qed.
Lemma c68_tok x y :
  (match x with TAccount a => str_fits a | _ => True end) -> (match y with TAccount a => str_fits a | _ => True end) ->
  tok_key x = tok_key y -> x = y.
Proof.
  destruct x as [|a|], y as [|b|]; cbn [tok_key]; intros Hx Hy E; try reflexivity; try discriminate E.
  apply sapp_inj in E. f_equal. apply enc_str_inj; assumption.
Qed.

(** the collections of meta-vote-contract *)
Lemma mv_prefix_free H : hash32 H -> prefix_free (mv_prefix H).
Proof.
  intros HH p q a b Hp Hq E.
  assert (Hb : forall c d, byte0 (enc_uint 1 c) = byte0 (enc_uint 1 d) -> c < 256 -> d < 256 -> c = d).
  { intros c d F Hc Hd. apply (enc_uint_inj 1); [exact Hc|exact Hd|]. cbn [enc_uint] in *. injection F as F. rewrite F. reflexivity. }
  assert (HS : forall t l, In t l -> Forall (fun t => t < 256) l -> t < 256) by (intros t l Hi F; eapply List.Forall_forall in F; eassumption).
  assert (H8 : Forall (fun t : N => t < 256) [2; 3; 6; 7; 8; 9; 10; 11]) by (repeat (apply List.Forall_cons; [reflexivity|]); apply List.Forall_nil).
  assert (H4 : Forall (fun t : N => t < 256) [0; 1; 4; 5]) by (repeat (apply List.Forall_cons; [reflexivity|]); apply List.Forall_nil).
  destruct Hp as [t Ht|t i Ht], Hq as [u Hu|u j Hu].
  - unfold sk0 in *. apply sapp_inj2 in E as [E _]; [exact E|rewrite !enc_uint_len; reflexivity].
  - exfalso. unfold sk0, sk1 in E. rewrite sapp_assoc in E. apply sapp_inj2 in E as [E _]; [|rewrite !enc_uint_len; reflexivity].
    apply (enc_uint_inj 1) in E; [subst u|eapply HS; eassumption..]. cbn in Ht, Hu. intuition congruence.
  - exfalso. unfold sk0, sk1 in E. rewrite sapp_assoc in E. apply sapp_inj2 in E as [E _]; [|rewrite !enc_uint_len; reflexivity].
    apply (enc_uint_inj 1) in E; [subst u|eapply HS; eassumption..]. cbn in Ht, Hu. intuition congruence.
  - apply sapp_inj2 in E as [E _]; [exact E|rewrite !sk1_len by exact HH; reflexivity].
Qed.
Lemma mv_not_state H p x : mv_prefix H p -> "STATE" <> p +:+ x.
Proof.
  intros Hp E. destruct Hp as [t Ht|t i Ht].
  - cbn in Ht. repeat (destruct Ht as [<-|Ht]; [discriminate E|]). destruct Ht.
  - unfold sk1 in E. rewrite sapp_assoc in E. cbn in Ht. repeat (destruct Ht as [<-|Ht]; [discriminate E|]). destruct Ht.
Qed.
Lemma c68_mv_store H kd st0 tr :
  hash32 H -> (forall p x, mv_prefix H p -> st0 !! (p +:+ x) = None) ->
  fdisciplined (mv_prefix H) kd tr -> N.of_nat (length tr) < U64_SIZE ->
  exists s, frun (mkF st0 ∅) tr = Ok s /\ (forall p, mv_prefix H p -> coll_ok kd s tr p) /\ fs_st s !! "STATE" = st0 !! "STATE".
Proof.
  intros HH H0 Hd Hn. destruct (c68_store _ kd st0 tr (mv_prefix_free H HH) H0 Hd Hn) as (s & Hs & Hc & Hf).
  exists s. split; [exact Hs|]. split; [exact Hc|]. apply Hf. intros p x Hp. apply mv_not_state with (H := H). exact Hp.
Qed.
