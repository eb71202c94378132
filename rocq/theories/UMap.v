(** UMap.v -- storage-level model of near_sdk 4 [collections::UnorderedMap].

    Storage under a prefix p:
      p ++ "i" ++ key   -> position of the key          ([ce_idx])
      p ++ "k" ++ pos   -> key   (the key Vector)       ([ce_keys])
      p ++ "v" ++ pos   -> value (the value Vector)     ([ce_vals])
    The lengths of the two vectors are NOT in that storage: they live in the handle, which is
    serialised inside the owner of the collection.  A handle created with [UnorderedMap::new]
    on a prefix used before therefore sees the old index records.

    Written from the near-sdk 4 sources (unordered_map/mod.rs, vector.rs), which are a
    dependency of /repo (meta-vote-contract/Cargo.toml) and part of the trusted base. *)

From Verif Require Export Base OMap.

Record hmap := mkH { h_pref : string; h_len : nat }.
Global Instance eta_hmap : Settable hmap := settable! mkH <h_pref; h_len>.
Global Instance hmap_eq_dec : EqDecision hmap.
Proof. solve_decision. Defined.

Record cell (V : Type) := mkCell {
  ce_idx : gmap string nat;
  ce_keys : gmap nat string;
  ce_vals : gmap nat V;
}.
Arguments mkCell {V} _ _ _.
Arguments ce_idx {V} _.
Arguments ce_keys {V} _.
Arguments ce_vals {V} _.

Definition empty_cell {V} : cell V := mkCell ∅ ∅ ∅.

Notation heap V := (gmap string (cell V)) (only parsing).

Definition cell_at {V} (hp : heap V) (p : string) : cell V := default empty_cell (hp !! p).

(** UnorderedMap::new(prefix) *)
Definition unew (p : string) : hmap := mkH p 0.

(** Vector::get *)
Definition vec_get {A} (cells : gmap nat A) (len i : nat) : res (option A) :=
  if (i <? len)%nat then
    match cells !! i with Some a => Ok (Some a) | None => Panic "inconsistent state" end
  else Ok None.

(** Vector::swap_remove: returns the new cells (both vectors shrink by one) *)
Definition vec_swap_remove {A} (cells : gmap nat A) (len i : nat) : res (gmap nat A) :=
  if (i <? len)%nat then
    let lst := (len - 1)%nat in
    match cells !! lst with
    | None => Panic "inconsistent state"
    | Some a =>
        if (i =? lst)%nat then Ok (delete lst cells)
        else match cells !! i with
             | None => Panic "inconsistent state"
             | Some _ => Ok (<[i := a]> (delete lst cells))
             end
    end
  else Panic "index out of bounds".

(** UnorderedMap::get *)
Definition cget {V} (ce : cell V) (len : nat) (k : string) : res (option V) :=
  match ce_idx ce !! k with
  | None => Ok None
  | Some i =>
      o ← vec_get (ce_vals ce) len i;
      match o with Some v => Ok (Some v) | None => Panic "inconsistent state" end
  end.

(** UnorderedMap::insert *)
Definition cinsert {V} (ce : cell V) (len : nat) (k : string) (v : V) : res (cell V * nat) :=
  match ce_idx ce !! k with
  | Some i =>
      if (i <? len)%nat then
        match ce_vals ce !! i with
        | Some _ => Ok (mkCell (ce_idx ce) (ce_keys ce) (<[i := v]> (ce_vals ce)), len)
        | None => Panic "inconsistent state"
        end
      else Panic "index out of bounds"
  | None =>
      Ok (mkCell (<[k := len]> (ce_idx ce)) (<[len := k]> (ce_keys ce))
                 (<[len := v]> (ce_vals ce)), S len)
  end.

(** UnorderedMap::remove *)
Definition cremove {V} (ce : cell V) (len : nat) (k : string) : res (cell V * nat) :=
  match ce_idx ce !! k with
  | None => Ok (ce, len)
  | Some i =>
      idx' ← (if (len =? 1)%nat then Ok (delete k (ce_idx ce))
              else if (len =? 0)%nat then Panic "attempt to subtract with overflow"
              else
                ol ← vec_get (ce_keys ce) len (len - 1);
                match ol with
                | None => Panic "inconsistent state"
                | Some lk =>
                    let d := delete k (ce_idx ce) in
                    Ok (if bool_decide (lk = k) then d else <[lk := i]> d)
                end);
      keys' ← vec_swap_remove (ce_keys ce) len i;
      vals' ← vec_swap_remove (ce_vals ce) len i;
      Ok (mkCell idx' keys' vals', (len - 1)%nat)
  end.

(** Lifted to the heap and a handle. *)
Definition uget {V} (hp : heap V) (h : hmap) (k : string) : res (option V) :=
  cget (cell_at hp (h_pref h)) (h_len h) k.

Definition uinsert {V} (hp : heap V) (h : hmap) (k : string) (v : V) : res (heap V * hmap) :=
  '(ce, len) ← cinsert (cell_at hp (h_pref h)) (h_len h) k v;
  Ok (<[h_pref h := ce]> hp, mkH (h_pref h) len).

Definition uremove {V} (hp : heap V) (h : hmap) (k : string) : res (heap V * hmap) :=
  '(ce, len) ← cremove (cell_at hp (h_pref h)) (h_len h) k;
  Ok (<[h_pref h := ce]> hp, mkH (h_pref h) len).

(** keys_as_vector().get(i) *)
Definition ukey_at {V} (hp : heap V) (h : hmap) (i : nat) : res (option string) :=
  vec_get (ce_keys (cell_at hp (h_pref h))) (h_len h) i.

Fixpoint mapMr {A B} (f : A -> res B) (l : list A) : res (list B) :=
  match l with
  | [] => Ok []
  | a :: l' => b ← f a; bs ← mapMr f l'; Ok (b :: bs)
  end.

Definition vec_elems {A} (cells : gmap nat A) (len : nat) : res (list A) :=
  mapMr (fun i => match cells !! i with Some a => Ok a | None => Panic "inconsistent state" end)
        (seq 0 len).

(** keys_as_vector().iter(), values(), iter() *)
Definition ukeys {V} (hp : heap V) (h : hmap) : res (list string) :=
  vec_elems (ce_keys (cell_at hp (h_pref h))) (h_len h).
Definition uvals {V} (hp : heap V) (h : hmap) : res (list V) :=
  vec_elems (ce_vals (cell_at hp (h_pref h))) (h_len h).
Definition uentries {V} (hp : heap V) (h : hmap) : res (list (string * V)) :=
  ks ← ukeys hp h; vs ← uvals hp h; Ok (zip ks vs).

(** ** Representation of an ordered map by a cell.
    [crep] is the weak form: the listed entries are stored correctly, but the index may hold
    additional stale records.  [cexact] says there are none. *)
Definition crep {V} (ce : cell V) (len : nat) (l : omap_t string V) : Prop :=
  len = length l /\
  forall i k v, l !! i = Some (k, v) ->
    ce_keys ce !! i = Some k /\ ce_vals ce !! i = Some v /\ ce_idx ce !! k = Some i.

Definition cexact {V} (ce : cell V) (l : omap_t string V) : Prop :=
  forall k i, ce_idx ce !! k = Some i -> exists v, l !! i = Some (k, v).

Definition urep {V} (hp : heap V) (h : hmap) (l : omap_t string V) : Prop :=
  crep (cell_at hp (h_pref h)) (h_len h) l.
Definition uexact {V} (hp : heap V) (h : hmap) (l : omap_t string V) : Prop :=
  cexact (cell_at hp (h_pref h)) l.

Section CellLemmas.
Context {V : Type}.
Implicit Types (ce : cell V) (l : omap_t string V).

Lemma crep_NoDup ce len l : crep ce len l -> NoDup l.*1.
Proof.
  intros [_ H]. apply NoDup_alt. intros i j k Hi Hj.
  apply list_lookup_fmap_Some in Hi as ([k1 v1] & Hi & ->).
  apply list_lookup_fmap_Some in Hj as ([k2 v2] & Hj & E). simpl in *. subst k2.
  apply H in Hi as (_ & _ & Hi). apply H in Hj as (_ & _ & Hj). congruence.
Qed.

Lemma crep_nil ce : crep ce 0 [].
Proof. split; [reflexivity|]. intros i k v H. rewrite lookup_nil in H. discriminate. Qed.

Lemma cget_in ce len l i k v :
  crep ce len l -> l !! i = Some (k, v) -> cget ce len k = Ok (Some v).
Proof.
  intros [-> H] Hl. destruct (H _ _ _ Hl) as (_ & Hv & Hi). unfold cget, vec_get.
  rewrite Hi. pose proof (lookup_lt_Some _ _ _ Hl).
  destruct (Nat.ltb_spec i (length l)); [|lia]. rewrite Hv. reflexivity.
Qed.

Lemma cget_Some_inv ce len l k v :
  crep ce len l -> cget ce len k = Ok (Some v) ->
  exists i k', ce_idx ce !! k = Some i /\ l !! i = Some (k', v).
Proof.
  intros [-> H] Hg. unfold cget, vec_get in Hg.
  destruct (ce_idx ce !! k) as [i|] eqn:Ei; [|discriminate].
  destruct (Nat.ltb_spec i (length l)) as [Hlt|]; [|simpl in Hg; discriminate].
  destruct (lookup_lt_is_Some_2 l i Hlt) as [[k' v'] Hl].
  destruct (H _ _ _ Hl) as (_ & Hv & _). rewrite Hv in Hg. simpl in Hg.
  injection Hg as ->. eauto.
Qed.

Lemma cget_None_inv ce len k : cget ce len k = Ok None -> ce_idx ce !! k = None.
Proof.
  unfold cget. destruct (ce_idx ce !! k); [|reflexivity].
  destruct (vec_get _ _ _) as [[]|]; discriminate.
Qed.

Lemma cget_exact ce len l k :
  crep ce len l -> cexact ce l -> cget ce len k = Ok (om_get l k).
Proof.
  intros Hr Hx. destruct (ce_idx ce !! k) as [i|] eqn:Ei.
  - destruct (Hx _ _ Ei) as [v Hl]. rewrite (cget_in _ _ _ _ _ _ Hr Hl).
    rewrite (om_get_lookup _ _ _ _ (crep_NoDup _ _ _ Hr) Hl). reflexivity.
  - unfold cget. rewrite Ei. f_equal. symmetry. apply om_get_None. intros Hin.
    apply elem_of_list_fmap in Hin as ([k' v] & -> & Hin).
    apply elem_of_list_lookup in Hin as [i Hl]. simpl in Ei.
    destruct Hr as [_ Hr]. apply Hr in Hl as (_ & _ & Hl). congruence.
Qed.

Lemma cinsert_spec ce len l k v ce' len' :
  crep ce len l -> cinsert ce len k v = Ok (ce', len') ->
  (exists i k' v', ce_idx ce !! k = Some i /\ l !! i = Some (k', v') /\
      crep ce' len' (<[i := (k', v)]> l) /\ ce_idx ce' = ce_idx ce) \/
  (ce_idx ce !! k = None /\ crep ce' len' (l ++ [(k, v)]) /\
      ce_idx ce' = <[k := len]> (ce_idx ce)).
Proof.
  intros [-> H]. unfold cinsert. destruct (ce_idx ce !! k) as [i|] eqn:Ei.
  - destruct (Nat.ltb_spec i (length l)) as [Hlt|]; [|discriminate].
    destruct (lookup_lt_is_Some_2 l i Hlt) as [[k' v'] Hl].
    destruct (H _ _ _ Hl) as (Hk & Hv & Hi). rewrite Hv. intros [= <- <-].
    left. exists i, k', v'. split; [reflexivity|]. split; [exact Hl|].
    split; [|reflexivity]. split.
    + rewrite insert_length. reflexivity.
    + intros j k2 v2 Hj. simpl.
      destruct (decide (j = i)) as [->|Hne].
      * rewrite list_lookup_insert in Hj by lia. injection Hj as <- <-.
        rewrite lookup_insert. auto.
      * rewrite list_lookup_insert_ne in Hj by congruence.
        rewrite lookup_insert_ne by congruence. apply H. exact Hj.
  - intros [= <- <-]. right. split; [reflexivity|]. split; [|reflexivity]. split.
    + rewrite app_length. simpl. lia.
    + intros j k2 v2 Hj. simpl. apply lookup_app_Some in Hj as [Hj|[Hlen Hj]].
      * pose proof (lookup_lt_Some _ _ _ Hj).
        rewrite !lookup_insert_ne by lia.
        destruct (H _ _ _ Hj) as (Hk2 & Hv2 & Hi2).
        rewrite lookup_insert_ne by congruence. auto.
      * destruct (j - length l)%nat as [|n] eqn:En; [|simpl in Hj; rewrite lookup_nil in Hj; discriminate].
        injection Hj as <- <-. assert (j = length l) as -> by lia.
        rewrite !lookup_insert. auto.
Qed.

Lemma cinsert_exact ce len l k v :
  crep ce len l -> cexact ce l ->
  exists ce' len', cinsert ce len k v = Ok (ce', len') /\
    crep ce' len' (om_set l k v) /\ cexact ce' (om_set l k v).
Proof.
  intros Hr Hx. pose proof (crep_NoDup _ _ _ Hr) as Hnd.
  assert (Hset : forall i v', l !! i = Some (k, v') -> om_set l k v = <[i := (k, v)]> l).
  { clear Hx Hr. intros i v'. revert i. induction l as [|[k2 v2] l IH]; intros i Hl; [rewrite lookup_nil in Hl; discriminate|].
    csimpl in Hnd. apply NoDup_cons in Hnd as [Hk Hnd].
    destruct i; simpl in Hl.
    - injection Hl as <- <-. simpl. rewrite decide_True by reflexivity. reflexivity.
    - simpl. rewrite decide_False.
      + f_equal. apply IH; assumption.
      + intros ->. apply Hk. apply elem_of_list_fmap. exists (k2, v'). split; [reflexivity|].
        eapply elem_of_list_lookup_2; eauto. }
  assert (Hnew : om_get l k = None -> om_set l k v = l ++ [(k, v)]).
  { clear. induction l as [|[k2 v2] l IH]; simpl; [reflexivity|].
    destruct (decide (k = k2)); [discriminate|]. intros E. rewrite IH by exact E. reflexivity. }
  destruct (ce_idx ce !! k) as [i|] eqn:Ei.
  - destruct (Hx _ _ Ei) as [v' Hl].
    assert (exists ce' len', cinsert ce len k v = Ok (ce', len')) as (ce' & len' & E).
    { unfold cinsert. rewrite Ei. destruct Hr as [-> Hr]. pose proof (lookup_lt_Some _ _ _ Hl).
      destruct (Nat.ltb_spec i (length l)); [|lia].
      destruct (Hr _ _ _ Hl) as (_ & -> & _). eauto. }
    exists ce', len'. split; [exact E|].
    destruct (cinsert_spec _ _ _ _ _ _ _ Hr E) as [(i' & k' & v'' & Ei' & Hl' & Hr' & Eidx)|(Ei' & _)].
    2:{ congruence. }
    rewrite Ei in Ei'; injection Ei' as <-. rewrite Hl in Hl'; injection Hl' as <- <-.
    rewrite (Hset _ _ Hl). split; [exact Hr'|].
    intros k2 j Hj. rewrite Eidx in Hj. destruct (Hx _ _ Hj) as [v2 Hl2].
    destruct (decide (j = i)) as [->|Hne].
    + rewrite Hl in Hl2; injection Hl2 as <- <-. exists v.
      apply list_lookup_insert. eapply lookup_lt_Some; eauto.
    + exists v2. rewrite list_lookup_insert_ne by congruence. exact Hl2.
  - assert (exists ce' len', cinsert ce len k v = Ok (ce', len')) as (ce' & len' & E).
    { unfold cinsert. rewrite Ei. eauto. }
    exists ce', len'. split; [exact E|].
    destruct (cinsert_spec _ _ _ _ _ _ _ Hr E) as [(i' & k' & v'' & Ei' & _)|(Ei' & Hr' & Eidx)].
    { congruence. }
    assert (om_get l k = None) as Hg.
    { assert (cget ce len k = Ok None) as Hc by (unfold cget; rewrite Ei; reflexivity).
      rewrite (cget_exact _ _ _ _ Hr Hx) in Hc. congruence. }
    rewrite (Hnew Hg). split; [exact Hr'|].
    destruct Hr as [-> Hr].
    intros k2 j Hj. rewrite Eidx in Hj. destruct (decide (k2 = k)) as [->|Hne].
    + rewrite lookup_insert in Hj; injection Hj as <-. exists v.
      rewrite lookup_app_r by lia. rewrite Nat.sub_diag. reflexivity.
    + rewrite lookup_insert_ne in Hj by congruence. destruct (Hx _ _ Hj) as [v2 Hl2].
      exists v2. apply lookup_app_l_Some. exact Hl2.
Qed.

Lemma cremove_spec ce len l k ce' len' :
  crep ce len l -> cremove ce len k = Ok (ce', len') ->
  (ce_idx ce !! k = None /\ ce' = ce /\ len' = len) \/
  (exists i k' v', ce_idx ce !! k = Some i /\ l !! i = Some (k', v') /\
      crep ce' len' (swap_remove i l) /\
      (cexact ce l -> cexact ce' (swap_remove i l))).
Proof.
  intros Hr0. pose proof (crep_NoDup _ _ _ Hr0) as Hnd. destruct Hr0 as [-> H].
  unfold cremove. destruct (ce_idx ce !! k) as [i|] eqn:Ei.
  2:{ intros [= <- <-]. left; auto. }
  intros Hc. right. rinv. rename x into idx', x0 into keys', x1 into vals'.
  assert (i < length l)%nat as Hlt.
  { unfold vec_swap_remove in E0. destruct (Nat.ltb_spec i (length l)); [assumption|discriminate]. }
  destruct (lookup_lt_is_Some_2 l i Hlt) as [[k' v'] Hl].
  exists i, k', v'. split; [reflexivity|]. split; [exact Hl|].
  destruct (lookup_lt_is_Some_2 l (length l - 1)) as [[kl vl] Hlast]; [lia|].
  destruct (H _ _ _ Hlast) as (HkL & HvL & HiL).
  destruct (H _ _ _ Hl) as (Hk & Hv & Hi).
  (* the new index, keys, values, pointwise *)
  assert (Hkeys : forall j, (j < length l - 1)%nat ->
     keys' !! j = if decide (j = i) then Some kl else ce_keys ce !! j).
  { intros j Hj. unfold vec_swap_remove in E0.
    destruct (Nat.ltb_spec i (length l)); [|lia]. rewrite HkL in E0.
    destruct (Nat.eqb_spec i (length l - 1)).
    - injection E0 as <-. rewrite decide_False by lia. apply lookup_delete_ne; lia.
    - rewrite Hk in E0. injection E0 as <-. destruct (decide (j = i)) as [->|].
      + apply lookup_insert.
      + rewrite lookup_insert_ne by congruence. apply lookup_delete_ne; lia. }
  assert (Hvals : forall j, (j < length l - 1)%nat ->
     vals' !! j = if decide (j = i) then Some vl else ce_vals ce !! j).
  { intros j Hj. unfold vec_swap_remove in E1.
    destruct (Nat.ltb_spec i (length l)); [|lia]. rewrite HvL in E1.
    destruct (Nat.eqb_spec i (length l - 1)).
    - injection E1 as <-. rewrite decide_False by lia. apply lookup_delete_ne; lia.
    - rewrite Hv in E1. injection E1 as <-. destruct (decide (j = i)) as [->|].
      + apply lookup_insert.
      + rewrite lookup_insert_ne by congruence. apply lookup_delete_ne; lia. }
  assert (Hidx : idx' = (if (length l =? 1)%nat then delete k (ce_idx ce)
                         else if bool_decide (kl = k) then delete k (ce_idx ce)
                         else <[kl := i]> (delete k (ce_idx ce)))).
  { destruct (Nat.eqb_spec (length l) 1); [congruence|].
    destruct (Nat.eqb_spec (length l) 0); [discriminate|].
    unfold vec_get in E. destruct (Nat.ltb_spec (length l - 1) (length l)); [|lia].
    rewrite HkL in E. cbn in E. injection E as <-. reflexivity. }
  split.
  - split; [rewrite swap_remove_length by assumption; reflexivity|].
    intros j k2 v2 Hj. simpl. rewrite lookup_swap_remove in Hj by assumption.
    destruct (decide (j < length l - 1)%nat) as [Hj1|]; [|discriminate].
    rewrite (Hkeys _ Hj1), (Hvals _ Hj1).
    destruct (decide (j = i)) as [->|Hne].
    + rewrite Hlast in Hj; injection Hj as <- <-.
      split; [reflexivity|]. split; [reflexivity|].
      rewrite Hidx. destruct (Nat.eqb_spec (length l) 1); [lia|].
      case_bool_decide as Hkl.
      * subst kl. assert (i = length l - 1)%nat by congruence. lia.
      * apply lookup_insert.
    + destruct (H _ _ _ Hj) as (Hk2 & Hv2 & Hi2).
      split; [exact Hk2|]. split; [exact Hv2|].
      assert (k2 <> k) by (intros ->; congruence).
      rewrite Hidx. destruct (Nat.eqb_spec (length l) 1); [lia|].
      case_bool_decide as Hkl.
      * rewrite lookup_delete_ne by congruence. exact Hi2.
      * rewrite lookup_insert_ne.
        -- rewrite lookup_delete_ne by congruence. exact Hi2.
        -- intros <-. assert (j = length l - 1)%nat by congruence. lia.
  - intros Hx. assert (k' = k) as ->.
    { destruct (Hx _ _ Ei) as [v2 Hl2]. rewrite Hl in Hl2. congruence. }
    intros k2 j Hj. simpl in Hj. rewrite lookup_swap_remove by assumption. rewrite Hidx in Hj.
    destruct (Nat.eqb_spec (length l) 1) as [Hl1|Hl1].
    + destruct (decide (k2 = k)) as [->|]; [rewrite lookup_delete in Hj; discriminate|].
      rewrite lookup_delete_ne in Hj by congruence. destruct (Hx _ _ Hj) as [v2 Hl2].
      pose proof (lookup_lt_Some _ _ _ Hl2). assert (j = i) as -> by lia. congruence.
    + case_bool_decide as Hkl.
      * subst kl. assert (i = length l - 1)%nat as -> by congruence.
        destruct (decide (k2 = k)) as [->|]; [rewrite lookup_delete in Hj; discriminate|].
        rewrite lookup_delete_ne in Hj by congruence. destruct (Hx _ _ Hj) as [v2 Hl2].
        pose proof (lookup_lt_Some _ _ _ Hl2).
        destruct (decide (j = length l - 1)%nat) as [->|]; [congruence|].
        rewrite decide_True by lia. eauto.
      * assert (i <> length l - 1)%nat by (intros ->; rewrite Hlast in Hl; congruence).
        destruct (decide (k2 = kl)) as [->|Hne2].
        -- rewrite lookup_insert in Hj. injection Hj as <-.
           rewrite decide_True by lia. rewrite decide_True by reflexivity. eauto.
        -- rewrite lookup_insert_ne in Hj by congruence.
           destruct (decide (k2 = k)) as [->|]; [rewrite lookup_delete in Hj; discriminate|].
           rewrite lookup_delete_ne in Hj by congruence. destruct (Hx _ _ Hj) as [v2 Hl2].
           pose proof (lookup_lt_Some _ _ _ Hl2).
           assert (j <> length l - 1)%nat by (intros ->; congruence).
           assert (j <> i) by (intros ->; congruence).
           rewrite decide_True by lia. rewrite decide_False by assumption. eauto.
Qed.

(** An in-range removal does not panic. *)
Lemma cremove_in ce len l k i k' v :
  crep ce len l -> ce_idx ce !! k = Some i -> l !! i = Some (k', v) ->
  exists ce' len', cremove ce len k = Ok (ce', len').
Proof.
  intros [-> H] Ei Hl. unfold cremove. rewrite Ei. pose proof (lookup_lt_Some _ _ _ Hl) as Hlt.
  destruct (lookup_lt_is_Some_2 l (length l - 1)) as [[kl vl] Hlast]; [lia|].
  destruct (H _ _ _ Hlast) as (HkL & HvL & _).
  destruct (H _ _ _ Hl) as (Hk & Hv & _).
  unfold vec_get, vec_swap_remove.
  destruct (Nat.ltb_spec i (length l)); [|lia]. rewrite HkL, HvL, Hk, Hv.
  destruct (Nat.ltb_spec (length l - 1) (length l)); [|lia].
  destruct (Nat.eqb_spec (length l) 1); destruct (Nat.eqb_spec (length l) 0); try lia;
    destruct (Nat.eqb_spec i (length l - 1)); cbn; eauto.
Qed.

Lemma cremove_exact ce len l k :
  crep ce len l -> cexact ce l ->
  exists ce' len', cremove ce len k = Ok (ce', len') /\
    crep ce' len' (om_remove l k) /\ cexact ce' (om_remove l k).
Proof.
  intros Hr Hx. pose proof (crep_NoDup _ _ _ Hr) as Hnd.
  destruct (ce_idx ce !! k) as [i|] eqn:Ei.
  - destruct (Hx _ _ Ei) as [v Hl].
    destruct (cremove_in _ _ _ _ _ _ _ Hr Ei Hl) as (ce' & len' & E).
    exists ce', len'. split; [exact E|].
    destruct (cremove_spec _ _ _ _ _ _ Hr E) as [(Ei' & _)|(i' & k' & v' & Ei' & Hl' & Hr' & Hx')]; [congruence|].
    rewrite Ei in Ei'; injection Ei' as <-.
    assert (om_index l k = Some i) as Hoi.
    { clear -Hl Hnd. revert i Hl. induction l as [|[k2 v2] l IH]; intros i Hl; [rewrite lookup_nil in Hl; discriminate|].
      csimpl in Hnd. apply NoDup_cons in Hnd as [Hk Hnd]. destruct i; simpl in *.
      - injection Hl as <- <-. rewrite decide_True by reflexivity. reflexivity.
      - rewrite decide_False.
        + rewrite (IH Hnd _ Hl). reflexivity.
        + intros ->. apply Hk. apply elem_of_list_fmap. exists (k2, v). split; [reflexivity|].
          eapply elem_of_list_lookup_2; eauto. }
    unfold om_remove. rewrite Hoi. auto.
  - exists ce, len. unfold cremove. rewrite Ei. split; [reflexivity|].
    rewrite om_remove_None; [auto|].
    assert (cget ce len k = Ok None) as Hc by (unfold cget; rewrite Ei; reflexivity).
    rewrite (cget_exact _ _ _ _ Hr Hx) in Hc. congruence.
Qed.

Lemma mapMr_seq {A} (f : nat -> res A) (l : list A) s :
  (forall i a, l !! i = Some a -> f (s + i)%nat = Ok a) -> mapMr f (seq s (length l)) = Ok l.
Proof.
  revert s. induction l as [|a l IH]; intros s H; [reflexivity|]. cbn.
  pose proof (H O a eq_refl) as H0. rewrite Nat.add_0_r in H0. rewrite H0. cbn.
  rewrite IH; [reflexivity|].
  intros i b Hi. rewrite <- (H (S i) b Hi). f_equal. lia.
Qed.

Lemma crep_keys ce len l : crep ce len l -> vec_elems (ce_keys ce) len = Ok l.*1.
Proof.
  intros [-> H]. unfold vec_elems. rewrite <- (fmap_length fst l).
  apply mapMr_seq. intros i k Hi. apply list_lookup_fmap_Some in Hi as ([k' v] & Hi & ->).
  destruct (H _ _ _ Hi) as (E & _). cbn. rewrite E. reflexivity.
Qed.

Lemma crep_vals ce len l : crep ce len l -> vec_elems (ce_vals ce) len = Ok l.*2.
Proof.
  intros [-> H]. unfold vec_elems. rewrite <- (fmap_length snd l).
  apply mapMr_seq. intros i k Hi. apply list_lookup_fmap_Some in Hi as ([k' v] & Hi & ->).
  destruct (H _ _ _ Hi) as (_ & E & _). cbn. rewrite E. reflexivity.
Qed.
End CellLemmas.

Lemma cell_at_insert_eq {V} (hp : heap V) p ce : cell_at (<[p := ce]> hp) p = ce.
Proof. unfold cell_at. rewrite lookup_insert. reflexivity. Qed.
Lemma cell_at_insert_ne {V} (hp : heap V) p q ce :
  p <> q -> cell_at (<[p := ce]> hp) q = cell_at hp q.
Proof. intros H. unfold cell_at. rewrite lookup_insert_ne by assumption. reflexivity. Qed.
