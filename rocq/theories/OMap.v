(** OMap.v -- ordered finite map with swap-removal.

    Pure model of a contract-level [near_sdk::collections::UnorderedMap]: entries in the
    order of its key vector; [insert] replaces in place or appends; [remove] moves the last
    entry into the hole.  [UMap.v] proves that the storage layout implements it. *)

From Verif Require Export Base.

Notation omap_t K V := (list (K * V)) (only parsing).

Section OMap.
Context {K V : Type} `{EqDecision K}.

(** UnorderedMap::get *)
Fixpoint om_get (m : omap_t K V) (k : K) : option V :=
  match m with
  | [] => None
  | (k', v) :: m' => if decide (k = k') then Some v else om_get m' k
  end.

(** position of a key in the key vector (index record) *)
Fixpoint om_index (m : omap_t K V) (k : K) : option nat :=
  match m with
  | [] => None
  | (k', _) :: m' => if decide (k = k') then Some O else S <$> om_index m' k
  end.

(** UnorderedMap::insert *)
Fixpoint om_set (m : omap_t K V) (k : K) (v : V) : omap_t K V :=
  match m with
  | [] => [(k, v)]
  | (k', v') :: m' => if decide (k = k') then (k', v) :: m' else (k', v') :: om_set m' k v
  end.
End OMap.

(** Vector::swap_remove (index known to be in range) *)
Definition swap_remove {A} (i : nat) (l : list A) : list A :=
  match last l with
  | None => l
  | Some x => take (length l - 1) (<[i := x]> l)
  end.

(** UnorderedMap::remove *)
Definition om_remove {K V} `{EqDecision K} (m : omap_t K V) (k : K) : omap_t K V :=
  match om_index m k with
  | None => m
  | Some i => swap_remove i m
  end.

(** ** Lemmas *)

Lemma swap_remove_perm {A} (i : nat) (l : list A) :
  (i < length l)%nat -> swap_remove i l ≡ₚ delete i l.
Proof.
  intros Hi. unfold swap_remove.
  destruct (last l) as [x|] eqn:Hl.
  2:{ apply last_None in Hl; subst; simpl in Hi; lia. }
  apply last_Some in Hl as [l' ->].
  rewrite app_length in *; simpl in *.
  replace (length l' + 1 - 1)%nat with (length l') by lia.
  destruct (decide (i = length l')) as [->|Hne].
  - rewrite list_insert_id.
    2:{ rewrite lookup_app_r by lia. rewrite Nat.sub_diag; reflexivity. }
    rewrite take_app.
    rewrite (delete_middle l' [] x). rewrite app_nil_r. reflexivity.
  - assert (i < length l')%nat by lia.
    rewrite insert_app_l by lia.
    rewrite <- (insert_length l' i x) at 1. rewrite take_app.
    destruct (lookup_lt_is_Some_2 l' i) as [y Hy]; [lia|].
    rewrite <- (take_drop_middle l' i y Hy) at 2.
    rewrite <- app_assoc. simpl.
    assert (length (take i l') = i) as Hlen by (rewrite take_length; lia).
    rewrite <- Hlen at 2. rewrite delete_middle.
    rewrite insert_take_drop by lia.
    rewrite app_assoc. rewrite <- Permutation_cons_append. rewrite Permutation_middle.
    reflexivity.
Qed.

Lemma swap_remove_length {A} (i : nat) (l : list A) :
  (i < length l)%nat -> length (swap_remove i l) = (length l - 1)%nat.
Proof.
  intros H. rewrite (Permutation_length (swap_remove_perm i l H)).
  apply length_delete. apply lookup_lt_is_Some_2; assumption.
Qed.

Lemma sum_by_swap_remove {A} (f : A -> N) (l : list A) i x :
  l !! i = Some x -> sum_by f (swap_remove i l) + f x = sum_by f l.
Proof.
  intros H. rewrite (sum_by_perm f _ _ (swap_remove_perm i l (lookup_lt_Some _ _ _ H))).
  apply sum_by_delete; assumption.
Qed.

Lemma swap_remove_In {A} (i : nat) (l : list A) x :
  (i < length l)%nat -> In x (swap_remove i l) -> In x l.
Proof.
  intros Hi Hx. rewrite <- elem_of_list_In in *.
  rewrite (swap_remove_perm i l Hi) in Hx.
  rewrite delete_take_drop in Hx. apply elem_of_app in Hx as [Hx|Hx].
  - eapply elem_of_take in Hx as (j & Hx & _). eapply elem_of_list_lookup_2; eauto.
  - apply elem_of_list_lookup in Hx as [j Hx]. rewrite lookup_drop in Hx.
    eapply elem_of_list_lookup_2; eauto.
Qed.

Lemma lookup_swap_remove {A} (l : list A) (i j : nat) :
  (i < length l)%nat ->
  swap_remove i l !! j =
    if decide (j < length l - 1)%nat
    then (if decide (j = i) then l !! (length l - 1)%nat else l !! j)
    else None.
Proof.
  intros Hi. unfold swap_remove. rewrite last_lookup.
  destruct (lookup_lt_is_Some_2 l (length l - 1)) as [y Hy]; [lia|].
  replace (Init.Nat.pred (length l)) with (length l - 1)%nat by lia.
  rewrite Hy.
  destruct (decide (j < length l - 1)%nat) as [Hj|Hj].
  - rewrite lookup_take by lia. destruct (decide (j = i)) as [->|Hne].
    + rewrite list_lookup_insert by lia. reflexivity.
    + rewrite list_lookup_insert_ne by congruence. reflexivity.
  - apply lookup_take_ge. lia.
Qed.

Lemma Forall_swap_remove {A} (P : A -> Prop) l i :
  Forall P l -> Forall P (swap_remove i l).
Proof.
  intros H. unfold swap_remove. destruct (last l) as [x|] eqn:Hl; [|exact H].
  apply Forall_take. apply Forall_insert; [exact H|].
  rewrite Forall_forall in H. apply H.
  apply last_Some in Hl as [l' ->]. apply elem_of_app; right; constructor.
Qed.

Section OMapLemmas.
Context {K V : Type} `{EqDecision K}.
Implicit Types m : omap_t K V.

Lemma om_index_lookup m k i :
  om_index m k = Some i -> exists v, m !! i = Some (k, v) /\ om_get m k = Some v.
Proof.
  revert i; induction m as [|[k' v'] m IH]; intros i; simpl; [discriminate|].
  destruct (decide (k = k')) as [->|].
  - intros [= <-]. eauto.
  - destruct (om_index m k) as [j|]; simpl; [|discriminate].
    intros [= <-]. destruct (IH j eq_refl) as (v & H1 & H2). exists v. split; auto.
Qed.

Lemma om_index_None m k : om_index m k = None <-> om_get m k = None.
Proof.
  induction m as [|[k' v'] m IH]; simpl; [tauto|].
  destruct (decide (k = k')) as [->|]; [split; discriminate|].
  destruct (om_index m k) as [j|]; simpl; rewrite <- IH; split; discriminate || auto.
Qed.

Lemma om_get_None m k : om_get m k = None <-> k ∉ m.*1.
Proof.
  induction m as [|[k' v'] m IH]; simpl.
  - split; [intros _; apply not_elem_of_nil|reflexivity].
  - rewrite not_elem_of_cons. destruct (decide (k = k')) as [->|].
    + split; [discriminate|]. tauto.
    + rewrite IH. tauto.
Qed.

Lemma om_get_Some_In m k v : om_get m k = Some v -> In (k, v) m.
Proof.
  induction m as [|[k' v'] m IH]; simpl; [discriminate|].
  destruct (decide (k = k')) as [->|]; [intros [= ->]; auto|auto].
Qed.

Lemma om_get_Some_key m k v : om_get m k = Some v -> k ∈ m.*1.
Proof.
  intros H. destruct (decide (k ∈ m.*1)) as [|Hn]; [assumption|].
  apply om_get_None in Hn. congruence.
Qed.

Lemma om_In_get m k v : NoDup m.*1 -> In (k, v) m -> om_get m k = Some v.
Proof.
  induction m as [|[k' v'] m IH]; simpl; [intros _ []|].
  intros Hnd [E|HIn].
  - injection E as -> ->. rewrite decide_True by reflexivity. reflexivity.
  - apply NoDup_cons in Hnd as [Hk Hnd].
    destruct (decide (k = k')) as [->|]; [|auto].
    exfalso; apply Hk. apply elem_of_list_In. apply in_map_iff. exists (k', v); auto.
Qed.

Lemma om_get_lookup m i k v : NoDup m.*1 -> m !! i = Some (k, v) -> om_get m k = Some v.
Proof.
  intros Hnd H. apply om_In_get; [assumption|].
  apply elem_of_list_In. eapply elem_of_list_lookup_2; eauto.
Qed.

Lemma om_get_set_eq m k v : om_get (om_set m k v) k = Some v.
Proof.
  induction m as [|[k' v'] m IH]; simpl.
  - rewrite decide_True by reflexivity; reflexivity.
  - destruct (decide (k = k')) as [->|Hne]; simpl.
    + rewrite decide_True by reflexivity; reflexivity.
    + rewrite decide_False by assumption. exact IH.
Qed.

Lemma om_get_set_ne m k k' v : k <> k' -> om_get (om_set m k v) k' = om_get m k'.
Proof.
  intros Hne. induction m as [|[k2 v2] m IH]; simpl.
  - rewrite decide_False by congruence; reflexivity.
  - destruct (decide (k = k2)) as [->|]; simpl.
    + rewrite !(decide_False (P := k' = k2)) by congruence. reflexivity.
    + destruct (decide (k' = k2)); [reflexivity|exact IH].
Qed.

Lemma om_set_keys m k v :
  (om_set m k v).*1 = if om_get m k then m.*1 else m.*1 ++ [k].
Proof.
  induction m as [|[k' v'] m IH]; csimpl; [reflexivity|].
  destruct (decide (k = k')) as [->|]; csimpl; [reflexivity|].
  rewrite IH. destruct (om_get m k); reflexivity.
Qed.

Lemma om_set_NoDup m k v : NoDup m.*1 -> NoDup (om_set m k v).*1.
Proof.
  intros H. rewrite om_set_keys. destruct (om_get m k) eqn:E; [assumption|].
  apply om_get_None in E. apply NoDup_app. repeat split; [assumption| |apply NoDup_singleton].
  intros x Hx ->%elem_of_list_singleton. contradiction.
Qed.

Lemma om_remove_perm m k i : om_index m k = Some i -> om_remove m k ≡ₚ delete i m.
Proof.
  intros E. unfold om_remove. rewrite E. apply swap_remove_perm.
  destruct (om_index_lookup _ _ _ E) as (v & H & _). eapply lookup_lt_Some; eauto.
Qed.

Lemma om_remove_cons m k v : om_get m k = Some v -> m ≡ₚ (k, v) :: om_remove m k.
Proof.
  intros Hg. destruct (om_index m k) as [i|] eqn:E.
  - destruct (om_index_lookup _ _ _ E) as (v' & H1 & H2).
    rewrite H2 in Hg; injection Hg as <-.
    rewrite (om_remove_perm _ _ _ E). apply delete_Permutation. exact H1.
  - apply om_index_None in E. congruence.
Qed.

Lemma om_remove_None m k : om_get m k = None -> om_remove m k = m.
Proof. intros H. unfold om_remove. apply om_index_None in H. rewrite H. reflexivity. Qed.

Lemma om_remove_NoDup m k : NoDup m.*1 -> NoDup (om_remove m k).*1.
Proof.
  intros H. destruct (om_get m k) as [v|] eqn:E.
  - rewrite (fmap_Permutation fst _ _ (om_remove_cons _ _ _ E)) in H.
    simpl in H. apply NoDup_cons in H as [_ H]. exact H.
  - rewrite om_remove_None by assumption. exact H.
Qed.

Lemma om_get_perm m m' k : NoDup m.*1 -> m ≡ₚ m' -> om_get m k = om_get m' k.
Proof.
  intros Hnd Hp. assert (NoDup m'.*1) as Hnd'.
  { rewrite <- (fmap_Permutation fst _ _ Hp). exact Hnd. }
  destruct (om_get m k) as [v|] eqn:E.
  - symmetry. apply om_In_get; [assumption|].
    apply om_get_Some_In in E. rewrite <- elem_of_list_In in *. rewrite <- Hp. exact E.
  - symmetry. apply om_get_None. apply om_get_None in E.
    rewrite <- (fmap_Permutation fst _ _ Hp). exact E.
Qed.

Lemma om_get_remove_eq m k : NoDup m.*1 -> om_get (om_remove m k) k = None.
Proof.
  intros H. destruct (om_get m k) as [v|] eqn:E.
  - apply om_get_None.
    rewrite (fmap_Permutation fst _ _ (om_remove_cons _ _ _ E)) in H.
    simpl in H. apply NoDup_cons in H as [H _]. exact H.
  - rewrite om_remove_None by assumption. exact E.
Qed.

Lemma om_get_remove_ne m k k' : NoDup m.*1 -> k <> k' -> om_get (om_remove m k) k' = om_get m k'.
Proof.
  intros H Hne. destruct (om_get m k) as [v|] eqn:E.
  - rewrite (om_get_perm _ _ k' H (om_remove_cons _ _ _ E)). simpl.
    rewrite decide_False by congruence. reflexivity.
  - rewrite om_remove_None by assumption. reflexivity.
Qed.

(** Sums over entries. *)
Definition om_sum (f : K -> V -> N) (m : omap_t K V) : N := sum_by (fun p => f p.1 p.2) m.

Lemma om_sum_remove f m k v :
  om_get m k = Some v -> om_sum f m = f k v + om_sum f (om_remove m k).
Proof.
  intros E. unfold om_sum. rewrite (sum_by_perm _ _ _ (om_remove_cons _ _ _ E)).
  rewrite sum_by_cons. reflexivity.
Qed.

Lemma om_sum_set_old f m k v v' :
  om_get m k = Some v -> om_sum f (om_set m k v') + f k v = om_sum f m + f k v'.
Proof.
  unfold om_sum. induction m as [|[k2 v2] m IH]; simpl; [discriminate|].
  destruct (decide (k = k2)) as [->|]; simpl.
  - intros [= ->]. rewrite !sum_by_cons; simpl. lia.
  - intros E. specialize (IH E). rewrite !sum_by_cons. lia.
Qed.

Lemma om_sum_set_new f m k v' :
  om_get m k = None -> om_sum f (om_set m k v') = om_sum f m + f k v'.
Proof.
  unfold om_sum. induction m as [|[k2 v2] m IH]; simpl.
  - intros _. rewrite sum_by_cons, sum_by_nil; simpl. lia.
  - destruct (decide (k = k2)) as [->|]; simpl; [discriminate|].
    intros E. specialize (IH E). rewrite !sum_by_cons. lia.
Qed.

Lemma om_sum_ge f m k v : om_get m k = Some v -> f k v <= om_sum f m.
Proof. intros E. rewrite (om_sum_remove f m k v E). lia. Qed.

Lemma om_sum_ext f g m :
  (forall k v, om_get m k = Some v -> f k v = g k v) -> NoDup m.*1 -> om_sum f m = om_sum g m.
Proof.
  intros H Hnd. apply sum_by_ext. intros [k v] Hin. simpl. apply H.
  apply om_In_get; assumption.
Qed.

Lemma om_sum_add f g m : om_sum (fun k v => f k v + g k v) m = om_sum f m + om_sum g m.
Proof. unfold om_sum. apply sum_by_add. Qed.

Lemma om_set_In m k v p : In p (om_set m k v) -> p = (k, v) \/ In p m.
Proof.
  induction m as [|[k' v'] m IH]; simpl.
  - intros [<-|[]]; auto.
  - destruct (decide (k = k')) as [->|]; simpl.
    + intros [<-|?]; auto.
    + intros [<-|?]; auto. destruct IH; auto.
Qed.

Lemma om_set_length m k v :
  length (om_set m k v) = if om_get m k then length m else S (length m).
Proof.
  rewrite <- (fmap_length fst (om_set m k v)), om_set_keys.
  destruct (om_get m k); rewrite ?app_length, fmap_length; simpl; lia.
Qed.
End OMapLemmas.
