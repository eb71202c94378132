(** TokBytesProofs.v -- C98: the token from text to bytes. *)

From Verif Require Export TokBytesSpec.
From Verif Require Import FlatProofs WireProofs EntryProofs AskProofs KVBytesProofs.
From RecordUpdate Require Import RecordUpdate.
Import FlatProofs Token TokenNear TokBytes KVBytesSpec TokBytesSpec.

(** ** What the texts mean *)
Definition init_tbl : list (string * method (string * N)) :=
  [("new_default_meta", ([("owner_id", TAcc); ("total_supply", U128)], fun vs => match vs with [VStr a; VBig n] => Some (a, n) | _ => None end))].
Definition resolve_tbl : list (string * method (string * string * N)) :=
  [("ft_resolve_transfer", ([("sender_id", TAcc); ("receiver_id", TAcc); ("amount", U128)], fun vs => match vs with [VStr a; VStr b; VBig n] => Some (a, b, n) | _ => None end))].
Definition minter_tbl : list (string * method string) :=
  [("assert_minter", ([("account_id", TAcc)], fun vs => match vs with [VStr a] => Some a | _ => None end))].
Lemma init_read a : enter init_tbl "new_default_meta" a =
  match read_args [("owner_id", TAcc); ("total_supply", U128)] a with Some vs => match vs with [VStr a; VBig n] => Some (a, n) | _ => None end | None => None end.
Proof. reflexivity. Qed.
Lemma resolve_read a : enter resolve_tbl "ft_resolve_transfer" a =
  match read_args [("sender_id", TAcc); ("receiver_id", TAcc); ("amount", U128)] a with Some vs => match vs with [VStr a; VStr b; VBig n] => Some (a, b, n) | _ => None end | None => None end.
Proof. reflexivity. Qed.
Lemma minter_read a : enter minter_tbl "assert_minter" a = match read_args [("account_id", TAcc)] a with Some vs => match vs with [VStr a] => Some a | _ => None end | None => None end.
Proof. reflexivity. Qed.
Lemma init_iff m a x n : enter init_tbl m a = Some (x, n) <-> init_means m a x n.
Proof.
  split.
  - unfold enter, init_tbl. intros H. entries H; try discriminate H. parsed2 H. injection H as <- <-. backed.
    unfold init_means. split; [assumption|]. split; [assumption|]. split; [reflexivity|]. reads.
  - intros (Hx & Hn & -> & Hr). assert (E : enter init_tbl "new_default_meta" (obj [("owner_id", quote x); ("total_supply", big n)]) = Some (x, n)) by given.
    rewrite <- E. eapply enter_says; [reflexivity|exact Hr].
Qed.
Lemma resolve_iff m a s v n : enter resolve_tbl m a = Some (s, v, n) <-> resolve_means m a s v n.
Proof.
  split.
  - unfold enter, resolve_tbl. intros H. entries H; try discriminate H. parsed2 H. injection H as <- <- <-. backed.
    unfold resolve_means. split; [assumption|]. split; [assumption|]. split; [assumption|]. split; [reflexivity|]. reads.
  - intros (Hx & Hy & Hn & -> & Hr).
    assert (E : enter resolve_tbl "ft_resolve_transfer" (obj [("sender_id", quote s); ("receiver_id", quote v); ("amount", big n)]) = Some (s, v, n)) by given.
    rewrite <- E. eapply enter_says; [reflexivity|exact Hr].
Qed.
Lemma minter_iff m a x : enter minter_tbl m a = Some x <-> minter_means m a x.
Proof.
  split.
  - unfold enter, minter_tbl. intros H. entries H; try discriminate H. parsed2 H. injection H as <-. backed.
    unfold minter_means. split; [assumption|]. split; [reflexivity|]. reads.
  - intros (Hx & -> & Hr). assert (E : enter minter_tbl "assert_minter" (obj [("account_id", quote x)]) = Some x) by given.
    rewrite <- E. eapply enter_says; [reflexivity|exact Hr].
Qed.
Lemma tokq_iff m a q : enter tok_views m a = Some q <-> tokq_means m a q.
Proof. split; [apply tokq_sound|]. intros (Ht & -> & Hr). apply tokq_complete; assumption. Qed.
Lemma op_name m a o : tok_means m a o -> m <> "new_default_meta" /\ m <> "ft_resolve_transfer" /\ m <> "assert_minter" /\ m <> "ft_metadata".
Proof. intros (Ht & memo & only & -> & _). destruct o; cbn in *; try contradiction; repeat (split; [discriminate|]); discriminate. Qed.
Lemma view_name m a q : tokq_means m a q -> m <> "new_default_meta" /\ m <> "ft_resolve_transfer" /\ m <> "assert_minter" /\ m <> "ft_metadata".
Proof. intros (_ & -> & _). destruct q; cbn; repeat (split; [discriminate|]); discriminate. Qed.
Lemma op_not_view m a o q : tok_means m a o -> tokq_means m a q -> False.
Proof. intros (Ht & memo & only & -> & _) (_ & E & _). destruct o, q; cbn in *; try contradiction; discriminate E. Qed.
Lemma unused_det p u : unused p u <-> u = p ≫= read_u128.
Proof.
  split.
  - destruct 1 as [s n H|s H|]; cbn [mbind option_bind]; unfold read_u128; [change (json U128 s) with (json TBig s) in H; rewrite H; reflexivity| |reflexivity].
    destruct (json TBig s) as [[]|] eqn:E; try reflexivity. destruct (H _ eq_refl).
  - intros ->. destruct p as [s|]; [|constructor]. cbn [mbind option_bind]. unfold read_u128. destruct (json TBig s) as [v|] eqn:E; [|apply unused_bad; intros n H; change (json TBig s = Some (VBig n)) in H; congruence].
    destruct v; try (apply unused_bad; intros k H; change (json TBig s = Some (VBig k)) in H; congruence). apply unused_some. exact E.
Qed.

(** ** The records *)
Definition akey (a : string) : string := sk0 0 +:+ enc_str a.
Lemma akey_inj a b : akey a = akey b -> a = b. Proof. unfold akey. intros E. apply sapp_inj in E. exact (enc_inj _ _ E). Qed.
Lemma akey_meta a : akey a <> sk0 1. Proof. intros E. discriminate. Qed.
Lemma akey_state a : akey a <> "STATE". Proof. intros E. discriminate. Qed.
Lemma de_num n : n < U128_SIZE -> try_from_slice (dec_uint 16) (enc_uint 16 n) = Some n.
Proof. intros H. unfold try_from_slice. rewrite <- (sapp_nil (enc_uint 16 n)), dec_enc_uint; [reflexivity|exact H]. Qed.
Record Acc (self : string) (st : flat) (t : tstate) : Prop := {
  ac_get : forall a, st !! akey a = enc_uint 16 <$> om_get (t_accounts t) a;
  ac_meta : st !! sk0 1 = Some (enc_meta DEFAULT_META);
  ac_foot : forall key, is_Some (st !! key) -> key = "STATE" \/ key = sk0 1 \/ exists a, is_Some (om_get (t_accounts t) a) /\ key = akey a;
  ac_nodup : NoDup (t_accounts t).*1;
  ac_fits : forall a b, om_get (t_accounts t) a = Some b -> b < U128_SIZE;
  ac_supply : t_supply t < U128_SIZE;
  ac_min : t_min_storage t = MIN;
  ac_self : t_self t = self;
  ac_owner : account_id (t_owner t);
  ac_minters : Forall account_id (t_minters t) }.
Definition troot (t : tstate) : tbroot := mkTB (sk0 0) (t_supply t) 125 (sk0 1) (t_owner t) (t_minters t).
Lemma acc_set self st t a b : Acc self st t -> b < U128_SIZE -> Acc self (<[akey a := enc_uint 16 b]> st) (t <| t_accounts := om_set (t_accounts t) a b |>).
Proof.
  intros [H1 H2 H3 H4 H5 H6 H7 H8 H9 H10] Hb. split; cbn [t_accounts t_supply t_min_storage t_self t_owner t_minters]; try assumption.
  - intros a'. destruct (decide (a = a')) as [->|Hne]; [rewrite lookup_insert; setoid_rewrite om_get_set_eq; reflexivity|].
    rewrite lookup_insert_ne by (intros E; apply Hne, akey_inj, E). setoid_rewrite om_get_set_ne; [apply H1|exact Hne].
  - rewrite lookup_insert_ne by apply akey_meta. exact H2.
  - intros key Hk. destruct (decide (akey a = key)) as [<-|Hne]; [right; right; exists a; split; [setoid_rewrite om_get_set_eq; eauto|reflexivity]|].
    rewrite lookup_insert_ne in Hk by exact Hne. destruct (H3 key Hk) as [E|[E|(a' & Ha & E)]]; [tauto|tauto|]. right. right. exists a'. split; [|exact E].
    destruct (decide (a = a')) as [->|Hn]; [congruence|]. setoid_rewrite om_get_set_ne; [exact Ha|exact Hn].
  - apply om_set_NoDup. exact H4.
  - intros a' b' E. destruct (decide (a = a')) as [->|Hn]; [setoid_rewrite om_get_set_eq in E; congruence|]. setoid_rewrite om_get_set_ne in E; [exact (H5 _ _ E)|exact Hn].
Qed.
Lemma acc_del self st t a : Acc self st t -> Acc self (delete (akey a) st) (t <| t_accounts := om_remove (t_accounts t) a |>).
Proof.
  intros [H1 H2 H3 H4 H5 H6 H7 H8 H9 H10]. split; cbn [t_accounts t_supply t_min_storage t_self t_owner t_minters]; try assumption.
  - intros a'. destruct (decide (a = a')) as [->|Hne]; [rewrite lookup_delete; setoid_rewrite om_get_remove_eq; [reflexivity|exact H4]|].
    rewrite lookup_delete_ne by (intros E; apply Hne, akey_inj, E). setoid_rewrite om_get_remove_ne; [apply H1|exact H4|exact Hne].
  - rewrite lookup_delete_ne by apply akey_meta. exact H2.
  - intros key [v Hk]. apply lookup_delete_Some in Hk as [Hne Hk]. destruct (H3 key (ex_intro _ _ Hk)) as [E|[E|(a' & Ha & E)]]; [tauto|tauto|]. right. right. exists a'. split; [|exact E].
    setoid_rewrite om_get_remove_ne; [exact Ha|exact H4|congruence].
  - apply om_remove_NoDup. exact H4.
  - intros a' b' E. destruct (decide (a = a')) as [->|Hn]; [setoid_rewrite om_get_remove_eq in E; [congruence|exact H4]|]. setoid_rewrite om_get_remove_ne in E; [exact (H5 _ _ E)|exact H4|exact Hn].
Qed.
Lemma acc_num self st t n : Acc self st t -> n < U128_SIZE -> Acc self st (t <| t_supply := n |>).
Proof. intros [H1 H2 H3 H4 H5 H6 H7 H8 H9 H10] Hn. split; assumption. Qed.
Lemma acc_own self st t o l : Acc self st t -> account_id o -> Forall account_id l -> Acc self st (t <| t_owner := o |> <| t_minters := l |>).
Proof. intros [H1 H2 H3 H4 H5 H6 H7 H8 H9 H10] Ho Hl. split; assumption. Qed.
Lemma acc_save self st t r : Acc self st t -> Acc self (tb_save st r) t.
Proof.
  intros [H1 H2 H3 H4 H5 H6 H7 H8 H9 H10]. unfold tb_save. split; try assumption.
  - intros a. rewrite lookup_insert_ne by (intros E; exact (akey_state a (eq_sym E))). apply H1.
  - rewrite lookup_insert_ne by discriminate. exact H2.
  - intros key Hk. destruct (decide ("STATE" = key)) as [<-|Hne]; [tauto|]. rewrite lookup_insert_ne in Hk by exact Hne. exact (H3 key Hk).
Qed.
Lemma l_get_ok self st t a : Acc self st t -> l_get st (troot t) a = Ok (om_get (t_accounts t) a).
Proof.
  intros H. unfold l_get, l_key. cbn [troot b_accounts]. fold (akey a). rewrite (ac_get _ _ _ H). destruct (om_get (t_accounts t) a) as [b|] eqn:E; [|reflexivity].
  cbn [fmap option_fmap option_map]. rewrite (de_num b (ac_fits _ _ _ H _ _ E)). reflexivity.
Qed.
Lemma l_set_ok self st t a n : Acc self st t -> l_set st (troot t) a n = Ok (<[akey a := enc_uint 16 n]> st, om_get (t_accounts t) a).
Proof. intros H. unfold l_set. rewrite (l_get_ok _ _ _ _ H). reflexivity. Qed.
Lemma l_del_ok self st t a : Acc self st t -> l_del st (troot t) a = Ok (delete (akey a) st, om_get (t_accounts t) a).
Proof. intros H. unfold l_del. rewrite (l_get_ok _ _ _ _ H). reflexivity. Qed.
Lemma present self st t a : Acc self st t -> bool_decide (is_Some (st !! l_key (troot t) a)) = t_registered t a.
Proof.
  intros H. unfold l_key, t_registered. cbn [troot b_accounts]. fold (akey a). rewrite (ac_get _ _ _ H). destruct (om_get (t_accounts t) a); cbn [fmap option_fmap option_map].
  - apply bool_decide_eq_true_2. eauto.
  - apply bool_decide_eq_false_2. intros [? E]. discriminate.
Qed.

(** ** FungibleToken *)
Definition like (self : string) (x : res (flat * tbroot)) (y : res tstate) : Prop :=
  match y with Ok t' => exists st', x = Ok (st', troot t') /\ Acc self st' t' | Panic _ => exists e, x = Panic e end.
Lemma deposit_like self st t a n : Acc self st t -> like self (tb_deposit st (troot t) a n) (t_deposit t a n).
Proof.
  intros H. unfold tb_deposit, tb_balance, t_deposit, t_unwrap_balance. rewrite (l_get_ok _ _ _ _ H). cbn [mbind res_bind].
  destruct (om_get (t_accounts t) a) as [b|] eqn:E; cbn [expect mbind res_bind]; [|unfold like; eauto].
  destruct (N.ltb_spec (b + n) U128_SIZE) as [Hb|]; cbn [require mbind res_bind]; [|unfold like; eauto]. rewrite (l_set_ok _ _ _ _ _ H). cbn [mbind res_bind]. cbn [troot b_supply].
  destruct (N.ltb_spec (t_supply t + n) U128_SIZE) as [Hs|]; cbn [require mbind res_bind]; [|unfold like; eauto]. eexists. split; [reflexivity|].
  apply (acc_num self _ (t <| t_accounts := om_set (t_accounts t) a (b + n) |>)); [apply acc_set; assumption|exact Hs].
Qed.
Lemma withdraw_like self st t a n : Acc self st t -> like self (tb_withdraw st (troot t) a n) (t_withdraw t a n).
Proof.
  intros H. unfold tb_withdraw, tb_balance, t_withdraw, t_unwrap_balance. rewrite (l_get_ok _ _ _ _ H). cbn [mbind res_bind].
  destruct (om_get (t_accounts t) a) as [b|] eqn:E; cbn [expect mbind res_bind]; [|unfold like; eauto].
  destruct (N.leb_spec n b) as [Hb|]; cbn [require mbind res_bind]; [|unfold like; eauto]. rewrite (l_set_ok _ _ _ _ _ H). cbn [mbind res_bind]. cbn [troot b_supply].
  destruct (N.leb_spec n (t_supply t)) as [Hs|]; cbn [require mbind res_bind]; [|unfold like; eauto]. eexists. split; [reflexivity|].
  pose proof (ac_fits _ _ _ H _ _ E). pose proof (ac_supply _ _ _ H).
  apply (acc_num self _ (t <| t_accounts := om_set (t_accounts t) a (b - n) |>)); [apply acc_set; [exact H|lia]|lia].
Qed.
Lemma transfer_like self st t s v n : Acc self st t -> like self (tb_transfer st (troot t) s v n) (t_transfer t s v n).
Proof.
  intros H. unfold tb_transfer, t_transfer. destruct (negb (bool_decide (s = v))); cbn [require mbind res_bind]; [|unfold like; eauto].
  destruct (0 <? n); cbn [require mbind res_bind]; [|unfold like; eauto]. pose proof (withdraw_like _ _ _ s n H) as Hw.
  destruct (t_withdraw t s n) as [t1|e]; cbn [like mbind res_bind] in *; [|destruct Hw as [e' ->]; cbn [mbind res_bind]; eauto]. destruct Hw as (st1 & -> & H1). cbn [mbind res_bind]. apply deposit_like. exact H1.
Qed.
Lemma register_like self st t a : Acc self st t ->
  match t_register t a with Ok t' => exists st', tb_register st (troot t) a = Ok st' /\ Acc self st' t' /\ troot t' = troot t | Panic _ => exists e, tb_register st (troot t) a = Panic e end.
Proof.
  intros H. unfold tb_register, t_register. rewrite (l_set_ok _ _ _ _ _ H). cbn [mbind res_bind]. destruct (om_get (t_accounts t) a) as [b|] eqn:E; cbn [require mbind res_bind]; [eauto|].
  eexists. split; [reflexivity|]. split; [|reflexivity]. apply acc_set; [exact H|reflexivity].
Qed.
Lemma resolve_like self st t s v n p : Acc self st t ->
  match t_resolve t s v n (p ≫= read_u128) with
  | Ok (t', used) => exists st', tb_resolve st (troot t) s v n p = Ok (st', troot t', used) /\ Acc self st' t'
  | Panic _ => exists e, tb_resolve st (troot t) s v n p = Panic e
  end.
Proof.
  intros H. unfold tb_resolve, t_resolve. cbv zeta. set (un := match p ≫= read_u128 with Some u => N.min n u | None => n end).
  destruct (0 <? un); [|eauto]. rewrite (l_get_ok _ _ _ _ H). cbn [mbind res_bind]. destruct (N.ltb_spec 0 (default 0 (om_get (t_accounts t) v))) as [Hp|]; [|eauto].
  set (rb := default 0 (om_get (t_accounts t) v)) in *. rewrite (l_set_ok _ _ _ _ _ H). cbn [mbind res_bind].
  assert (Hrb : rb < U128_SIZE). { unfold rb. destruct (om_get (t_accounts t) v) as [b|] eqn:E; [exact (ac_fits _ _ _ H _ _ E)|reflexivity]. }
  pose proof (acc_set self st t v (rb - N.min rb un) H) as H1. specialize (H1 ltac:(lia)).
  change (troot t) with (troot (t <| t_accounts := om_set (t_accounts t) v (rb - N.min rb un) |>)). set (t1 := t <| t_accounts := om_set (t_accounts t) v (rb - N.min rb un) |>) in *.
  rewrite (l_get_ok _ _ _ _ H1). cbn [mbind res_bind]. destruct (om_get (t_accounts t1) s) as [sb|] eqn:E.
  - destruct (N.ltb_spec (sb + N.min rb un) U128_SIZE) as [Hb|]; cbn [require mbind res_bind]; [|eauto]. rewrite (l_set_ok _ _ _ _ _ H1). cbn [mbind res_bind].
    eexists. split; [reflexivity|]. apply acc_set; assumption.
  - cbn [troot b_supply]. change (b_supply (troot t1)) with (t_supply t1). destruct (N.leb_spec (N.min rb un) (t_supply t1)) as [Hb|]; cbn [require mbind res_bind]; [|eauto].
    eexists. split; [reflexivity|]. pose proof (ac_supply _ _ _ H1). apply acc_num; [exact H1|]. lia.
Qed.

(** ** Storage methods *)
Lemma min_ok t : tb_min (troot t) = Ok MIN. Proof. vm_compute. reflexivity. Qed.
Lemma wrote_balance n : write (balance_val n) = obj [("total", big n); ("available", big 0)].
Proof. symmetry. apply obj_write. apply shows_cons; [reflexivity|apply w_big|]. apply shows_cons; [reflexivity|apply w_big|]. apply shows_nil. Qed.
Lemma storage_of_ok self st t a : Acc self st t -> tb_storage_of st (troot t) a = Ok (if t_registered t a then Some (balance_val MIN) else None).
Proof. intros H. unfold tb_storage_of. rewrite (present _ _ _ a H). destruct (t_registered t a); [|reflexivity]. rewrite min_ok. reflexivity. Qed.
Lemma balance_is self st t a : Acc self st t -> t_registered t a = true -> balance_text t a = write (balance_val MIN).
Proof.
  intros H E. unfold balance_text, t_storage_balance_of, t_registered in *. destruct (om_get (t_accounts t) a); [|discriminate]. rewrite (ac_min _ _ _ H). symmetry. apply wrote_balance.
Qed.
Lemma exec_like self st t c o : Acc self st t -> tok_typed o ->
  match t_exec c t o with
  | Ok (t', e) => exists st', tb_exec c st (troot t) o = Ok (st', troot t', (tok_returned c t t' o, e, t_near_out c t o)) /\ Acc self st' t'
  | Panic _ => exists e, tb_exec c st (troot t) o = Panic e
  end.
Proof.
  intros H Ht. destruct o as [a|a|a|n|n|a n|a n m|? ? ? ?|a|n|f]; cbn [tok_typed] in Ht; [| | | | | | |contradiction| | |]; cbn [t_exec tb_exec tok_returned t_near_out]; unfold noteff; cbv zeta.
  - unfold t_set_owner, tb_assert_owner, t_assert_owner. cbn [troot b_owner b_minters]. destruct (bool_decide (c_pred c = t_owner t)); cbn [require mbind res_bind noteff]; [|eauto].
    rewrite (proj2 (valid_id_spec a) Ht). cbn [require mbind res_bind]. eexists. split; [reflexivity|]. apply (acc_own self st t a (t_minters t) H Ht (ac_minters _ _ _ H)).
  - unfold t_add_minter, tb_assert_owner, t_assert_owner. cbn [troot b_owner b_minters]. destruct (assert_one_yocto c); cbn [mbind res_bind noteff]; [|eauto].
    destruct (bool_decide (c_pred c = t_owner t)); cbn [require mbind res_bind noteff]; [|eauto].
    destruct (negb (bool_decide (a ∈ t_minters t))); cbn [require mbind res_bind noteff]; [|eauto]. eexists. split; [reflexivity|].
    apply (acc_own self st t (t_owner t) (t_minters t ++ [a]) H (ac_owner _ _ _ H)). apply Forall_app. split; [exact (ac_minters _ _ _ H)|apply Forall_singleton; exact Ht].
  - unfold t_remove_minter, tb_assert_owner, t_assert_owner. cbn [troot b_owner b_minters]. destruct (assert_one_yocto c); cbn [mbind res_bind noteff]; [|eauto].
    destruct (bool_decide (c_pred c = t_owner t)); cbn [require mbind res_bind noteff]; [|eauto].
    destruct (list_find (eq a) (t_minters t)) as [[i x]|] eqn:E; cbn [mbind res_bind noteff]; [|eauto]. eexists. split; [reflexivity|].
    apply (acc_own self st t (t_owner t) (swap_remove i (t_minters t)) H (ac_owner _ _ _ H)). apply list_find_Some in E as (E & _).
    pose proof (swap_remove_perm i (t_minters t) (ltac:(apply lookup_lt_Some in E; exact E))) as Hp. rewrite Hp. apply Forall_delete. exact (ac_minters _ _ _ H).
  - unfold t_mint. destruct (assert_one_yocto c); cbn [mbind res_bind noteff]; [|eauto]. cbn [troot b_minters]. destruct (bool_decide (c_pred c ∈ t_minters t)); cbn [require mbind res_bind noteff]; [|eauto].
    pose proof (deposit_like _ _ _ (c_pred c) n H) as Hd. fold (troot t). destruct (t_deposit t (c_pred c) n) as [t1|e]; cbn [like mbind res_bind] in *; [|destruct Hd as [e' ->]; cbn [mbind res_bind]; eauto].
    destruct Hd as (st1 & -> & H1). cbn [mbind res_bind]. eauto.
  - unfold t_burn. destruct (assert_one_yocto c); cbn [mbind res_bind noteff]; [|eauto].
    pose proof (withdraw_like _ _ _ (c_pred c) n H) as Hd. destruct (t_withdraw t (c_pred c) n) as [t1|e]; cbn [like mbind res_bind] in *; [|destruct Hd as [e' ->]; cbn [mbind res_bind]; eauto].
    destruct Hd as (st1 & -> & H1). cbn [mbind res_bind]. eauto.
  - unfold t_ft_transfer. destruct (assert_one_yocto c); cbn [mbind res_bind noteff]; [|eauto].
    pose proof (transfer_like _ _ _ (c_pred c) a n H) as Hd. destruct (t_transfer t (c_pred c) a n) as [t1|e]; cbn [like mbind res_bind] in *; [|destruct Hd as [e' ->]; cbn [mbind res_bind]; eauto].
    destruct Hd as (st1 & -> & H1). cbn [mbind res_bind]. eauto.
  - unfold t_ft_transfer. destruct (assert_one_yocto c); cbn [mbind res_bind noteff]; [|eauto].
    pose proof (transfer_like _ _ _ (c_pred c) a n H) as Hd. destruct (t_transfer t (c_pred c) a n) as [t1|e]; cbn [like mbind res_bind] in *; [|destruct Hd as [e' ->]; cbn [mbind res_bind]; eauto].
    destruct Hd as (st1 & -> & H1). cbn [mbind res_bind]. eauto.
  - unfold t_storage_deposit, tb_storage_deposit. cbv zeta. rewrite (present _ _ _ _ H). unfold t_registered. set (x := default (c_pred c) a). rewrite (ac_min _ _ _ H).
    destruct (om_get (t_accounts t) x) as [b|] eqn:E; cbn [mbind res_bind noteff].
    + rewrite (storage_of_ok _ _ _ x H). unfold t_registered. rewrite E. cbn [expect mbind res_bind]. exists st. split; [|exact H].
      rewrite (balance_is self st t x H) by (unfold t_registered; rewrite E; reflexivity). reflexivity.
    + rewrite min_ok. cbn [mbind res_bind]. destruct (MIN <=? c_deposit c); cbn [require mbind res_bind]; [|eauto].
      pose proof (register_like _ _ _ x H) as Hr. unfold t_register in *. rewrite E in *. cbn [require mbind res_bind] in *. destruct Hr as (st' & -> & H' & Er). cbn [mbind res_bind].
      rewrite <- Er. rewrite (storage_of_ok _ _ _ x H'). assert (Ex : t_registered (t <| t_accounts := om_set (t_accounts t) x 0 |>) x = true).
      { unfold t_registered. cbn [t_accounts]. setoid_rewrite om_get_set_eq. reflexivity. }
      rewrite Ex. cbn [expect mbind res_bind]. exists st'. split; [|exact H']. rewrite (balance_is self st' _ x H' Ex). reflexivity.
  - unfold t_storage_withdraw, tb_storage_withdraw, t_unwrap_balance. destruct (assert_one_yocto c); cbn [mbind res_bind noteff]; [|eauto].
    rewrite (storage_of_ok _ _ _ _ H). cbn [mbind res_bind]. unfold t_registered. destruct (om_get (t_accounts t) (c_pred c)) as [b|] eqn:E; cbn [expect mbind res_bind]; [|eauto].
    assert (En : match n with Some k => negb (0 <? k) | None => true end = match n with Some k => k =? 0 | None => true end).
    { destruct n as [k|]; [|reflexivity]. destruct (N.ltb_spec 0 k), (N.eqb_spec k 0); try reflexivity; lia. }
    rewrite En. destruct (match n with Some k => k =? 0 | None => true end); cbn [require mbind res_bind]; [|eauto]. exists st. split; [|exact H].
    rewrite (balance_is self st t _ H) by (unfold t_registered; rewrite E; reflexivity). reflexivity.
  - unfold t_unregister, tb_unregister. destruct (assert_one_yocto c); cbn [mbind res_bind noteff]; [|eauto]. rewrite (l_get_ok _ _ _ _ H). cbn [mbind res_bind]. unfold t_registered.
    destruct (om_get (t_accounts t) (c_pred c)) as [b|] eqn:E; cbn [mbind res_bind]; [|exists st; split; [reflexivity|exact H]].
    destruct ((b =? 0) || f); cbn [require mbind res_bind]; [|eauto]. rewrite (l_del_ok _ _ _ _ H). cbn [mbind res_bind]. unfold sub128. cbn [troot b_supply].
    destruct (N.leb_spec b (t_supply t)) as [Hb|]; cbn [require mbind res_bind]; [|eauto]. fold (troot t). rewrite min_ok. cbn [mbind res_bind].
    assert (Ea : add128 MIN 1 = Ok (MIN + 1)) by (vm_compute; reflexivity). rewrite Ea. cbn [mbind res_bind]. rewrite (ac_min _ _ _ H). eexists. split; [reflexivity|].
    pose proof (ac_supply _ _ _ H). apply (acc_num self _ (t <| t_accounts := om_remove (t_accounts t) (c_pred c) |>)); [apply acc_del; exact H|lia].
Qed.
Lemma answer_like self st t q : Acc self st t -> tb_answer st (troot t) q = Ok (tok_reply t q).
Proof.
  intros H. destruct q; cbn [tb_answer tok_reply troot b_owner b_minters b_supply].
  - f_equal.
  - f_equal. symmetry. wr.
  - f_equal. symmetry. apply w_big.
  - fold (troot t). rewrite (l_get_ok _ _ _ _ H). cbn [mbind res_bind]. f_equal. symmetry. apply w_big.
  - fold (troot t). rewrite min_ok. cbn [mbind res_bind]. f_equal. rewrite (ac_min _ _ _ H). symmetry. apply obj_write. apply shows_cons; [reflexivity|apply w_big|]. apply (shows_cons _ _ (VSome (VBig MIN))); [reflexivity|apply w_big|]. apply shows_nil.
  - fold (troot t). rewrite (storage_of_ok _ _ _ _ H). cbn [mbind res_bind]. destruct (t_registered t a); [|reflexivity]. f_equal. rewrite (ac_min _ _ _ H). exact (wrote_balance MIN).
Qed.

(** ** The record of the contract *)
Lemma ids_back l : forall b, Forall account_id l -> dec_many (length l) (fold_right (fun s b => enc_str s +:+ b) "" l +:+ b) = Some (l, b).
Proof.
  induction l as [|s l IH]; intros b F; [reflexivity|]. apply Forall_cons in F as [Hs F]. cbn [length dec_many fold_right]. rewrite sapp_assoc. unfold dec_id at 1.
  rewrite (dec_enc_str _ _ (id_short _ Hs)). cbn [mbind option_bind]. rewrite (proj2 (valid_id_spec _) Hs). cbn [mbind option_bind]. rewrite (IH b F). reflexivity.
Qed.
Lemma troot_back self st t : Acc self st t -> N.of_nat (length (t_minters t)) < 2 ^ 32 -> try_from_slice dec_tb (enc_tb (troot t)) = Some (troot t).
Proof.
  intros H Hm. unfold try_from_slice, dec_tb, enc_tb, troot. cbn [b_accounts b_supply b_usage b_meta b_owner b_minters].
  rewrite dec_enc_str by reflexivity. cbn [mbind option_bind]. rewrite dec_enc_uint by exact (ac_supply _ _ _ H). cbn [mbind option_bind].
  rewrite dec_enc_uint by reflexivity. cbn [mbind option_bind]. rewrite dec_enc_str by reflexivity. cbn [mbind option_bind]. unfold dec_id.
  rewrite (dec_enc_str _ _ (id_short _ (ac_owner _ _ _ H))). cbn [mbind option_bind]. rewrite (proj2 (valid_id_spec _) (ac_owner _ _ _ H)). cbn [mbind option_bind].
  unfold dec_ids, enc_ids. rewrite dec_enc_uint by exact Hm. cbn [mbind option_bind]. rewrite Nat2N.id. rewrite <- (sapp_nil (fold_right _ _ _)), (ids_back _ _ (ac_minters _ _ _ H)). reflexivity.
Qed.
Definition TRep (self : string) (st : flat) (x : option tstate) : Prop :=
  match x with
  | None => st = ∅
  | Some t => st !! "STATE" = Some (enc_tb (troot t)) /\ Acc self st t /\ N.of_nat (length (t_minters t)) < 2 ^ 32
  end.
Lemma tload self st t : TRep self st (Some t) -> tb_load st = Ok (troot t).
Proof. intros (E & H & Hm). unfold tb_load. rewrite E. cbn [expect mbind res_bind]. rewrite (troot_back _ _ _ H Hm). reflexivity. Qed.
Lemma tload_none self st : TRep self st None -> tb_load st = Panic "The contract is not initialized".
Proof. intros ->. unfold tb_load. rewrite lookup_empty. reflexivity. Qed.
Lemma trep_save self st t : Acc self st t -> N.of_nat (length (t_minters t)) < 2 ^ 32 -> TRep self (tb_save st (troot t)) (Some t).
Proof. intros H Hm. split; [apply lookup_insert|]. split; [apply acc_save; exact H|exact Hm]. Qed.
Lemma measured : tb_measure ∅ (mkTB (sk0 0) 0 0 "" "" []) = Ok (∅, mkTB (sk0 0) 0 125 "" "" []).
Proof.
  assert (H : match tb_measure ∅ (mkTB (sk0 0) 0 0 "" "" []) with
    | Ok (st, r) => bool_decide (st = ∅) = true /\ r = mkTB (sk0 0) 0 125 "" "" []
    | Panic _ => False
    end) by (vm_compute; split; reflexivity).
  destruct (tb_measure _ _) as [[st r]|e]; [|destruct H]. destruct H as [H ->]. apply bool_decide_eq_true in H as ->. reflexivity.
Qed.
Lemma acc_start self owner : account_id owner -> Acc self (<[sk0 1 := enc_meta DEFAULT_META]> ∅) (mkTok self [] 0 owner [] MIN).
Proof.
  intros Ho. split; cbn [t_accounts t_supply t_min_storage t_self t_owner t_minters]; try reflexivity; try assumption.
  - intros key Hk. destruct (decide (sk0 1 = key)) as [<-|Hne]; [tauto|]. rewrite lookup_insert_ne, lookup_empty in Hk by exact Hne. destruct Hk. discriminate.
  - constructor.
  - intros a b E. discriminate.
  - constructor.
Qed.
Lemma new_like self owner n : account_id owner ->
  match t_new self owner n MIN with
  | Ok t => exists st, tb_new ∅ owner n = Ok (tb_save st (troot t)) /\ Acc self st t /\ t_minters t = []
  | Panic _ => exists e, tb_new ∅ owner n = Panic e
  end.
Proof.
  intros Ho. unfold t_new, tb_new. rewrite lookup_empty. rewrite bool_decide_eq_false_2 by (intros [? E]; discriminate). cbn [negb require mbind res_bind]. rewrite measured. cbn [mbind res_bind].
  cbn [b_accounts b_supply b_usage]. pose proof (acc_start self owner Ho) as H0. pose proof (register_like _ _ _ owner H0) as Hr.
  change (troot (mkTok self [] 0 owner [] MIN)) with (mkTB (sk0 0) 0 125 (sk0 1) owner []) in Hr. cbv zeta.
  destruct (t_register (mkTok self [] 0 owner [] MIN) owner) as [t1|e] eqn:E1; [|destruct Hr as [e' ->]; cbn [mbind res_bind]; eauto].
  destruct Hr as (st1 & -> & H1 & Er). cbn [mbind res_bind]. rewrite <- Er. pose proof (deposit_like _ _ _ owner n H1) as Hd.
  destruct (t_deposit t1 owner n) as [t2|e] eqn:E2; cbn [like] in Hd; [|destruct Hd as [e' ->]; cbn [mbind res_bind]; eauto]. destruct Hd as (st2 & -> & H2). cbn [mbind res_bind].
  eexists. split; [reflexivity|]. split; [exact H2|]. unfold t_register in E1. cbn [t_accounts om_get require mbind res_bind] in E1. injection E1 as <-.
  unfold t_deposit in E2. apply bind_Ok in E2 as (b & _ & E2). apply bind_Ok in E2 as (u & _ & E2). apply bind_Ok in E2 as (u' & _ & E2). injection E2 as <-. reflexivity.
Qed.

(** ** One call *)
Lemma free c : c_deposit c = 0 -> non_payable c = Ok tt. Proof. intros H. unfold non_payable. rewrite H. reflexivity. Qed.
Lemma meta_back : try_from_slice dec_meta (enc_meta DEFAULT_META) = Some DEFAULT_META. Proof. vm_compute. reflexivity. Qed.
Lemma meta_wrote : write (meta_val DEFAULT_META) = meta_text. Proof. vm_compute. reflexivity. Qed.
Lemma tcall_init self st c pr m a owner n : init_means m a owner n -> tb_call self st c pr m a = (_ ← non_payable c; st' ← tb_new st owner n; Ok (st', ("", [], []))).
Proof.
  intros H. pose proof H as (_ & _ & -> & _). apply init_iff in H. rewrite init_read in H. unfold tb_call. rewrite bool_decide_eq_true_2 by reflexivity.
  destruct (read_args [("owner_id", TAcc); ("total_supply", U128)] a) as [vs|]; [|discriminate]. destruct vs as [|[] [|[] [|]]]; try discriminate. injection H as <- <-. reflexivity.
Qed.
Lemma tcall_resolve self st c pr m a s v n : resolve_means m a s v n -> tb_call self st c pr m a =
  (_ ← non_payable c; _ ← assert_private c self; r ← tb_load st; p ← expect pr "one promise result is expected"; '(st', r', used) ← tb_resolve st r s v n p; Ok (tb_save st' r', (write (VBig used), [], []))).
Proof.
  intros H. pose proof H as (_ & _ & _ & -> & _). apply resolve_iff in H. rewrite resolve_read in H. unfold tb_call. rewrite bool_decide_eq_false_2 by discriminate. rewrite bool_decide_eq_true_2 by reflexivity.
  destruct (read_args [("sender_id", TAcc); ("receiver_id", TAcc); ("amount", U128)] a) as [vs|]; [|discriminate]. destruct vs as [|[] [|[] [|[] [|]]]]; try discriminate. injection H as <- <- <-. reflexivity.
Qed.
Lemma tcall_minter self st c pr m a x : minter_means m a x -> tb_call self st c pr m a = (r ← tb_load st; _ ← require (bool_decide (x ∈ b_minters r)) "not a minter"; Ok (st, ("", [], []))).
Proof.
  intros H. pose proof H as (_ & -> & _). apply minter_iff in H. rewrite minter_read in H. unfold tb_call. rewrite !bool_decide_eq_false_2 by discriminate. rewrite bool_decide_eq_true_2 by reflexivity.
  destruct (read_args [("account_id", TAcc)] a) as [vs|]; [|discriminate]. destruct vs as [|[] [|]]; try discriminate. injection H as <-. reflexivity.
Qed.
Lemma tcall_meta self st c pr a : tb_call self st c pr "ft_metadata" a =
  (r ← tb_load st; b ← expect (st !! b_meta r) "unwrap on None"; md ← expect (try_from_slice dec_meta b) "Cannot deserialize value with Borsh"; Ok (st, (write (meta_val md), [], []))).
Proof. unfold tb_call. rewrite !bool_decide_eq_false_2 by discriminate. rewrite bool_decide_eq_true_2 by reflexivity. reflexivity. Qed.
Lemma tcall_op self st c pr m a o : tok_means m a o -> tb_call self st c pr m a = (r ← tb_load st; '(st', r', out) ← tb_exec c st r o; Ok (tb_save st' r', out)).
Proof. intros H. destruct (op_name _ _ _ H) as (H1 & H2 & H3 & H4). unfold tb_call. rewrite !bool_decide_eq_false_2 by assumption. rewrite (proj2 (tok_iff _ _ _) H). reflexivity. Qed.
Lemma tcall_view self st c pr m a q : tokq_means m a q -> tb_call self st c pr m a = (r ← tb_load st; t ← tb_answer st r q; Ok (st, (t, [], []))).
Proof.
  intros H. destruct (view_name _ _ _ H) as (H1 & H2 & H3 & H4). unfold tb_call. rewrite !bool_decide_eq_false_2 by assumption.
  destruct (tok_entry m a) as [o|] eqn:E; [apply tok_iff in E; destruct (op_not_view _ _ _ _ E H)|]. rewrite (proj2 (tokq_iff _ _ _) H). reflexivity.
Qed.
Lemma tcall_cases self st c pr m a z : tb_call self st c pr m a = Ok z ->
  (exists owner n, init_means m a owner n) \/ (exists s v n, resolve_means m a s v n) \/ (exists x, minter_means m a x) \/ m = "ft_metadata" \/ (exists o, tok_means m a o) \/ (exists q, tokq_means m a q).
Proof.
  unfold tb_call. intros H. destruct (bool_decide_reflect (m = "new_default_meta")) as [->|H1].
  { left. destruct (read_args [("owner_id", TAcc); ("total_supply", U128)] a) as [vs|] eqn:E; [|discriminate]. destruct vs as [|[] [|[] [|]]]; try discriminate. eexists _, _. apply init_iff. rewrite init_read, E. reflexivity. }
  destruct (bool_decide_reflect (m = "ft_resolve_transfer")) as [->|H2].
  { right. left. destruct (read_args [("sender_id", TAcc); ("receiver_id", TAcc); ("amount", U128)] a) as [vs|] eqn:E; [|discriminate]. destruct vs as [|[] [|[] [|[] [|]]]]; try discriminate.
    eexists _, _, _. apply resolve_iff. rewrite resolve_read, E. reflexivity. }
  destruct (bool_decide_reflect (m = "assert_minter")) as [->|H3].
  { right. right. left. destruct (read_args [("account_id", TAcc)] a) as [vs|] eqn:E; [|discriminate]. destruct vs as [|[] [|]]; try discriminate. eexists. apply minter_iff. rewrite minter_read, E. reflexivity. }
  destruct (bool_decide_reflect (m = "ft_metadata")) as [->|H4]; [tauto|].
  destruct (tok_entry m a) as [o|] eqn:E; [do 4 right; left; exists o; apply tok_iff; exact E|]. destruct (enter tok_views m a) as [q|] eqn:E2; [|discriminate].
  do 5 right. exists q. apply tokq_iff. exact E2.
Qed.
Lemma tcall_yes self st x c pr m a x' out : TRep self st x -> tok_accepts self x c pr m a x' out ->
  (forall t, x' = Some t -> N.of_nat (length (t_minters t)) < 2 ^ 32) -> exists st', tb_call self st c pr m a = Ok (st', out) /\ TRep self st' x'.
Proof.
  intros HR Ha Hm. destruct Ha as [c pr m a owner n t Hi Hd Hn|t c pr m a o t' e Ho He|t c p m a s v n u t' used Hr Hd Hs Hu He|t c pr m a y Hy Hin|t c pr a|t c pr m a q Hq].
  - rewrite (tcall_init _ _ _ _ _ _ _ _ Hi), (free _ Hd). cbn [mbind res_bind]. cbn [TRep] in HR. subst st. pose proof (new_like self owner n (proj1 Hi)) as HN. rewrite Hn in HN.
    destruct HN as (st & -> & H & El). cbn [mbind res_bind]. eexists. split; [reflexivity|]. apply trep_save; [exact H|]. rewrite El. reflexivity.
  - rewrite (tcall_op _ _ _ _ _ _ _ Ho), (tload _ _ _ HR). cbn [mbind res_bind]. destruct HR as (_ & H & _). pose proof (exec_like _ _ _ c o H (proj1 Ho)) as HE. rewrite He in HE.
    destruct HE as (st' & -> & H'). cbn [mbind res_bind]. eexists. split; [reflexivity|]. apply trep_save; [exact H'|]. apply Hm. reflexivity.
  - rewrite (tcall_resolve _ _ _ _ _ _ _ _ _ Hr), (free _ Hd). cbn [mbind res_bind]. unfold assert_private. rewrite Hs. rewrite bool_decide_eq_true_2 by reflexivity. cbn [require mbind res_bind].
    rewrite (tload _ _ _ HR). cbn [mbind res_bind expect]. destruct HR as (_ & H & _). apply unused_det in Hu as ->. pose proof (resolve_like _ _ _ s v n p H) as HE. rewrite He in HE.
    destruct HE as (st' & -> & H'). cbn [mbind res_bind]. eexists. split; [rewrite <- w_big; reflexivity|]. apply trep_save; [exact H'|]. apply Hm. reflexivity.
  - rewrite (tcall_minter _ _ _ _ _ _ _ Hy), (tload _ _ _ HR). cbn [mbind res_bind troot b_minters]. rewrite bool_decide_eq_true_2 by (apply elem_of_list_In; exact Hin). cbn [require mbind res_bind].
    exists st. split; [reflexivity|exact HR].
  - rewrite tcall_meta, (tload _ _ _ HR). cbn [mbind res_bind troot b_meta]. pose proof HR as (_ & H & _). rewrite (ac_meta _ _ _ H). cbn [expect mbind res_bind]. rewrite meta_back. cbn [expect mbind res_bind].
    rewrite meta_wrote. exists st. split; [reflexivity|exact HR].
  - rewrite (tcall_view _ _ _ _ _ _ _ Hq), (tload _ _ _ HR). cbn [mbind res_bind]. rewrite (answer_like self st t q (proj1 (proj2 HR))). exists st. split; [reflexivity|exact HR].
Qed.
Lemma tcall_no self st x c pr m a st' out : TRep self st x -> tb_call self st c pr m a = Ok (st', out) -> exists x' out', tok_accepts self x c pr m a x' out'.
Proof.
  intros HR H. destruct (tcall_cases _ _ _ _ _ _ _ H) as [(owner & n & Hm)|[(s & v & n & Hm)|[(y & Hm)|[->|[(o & Hm)|(q & Hm)]]]]].
  - rewrite (tcall_init _ _ _ _ _ _ _ _ Hm) in H. apply bind_Ok in H as (u & Ed & H). unfold non_payable in Ed. apply require_Ok in Ed. apply N.eqb_eq in Ed. apply bind_Ok in H as (s1 & En & H).
    destruct x as [t|]. { destruct HR as [E _]. unfold tb_new in En. rewrite E, bool_decide_eq_true_2 in En by eauto. discriminate. }
    cbn [TRep] in HR. subst st. pose proof (new_like self owner n (proj1 Hm)) as HN. destruct (t_new self owner n MIN) as [t|e] eqn:E; [|destruct HN as [e' HN]; congruence].
    eexists _, _. eapply ta_new; eassumption.
  - rewrite (tcall_resolve _ _ _ _ _ _ _ _ _ Hm) in H. apply bind_Ok in H as (u & Ed & H). unfold non_payable in Ed. apply require_Ok in Ed. apply N.eqb_eq in Ed. apply bind_Ok in H as (u' & Ep & H).
    unfold assert_private in Ep. apply require_Ok in Ep. apply bool_decide_eq_true in Ep. destruct x as [t|]; [|rewrite (tload_none _ _ HR) in H; discriminate]. rewrite (tload _ _ _ HR) in H. cbn [mbind res_bind] in H.
    destruct pr as [p|]; [|discriminate]. cbn [expect mbind res_bind] in H. pose proof (resolve_like _ _ _ s v n p (proj1 (proj2 HR))) as HE.
    destruct (t_resolve t s v n (p ≫= read_u128)) as [[t' used]|e] eqn:E; [|destruct HE as [e' HE]; rewrite HE in H; discriminate]. eexists _, _. eapply ta_resolve; try eassumption. apply unused_det. reflexivity.
  - rewrite (tcall_minter _ _ _ _ _ _ _ Hm) in H. destruct x as [t|]; [|rewrite (tload_none _ _ HR) in H; discriminate]. rewrite (tload _ _ _ HR) in H. cbn [mbind res_bind troot b_minters] in H.
    apply bind_Ok in H as (u & E & H). apply require_Ok in E. apply bool_decide_eq_true in E. eexists _, _. eapply ta_minter; [exact Hm|]. apply elem_of_list_In. exact E.
  - destruct x as [t|]; [eexists _, _; apply ta_meta|]. rewrite tcall_meta, (tload_none _ _ HR) in H. discriminate.
  - rewrite (tcall_op _ _ _ _ _ _ _ Hm) in H. destruct x as [t|]; [|rewrite (tload_none _ _ HR) in H; discriminate]. rewrite (tload _ _ _ HR) in H. cbn [mbind res_bind] in H.
    pose proof (exec_like _ _ _ c o (proj1 (proj2 HR)) (proj1 Hm)) as HE. destruct (t_exec c t o) as [[t' e]|e] eqn:E; [|destruct HE as [e' HE]; rewrite HE in H; discriminate]. eexists _, _. eapply ta_op; eassumption.
  - destruct x as [t|]; [eexists _, _; eapply ta_view; exact Hm|]. rewrite (tcall_view _ _ _ _ _ _ _ Hm), (tload_none _ _ HR) in H. discriminate.
Qed.
Lemma accepts_once self x c pr m a x1 o1 x2 o2 : tok_accepts self x c pr m a x1 o1 -> tok_accepts self x c pr m a x2 o2 -> x1 = x2 /\ o1 = o2.
Proof.
  intros H1 H2.
  destruct H1 as [c pr m a owner n t Hi Hd Hn|t c pr m a o t' e Ho He|t c p m a s v n u t' used Hr Hd Hs Hu He|t c pr m a y Hy Hin|t c pr a|t c pr m a q Hq].
  - inversion H2 as [c0 pr0 m0 a0 owner0 n0 t0 Hi0 _ Hn0| | | | |]; subst. apply init_iff in Hi, Hi0. rewrite Hi in Hi0. injection Hi0 as -> ->. split; congruence.
  - pose proof (op_name _ _ _ Ho) as (N1 & N2 & N3 & N4).
    inversion H2 as [|t0 c0 pr0 m0 a0 o0 t0' e0 Ho0 He0|t0 c0 p0 m0 a0 s0 v0 n0 u0 t0' used0 Hr0|t0 c0 pr0 m0 a0 y0 Hy0|t0 c0 pr0 a0|t0 c0 pr0 m0 a0 q0 Hq0]; subst; try congruence.
    + apply tok_iff in Ho, Ho0. rewrite Ho in Ho0. injection Ho0 as ->. rewrite He in He0. injection He0 as -> ->. auto.
    + destruct Hr0 as (_ & _ & _ & E & _). congruence.
    + destruct Hy0 as (_ & E & _). congruence.
    + destruct (op_not_view _ _ _ _ Ho Hq0).
  - pose proof Hr as (_ & _ & _ & -> & _).
    inversion H2 as [|t0 c0 pr0 m0 a0 o0 t0' e0 Ho0 He0|t0 c0 p0 m0 a0 s0 v0 n0 u0 t0' used0 Hr0 ? ? Hu0 He0|t0 c0 pr0 m0 a0 y0 Hy0|t0 c0 pr0 a0|t0 c0 pr0 m0 a0 q0 Hq0]; subst.
    + destruct (op_name _ _ _ Ho0) as (_ & E & _). congruence.
    + apply resolve_iff in Hr, Hr0. rewrite Hr in Hr0. injection Hr0 as -> -> ->. apply unused_det in Hu as ->, Hu0 as ->. rewrite He in He0. injection He0 as -> ->. auto.
    + destruct Hy0 as (_ & E & _). discriminate.
    + destruct (view_name _ _ _ Hq0) as (_ & E & _). congruence.
  - pose proof Hy as (_ & -> & _).
    inversion H2 as [|t0 c0 pr0 m0 a0 o0 t0' e0 Ho0 He0|t0 c0 p0 m0 a0 s0 v0 n0 u0 t0' used0 Hr0 ? ? Hu0 He0|t0 c0 pr0 m0 a0 y0 Hy0|t0 c0 pr0 a0|t0 c0 pr0 m0 a0 q0 Hq0]; subst; try (split; reflexivity).
    + destruct (op_name _ _ _ Ho0) as (_ & _ & E & _). congruence.
    + destruct Hr0 as (_ & _ & _ & E & _). discriminate.
    + destruct (view_name _ _ _ Hq0) as (_ & _ & E & _). congruence.
  - inversion H2 as [|t0 c0 pr0 m0 a0 o0 t0' e0 Ho0 He0|t0 c0 p0 m0 a0 s0 v0 n0 u0 t0' used0 Hr0 ? ? Hu0 He0|t0 c0 pr0 m0 a0 y0 Hy0|t0 c0 pr0 a0|t0 c0 pr0 m0 a0 q0 Hq0]; subst; try (split; reflexivity).
    + destruct (op_name _ _ _ Ho0) as (_ & _ & _ & E). congruence.
    + destruct Hr0 as (_ & _ & _ & E & _). discriminate.
    + destruct Hy0 as (_ & E & _). discriminate.
    + destruct (view_name _ _ _ Hq0) as (_ & _ & _ & E). congruence.
  - pose proof (view_name _ _ _ Hq) as (N1 & N2 & N3 & N4).
    inversion H2 as [|t0 c0 pr0 m0 a0 o0 t0' e0 Ho0 He0|t0 c0 p0 m0 a0 s0 v0 n0 u0 t0' used0 Hr0 ? ? Hu0 He0|t0 c0 pr0 m0 a0 y0 Hy0|t0 c0 pr0 a0|t0 c0 pr0 m0 a0 q0 Hq0]; subst; try congruence.
    + destruct (op_not_view _ _ _ _ Ho0 Hq).
    + destruct Hr0 as (_ & _ & _ & E & _). congruence.
    + destruct Hy0 as (_ & E & _). congruence.
    + apply tokq_iff in Hq, Hq0. rewrite Hq in Hq0. injection Hq0 as ->. auto.
Qed.

(** ** All calls *)
Lemma gives_app self st tr1 tr2 : tok_gives self st (tr1 ++ tr2) = tok_gives self st tr1 ++ tok_gives self (fold_left (tb_step self) tr1 st) tr2.
Proof. revert st. induction tr1 as [|x tr1 IH]; intros st; [reflexivity|]. cbn [app tok_gives fold_left]. rewrite IH. reflexivity. Qed.
Lemma few_before self tr x : few_minters self (tr ++ [x]) -> few_minters self tr.
Proof. intros H tr1 tr2 t outs ->. apply (H tr1 (tr2 ++ [x])). rewrite app_assoc. reflexivity. Qed.
Lemma c98_all self tr : few_minters self tr -> exists x, tok_history self tr x (tok_gives self ∅ tr) /\ TRep self (tb_run self tr) x.
Proof.
  induction tr as [|[[[c pr] m] a] tr IH] using rev_ind; intros Hw; [exists None; split; [constructor|reflexivity]|].
  destruct (IH (few_before _ _ _ Hw)) as (x & Hh & HR). rewrite gives_app. fold (tb_run self tr). cbn [tok_gives fst snd].
  unfold tb_run. rewrite fold_left_app. fold (tb_run self tr). cbn [fold_left]. unfold tb_step at 1. cbn [fst snd].
  assert (Hfew : forall x' out t, tok_accepts self x c pr m a x' out -> x' = Some t -> N.of_nat (length (t_minters t)) < 2 ^ 32).
  { intros x' out t Ha ->. pose proof (th_yes _ _ _ _ _ _ _ _ _ _ Hh Ha) as Hh'. exact (Hw (tr ++ [(c, pr, m, a)]) [] t _ (eq_sym (app_nil_r _)) Hh'). }
  destruct (tb_call self (tb_run self tr) c pr m a) as [[st' out]|e] eqn:E.
  - destruct (tcall_no _ _ _ _ _ _ _ _ _ HR E) as (x' & out' & Ha). destruct (tcall_yes _ _ _ _ _ _ _ _ _ HR Ha (fun t => Hfew _ _ t Ha)) as (st2 & E2 & HR').
    rewrite E in E2. injection E2 as <- ->. exists x'. split; [exact (th_yes _ _ _ _ _ _ _ _ _ _ Hh Ha)|exact HR'].
  - exists x. split; [|exact HR]. apply th_no; [exact Hh|]. intros x' out Ha. destruct (tcall_yes _ _ _ _ _ _ _ _ _ HR Ha (fun t => Hfew _ _ t Ha)) as (st2 & E2 & _). congruence.
Qed.
Lemma c98_once self tr : forall x outs x' outs', tok_history self tr x outs -> tok_history self tr x' outs' -> x = x' /\ outs = outs'.
Proof.
  induction tr as [|y tr IH] using rev_ind; intros x outs x' outs' H H'.
  - inversion H; [|match goal with E : _ ++ [_] = [] |- _ => apply app_eq_nil in E as [_ E]; discriminate E end|match goal with E : _ ++ [_] = [] |- _ => apply app_eq_nil in E as [_ E]; discriminate E end].
    inversion H'; [auto|match goal with E : _ ++ [_] = [] |- _ => apply app_eq_nil in E as [_ E]; discriminate E end|match goal with E : _ ++ [_] = [] |- _ => apply app_eq_nil in E as [_ E]; discriminate E end].
  - inversion H as [E|tr1 b1 ts1 c pr m a b2 t H1 Ha E|tr1 b1 ts1 c pr m a H1 Ha E]; [destruct tr; discriminate| |]; apply snoc_eq in E as [-> <-];
    (inversion H' as [E|tr2 b1' ts1' c' pr' m' a' b2' t' H1' Ha' E|tr2 b1' ts1' c' pr' m' a' H1' Ha' E]; [destruct tr; discriminate| |]; apply snoc_eq in E as [-> E]; injection E as <- <- <- <-);
    destruct (IH _ _ _ _ H1 H1') as [<- <-].
    + subst. destruct (accepts_once _ _ _ _ _ _ _ _ _ _ Ha Ha') as [-> ->]. auto.
    + destruct (Ha' _ _ Ha).
    + destruct (Ha _ _ Ha').
    + auto.
Qed.
Lemma c98_history self tr : few_minters self tr -> exists x, tok_history self tr x (tok_gives self ∅ tr).
Proof. intros H. destruct (c98_all self tr H) as (x & Hh & _). eauto. Qed.
Lemma c98_records self tr t outs : few_minters self tr -> tok_history self tr (Some t) outs ->
  tb_run self tr !! "STATE" = Some (state_bytes t) /\ tb_run self tr !! sk0 1 = Some (enc_meta DEFAULT_META) /\
  (forall a, tb_run self tr !! (sk0 0 +:+ enc_str a) = if t_registered t a then Some (enc_uint 16 (ft_balance_of t a)) else None) /\
  forall key, is_Some (tb_run self tr !! key) -> key = "STATE" \/ key = sk0 1 \/ exists a, t_registered t a = true /\ key = sk0 0 +:+ enc_str a.
Proof.
  intros Hw Hh. destruct (c98_all self tr Hw) as (x & Hh' & HR). destruct (c98_once _ _ _ _ _ _ Hh Hh') as [<- _]. destruct HR as (E & H & _).
  split; [exact E|]. split; [exact (ac_meta _ _ _ H)|]. split.
  - intros a. fold (akey a). rewrite (ac_get _ _ _ H). unfold t_registered, ft_balance_of. destruct (om_get (t_accounts t) a); reflexivity.
  - intros key Hk. destruct (ac_foot _ _ _ H key Hk) as [E1|[E1|(a & Ha & E1)]]; [tauto|tauto|]. right. right. exists a. split; [|exact E1]. unfold t_registered. destruct Ha as [b ->]. reflexivity.
Qed.

(** ** What is known of the token holds of the bytes *)
Lemma accepts_some self t c pr m a x' out : tok_accepts self (Some t) c pr m a x' out -> t_self t = self ->
  exists t', x' = Some t' /\ (t' = t \/ exists o, t' = t_step t (c, o)).
Proof.
  intros H Es. inversion H as [|t0 c0 pr0 m0 a0 o t' e Ho He|t0 c0 p m0 a0 s v n u t' used Hr Hd Hs Hu He| | |]; subst; try (eexists; split; [reflexivity|left; reflexivity]).
  - exists t'. split; [reflexivity|]. right. exists o. unfold t_step. cbn [fst snd]. rewrite He. reflexivity.
  - exists t'. split; [reflexivity|]. right. exists (TResolve s v n u). unfold t_step. cbn [fst snd t_exec]. rewrite (free _ Hd). cbn [mbind res_bind]. unfold assert_private. rewrite Hs.
    rewrite bool_decide_eq_true_2 by reflexivity. cbn [require mbind res_bind]. rewrite He. reflexivity.
Qed.
Lemma step_self t x : TI t -> t_self (t_step t x) = t_self t.
Proof. intros HI. unfold t_step. destruct (t_exec x.1 t x.2) as [[t' e]|] eqn:E; [|reflexivity]. exact (proj1 (proj2 (proj2 (proj2 (proj2 (t_exec_spec _ _ _ _ HI E)))))). Qed.
Lemma c98_reached self tr t outs : tok_history self tr (Some t) outs ->
  t_self t = self /\ exists owner n t0 trs, account_id owner /\ n < 2 ^ 128 /\ t_new self owner n MIN = Ok t0 /\ t = t_run t0 trs /\ (length trs < length tr)%nat.
Proof.
  remember (Some t) as x eqn:Ex. intros H. revert t Ex. induction H as [|tr x outs c pr m a x' out H IH Ha|tr x outs c pr m a H IH Ha]; intros t Ex; [discriminate| |].
  - destruct x as [t1|].
    + destruct (IH t1 eq_refl) as (Es & owner & n & t0 & trs & Ho & Hn & H0 & E & Hl). subst x'. destruct (accepts_some _ _ _ _ _ _ _ _ Ha Es) as (t' & E' & [->|[o ->]]); injection E' as ->.
      * split; [exact Es|]. exists owner, n, t0, trs. rewrite app_length. cbn [length]. repeat (split; [assumption|]). lia.
      * split; [rewrite step_self; [exact Es|rewrite E; apply TI_run; exact (proj1 (t_new_spec _ _ _ _ _ H0))]|]. exists owner, n, t0, (trs ++ [(c, o)]). rewrite !app_length. cbn [length]. rewrite t_run_snoc, <- E. repeat (split; [assumption|]). split; [reflexivity|lia].
    + inversion Ha as [c0 pr0 m0 a0 owner n t0 Hi Hd Hn| | | | |]; subst. injection H5 as ->. split; [exact (proj2 (proj2 (proj2 (proj2 (proj2 (t_new_spec _ _ _ _ _ Hn))))))|].
      exists owner, n, t, []. destruct Hi as (Ho & Hl & _). rewrite app_length. cbn [length]. repeat (split; [assumption|]). split; [reflexivity|lia].
  - destruct (IH t Ex) as (Es & owner & n & t0 & trs & Ho & Hn & H0 & E & Hl). split; [exact Es|]. exists owner, n, t0, trs. rewrite app_length. cbn [length]. repeat (split; [assumption|]). lia.
Qed.
Lemma minters_step t x : TI t -> (length (t_minters (t_step t x)) <= S (length (t_minters t)))%nat.
Proof.
  intros HI. unfold t_step. destruct (t_exec x.1 t x.2) as [[t' e]|] eqn:E; [|lia]. destruct (t_exec_spec _ _ _ _ HI E) as (_ & _ & _ & _ & _ & _ & H).
  destruct x as [c o]. cbn [fst snd] in *. destruct o as [a|a|a|n|n|r n|r n m|sn r n u|a|n|f]; try (rewrite H; lia); clear H; cbn [t_exec] in E; apply bind_Ok in E as (t1 & E & E'); injection E' as <- _.
  - unfold t_add_minter in E. apply bind_Ok in E as (? & _ & E). apply bind_Ok in E as (? & _ & E). apply bind_Ok in E as (? & _ & E). injection E as <-. cbn [t_minters set]. rewrite app_length. cbn [length]. lia.
  - unfold t_remove_minter in E. apply bind_Ok in E as (? & _ & E). apply bind_Ok in E as (? & _ & E). destruct (list_find _ _) as [[i y]|] eqn:F; [|discriminate E]. injection E as <-. cbn [t_minters set].
    apply list_find_Some in F as (F & _). rewrite swap_remove_length by exact (lookup_lt_Some _ _ _ F). lia.
Qed.
Lemma few_if self tr : N.of_nat (length tr) < 2 ^ 32 -> few_minters self tr.
Proof.
  intros Hl tr1 tr2 t outs -> H. rewrite app_length in Hl. destruct (c98_reached _ _ _ _ H) as (_ & owner & n & t0 & trs & _ & _ & H0 & -> & Hk).
  assert (K : (length (t_minters (t_run t0 trs)) <= length trs)%nat).
  { clear Hk H. induction trs as [|x trs IH] using rev_ind; [change (t_minters (t_run t0 [])) with (get_minters t0); rewrite (proj1 (proj2 (proj2 (proj2 (proj2 (t_new_spec _ _ _ _ _ H0)))))); cbn; lia|].
    rewrite t_run_snoc, app_length. cbn [length]. pose proof (minters_step (t_run t0 trs) x (TI_run trs _ (proj1 (t_new_spec _ _ _ _ _ H0)))). lia. }
  lia.
Qed.
Lemma c98_supply self tr s : few_minters self tr -> tb_run self tr !! "STATE" = Some s ->
  exists l rest, NoDup l.*1 /\ (forall a b, In (a, b) l -> b < 2 ^ 128) /\
    (forall a v, tb_run self tr !! (sk0 0 +:+ enc_str a) = Some v <-> exists b, In (a, b) l /\ v = enc_uint 16 b) /\
    sum_by snd l < 2 ^ 128 /\ s = enc_str (sk0 0) +:+ enc_uint 16 (sum_by snd l) +:+ rest.
Proof.
  intros Hw Hs. destruct (c98_all self tr Hw) as ([t|] & Hh & HR); [|cbn [TRep] in HR; rewrite HR, lookup_empty in Hs; discriminate].
  destruct (c98_reached _ _ _ _ Hh) as (_ & owner & n & t0 & trs & _ & _ & H0 & E & _). pose proof (TI_run trs _ (proj1 (t_new_spec _ _ _ _ _ H0))) as (T1 & T2 & T3). rewrite <- E in T1, T2, T3.
  destruct HR as (Es & H & _). rewrite Hs in Es. injection Es as ->.
  assert (Ein : forall a b, In (a, b) (t_accounts t) <-> om_get (t_accounts t) a = Some b).
  { intros a b. split; [apply om_In_get; exact T1|apply om_get_Some_In]. }
  exists (t_accounts t). eexists. split; [exact T1|]. split; [intros a b Hb; apply (ac_fits _ _ _ H a); apply Ein; exact Hb|]. split.
  - intros a v. fold (akey a). rewrite (ac_get _ _ _ H). split.
    + intros Hv. destruct (om_get (t_accounts t) a) as [b|] eqn:Eb; [|discriminate]. exists b. split; [apply Ein; exact Eb|]. apply (inj Some). symmetry. exact Hv.
    + intros (b & Hb & ->). apply Ein in Hb. rewrite Hb. reflexivity.
  - change (om_sum (fun (_ : string) (b : N) => b) (t_accounts t)) with (sum_by snd (t_accounts t)) in T2. rewrite <- T2. split; [exact T3|reflexivity].
Qed.
