(** TokenNear.v -- C86: the NEAR of the token's storage methods, and what its methods return.
    test-meta-token/src/lib.rs:224-258 delegates to storage_impl.rs of near-contract-standards 5.0.0, modelled from the
    published library. *)

From Verif Require Export TokenRoles.

(** *** Model *)
(** transfers of NEAR that a call issues, with the state before it.
    storage_impl.rs storage_deposit: to the caller, all of it if the account is registered, else what exceeds the
    minimum; a transfer of nothing is not issued.  internal_storage_unregister: minimum and the attached yoctoNEAR. *)
Definition t_near_out (c : ctx) (t : tstate) (o : top) : list (string * N) :=
  match o with
  | TStorageDeposit a =>
      let refund := match om_get (t_accounts t) (default (c_pred c) a) with
                    | Some _ => c_deposit c
                    | None => c_deposit c - t_min_storage t
                    end in
      if 0 <? refund then [(c_pred c, refund)] else []
  | TUnregister _ =>
      match om_get (t_accounts t) (c_pred c) with Some _ => [(c_pred c, t_min_storage t + 1)] | None => [] end
  | _ => []
  end.
(** lib.rs:251-253: total and available *)
Definition t_bounds (t : tstate) : N * option N := (t_min_storage t, Some (t_min_storage t)).
(** lib.rs:255-257 *)
Definition t_storage_balance_of (t : tstate) (a : string) : option (N * N) :=
  match om_get (t_accounts t) a with Some _ => Some (t_min_storage t, 0) | None => None end.
(** results of the storage methods: lib.rs:226-232, 235-237 (the balance afterwards) *)
Definition t_storage_result (c : ctx) (t' : tstate) (o : top) : option (N * N) :=
  match o with
  | TStorageDeposit a => t_storage_balance_of t' (default (c_pred c) a)
  | TStorageWithdraw _ => t_storage_balance_of t' (c_pred c)
  | _ => None
  end.
(** lib.rs:240-248: whether an account was closed *)
Definition t_unregister_result (c : ctx) (t : tstate) : bool :=
  match om_get (t_accounts t) (c_pred c) with Some _ => true | None => false end.

(** *** Specification *)
Definition near_out (c : ctx) (t : tstate) (o : top) : N := sum_by snd (t_near_out c t o).
(** attached to calls that keep it *)
Definition near_kept (t : tstate) (x : tcall) : N :=
  match x.2 with
  | TStorageDeposit _ => 0
  | TUnregister _ => if t_registered t (c_pred x.1) then 0 else c_deposit x.1
  | _ => c_deposit x.1
  end.

(** *** Proofs *)
Definition cnt (m : omap_t string N) : N := om_sum (fun (_ : string) (_ : N) => 1) m.
Lemma cnt_set_old m a b b' : om_get m a = Some b -> cnt (om_set m a b') = cnt m.
Proof. intros H. pose proof (om_sum_set_old (fun (_ : string) (_ : N) => 1) _ _ _ b' H). unfold cnt. cbn beta in *. lia. Qed.
Lemma cnt_set_new m a b' : om_get m a = None -> cnt (om_set m a b') = cnt m + 1.
Proof. intros H. pose proof (om_sum_set_new (fun (_ : string) (_ : N) => 1) _ _ b' H). unfold cnt. cbn beta in *. lia. Qed.
Lemma cnt_remove m a b : om_get m a = Some b -> cnt (om_remove m a) + 1 = cnt m.
Proof. intros H. pose proof (om_sum_remove (fun (_ : string) (_ : N) => 1) _ _ _ H). unfold cnt. cbn beta in *. lia. Qed.
Lemma cnt_length m : cnt m = N.of_nat (length m).
Proof. unfold cnt, om_sum. induction m as [|p m IH]; [reflexivity|]. rewrite sum_by_cons, IH. cbn [length]. lia. Qed.

Lemma near_step x t t' e : t_exec x.1 t x.2 = Ok (t', e) ->
  t_min_storage t' = t_min_storage t /\
  c_deposit x.1 + t_min_storage t * cnt (t_accounts t) = near_out x.1 t x.2 + t_min_storage t * cnt (t_accounts t') + near_kept t x.
Proof.
  destruct x as [c o]. intros H. unfold near_out, t_near_out, near_kept. cbn [fst snd] in *.
  assert (Hdep : forall t a n t', t_deposit t a n = Ok t' -> t_min_storage t' = t_min_storage t /\ cnt (t_accounts t') = cnt (t_accounts t)).
  { intros t1 a n t2 E. apply t_deposit_inv in E as (b & Hb & _ & _ & ->). split; [reflexivity|]. cbn [t_accounts set]. eapply cnt_set_old; exact Hb. }
  assert (Hwd : forall t a n t', t_withdraw t a n = Ok t' -> t_min_storage t' = t_min_storage t /\ cnt (t_accounts t') = cnt (t_accounts t)).
  { intros t1 a n t2 E. apply t_withdraw_inv in E as (b & Hb & _ & _ & ->). split; [reflexivity|]. cbn [t_accounts set]. eapply cnt_set_old; exact Hb. }
  assert (Htr : forall r n t', t_ft_transfer c t r n = Ok t' -> t_min_storage t' = t_min_storage t /\ cnt (t_accounts t') = cnt (t_accounts t)).
  { intros r n t2 E. unfold t_ft_transfer, t_transfer in E. apply bind_Ok in E as (? & _ & E). apply bind_Ok in E as (? & _ & E). apply bind_Ok in E as (? & _ & E).
    apply bind_Ok in E as (t1 & E1 & E2). destruct (Hwd _ _ _ _ E1), (Hdep _ _ _ _ E2). split; congruence. }
  destruct o as [a|a|a|n|n|r n|r n m|sn r n u|a|n|f]; cbn [t_exec] in H; try (apply bind_Ok in H as (t1 & H & E); injection E as <- <-); rewrite ?sum_by_nil.
  - unfold t_set_owner in H. apply bind_Ok in H as (? & _ & H). injection H as <-. split; [reflexivity|]. cbn [t_accounts set]. lia.
  - unfold t_add_minter in H. apply bind_Ok in H as (? & _ & H). apply bind_Ok in H as (? & _ & H). apply bind_Ok in H as (? & _ & H). injection H as <-. split; [reflexivity|]. cbn [t_accounts set]. lia.
  - unfold t_remove_minter in H. apply bind_Ok in H as (? & _ & H). apply bind_Ok in H as (? & _ & H). destruct (list_find _ _) as [[i y]|]; [|discriminate H]. injection H as <-. split; [reflexivity|]. cbn [t_accounts set]. lia.
  - unfold t_mint in H. apply bind_Ok in H as (? & _ & H). apply bind_Ok in H as (? & _ & H). destruct (Hdep _ _ _ _ H) as [E1 E2]. rewrite E2. split; [exact E1|lia].
  - unfold t_burn in H. apply bind_Ok in H as (? & _ & H). destruct (Hwd _ _ _ _ H) as [E1 E2]. rewrite E2. split; [exact E1|lia].
  - destruct (Htr _ _ _ H) as [E1 E2]. rewrite E2. split; [exact E1|lia].
  - destruct (Htr _ _ _ H) as [E1 E2]. rewrite E2. split; [exact E1|lia].
  - apply bind_Ok in H as (? & _ & H). apply bind_Ok in H as (? & _ & H). apply bind_Ok in H as ([t2 k] & H & E). injection E as <-.
    enough (t_min_storage t2 = t_min_storage t /\ cnt (t_accounts t2) = cnt (t_accounts t)) as [E1 E2] by (rewrite E2; split; [exact E1|lia]).
    unfold t_resolve in H. destruct (0 <? _); [|injection H as <- <-; auto]. destruct (om_get (t_accounts t) r) as [rb|] eqn:Er; cbn [default from_option] in H; unfold Datatypes.id in H; [|injection H as <- <-; auto].
    destruct (0 <? rb); [|injection H as <- <-; auto]. set (v := rb - _) in H. destruct (om_get _ sn) as [sb|] eqn:Es.
    + apply bind_Ok in H as (? & _ & H). injection H as <- <-. split; [reflexivity|]. cbn [t_accounts set] in *. rewrite (cnt_set_old _ _ _ _ Es). eapply cnt_set_old; exact Er.
    + apply bind_Ok in H as (? & _ & H). injection H as <- <-. split; [reflexivity|]. cbn [t_accounts set] in *. eapply cnt_set_old; exact Er.
  - unfold t_storage_deposit in H. destruct (om_get (t_accounts t) (default (c_pred c) a)) as [b|] eqn:Ea.
    + injection H as <-. split; [reflexivity|]. destruct (N.ltb_spec 0 (c_deposit c)); rewrite ?sum_by_cons, ?sum_by_nil; cbn [snd]; lia.
    + apply bind_Ok in H as (? & Hm & H). apply require_Ok, N.leb_le in Hm. unfold t_register in H. rewrite Ea in H. cbn [require mbind res_bind] in H. injection H as <-.
      split; [reflexivity|]. cbn [t_accounts set]. rewrite cnt_set_new by exact Ea. rewrite N.mul_add_distr_l, N.mul_1_r.
      destruct (N.ltb_spec 0 (c_deposit c - t_min_storage t)); rewrite ?sum_by_cons, ?sum_by_nil; cbn [snd]; lia.
  - unfold t_storage_withdraw in H. apply bind_Ok in H as (? & _ & H). apply bind_Ok in H as (? & _ & H). apply bind_Ok in H as (? & _ & H). injection H as <-. split; [reflexivity|lia].
  - unfold t_unregister in H. apply bind_Ok in H as (? & Hd & H). unfold t_registered. apply require_Ok, N.eqb_eq in Hd.
    destruct (om_get (t_accounts t) (c_pred c)) as [b|] eqn:Ea; [|injection H as <-; split; [reflexivity|rewrite sum_by_nil; lia]].
    apply bind_Ok in H as (? & _ & H). apply bind_Ok in H as (? & _ & H). injection H as <-. split; [reflexivity|]. cbn [t_accounts set]. rewrite sum_by_cons, sum_by_nil. cbn [snd].
    pose proof (cnt_remove _ _ _ Ea) as E. rewrite <- E. rewrite N.mul_add_distr_l, N.mul_1_r. lia.
Qed.
Lemma near_run tr : forall t,
  t_min_storage (t_run t tr) = t_min_storage t /\
  t_sum (fun _ x => c_deposit x.1) t tr + t_min_storage t * cnt (t_accounts t)
  = t_sum (fun t x => near_out x.1 t x.2) t tr + t_min_storage t * cnt (t_accounts (t_run t tr)) + t_sum near_kept t tr.
Proof.
  induction tr as [|x tr IH]; intros t; [cbn; lia|]. cbn [t_sum t_run fold_left]. fold (t_run (t_step t x) tr). unfold t_step at 1 2.
  destruct (t_exec x.1 t x.2) as [[t' e]|] eqn:H; [|apply IH].
  destruct (near_step x t t' e H) as [E1 E2]. destruct (IH t') as [I1 I2]. rewrite E1 in *. split; [exact I1|]. lia.
Qed.
Lemma c86_held self owner n ms t0 tr : t_new self owner n ms = Ok t0 ->
  let t := t_run t0 tr in
  exists accs, NoDup accs /\ (forall a, t_registered t a = true <-> In a accs) /\
    t_sum (fun _ x => c_deposit x.1) t0 tr + ms
    = t_sum (fun t x => near_out x.1 t x.2) t0 tr + ms * N.of_nat (length accs) + t_sum near_kept t0 tr.
Proof.
  intros H0. pose proof H0 as H. cbv zeta. pose proof (t_new_spec _ _ _ _ _ H) as (HT & _). pose proof (TI_run tr _ HT) as (Hnd & _).
  exists ((t_accounts (t_run t0 tr)).*1). split; [exact Hnd|]. split.
  - intros a. unfold t_registered. split.
    + destruct (om_get _ a) as [b|] eqn:E; [|discriminate]. intros _. apply elem_of_list_In. eapply om_get_Some_key. exact E.
    + intros Hin. destruct (om_get _ a) as [b|] eqn:E; [reflexivity|]. exfalso. apply elem_of_list_In in Hin. apply om_get_None in E. contradiction.
  - destruct (near_run tr t0) as [_ E]. rewrite !cnt_length in E. rewrite fmap_length.
    assert (E0 : t_min_storage t0 = ms /\ cnt (t_accounts t0) = 1).
    { unfold t_new in H. apply bind_Ok in H as (t1 & H1 & H). unfold t_register in H1. cbn in H1. injection H1 as <-. apply t_deposit_inv in H as (b & Hb & _ & _ & ->).
      split; [reflexivity|]. cbn [t_accounts set]. rewrite (cnt_set_old _ _ _ _ Hb). reflexivity. }
    destruct E0 as [E1 E2]. rewrite cnt_length in E2. rewrite E1, E2 in E. lia.
Qed.
(** one call *)
Lemma c86_deposit c t a t' e : t_exec c t (TStorageDeposit a) = Ok (t', e) ->
  let acc := default (c_pred c) a in
  t_storage_balance_of t' acc = Some (t_min_storage t, 0) /\ (forall b, ft_balance_of t' b = ft_balance_of t b) /\
  (forall b, b <> acc -> t_storage_balance_of t' b = t_storage_balance_of t b) /\
  (forall b n, In (b, n) (t_near_out c t (TStorageDeposit a)) -> b = c_pred c /\ 0 < n) /\
  near_out c t (TStorageDeposit a) + (if t_registered t acc then 0 else t_min_storage t) = c_deposit c.
Proof.
  intros H acc. destruct (near_step (c, TStorageDeposit a) t t' e H) as [_ Hn]. cbn [t_exec] in H. apply bind_Ok in H as (t1 & H & E). injection E as <- _. unfold t_storage_deposit in H. fold acc in H.
  assert (Ho : forall b n, In (b, n) (t_near_out c t (TStorageDeposit a)) -> b = c_pred c /\ 0 < n).
  { intros b n. cbn [t_near_out]. cbv zeta. destruct (N.ltb_spec 0 match om_get (t_accounts t) (default (c_pred c) a) with Some _ => c_deposit c | None => c_deposit c - t_min_storage t end) as [Hl|];
      [|intros []]. intros [E|[]]. injection E as <- <-. auto. }
  unfold near_kept in Hn. cbn [fst snd] in Hn. unfold t_registered, t_storage_balance_of. destruct (om_get (t_accounts t) acc) as [b|] eqn:Ea.
  - injection H as <-. rewrite Ea. repeat split; try reflexivity; try (eapply Ho; eassumption). lia.
  - apply bind_Ok in H as (? & Hm & H). unfold t_register in H. rewrite Ea in H. cbn [require mbind res_bind] in H. injection H as <-. cbn [t_accounts t_min_storage set] in *.
    rewrite om_get_set_eq. split; [reflexivity|]. split.
    { intros b. unfold ft_balance_of. cbn [t_accounts set]. destruct (decide (acc = b)) as [<-|Hb]; [rewrite om_get_set_eq, Ea; reflexivity|rewrite om_get_set_ne by exact Hb; reflexivity]. }
    split. { intros b Hb. rewrite om_get_set_ne by congruence. reflexivity. } split; [exact Ho|]. rewrite cnt_set_new in Hn by exact Ea. rewrite N.mul_add_distr_l, N.mul_1_r in Hn. lia.
Qed.
Lemma c86_unregister c t f t' e : TI t -> t_exec c t (TUnregister f) = Ok (t', e) ->
  t_storage_balance_of t' (c_pred c) = None /\
  (forall b, b <> c_pred c -> t_storage_balance_of t' b = t_storage_balance_of t b) /\
  t_near_out c t (TUnregister f) = (if t_unregister_result c t then [(c_pred c, t_min_storage t + 1)] else []) /\
  (t_unregister_result c t = true <-> t_registered t (c_pred c) = true) /\ (f = false -> ft_balance_of t (c_pred c) = 0).
Proof.
  intros (Hnd & _) H. cbn [t_exec] in H. apply bind_Ok in H as (t1 & H & E). injection E as <- _. unfold t_unregister in H. apply bind_Ok in H as (? & _ & H).
  unfold t_storage_balance_of, t_unregister_result, t_registered, ft_balance_of. cbn [t_near_out]. destruct (om_get (t_accounts t) (c_pred c)) as [b|] eqn:Ea.
  - apply bind_Ok in H as (? & Hb & H). apply require_Ok in Hb. apply bind_Ok in H as (? & _ & H). injection H as <-. cbn [t_accounts t_min_storage set].
    rewrite om_get_remove_eq by exact Hnd. split; [reflexivity|]. split. { intros b0 Hb0. rewrite om_get_remove_ne by (try exact Hnd; congruence). reflexivity. }
    split; [reflexivity|]. split; [tauto|]. intros ->. rewrite orb_false_r in Hb. apply N.eqb_eq in Hb. cbn. exact Hb.
  - injection H as <-. rewrite Ea. split; [reflexivity|]. split; [reflexivity|]. split; [reflexivity|]. split; [tauto|reflexivity].
Qed.
