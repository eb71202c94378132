(** TokenProofs.v -- C54: the token supply changes only by mint and burn. *)

From Verif Require Export Token.

(** *** Specification *)

(** what a call mints and burns, if it succeeds *)
Definition minted (x : tcall) : N := match x.2 with TMint n => n | _ => 0 end.
(** the part of a transfer-call that goes back *)
Definition refunded (t : tstate) (receiver : string) (amount : N) (result : option N) : N :=
  N.min (ft_balance_of t receiver) (match result with Some u => N.min amount u | None => amount end).
Definition burned (t : tstate) (x : tcall) : N :=
  match x.2 with
  | TBurn n => n
  | TUnregister _ => ft_balance_of t (c_pred x.1)
  | TResolve s r n u => if t_registered t s then 0 else refunded t r n u
  | _ => 0
  end.
(** what a call adds to and takes from the balance of [a] *)
Definition credit (t : tstate) (x : tcall) (a : string) : N :=
  match x.2 with
  | TMint n => if decide (c_pred x.1 = a) then n else 0
  | TTransfer r n | TTransferCall r n _ => if decide (r = a) then n else 0
  | TResolve s r n u => if t_registered t s then if decide (s = a) then refunded t r n u else 0 else 0
  | _ => 0
  end.
Definition debit (t : tstate) (x : tcall) (a : string) : N :=
  match x.2 with
  | TBurn n => if decide (c_pred x.1 = a) then n else 0
  | TTransfer _ n | TTransferCall _ n _ => if decide (c_pred x.1 = a) then n else 0
  | TUnregister _ => if decide (c_pred x.1 = a) then ft_balance_of t a else 0
  | TResolve s r n u => if decide (r = a) then refunded t r n u else 0
  | _ => 0
  end.
(** who may call *)
Definition t_permitted (t : tstate) (x : tcall) : Prop :=
  match x.2 with
  | TSetOwner _ => c_pred x.1 = t_get_owner_id t
  | TAddMinter _ | TRemoveMinter _ => c_pred x.1 = t_get_owner_id t /\ c_deposit x.1 = 1
  | TMint _ => In (c_pred x.1) (get_minters t) /\ c_deposit x.1 = 1
  | TBurn _ | TTransfer _ _ | TTransferCall _ _ _ | TUnregister _ | TStorageWithdraw _ => c_deposit x.1 = 1
  | TResolve _ _ _ _ => c_pred x.1 = t_self t /\ c_deposit x.1 = 0
  | TStorageDeposit _ => True
  end.
(** sums over a history; only calls that succeed count *)
Fixpoint t_sum (f : tstate -> tcall -> N) (t : tstate) (tr : list tcall) : N :=
  match tr with
  | [] => 0
  | x :: tr' =>
      match t_exec x.1 t x.2 with
      | Ok (t', _) => f t x + t_sum f t' tr'
      | Panic _ => t_sum f t tr'
      end
  end.

(** ** Proofs *)
Definition TI (t : tstate) : Prop :=
  NoDup (t_accounts t).*1 /\ t_supply t = om_sum (fun _ b => b) (t_accounts t) /\ t_supply t < U128_SIZE.

Definition tsum := om_sum (fun (_ : string) (b : N) => b).
Lemma tsum_set_old m a b b' : om_get m a = Some b -> tsum (om_set m a b') + b = tsum m + b'.
Proof. intros H. pose proof (om_sum_set_old (fun (_ : string) (b : N) => b) _ _ _ b' H). unfold tsum. cbn beta in *. lia. Qed.
Lemma tsum_set_new m a b' : om_get m a = None -> tsum (om_set m a b') = tsum m + b'.
Proof. intros H. pose proof (om_sum_set_new (fun (_ : string) (b : N) => b) _ _ b' H). unfold tsum. cbn beta in *. lia. Qed.
Lemma tsum_ge m a : default 0 (om_get m a) <= tsum m.
Proof.
  destruct (om_get m a) eqn:E; cbn [default from_option]; [|lia]. unfold Datatypes.id. apply (om_sum_ge (fun (_ : string) (b : N) => b) _ _ _ E).
Qed.

Lemma t_deposit_inv t a n t' : t_deposit t a n = Ok t' ->
  exists b, om_get (t_accounts t) a = Some b /\ b + n < U128_SIZE /\ t_supply t + n < U128_SIZE /\
    t' = t <| t_accounts := om_set (t_accounts t) a (b + n) |> <| t_supply := t_supply t + n |>.
Proof.
  unfold t_deposit, t_unwrap_balance. intros H. apply bind_Ok in H as (b & Hb & H). apply expect_Ok in Hb.
  apply bind_Ok in H as (? & H1 & H). apply bind_Ok in H as (? & H2 & H). apply require_Ok in H1, H2.
  apply N.ltb_lt in H1, H2. injection H as <-. exists b. auto.
Qed.
Lemma t_withdraw_inv t a n t' : t_withdraw t a n = Ok t' ->
  exists b, om_get (t_accounts t) a = Some b /\ n <= b /\ n <= t_supply t /\
    t' = t <| t_accounts := om_set (t_accounts t) a (b - n) |> <| t_supply := t_supply t - n |>.
Proof.
  unfold t_withdraw, t_unwrap_balance. intros H. apply bind_Ok in H as (b & Hb & H). apply expect_Ok in Hb.
  apply bind_Ok in H as (? & H1 & H). apply bind_Ok in H as (? & H2 & H). apply require_Ok in H1, H2.
  apply N.leb_le in H1, H2. injection H as <-. exists b. auto.
Qed.

Lemma bal_set t m a b : t_accounts t = om_set m a b ->
  forall a', ft_balance_of t a' = if decide (a = a') then b else default 0 (om_get m a').
Proof.
  intros E a'. unfold ft_balance_of. rewrite E. case_decide as H; [subst; rewrite om_get_set_eq; reflexivity|].
  rewrite om_get_set_ne by exact H. reflexivity.
Qed.
Lemma t_deposit_spec t a n t' : TI t -> t_deposit t a n = Ok t' ->
  TI t' /\ t_supply t' = t_supply t + n /\ (forall a', ft_balance_of t' a' = ft_balance_of t a' + if decide (a = a') then n else 0) /\
  t_owner t' = t_owner t /\ t_minters t' = t_minters t /\ t_self t' = t_self t /\ t_min_storage t' = t_min_storage t /\
  (forall a', t_registered t' a' = t_registered t a').
Proof.
  intros (Hnd & Hs & Hl) H. apply t_deposit_inv in H as (b & Hb & H1 & H2 & ->).
  assert (Ea : t_accounts (t <| t_accounts := om_set (t_accounts t) a (b + n) |> <| t_supply := t_supply t + n |>) = om_set (t_accounts t) a (b + n)) by reflexivity.
  split.
  - split; [rewrite Ea; apply om_set_NoDup; exact Hnd|]. rewrite Ea. fold tsum in *. cbn [t_supply set].
    pose proof (tsum_set_old _ _ _ (b + n) Hb). split; [lia|exact H2].
  - split; [reflexivity|]. split; [|repeat split; try reflexivity].
    + intros a'. rewrite (bal_set _ _ _ _ Ea). unfold ft_balance_of. case_decide as E; [subst a'; rewrite Hb; reflexivity|lia].
    + intros a'. unfold t_registered. rewrite Ea. destruct (decide (a = a')) as [<-|E]; [rewrite om_get_set_eq, Hb; reflexivity|].
      rewrite om_get_set_ne by exact E. reflexivity.
Qed.
Lemma t_withdraw_spec t a n t' : TI t -> t_withdraw t a n = Ok t' ->
  TI t' /\ t_supply t' + n = t_supply t /\ (forall a', ft_balance_of t' a' + (if decide (a = a') then n else 0) = ft_balance_of t a') /\
  t_owner t' = t_owner t /\ t_minters t' = t_minters t /\ t_self t' = t_self t /\ t_min_storage t' = t_min_storage t /\
  (forall a', t_registered t' a' = t_registered t a').
Proof.
  intros (Hnd & Hs & Hl) H. apply t_withdraw_inv in H as (b & Hb & H1 & H2 & ->).
  assert (Ea : t_accounts (t <| t_accounts := om_set (t_accounts t) a (b - n) |> <| t_supply := t_supply t - n |>) = om_set (t_accounts t) a (b - n)) by reflexivity.
  split.
  - split; [rewrite Ea; apply om_set_NoDup; exact Hnd|]. rewrite Ea. fold tsum in *. cbn [t_supply set].
    pose proof (tsum_set_old _ _ _ (b - n) Hb). split; lia.
  - split; [cbn [t_supply set]; lia|]. split; [|repeat split; try reflexivity].
    + intros a'. rewrite (bal_set _ _ _ _ Ea). unfold ft_balance_of. case_decide as E; [subst a'; rewrite Hb; cbn; unfold Datatypes.id; lia|lia].
    + intros a'. unfold t_registered. rewrite Ea. destruct (decide (a = a')) as [<-|E]; [rewrite om_get_set_eq, Hb; reflexivity|].
      rewrite om_get_set_ne by exact E. reflexivity.
Qed.
Lemma t_transfer_spec t x r n t' : TI t -> t_transfer t x r n = Ok t' ->
  TI t' /\ t_supply t' = t_supply t /\ x <> r /\ 0 < n /\
  (forall a, ft_balance_of t' a + (if decide (x = a) then n else 0) = ft_balance_of t a + if decide (r = a) then n else 0) /\
  t_owner t' = t_owner t /\ t_minters t' = t_minters t /\ t_self t' = t_self t /\ t_min_storage t' = t_min_storage t /\
  (forall a', t_registered t' a' = t_registered t a') /\ n <= ft_balance_of t x.
Proof.
  intros HI H. unfold t_transfer in H. apply bind_Ok in H as (? & H1 & H). apply bind_Ok in H as (? & H2 & H).
  apply require_Ok in H1, H2. apply negb_true_iff, bool_decide_eq_false in H1. apply N.ltb_lt in H2.
  apply bind_Ok in H as (t1 & Hw & Hd). destruct (t_withdraw_spec _ _ _ _ HI Hw) as (HI1 & E1 & B1 & O1 & M1 & S1 & G1 & R1).
  destruct (t_deposit_spec _ _ _ _ HI1 Hd) as (HI2 & E2 & B2 & O2 & M2 & S2 & G2 & R2).
  split; [exact HI2|]. split; [lia|]. split; [exact H1|]. split; [exact H2|]. split.
  { intros a. rewrite B2. specialize (B1 a). lia. }
  split; [congruence|]. split; [congruence|]. split; [congruence|]. split; [congruence|]. split.
  { intros a. rewrite R2, R1. reflexivity. }
  specialize (B1 x). rewrite decide_True in B1 by reflexivity. lia.
Qed.
Lemma t_register_spec t a t' : TI t -> t_register t a = Ok t' ->
  TI t' /\ t_supply t' = t_supply t /\ (forall a', ft_balance_of t' a' = ft_balance_of t a') /\
  t_owner t' = t_owner t /\ t_minters t' = t_minters t /\ t_self t' = t_self t /\ t_min_storage t' = t_min_storage t /\
  (forall a', t_registered t' a' = bool_decide (a = a') || t_registered t a').
Proof.
  intros (Hnd & Hs & Hl) H. unfold t_register in H. apply bind_Ok in H as (? & H1 & H). apply require_Ok in H1.
  destruct (om_get (t_accounts t) a) eqn:Hb; [discriminate|]. injection H as <-.
  assert (Ea : t_accounts (t <| t_accounts := om_set (t_accounts t) a 0 |>) = om_set (t_accounts t) a 0) by reflexivity.
  split.
  - split; [rewrite Ea; apply om_set_NoDup; exact Hnd|]. rewrite Ea. fold tsum in *. cbn [t_supply set].
    rewrite (tsum_set_new _ _ 0 Hb). split; [lia|exact Hl].
  - split; [reflexivity|]. split; [|repeat split; try reflexivity].
    + intros a'. rewrite (bal_set _ _ _ _ Ea). unfold ft_balance_of. case_decide as E; [subst a'; rewrite Hb; reflexivity|reflexivity].
    + intros a'. unfold t_registered. rewrite Ea. case_bool_decide as E; [subst; rewrite om_get_set_eq; reflexivity|].
      rewrite om_get_set_ne by exact E. reflexivity.
Qed.
Lemma t_resolve_spec t s r n u t' k : TI t -> t_resolve t s r n u = Ok (t', k) ->
  TI t' /\ t_supply t' + (if t_registered t s then 0 else refunded t r n u) = t_supply t /\
  (forall a, ft_balance_of t' a + (if decide (r = a) then refunded t r n u else 0) =
             ft_balance_of t a + (if t_registered t s then if decide (s = a) then refunded t r n u else 0 else 0)) /\
  t_owner t' = t_owner t /\ t_minters t' = t_minters t /\ t_self t' = t_self t /\ t_min_storage t' = t_min_storage t /\
  (forall a', t_registered t' a' = t_registered t a').
Proof.
  intros HI H. unfold t_resolve in H. unfold refunded. set (unused := match u with Some u0 => N.min n u0 | None => n end) in *.
  assert (Hbr : default 0 (om_get (t_accounts t) r) = ft_balance_of t r) by reflexivity. rewrite Hbr in H.
  assert (Triv : N.min (ft_balance_of t r) unused = 0 -> t' = t -> TI t' /\ t_supply t' + (if t_registered t s then 0 else N.min (ft_balance_of t r) unused) = t_supply t /\
    (forall a, ft_balance_of t' a + (if decide (r = a) then N.min (ft_balance_of t r) unused else 0) =
             ft_balance_of t a + (if t_registered t s then if decide (s = a) then N.min (ft_balance_of t r) unused else 0 else 0)) /\
    t_owner t' = t_owner t /\ t_minters t' = t_minters t /\ t_self t' = t_self t /\ t_min_storage t' = t_min_storage t /\ (forall a', t_registered t' a' = t_registered t a')).
  { intros E ->. rewrite E. split; [exact HI|]. split; [destruct (t_registered t s); lia|]. split; [|auto].
    intros a. destruct (t_registered t s); repeat case_decide; lia. }
  destruct (N.ltb_spec 0 unused) as [Hu|Hu]; [|injection H as <- _; apply Triv; [lia|reflexivity]].
  destruct (N.ltb_spec 0 (ft_balance_of t r)) as [Hr|Hr]; [|injection H as <- _; apply Triv; [lia|reflexivity]].
  clear Triv. set (f := N.min (ft_balance_of t r) unused) in *. assert (Hf : 0 < f <= ft_balance_of t r) by lia.
  destruct HI as (Hnd & Hs & Hl). fold tsum in Hs.
  destruct (om_get (t_accounts t) r) as [rb|] eqn:Er; [|unfold ft_balance_of in Hr; rewrite Er in Hr; cbn in Hr; lia].
  assert (Erb : ft_balance_of t r = rb) by (unfold ft_balance_of; rewrite Er; reflexivity). rewrite Erb in *.
  cbn [t_accounts set] in H.
  pose proof (tsum_set_old _ _ _ (rb - f) Er) as T1. set (m1 := om_set (t_accounts t) r (rb - f)) in *.
  assert (Hnd1 : NoDup m1.*1) by (apply om_set_NoDup; exact Hnd).
  assert (Hg : forall a, om_get m1 a = if decide (r = a) then Some (rb - f) else om_get (t_accounts t) a).
  { intros a. unfold m1. case_decide as E; [subst; apply om_get_set_eq|apply om_get_set_ne; exact E]. }
  assert (Hreg : t_registered t s = match om_get m1 s with Some _ => true | None => false end).
  { unfold t_registered. rewrite Hg. case_decide as E; [subst; rewrite Er; reflexivity|reflexivity]. }
  rewrite Hreg. assert (Hm1 : tsum m1 + f = t_supply t) by lia.
  destruct (om_get m1 s) as [sb|] eqn:Es; cbn [t_supply set] in H; apply bind_Ok in H as (? & H1 & H); apply require_Ok in H1; injection H as <- _.
  - apply N.ltb_lt in H1. pose proof (tsum_set_old _ _ _ (sb + f) Es) as T2.
    split; [split; [cbn; apply om_set_NoDup; exact Hnd1|]; fold tsum; cbn [t_accounts t_supply set]; lia|].
    split; [cbn [t_supply set]; lia|]. split; [|repeat split].
    + intros a. unfold ft_balance_of. cbn [t_accounts set]. destruct (decide (s = a)) as [<-|Ha].
      * rewrite om_get_set_eq. rewrite Hg in Es. cbn. unfold Datatypes.id. destruct (decide (r = s)) as [<-|]; [injection Es as <-; rewrite Er; cbn; unfold Datatypes.id; lia|].
        rewrite Es. cbn. unfold Datatypes.id. lia.
      * rewrite om_get_set_ne by exact Ha. rewrite Hg. destruct (decide (r = a)) as [<-|]; [rewrite Er; cbn; unfold Datatypes.id; lia|lia].
    + intros a. unfold t_registered. cbn [t_accounts set]. destruct (decide (s = a)) as [<-|Ha].
      * rewrite om_get_set_eq. rewrite Hg in Es. destruct (decide (r = s)) as [<-|]; [rewrite Er; reflexivity|rewrite Es; reflexivity].
      * rewrite om_get_set_ne by exact Ha. rewrite Hg. destruct (decide (r = a)) as [<-|]; [rewrite Er; reflexivity|reflexivity].
  - apply N.leb_le in H1.
    split; [split; [cbn; exact Hnd1|]; fold tsum; cbn [t_accounts t_supply set]; lia|].
    split; [cbn [t_supply set]; lia|]. split; [|repeat split].
    + intros a. unfold ft_balance_of. cbn [t_accounts set]. fold m1. rewrite Hg. destruct (decide (r = a)) as [<-|]; [rewrite Er; cbn; unfold Datatypes.id; lia|lia].
    + intros a. unfold t_registered. cbn [t_accounts set]. fold m1. rewrite Hg. destruct (decide (r = a)) as [<-|]; [rewrite Er; reflexivity|reflexivity].
Qed.
Lemma t_unregister_spec c t f t' : TI t -> t_unregister c t f = Ok t' ->
  TI t' /\ t_supply t' + ft_balance_of t (c_pred c) = t_supply t /\
  (forall a, ft_balance_of t' a + (if decide (c_pred c = a) then ft_balance_of t a else 0) = ft_balance_of t a) /\
  t_owner t' = t_owner t /\ t_minters t' = t_minters t /\ t_self t' = t_self t /\ t_min_storage t' = t_min_storage t /\
  c_deposit c = 1 /\ (f = true \/ ft_balance_of t (c_pred c) = 0) /\
  (forall a, c_pred c <> a -> t_registered t' a = t_registered t a).
Proof.
  intros (Hnd & Hs & Hl) H. fold tsum in Hs. unfold t_unregister in H. apply bind_Ok in H as (? & H0 & H). apply require_Ok in H0. apply N.eqb_eq in H0.
  destruct (om_get (t_accounts t) (c_pred c)) as [b|] eqn:Eb.
  - apply bind_Ok in H as (? & H1 & H). apply bind_Ok in H as (? & H2 & H). apply require_Ok in H1, H2. apply N.leb_le in H2. injection H as <-.
    assert (Ebal : ft_balance_of t (c_pred c) = b) by (unfold ft_balance_of; rewrite Eb; reflexivity).
    pose proof (om_sum_remove (fun (_ : string) (b : N) => b) _ _ _ Eb) as Hr. cbn beta in Hr. fold tsum in Hr.
    split; [split; [cbn; apply om_remove_NoDup; exact Hnd|]; fold tsum; cbn [t_accounts t_supply set]; lia|].
    split; [cbn [t_supply set]; lia|]. split; [|repeat split; auto].
    + intros a. unfold ft_balance_of at 1. cbn [t_accounts set]. case_decide as E; [subst a; rewrite om_get_remove_eq by exact Hnd; reflexivity|].
      rewrite om_get_remove_ne by assumption. unfold ft_balance_of. lia.
    + apply orb_true_iff in H1 as [H1|H1]; [right; apply N.eqb_eq in H1; lia|left; exact H1].
    + intros a E. unfold t_registered. cbn [t_accounts set]. rewrite om_get_remove_ne by assumption. reflexivity.
  - injection H as <-. assert (Ebal : ft_balance_of t (c_pred c) = 0) by (unfold ft_balance_of; rewrite Eb; reflexivity).
    split; [split; auto|]. rewrite Ebal. split; [lia|]. split; [|repeat split; auto].
    intros a. case_decide as E; [subst a; lia|lia].
Qed.

Definition t_same_roles (t t' : tstate) : Prop := t_owner t' = t_owner t /\ t_minters t' = t_minters t /\ t_self t' = t_self t.
Lemma t_exec_spec x t t' e : TI t -> t_exec x.1 t x.2 = Ok (t', e) ->
  TI t' /\ t_permitted t x /\ t_supply t' + burned t x = t_supply t + minted x /\
  (forall a, ft_balance_of t' a + debit t x a = ft_balance_of t a + credit t x a) /\ t_self t' = t_self t /\
  (match x.2 with TSetOwner _ => True | _ => t_owner t' = t_owner t end) /\
  (match x.2 with TAddMinter _ | TRemoveMinter _ => True | _ => t_minters t' = t_minters t end).
Proof.
  destruct x as [c o]. intros HI H. unfold burned, minted, credit, debit, t_permitted, t_get_owner_id, get_minters. cbn [fst snd] in *.
  destruct o as [a|a|a|n|n|r n|r n m|sn r n u|a|n|f]; cbn [t_exec] in H;
    try (apply bind_Ok in H as (t1 & H & E); injection E as <- <-).
  - unfold t_set_owner, t_assert_owner in H. apply bind_Ok in H as (? & H1 & H). apply require_Ok, bool_decide_eq_true in H1. injection H as <-.
    split; [exact HI|]. split; [exact H1|]. split; [reflexivity|]. split; [intros; unfold ft_balance_of; cbn; lia|]. auto.
  - unfold t_add_minter, t_assert_owner, assert_one_yocto in H. apply bind_Ok in H as (? & H0 & H). apply bind_Ok in H as (? & H1 & H).
    apply bind_Ok in H as (? & _ & H). apply require_Ok, N.eqb_eq in H0. apply require_Ok, bool_decide_eq_true in H1. injection H as <-.
    split; [exact HI|]. split; [auto|]. split; [reflexivity|]. split; [intros; unfold ft_balance_of; cbn; lia|]. auto.
  - unfold t_remove_minter, t_assert_owner, assert_one_yocto in H. apply bind_Ok in H as (? & H0 & H). apply bind_Ok in H as (? & H1 & H).
    apply require_Ok, N.eqb_eq in H0. apply require_Ok, bool_decide_eq_true in H1. destruct (list_find (eq a) (t_minters t)) as [[i y]|]; [|discriminate]. injection H as <-.
    split; [exact HI|]. split; [auto|]. split; [reflexivity|]. split; [intros; unfold ft_balance_of; cbn; lia|]. auto.
  - unfold t_mint, assert_one_yocto in H. apply bind_Ok in H as (? & H0 & H). apply bind_Ok in H as (? & H1 & H).
    apply require_Ok, N.eqb_eq in H0. apply require_Ok, bool_decide_eq_true in H1. apply elem_of_list_In in H1.
    destruct (t_deposit_spec _ _ _ _ HI H) as (HI' & E & B & O & M & S & _). split; [exact HI'|]. split; [auto|]. split; [lia|].
    split; [intros a; rewrite B; lia|]. auto.
  - unfold t_burn, assert_one_yocto in H. apply bind_Ok in H as (? & H0 & H). apply require_Ok, N.eqb_eq in H0.
    destruct (t_withdraw_spec _ _ _ _ HI H) as (HI' & E & B & O & M & S & _). split; [exact HI'|]. split; [auto|]. split; [lia|].
    split; [intros a; rewrite B; lia|]. auto.
  - unfold t_ft_transfer, assert_one_yocto in H. apply bind_Ok in H as (? & H0 & H). apply require_Ok, N.eqb_eq in H0.
    destruct (t_transfer_spec _ _ _ _ _ HI H) as (HI' & E & _ & _ & B & O & M & S & _). split; [exact HI'|]. split; [auto|]. split; [lia|].
    split; [intros a; apply B|]. auto.
  - unfold t_ft_transfer, assert_one_yocto in H. apply bind_Ok in H as (? & H0 & H). apply require_Ok, N.eqb_eq in H0.
    destruct (t_transfer_spec _ _ _ _ _ HI H) as (HI' & E & _ & _ & B & O & M & S & _). split; [exact HI'|]. split; [auto|]. split; [lia|].
    split; [intros a; apply B|]. auto.
  - unfold non_payable, assert_private in H. apply bind_Ok in H as (? & H0 & H). apply bind_Ok in H as (? & H1 & H).
    apply require_Ok, N.eqb_eq in H0. apply require_Ok, bool_decide_eq_true in H1. apply bind_Ok in H as ([t2 k] & H & E). injection E as <-.
    destruct (t_resolve_spec _ _ _ _ _ _ _ HI H) as (HI' & E & B & O & M & S & _). split; [exact HI'|]. split; [auto|]. split; [lia|].
    split; [intros a; apply B|]. auto.
  - unfold t_storage_deposit in H. destruct (om_get (t_accounts t) (default (c_pred c) a)).
    + injection H as <-. split; [exact HI|]. split; [exact I|]. split; [reflexivity|]. split; [intros; lia|]. auto.
    + apply bind_Ok in H as (? & _ & H). destruct (t_register_spec _ _ _ HI H) as (HI' & E & B & O & M & S & _).
      split; [exact HI'|]. split; [exact I|]. split; [lia|]. split; [intros b; rewrite B; lia|]. auto.
  - unfold t_storage_withdraw, assert_one_yocto in H. apply bind_Ok in H as (? & H0 & H). apply require_Ok, N.eqb_eq in H0.
    apply bind_Ok in H as (? & _ & H). apply bind_Ok in H as (? & _ & H). injection H as <-.
    split; [exact HI|]. split; [exact H0|]. split; [reflexivity|]. split; [intros; lia|]. auto.
  - destruct (t_unregister_spec _ _ _ _ HI H) as (HI' & E & B & O & M & S & _ & D & _). split; [exact HI'|]. split; [exact D|]. split; [lia|].
    split; [intros a; specialize (B a); lia|]. auto.
Qed.
Lemma TI_step t x : TI t -> TI (t_step t x).
Proof.
  intros HI. unfold t_step. destruct (t_exec x.1 t x.2) as [[t' e]|] eqn:E; [|exact HI]. apply (t_exec_spec _ _ _ _ HI E).
Qed.
Lemma TI_run tr : forall t, TI t -> TI (t_run t tr).
Proof. induction tr as [|x tr IH]; intros t HI; [exact HI|]. apply (IH (t_step t x)), TI_step, HI. Qed.
Lemma TI_empty self owner ms : TI (mkTok self [] 0 owner [] ms).
Proof. split; [constructor|]. split; reflexivity. Qed.
Lemma t_new_spec self owner n ms t : t_new self owner n ms = Ok t ->
  TI t /\ ft_total_supply t = n /\ (forall a, ft_balance_of t a = if decide (owner = a) then n else 0) /\
  t_get_owner_id t = owner /\ get_minters t = [] /\ t_self t = self.
Proof.
  intros H. unfold t_new in H. apply bind_Ok in H as (t1 & H1 & H). destruct (t_register_spec _ _ _ (TI_empty self owner ms) H1) as (HI & E & B & O & M & S & _).
  destruct (t_deposit_spec _ _ _ _ HI H) as (HI2 & E2 & B2 & O2 & M2 & S2 & _). cbn in *. split; [exact HI2|]. unfold ft_total_supply, t_get_owner_id, get_minters.
  split; [lia|]. split; [intros a; rewrite B2, B; reflexivity|]. split; [congruence|]. split; congruence.
Qed.

Lemma TI_spec t : TI t ->
  exists accs, NoDup accs /\ (forall a, ft_balance_of t a <> 0 -> In a accs) /\
    ft_total_supply t = sum_by (ft_balance_of t) accs /\ ft_total_supply t < 2 ^ 128.
Proof.
  intros (Hnd & Hs & Hl). exists (t_accounts t).*1. split; [exact Hnd|]. split.
  - intros a Ha. unfold ft_balance_of in Ha. destruct (om_get (t_accounts t) a) eqn:E; [|contradiction Ha; reflexivity].
    apply elem_of_list_In. eapply om_get_Some_key. exact E.
  - split; [|exact Hl]. unfold ft_total_supply. rewrite Hs. unfold om_sum.
    transitivity (sum_by (fun p : string * N => ft_balance_of t p.1) (t_accounts t)).
    + apply sum_by_ext. intros [k v] Hin. cbn. unfold ft_balance_of. rewrite (om_In_get _ _ _ Hnd Hin). reflexivity.
    + clear. generalize (ft_balance_of t). intros f. induction (t_accounts t) as [|p m IH]; [reflexivity|]. csimpl. rewrite !sum_by_cons, IH. reflexivity.
Qed.
Lemma c54_sum self owner n ms t0 tr : t_new self owner n ms = Ok t0 ->
  let t := t_run t0 tr in
  exists accs, NoDup accs /\ (forall a, ft_balance_of t a <> 0 -> In a accs) /\
    ft_total_supply t = sum_by (ft_balance_of t) accs /\ ft_total_supply t < 2 ^ 128.
Proof. intros H. apply TI_spec, TI_run. apply t_new_spec in H. apply H. Qed.
Lemma c54_step self owner n ms t0 tr x t' e : t_new self owner n ms = Ok t0 ->
  let t := t_run t0 tr in t_exec x.1 t x.2 = Ok (t', e) ->
  t_permitted t x /\ ft_total_supply t' + burned t x = ft_total_supply t + minted x /\
  (forall a, ft_balance_of t' a + debit t x a = ft_balance_of t a + credit t x a).
Proof.
  intros H0 t H. assert (HI : TI t) by (apply TI_run; apply t_new_spec in H0; apply H0).
  destruct (t_exec_spec _ _ _ _ HI H) as (_ & H1 & H2 & H3 & _). auto.
Qed.
Lemma t_sum_history tr : forall t, TI t -> t_supply (t_run t tr) + t_sum burned t tr = t_supply t + t_sum (fun _ => minted) t tr.
Proof.
  induction tr as [|x tr IH]; intros t HI; [cbn; lia|]. cbn [t_sum]. change (t_run t (x :: tr)) with (t_run (t_step t x) tr).
  unfold t_step. destruct (t_exec x.1 t x.2) as [[t' e]|] eqn:E; [|apply IH; exact HI].
  destruct (t_exec_spec _ _ _ _ HI E) as (HI' & _ & H & _). specialize (IH t' HI'). lia.
Qed.
Lemma c54_history self owner n ms t0 tr : t_new self owner n ms = Ok t0 ->
  ft_total_supply (t_run t0 tr) + t_sum burned t0 tr = n + t_sum (fun _ => minted) t0 tr.
Proof.
  intros H. apply t_new_spec in H as (HI & E & _). rewrite <- E. apply (t_sum_history tr _ HI).
Qed.
