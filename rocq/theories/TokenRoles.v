(** TokenRoles.v -- C70: when the calls of the token contract succeed, and who holds which role. *)

From Verif Require Export TokenProofs.

(** *** Specification *)

(** Exactly when a call succeeds. *)
Definition t_allowed (t : tstate) (x : tcall) : Prop :=
  let me := c_pred x.1 in
  let d := c_deposit x.1 in
  match x.2 with
  | TSetOwner _ => me = t_get_owner_id t
  | TAddMinter a => d = 1 /\ me = t_get_owner_id t /\ ~ In a (get_minters t)
  | TRemoveMinter a => d = 1 /\ me = t_get_owner_id t /\ In a (get_minters t)
  | TMint n => d = 1 /\ In me (get_minters t) /\ t_registered t me = true /\ ft_total_supply t + n < 2 ^ 128
  | TBurn n => d = 1 /\ t_registered t me = true /\ n <= ft_balance_of t me
  | TTransfer r n | TTransferCall r n _ =>
      d = 1 /\ me <> r /\ 0 < n /\ t_registered t me = true /\ t_registered t r = true /\ n <= ft_balance_of t me
  | TResolve _ _ _ _ => d = 0 /\ me = t_self t
  | TStorageDeposit a => t_registered t (default me a) = true \/ t_min_storage t <= d
  | TStorageWithdraw n => d = 1 /\ t_registered t me = true /\ (n = None \/ n = Some 0)
  | TUnregister f => d = 1 /\ (t_registered t me = false \/ ft_balance_of t me = 0 \/ f = true)
  end.

(** Owner, minters and registered accounts after a successful call. *)
Definition owner_after (t : tstate) (x : tcall) : string :=
  match x.2 with TSetOwner a => a | _ => t_get_owner_id t end.
Definition minter_after (t : tstate) (x : tcall) (m : string) : Prop :=
  match x.2 with
  | TAddMinter a => m = a \/ In m (get_minters t)
  | TRemoveMinter a => m <> a /\ In m (get_minters t)
  | _ => In m (get_minters t)
  end.
Definition registered_after (t : tstate) (x : tcall) (a : string) : Prop :=
  match x.2 with
  | TStorageDeposit b => a = default (c_pred x.1) b \/ t_registered t a = true
  | TUnregister _ => a <> c_pred x.1 /\ t_registered t a = true
  | _ => t_registered t a = true
  end.
(** What ft_resolve_transfer answers: the part of the amount that was used. *)
Definition used_amount (t : tstate) (s r : string) (n : N) (u : option N) : N :=
  if t_registered t s then n - refunded t r n u else n.

(** ** Proofs *)
Definition RI (t : tstate) : Prop := TI t /\ NoDup (t_minters t).

Lemma reg_Some t a : t_registered t a = true <-> exists b, om_get (t_accounts t) a = Some b /\ ft_balance_of t a = b.
Proof.
  unfold t_registered, ft_balance_of. destruct (om_get (t_accounts t) a) as [b|].
  - split; [intros _; exists b; split; reflexivity|reflexivity].
  - split; [discriminate|intros (b & H & _); discriminate H].
Qed.
Lemma bal_le_supply t a : TI t -> ft_balance_of t a <= t_supply t.
Proof. intros (_ & E & _). rewrite E. apply tsum_ge. Qed.

Lemma yocto_true {A} c (k : res A) : c_deposit c = 1 -> (_ ← assert_one_yocto c; k) = k.
Proof. intros E. unfold assert_one_yocto. rewrite E. reflexivity. Qed.
Lemma require_true {A} b m (k : res A) : b = true -> (_ ← require b m; k) = k.
Proof. intros ->. reflexivity. Qed.

Lemma deposit_ok t a n : TI t -> t_registered t a = true -> t_supply t + n < U128_SIZE -> exists t', t_deposit t a n = Ok t'.
Proof.
  intros HI Hr Hs. apply reg_Some in Hr as (b & Hb & Eb). pose proof (bal_le_supply t a HI). unfold t_deposit, t_unwrap_balance.
  rewrite Hb. cbn [expect mbind res_bind].
  rewrite require_true by (apply N.ltb_lt; lia). cbn.
  rewrite require_true by (apply N.ltb_lt; lia). eexists. reflexivity.
Qed.
Lemma withdraw_ok t a n : TI t -> t_registered t a = true -> n <= ft_balance_of t a -> exists t', t_withdraw t a n = Ok t'.
Proof.
  intros HI Hr Hs. apply reg_Some in Hr as (b & Hb & Eb). pose proof (bal_le_supply t a HI). unfold t_withdraw, t_unwrap_balance.
  rewrite Hb. cbn [expect mbind res_bind].
  rewrite require_true by (apply N.leb_le; lia). cbn.
  rewrite require_true by (apply N.leb_le; lia). eexists. reflexivity.
Qed.
Lemma transfer_ok t a r n : TI t -> a <> r -> 0 < n -> t_registered t a = true -> t_registered t r = true -> n <= ft_balance_of t a ->
  exists t', t_transfer t a r n = Ok t'.
Proof.
  intros HI Hne Hn Ha Hr Hb. unfold t_transfer. rewrite require_true by (apply negb_true_iff, bool_decide_eq_false; exact Hne). cbn.
  rewrite require_true by (apply N.ltb_lt; exact Hn). cbn.
  destruct (withdraw_ok t a n HI Ha Hb) as (t1 & E). rewrite E. cbn.
  destruct (t_withdraw_spec _ _ _ _ HI E) as (HI1 & E1 & _ & _ & _ & _ & _ & R1). apply deposit_ok; [exact HI1|rewrite R1; exact Hr|].
  destruct HI as (_ & _ & HI). lia.
Qed.
Lemma resolve_ok t s r n u : TI t -> exists t', t_resolve t s r n u = Ok (t', used_amount t s r n u).
Proof.
  intros HI. unfold t_resolve, used_amount, refunded. set (unused := match u with Some u0 => N.min n u0 | None => n end).
  assert (Hun : unused <= n) by (unfold unused; destruct u; lia).
  change (default 0 (om_get (t_accounts t) r)) with (ft_balance_of t r).
  destruct (N.ltb_spec 0 unused) as [Hu|Hu].
  2: { exists t. assert (E : N.min (ft_balance_of t r) unused = 0) by lia. rewrite E, N.sub_0_r. destruct (t_registered t s); reflexivity. }
  destruct (N.ltb_spec 0 (ft_balance_of t r)) as [Hr|Hr].
  2: { exists t. assert (E : N.min (ft_balance_of t r) unused = 0) by lia. rewrite E, N.sub_0_r. destruct (t_registered t s); reflexivity. }
  set (f := N.min (ft_balance_of t r) unused). cbn [t_accounts set t_supply].
  destruct (om_get (t_accounts t) r) as [rb|] eqn:Er; [|unfold ft_balance_of in Hr; rewrite Er in Hr; cbn in Hr; lia].
  assert (Erb : ft_balance_of t r = rb) by (unfold ft_balance_of; rewrite Er; reflexivity).
  pose proof (tsum_set_old _ _ _ (ft_balance_of t r - f) Er) as T1.
  set (m1 := om_set (t_accounts t) r (ft_balance_of t r - f)) in *.
  pose proof (bal_le_supply t r HI) as Hle. destruct HI as (Hnd & Hs & Hl). fold tsum in Hs.
  assert (Hg : om_get m1 s = if decide (r = s) then Some (ft_balance_of t r - f) else om_get (t_accounts t) s).
  { unfold m1. case_decide as E; [subst; apply om_get_set_eq|apply om_get_set_ne; exact E]. }
  assert (Hreg : t_registered t s = match om_get m1 s with Some _ => true | None => false end).
  { unfold t_registered. rewrite Hg. case_decide as E; [subst; rewrite Er; reflexivity|reflexivity]. }
  rewrite Hreg. destruct (om_get m1 s) as [sb|] eqn:Es.
  - pose proof (tsum_ge m1 s) as G. rewrite Es in G. cbn [default from_option] in G. unfold Datatypes.id in G.
    rewrite require_true by (apply N.ltb_lt; lia). eexists. reflexivity.
  - rewrite require_true by (apply N.leb_le; lia). eexists. reflexivity.
Qed.

Lemma list_find_minter (a : string) l : In a l -> exists i, list_find (eq a) l = Some (i, a) /\ l !! i = Some a.
Proof.
  intros H. apply elem_of_list_In in H. destruct (list_find (eq a) l) as [[i y]|] eqn:E.
  - apply list_find_Some in E as (E & -> & _). exists i. split; [reflexivity|exact E].
  - exfalso. apply list_find_None in E. rewrite List.Forall_forall in E. apply elem_of_list_In in H. exact (E _ H eq_refl).
Qed.

Lemma allowed_ok t x : TI t -> t_allowed t x -> exists t' e, t_exec x.1 t x.2 = Ok (t', e).
Proof.
  destruct x as [c o]. intros HI H. unfold t_allowed, t_get_owner_id, get_minters, ft_total_supply in H. cbn [fst snd] in *. cbv zeta in H.
  assert (NE : forall r, (exists t', r = Ok t') -> exists t' e, noteff r = Ok (t', e)).
  { intros r (t' & ->). exists t', []. reflexivity. }
  destruct o as [a|a|a|n|n|r n|r n m|sn r n u|a|n|f]; cbn [t_exec]; try apply NE.
  - unfold t_set_owner, t_assert_owner. rewrite require_true by (apply bool_decide_eq_true; exact H). eexists. reflexivity.
  - destruct H as (H1 & H2 & H3). unfold t_add_minter, t_assert_owner. rewrite yocto_true by exact H1. cbn.
    rewrite require_true by (apply bool_decide_eq_true; exact H2). cbn.
    rewrite require_true by (apply negb_true_iff, bool_decide_eq_false; rewrite elem_of_list_In; exact H3). eexists. reflexivity.
  - destruct H as (H1 & H2 & H3). unfold t_remove_minter, t_assert_owner. rewrite yocto_true by exact H1. cbn.
    rewrite require_true by (apply bool_decide_eq_true; exact H2). cbn. apply list_find_minter in H3 as (i & -> & _). eexists. reflexivity.
  - destruct H as (H1 & H2 & H3 & H4). unfold t_mint. rewrite yocto_true by exact H1. cbn.
    rewrite require_true by (apply bool_decide_eq_true, elem_of_list_In; exact H2). cbn. apply deposit_ok; assumption.
  - destruct H as (H1 & H2 & H3). unfold t_burn. rewrite yocto_true by exact H1. cbn. apply withdraw_ok; assumption.
  - destruct H as (H1 & H2 & H3 & H4 & H5 & H6). unfold t_ft_transfer. rewrite yocto_true by exact H1. cbn. apply transfer_ok; assumption.
  - destruct H as (H1 & H2 & H3 & H4 & H5 & H6). unfold t_ft_transfer. rewrite yocto_true by exact H1. cbn.
    destruct (transfer_ok t (c_pred c) r n HI H2 H3 H4 H5 H6) as (t' & ->). eexists _, _. reflexivity.
  - destruct H as (H1 & H2). unfold non_payable, assert_private. rewrite require_true by (apply N.eqb_eq; exact H1). cbn.
    rewrite require_true by (apply bool_decide_eq_true; exact H2). cbn. destruct (resolve_ok t sn r n u HI) as (t' & ->). eexists. reflexivity.
  - unfold t_storage_deposit. unfold t_registered in H. destruct (om_get (t_accounts t) (default (c_pred c) a)) eqn:E; [eexists; reflexivity|].
    destruct H as [H|H]; [discriminate H|]. rewrite require_true by (apply N.leb_le; exact H). cbn. unfold t_register. rewrite E. eexists. reflexivity.
  - destruct H as (H1 & H2 & H3). unfold t_storage_withdraw, t_unwrap_balance. rewrite yocto_true by exact H1. cbn.
    apply reg_Some in H2 as (b & -> & _). cbn. rewrite require_true by (destruct H3 as [->| ->]; reflexivity). eexists. reflexivity.
  - destruct H as (H1 & H2). unfold t_unregister. rewrite yocto_true by exact H1. cbn.
    pose proof (bal_le_supply t (c_pred c) HI) as HL. unfold t_registered, ft_balance_of in *.
    destruct (om_get (t_accounts t) (c_pred c)) as [b|]; [|eexists; reflexivity]. cbn [default from_option] in *. unfold Datatypes.id in *.
    rewrite require_true. 2: { apply orb_true_iff. destruct H2 as [H2|[H2|H2]]; [discriminate H2|left; apply N.eqb_eq; exact H2|right; exact H2]. }
    cbn. rewrite require_true by (apply N.leb_le; exact HL). eexists. reflexivity.
Qed.

Lemma ok_allowed t x t' e : TI t -> t_exec x.1 t x.2 = Ok (t', e) -> t_allowed t x.
Proof.
  destruct x as [c o]. intros HI H. pose proof (t_exec_spec _ _ _ _ HI H) as (_ & HP & _).
  unfold t_permitted, t_allowed, t_get_owner_id, get_minters, ft_total_supply in *. cbn [fst snd] in *. cbv zeta.
  assert (NE : forall r x, noteff r = Ok x -> exists t', r = Ok t').
  { intros r y E. apply bind_Ok in E as (t1 & E & _). exists t1. exact E. }
  assert (TR : forall r n y, t_ft_transfer c t r n = Ok y -> c_pred c <> r /\ 0 < n /\ t_registered t (c_pred c) = true /\ t_registered t r = true /\ n <= ft_balance_of t (c_pred c)).
  { intros r n y E. unfold t_ft_transfer in E. apply bind_Ok in E as (? & _ & E). pose proof E as E0.
    destruct (t_transfer_spec _ _ _ _ _ HI E) as (_ & _ & H1 & H2 & _ & _ & _ & _ & _ & _ & H3).
    unfold t_transfer in E0. apply bind_Ok in E0 as (? & _ & E0). apply bind_Ok in E0 as (? & _ & E0). apply bind_Ok in E0 as (t1 & Ew & Ed).
    destruct (t_withdraw_spec _ _ _ _ HI Ew) as (_ & _ & _ & _ & _ & _ & _ & R1).
    apply t_withdraw_inv in Ew as (b & Hb & _). apply t_deposit_inv in Ed as (b' & Hb' & _).
    split; [exact H1|]. split; [exact H2|]. split; [unfold t_registered; rewrite Hb; reflexivity|].
    split; [|exact H3]. rewrite <- R1. unfold t_registered. rewrite Hb'. reflexivity. }
  destruct o as [a|a|a|n|n|r n|r n m|sn r n u|a|n|f]; cbn [t_exec] in H.
  - exact HP.
  - apply NE in H as (t1 & H). destruct HP as [H1 H2]. split; [exact H2|]. split; [exact H1|]. unfold t_add_minter in H.
    apply bind_Ok in H as (? & _ & H). apply bind_Ok in H as (? & _ & H). apply bind_Ok in H as (? & H & _).
    apply require_Ok, negb_true_iff, bool_decide_eq_false in H. rewrite <- elem_of_list_In. exact H.
  - apply NE in H as (t1 & H). destruct HP as [H1 H2]. split; [exact H2|]. split; [exact H1|]. unfold t_remove_minter in H.
    apply bind_Ok in H as (? & _ & H). apply bind_Ok in H as (? & _ & H). destruct (list_find (eq a) (t_minters t)) as [[i y]|] eqn:E; [|discriminate H].
    apply list_find_Some in E as (E & <- & _). apply elem_of_list_In. eapply elem_of_list_lookup_2. exact E.
  - apply NE in H as (t1 & H). destruct HP as [H1 H2]. split; [exact H2|]. split; [exact H1|]. unfold t_mint in H.
    apply bind_Ok in H as (? & _ & H). apply bind_Ok in H as (? & _ & H). apply t_deposit_inv in H as (b & Hb & _ & Hs & _).
    split; [unfold t_registered; rewrite Hb; reflexivity|exact Hs].
  - apply NE in H as (t1 & H). split; [exact HP|]. unfold t_burn in H. apply bind_Ok in H as (? & _ & H). apply t_withdraw_inv in H as (b & Hb & Hs & _).
    unfold t_registered, ft_balance_of. rewrite Hb. split; [reflexivity|exact Hs].
  - apply NE in H as (t1 & H). split; [exact HP|]. exact (TR _ _ _ H).
  - apply bind_Ok in H as (t1 & H & _). split; [exact HP|]. exact (TR _ _ _ H).
  - destruct HP as [H1 H2]. split; [exact H2|exact H1].
  - apply NE in H as (t1 & H). unfold t_storage_deposit in H. unfold t_registered. destruct (om_get _ _); [left; reflexivity|].
    apply bind_Ok in H as (? & H & _). apply require_Ok, N.leb_le in H. right. exact H.
  - apply NE in H as (t1 & H). split; [exact HP|]. unfold t_storage_withdraw, t_unwrap_balance in H. apply bind_Ok in H as (? & _ & H).
    apply bind_Ok in H as (b & Hb & H). apply expect_Ok in Hb. apply bind_Ok in H as (? & H & _). apply require_Ok in H.
    unfold t_registered. rewrite Hb. split; [reflexivity|]. destruct n as [n|]; [right; apply N.eqb_eq in H; subst; reflexivity|left; reflexivity].
  - apply NE in H as (t1 & H). split; [exact HP|]. unfold t_unregister in H. apply bind_Ok in H as (? & _ & H). unfold t_registered, ft_balance_of.
    destruct (om_get _ _) as [b|]; [|left; reflexivity]. right. apply bind_Ok in H as (? & H & _). apply require_Ok, orb_true_iff in H as [H|H]; [left|right; exact H].
    apply N.eqb_eq in H. exact H.
Qed.

Lemma swap_remove_split {A} (l : list A) i x : l !! i = Some x -> Permutation l (x :: swap_remove i l).
Proof.
  intros H. rewrite (swap_remove_perm i l (lookup_lt_Some _ _ _ H)). apply delete_Permutation. exact H.
Qed.
Lemma roles_step t x t' e : RI t -> t_exec x.1 t x.2 = Ok (t', e) ->
  RI t' /\ t_get_owner_id t' = owner_after t x /\ (forall m, In m (get_minters t') <-> minter_after t x m) /\
  (forall a, t_registered t' a = true <-> registered_after t x a) /\ t_self t' = t_self t /\ t_min_storage t' = t_min_storage t.
Proof.
  destruct x as [c o]. intros [HI HN] H. pose proof (t_exec_spec _ _ _ _ HI H) as (HI' & _).
  unfold RI, owner_after, minter_after, registered_after, t_get_owner_id, get_minters. cbn [fst snd] in *.
  assert (NE : forall r y, noteff r = Ok y -> r = Ok y.1).
  { intros r y E. apply bind_Ok in E as (t1 & E & F). injection F as <-. exact E. }
  assert (SAME : t_owner t' = t_owner t -> t_minters t' = t_minters t -> t_self t' = t_self t -> t_min_storage t' = t_min_storage t ->
    (forall a, t_registered t' a = t_registered t a) ->
    (TI t' /\ NoDup (t_minters t')) /\ t_owner t' = t_owner t /\ (forall m, In m (t_minters t') <-> In m (t_minters t)) /\
    (forall a, t_registered t' a = true <-> t_registered t a = true) /\ t_self t' = t_self t /\ t_min_storage t' = t_min_storage t).
  { intros E1 E2 E3 E4 E5. split; [split; [exact HI'|rewrite E2; exact HN]|]. split; [exact E1|]. rewrite E2. split; [reflexivity|].
    split; [intros a; rewrite E5; reflexivity|]. split; assumption. }
  destruct o as [a|a|a|n|n|r n|r n m|sn r n u|a|n|f]; cbn [t_exec] in H.
  - apply NE in H. unfold t_set_owner in H. apply bind_Ok in H as (? & _ & H). injection H as <-. cbn [fst].
    split; [split; [exact HI'|exact HN]|]. split; [reflexivity|]. split; [reflexivity|]. split; [reflexivity|]. split; reflexivity.
  - apply NE in H. unfold t_add_minter in H. apply bind_Ok in H as (? & _ & H). apply bind_Ok in H as (? & _ & H). apply bind_Ok in H as (? & Ha & H).
    apply require_Ok, negb_true_iff, bool_decide_eq_false in Ha. cbn [fst] in H. injection H as <-.
    split; [split; [exact HI'|]|].
    + cbn [t_minters set]. apply NoDup_app. split; [exact HN|]. split; [|apply NoDup_singleton].
      intros y Hy Hy'. apply elem_of_list_singleton in Hy'. subst y. contradiction.
    + split; [reflexivity|]. split; [|split; [reflexivity|split; reflexivity]].
      intros m. cbn [t_minters set]. rewrite in_app_iff. cbn [In]. split; [intros [H|[H|[]]]; [right; exact H|left; symmetry; exact H]|intros [->|H]; [right; left; reflexivity|left; exact H]].
  - apply NE in H. unfold t_remove_minter in H. apply bind_Ok in H as (? & _ & H). apply bind_Ok in H as (? & _ & H).
    destruct (list_find (eq a) (t_minters t)) as [[i y]|] eqn:E; [|discriminate H].
    apply list_find_Some in E as (E & <- & _). cbn [fst] in H. injection H as <-. apply swap_remove_split in E.
    pose proof HN as HN'. rewrite E in HN'. apply NoDup_cons in HN' as [Hn1 Hn2].
    split; [split; [exact HI'|exact Hn2]|]. split; [reflexivity|]. split; [|split; [reflexivity|split; reflexivity]].
    intros m. cbn [t_minters set]. split.
    + intros H. split; [intros ->; apply Hn1, elem_of_list_In, H|]. eapply Permutation_in; [symmetry; exact E|]. right. exact H.
    + intros [H1 H2]. eapply Permutation_in in H2; [|exact E]. destruct H2 as [H2|H2]; [congruence|exact H2].
  - apply NE in H. unfold t_mint in H. apply bind_Ok in H as (? & _ & H). apply bind_Ok in H as (? & _ & H).
    destruct (t_deposit_spec _ _ _ _ HI H) as (_ & _ & _ & O & M & S & G & R). apply SAME; assumption.
  - apply NE in H. unfold t_burn in H. apply bind_Ok in H as (? & _ & H).
    destruct (t_withdraw_spec _ _ _ _ HI H) as (_ & _ & _ & O & M & S & G & R). apply SAME; assumption.
  - apply NE in H. unfold t_ft_transfer in H. apply bind_Ok in H as (? & _ & H).
    destruct (t_transfer_spec _ _ _ _ _ HI H) as (_ & _ & _ & _ & _ & O & M & S & G & R & _). apply SAME; assumption.
  - apply bind_Ok in H as (t1 & H & F). injection F as -> _. unfold t_ft_transfer in H. apply bind_Ok in H as (? & _ & H).
    destruct (t_transfer_spec _ _ _ _ _ HI H) as (_ & _ & _ & _ & _ & O & M & S & G & R & _). apply SAME; assumption.
  - apply NE in H. apply bind_Ok in H as (? & _ & H). apply bind_Ok in H as (? & _ & H). apply bind_Ok in H as ([t2 k] & H & F). injection F as ->.
    destruct (t_resolve_spec _ _ _ _ _ _ _ HI H) as (_ & _ & _ & O & M & S & G & R). apply SAME; assumption.
  - apply NE in H. unfold t_storage_deposit in H. cbn [fst] in H. destruct (om_get (t_accounts t) (default (c_pred c) a)) eqn:E.
    + injection H as <-. split; [split; [exact HI|exact HN]|]. split; [reflexivity|]. split; [reflexivity|]. split; [|split; reflexivity].
      intros b. split; [right; assumption|]. intros [->|H]; [|exact H]. unfold t_registered. rewrite E. reflexivity.
    + apply bind_Ok in H as (? & _ & H). destruct (t_register_spec _ _ _ HI H) as (_ & _ & _ & O & M & S & G & R).
      split; [split; [exact HI'|rewrite M; exact HN]|]. split; [exact O|]. rewrite M. split; [reflexivity|]. split; [|split; assumption].
      intros b. rewrite R, orb_true_iff, bool_decide_eq_true. split; (intros [Hb|Hb]; [left; symmetry; exact Hb|right; exact Hb]).
  - apply NE in H. unfold t_storage_withdraw in H. apply bind_Ok in H as (? & _ & H). apply bind_Ok in H as (? & _ & H). apply bind_Ok in H as (? & _ & H).
    cbn [fst] in H. injection H as <-. apply SAME; reflexivity.
  - apply NE in H. cbn [fst] in H. pose proof H as H0. destruct (t_unregister_spec _ _ _ _ HI H) as (_ & _ & _ & O & M & S & G & _ & _ & R).
    split; [split; [exact HI'|rewrite M; exact HN]|]. split; [exact O|]. rewrite M. split; [reflexivity|]. split; [|split; assumption].
    intros b. destruct (decide (c_pred c = b)) as [<-|Hb].
    + split; [|intros [[] _]; reflexivity]. unfold t_unregister in H0. apply bind_Ok in H0 as (? & _ & H0). unfold t_registered at 1.
      destruct (om_get (t_accounts t) (c_pred c)) eqn:E.
      * apply bind_Ok in H0 as (? & _ & H0). apply bind_Ok in H0 as (? & _ & H0). injection H0 as <-. cbn [t_accounts set].
        rewrite om_get_remove_eq by apply HI. discriminate.
      * injection H0 as <-. rewrite E. discriminate.
    + rewrite R by exact Hb. split; [intros Hr; split; [congruence|exact Hr]|intros [_ Hr]; exact Hr].
Qed.
Lemma RI_run tr : forall t, RI t -> RI (t_run t tr).
Proof.
  induction tr as [|x tr IH]; intros t H; [exact H|]. apply (IH (t_step t x)). unfold t_step.
  destruct (t_exec x.1 t x.2) as [[t' e]|] eqn:E; [|exact H]. eapply roles_step; eassumption.
Qed.
Lemma RI_new self owner n ms t : t_new self owner n ms = Ok t -> RI t.
Proof. intros H. apply t_new_spec in H as (HI & _ & _ & _ & E & _). split; [exact HI|]. unfold get_minters in E. rewrite E. constructor. Qed.

Lemma c70_iff self owner n ms t0 tr x : t_new self owner n ms = Ok t0 ->
  let t := t_run t0 tr in (exists t' e, t_exec x.1 t x.2 = Ok (t', e)) <-> t_allowed t x.
Proof.
  intros H t. assert (HI : TI t) by (apply TI_run; apply t_new_spec in H; apply H).
  split; [intros (t' & e & E); eapply ok_allowed; eassumption|apply allowed_ok; exact HI].
Qed.
Lemma c70_roles self owner n ms t0 tr x t' e : t_new self owner n ms = Ok t0 ->
  let t := t_run t0 tr in t_exec x.1 t x.2 = Ok (t', e) ->
  t_get_owner_id t' = owner_after t x /\ NoDup (get_minters t') /\ (forall m, In m (get_minters t') <-> minter_after t x m) /\
  (forall a, t_registered t' a = true <-> registered_after t x a).
Proof.
  intros H t E. destruct (roles_step t x t' e) as ([_ H0] & H1 & H2 & H3 & _); [apply RI_run; eapply RI_new; exact H|exact E|].
  split; [exact H1|]. split; [exact H0|]. split; assumption.
Qed.
Lemma c70_resolve self owner n ms t0 tr s r k u : t_new self owner n ms = Ok t0 ->
  let t := t_run t0 tr in exists t', t_resolve t s r k u = Ok (t', used_amount t s r k u).
Proof. intros H t. apply resolve_ok, TI_run. apply t_new_spec in H. apply H. Qed.

(** only registered accounts hold tokens *)
Lemma c70_registered t a : ft_balance_of t a <> 0 -> t_registered t a = true.
Proof. unfold ft_balance_of, t_registered. destruct (om_get _ _); [reflexivity|contradiction]. Qed.

(** every minter was added by the owner of that time and has not been removed since *)
Definition t_accepted (t : tstate) (x : tcall) : Prop := exists t' e, t_exec x.1 t x.2 = Ok (t', e).
Lemma t_run_snoc t tr x : t_run t (tr ++ [x]) = t_step (t_run t tr) x.
Proof. unfold t_run. rewrite fold_left_app. reflexivity. Qed.
Lemma c70_minter self owner n ms t0 tr m : t_new self owner n ms = Ok t0 ->
  In m (get_minters (t_run t0 tr)) <->
  exists tr1 x tr2, tr = tr1 ++ x :: tr2 /\ x.2 = TAddMinter m /\ t_accepted (t_run t0 tr1) x /\
    (forall tr3 y tr4, tr2 = tr3 ++ y :: tr4 -> y.2 = TRemoveMinter m -> ~ t_accepted (t_run t0 (tr1 ++ x :: tr3)) y).
Proof.
  intros H0. induction tr as [|y tr IH] using rev_ind.
  - split.
    + intros H. apply t_new_spec in H0 as (_ & _ & _ & _ & E & _). cbn in H. rewrite E in H. destruct H.
    + intros (tr1 & x & tr2 & E & _). destruct tr1; discriminate E.
  - rewrite t_run_snoc. unfold t_step. destruct (t_exec y.1 (t_run t0 tr) y.2) as [[t' e]|] eqn:E.
    + destruct (c70_roles _ _ _ _ _ _ _ _ _ H0 E) as (_ & _ & HM & _). rewrite HM. unfold minter_after. split.
      * intros H.
        assert (C : (y.2 = TAddMinter m) \/ (y.2 <> TRemoveMinter m /\ In m (get_minters (t_run t0 tr)))).
        { destruct y as [c o]; cbn [snd] in *. destruct o; try (right; split; [discriminate|exact H]).
          - destruct H as [->|H]; [left; reflexivity|right; split; [discriminate|exact H]].
          - destruct H as [H1 H2]. right. split; [congruence|exact H2]. }
        destruct C as [C|[C1 C2]].
        -- exists tr, y, []. split; [reflexivity|]. split; [exact C|]. split; [exists t', e; exact E|].
           intros tr3 z tr4 D. destruct tr3; discriminate D.
        -- apply IH in C2 as (tr1 & x & tr2 & -> & Hx & Ha & Hr). exists tr1, x, (tr2 ++ [y]). rewrite <- app_assoc. split; [reflexivity|].
           split; [exact Hx|]. split; [exact Ha|]. intros tr3 z tr4 D Hz.
           destruct tr4 as [|w tr4] using rev_ind.
           ++ apply app_inj_tail in D as [_ <-]. contradiction.
           ++ rewrite app_comm_cons, app_assoc in D. apply app_inj_tail in D as [D _]. exact (Hr _ _ _ D Hz).
      * intros (tr1 & x & tr2 & D & Hx & Ha & Hr). destruct tr2 as [|z tr2 _] using rev_ind.
        -- apply app_inj_tail in D as [-> ->]. rewrite Hx. left. reflexivity.
        -- rewrite app_comm_cons, app_assoc in D. apply app_inj_tail in D as [-> ->].
           assert (Hin : In m (get_minters (t_run t0 (tr1 ++ x :: tr2)))).
           { apply IH. exists tr1, x, tr2. split; [reflexivity|]. split; [exact Hx|]. split; [exact Ha|].
             intros tr3 w tr4 -> Hw. apply (Hr tr3 w (tr4 ++ [z])); [rewrite <- app_assoc; reflexivity|exact Hw]. }
           assert (Hz : z.2 <> TRemoveMinter m).
           { intros Hz. apply (Hr tr2 z [] eq_refl Hz). exists t', e. exact E. }
           destruct (z.2) as [a|a|a| | | | | | | | ] eqn:Ez; try exact Hin; [right; exact Hin|]. split; [congruence|exact Hin].
    + rewrite IH. split.
      * intros (tr1 & x & tr2 & -> & Hx & Ha & Hr). exists tr1, x, (tr2 ++ [y]). rewrite <- app_assoc. split; [reflexivity|].
        split; [exact Hx|]. split; [exact Ha|]. intros tr3 z tr4 D Hz.
        destruct tr4 as [|w tr4] using rev_ind.
        -- apply app_inj_tail in D as [<- <-]. intros (t' & e & F). rewrite E in F. discriminate F.
        -- rewrite app_comm_cons, app_assoc in D. apply app_inj_tail in D as [D _]. exact (Hr _ _ _ D Hz).
      * intros (tr1 & x & tr2 & D & Hx & Ha & Hr). destruct tr2 as [|z tr2 _] using rev_ind.
        -- apply app_inj_tail in D as [-> ->]. destruct Ha as (t' & e & F). rewrite E in F. discriminate F.
        -- rewrite app_comm_cons, app_assoc in D. apply app_inj_tail in D as [-> ->]. exists tr1, x, tr2. split; [reflexivity|]. split; [exact Hx|]. split; [exact Ha|].
           intros tr3 w tr4 -> Hw. apply (Hr tr3 w (tr4 ++ [z])); [rewrite <- app_assoc; reflexivity|exact Hw].
Qed.

(** ** Notifications *)
Lemma c70_notified t x t' e s r k m :
  t_exec x.1 t x.2 = Ok (t', e) ->
  In (OnTransfer s r k m) e <-> s = c_pred x.1 /\ x.2 = TTransferCall r k m.
Proof.
  destruct x as [c o]. cbn [fst snd]. intros H.
  assert (Hn : forall q, noteff q = Ok (t', e) -> e = []).
  { intros q Hq. unfold noteff in Hq. apply bind_Ok in Hq as (? & _ & [= _ <-]). reflexivity. }
  destruct o; cbn [t_exec] in H; try (apply Hn in H as ->; split; [intros []|intros [_ [=]]]).
  apply bind_Ok in H as (t1 & _ & [= _ <-]). cbn. split.
  - intros [[= -> -> -> ->]|[]]. auto.
  - intros [-> [= -> -> ->]]. auto.
Qed.
