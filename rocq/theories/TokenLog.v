(** TokenLog.v -- the events and log lines of the token contract (test-meta-token/src/lib.rs), and C81.

    Events of the three kinds of NEP-141 are emitted by the contract for mint and burn (lib.rs:91-96, 156-161, 170-175)
    and by FungibleToken of near-contract-standards 5.0.0 (not in /repo) for transfers and refunds; memos and the JSON
    text are not modelled.  Closing an account by storage_unregister is only reported by the log line of lib.rs:245. *)

From Verif Require Export TokenProofs.

Inductive tline :=
| EMint (w : string) (n : N)              (* lib.rs:91-96, 156-161 *)
| EBurn (w : string) (n : N)              (* lib.rs:170-175; core_impl.rs internal_ft_resolve_transfer, sender closed *)
| EMove (x y : string) (n : N)            (* core_impl.rs internal_transfer *)
| ERefund (x y : string) (n : N)          (* core_impl.rs internal_ft_resolve_transfer: the same event, with memo "refund" *)
| EBurned (w : string) (n : N)            (* lib.rs:219 "Account @{} burned {}" *)
| EClosed (w : string) (n : N)            (* lib.rs:245 "Closed @{} with {}" *)
| EUnknown (w : string)                   (* storage_impl.rs "The account {} is not registered" *)
| EPaid                                   (* storage_impl.rs "The account is already registered, refunding the deposit" *)
| EDeleted.                               (* core_impl.rs "The account of the sender was deleted" *)

(** lib.rs:208-222 with core_impl.rs internal_ft_resolve_transfer *)
Definition resolve_log (t : tstate) (sender receiver : string) (amount : N) (result : option N) : list tline :=
  let unused := match result with Some u => N.min amount u | None => amount end in
  if 0 <? unused then
    let rb := default 0 (om_get (t_accounts t) receiver) in
    if 0 <? rb then
      let refund := N.min rb unused in
      match om_get (t_accounts t) sender with
      | Some _ => [ERefund receiver sender refund]
      | None => [EDeleted; EBurn receiver refund; EBurned sender refund]
      end
    else []
  else [].
(** the lines of a call that is accepted, from the state before it *)
Definition tlogs (c : ctx) (t : tstate) (o : top) : list tline :=
  match o with
  | TMint n => [EMint (c_pred c) n]
  | TBurn n => [EBurn (c_pred c) n]
  | TTransfer r n | TTransferCall r n _ => [EMove (c_pred c) r n]
  | TResolve s r n u => resolve_log t s r n u
  | TStorageDeposit a => match om_get (t_accounts t) (default (c_pred c) a) with Some _ => [EPaid] | None => [] end
  | TUnregister _ =>
      match om_get (t_accounts t) (c_pred c) with Some b => [EClosed (c_pred c) b] | None => [EUnknown (c_pred c)] end
  | _ => []
  end.
Definition tlogs_of (t : tstate) (x : tcall) : list tline :=
  match t_exec x.1 t x.2 with Ok _ => tlogs x.1 t x.2 | Panic _ => [] end.
Fixpoint tlog_of (t : tstate) (tr : list tcall) : list tline :=
  match tr with [] => [] | x :: r => tlogs_of t x ++ tlog_of (t_step t x) r end.
(** lib.rs:80-98 *)
Definition tlog_new (owner : string) (n : N) : list tline := [EMint owner n].

(** *** Specification: a reader keeps one signed number per account, and the supply *)
Definition add_to (w : string) (n : Z) (f : string -> Z) : string -> Z := fun a => if decide (a = w) then (f a + n)%Z else f a.
Definition heard_bal (f : string -> Z) (l : tline) : string -> Z :=
  match l with
  | EMint w n => add_to w (Z.of_N n) f
  | EBurn w n | EClosed w n => add_to w (- Z.of_N n) f
  | EMove x y n | ERefund x y n => add_to y (Z.of_N n) (add_to x (- Z.of_N n) f)
  | _ => f
  end.
Definition heard_sup (s : Z) (l : tline) : Z :=
  match l with EMint _ n => (s + Z.of_N n)%Z | EBurn _ n | EClosed _ n => (s - Z.of_N n)%Z | _ => s end.
Definition balances_heard (ls : list tline) : string -> Z := fold_left heard_bal ls (fun _ => 0%Z).
Definition supply_heard (ls : list tline) : Z := fold_left heard_sup ls 0%Z.
(** what remains for one who only collects the standard's events *)
Definition is_event (l : tline) : bool := match l with EMint _ _ | EBurn _ _ | EMove _ _ _ | ERefund _ _ _ => true | _ => false end.
(** nobody gives up an account that still holds tokens *)
Definition no_forced (tr : list tcall) : Prop := Forall (fun x => x.2 <> TUnregister true) tr.

(** *** Proofs *)
Lemma hb_ext ls : forall f g, (forall a, f a = g a) -> forall a, fold_left heard_bal ls f a = fold_left heard_bal ls g a.
Proof.
  induction ls as [|l ls IH]; intros f g H a; [apply H|]. apply IH. intros b. destruct l; cbn [heard_bal]; unfold add_to;
    repeat case_decide; rewrite ?H; reflexivity.
Qed.
Lemma hb_app ls1 ls2 : balances_heard (ls1 ++ ls2) = fold_left heard_bal ls2 (balances_heard ls1).
Proof. apply fold_left_app. Qed.
Lemma tlog_snoc t tr x : tlog_of t (tr ++ [x]) = tlog_of t tr ++ tlogs_of (t_run t tr) x.
Proof.
  revert t. induction tr as [|y tr IH]; intros t; cbn [tlog_of app]; [rewrite app_nil_r; reflexivity|].
  rewrite IH, app_assoc. reflexivity.
Qed.
Lemma t_run_snoc t tr x : t_run t (tr ++ [x]) = t_step (t_run t tr) x.
Proof. unfold t_run. rewrite fold_left_app. reflexivity. Qed.

Lemma ft_get t a b : om_get (t_accounts t) a = Some b -> ft_balance_of t a = b.
Proof. intros H. unfold ft_balance_of. rewrite H. reflexivity. Qed.
Lemma ft_none t a : om_get (t_accounts t) a = None -> ft_balance_of t a = 0.
Proof. intros H. unfold ft_balance_of. rewrite H. reflexivity. Qed.

Lemma resolve_lines t s r n u f k :
  (forall a, fold_left heard_bal (resolve_log t s r n u) f a =
     (f a - (if decide (r = a) then Z.of_N (refunded t r n u) else 0)
      + (if t_registered t s then if decide (s = a) then Z.of_N (refunded t r n u) else 0 else 0))%Z) /\
  fold_left heard_sup (resolve_log t s r n u) k = (k - if t_registered t s then 0 else Z.of_N (refunded t r n u))%Z.
Proof.
  unfold resolve_log, refunded. set (un := match u with Some u0 => N.min n u0 | None => n end).
  change (default 0 (om_get (t_accounts t) r)) with (ft_balance_of t r). unfold t_registered.
  destruct (0 <? un) eqn:E1; [apply N.ltb_lt in E1|apply N.ltb_ge in E1].
  2:{ replace (N.min (ft_balance_of t r) un) with 0 by lia. cbn [fold_left]. split; [intros a|]; destruct (om_get (t_accounts t) s); repeat case_decide; lia. }
  destruct (0 <? ft_balance_of t r) eqn:E2; [apply N.ltb_lt in E2|apply N.ltb_ge in E2].
  2:{ replace (N.min (ft_balance_of t r) un) with 0 by lia. cbn [fold_left]. split; [intros a|]; destruct (om_get (t_accounts t) s); repeat case_decide; lia. }
  destruct (om_get (t_accounts t) s); cbn [fold_left heard_bal heard_sup]; (split; [intros a; unfold add_to; repeat case_decide; subst; try congruence; lia|lia]).
Qed.

Lemma tlogs_told x t t' e f k : TI t -> t_exec x.1 t x.2 = Ok (t', e) ->
  (forall a, f a = Z.of_N (ft_balance_of t a)) -> k = Z.of_N (ft_total_supply t) ->
  (forall a, fold_left heard_bal (tlogs x.1 t x.2) f a = Z.of_N (ft_balance_of t' a)) /\
  fold_left heard_sup (tlogs x.1 t x.2) k = Z.of_N (ft_total_supply t').
Proof.
  intros HI H Hf Hk. destruct (t_exec_spec _ _ _ _ HI H) as (_ & _ & Hs & Hb & _). unfold ft_total_supply in *. subst k.
  destruct x as [c o]. unfold burned, minted, credit, debit in *. cbn [fst snd] in *.
  assert (Q : (forall a, ft_balance_of t' a = ft_balance_of t a) -> t_supply t' = t_supply t ->
    (forall a, f a = Z.of_N (ft_balance_of t' a)) /\ Z.of_N (t_supply t) = Z.of_N (t_supply t')).
  { intros Q1 Q2. split; [intros a; rewrite Q1; apply Hf|rewrite Q2; reflexivity]. }
  destruct o as [a|a|a|n|n|r n|r n m|sn r n u|a|n|b]; cbn [tlogs fold_left heard_bal heard_sup];
    try (apply Q; [intros a'; specialize (Hb a'); lia|lia]).
  - split; [|lia]. intros a. specialize (Hb a). unfold add_to. rewrite Hf. repeat case_decide; subst; try congruence; lia.
  - split; [|lia]. intros a. specialize (Hb a). unfold add_to. rewrite Hf. repeat case_decide; subst; try congruence; lia.
  - split; [|lia]. intros a. specialize (Hb a). unfold add_to. rewrite Hf. repeat case_decide; subst; try congruence; lia.
  - split; [|lia]. intros a. specialize (Hb a). unfold add_to. rewrite Hf. repeat case_decide; subst; try congruence; lia.
  - destruct (resolve_lines t sn r n u f (Z.of_N (t_supply t))) as [R1 R2]. rewrite R2. split.
    + intros a. rewrite R1, Hf. specialize (Hb a). destruct (t_registered t sn); repeat case_decide; lia.
    + destruct (t_registered t sn); lia.
  - destruct (om_get (t_accounts t) (default (c_pred c) a)); cbn [fold_left heard_bal heard_sup]; (apply Q; [intros a'; specialize (Hb a'); lia|lia]).
  - destruct (om_get (t_accounts t) (c_pred c)) as [z|] eqn:Ez; cbn [fold_left heard_bal heard_sup].
    + rewrite (ft_get _ _ _ Ez) in Hs. split; [|lia]. intros a. specialize (Hb a). unfold add_to. rewrite Hf.
      repeat case_decide; subst; try congruence; try (rewrite (ft_get _ _ _ Ez) in * ); lia.
    + rewrite (ft_none _ _ Ez) in Hs. apply Q; [|lia]. intros a. specialize (Hb a). case_decide; subst; [rewrite (ft_none _ _ Ez) in Hb; rewrite (ft_none _ _ Ez)|]; lia.
Qed.

Lemma c81_replay self owner n ms t0 tr : t_new self owner n ms = Ok t0 ->
  let ls := tlog_new owner n ++ tlog_of t0 tr in let t := t_run t0 tr in
  (forall a, balances_heard ls a = Z.of_N (ft_balance_of t a)) /\ supply_heard ls = Z.of_N (ft_total_supply t).
Proof.
  intros H0. cbv zeta. destruct (t_new_spec _ _ _ _ _ H0) as (HI & Hs & Hb & _).
  induction tr as [|x tr IH] using rev_ind.
  - cbn [tlog_of]. rewrite app_nil_r. unfold tlog_new, balances_heard, supply_heard. cbn [fold_left heard_bal heard_sup t_run].
    split; [|rewrite Hs; lia]. intros a. rewrite Hb. unfold add_to. repeat case_decide; subst; try congruence; lia.
  - rewrite tlog_snoc, app_assoc, t_run_snoc. unfold balances_heard, supply_heard. rewrite !fold_left_app. rewrite <- !fold_left_app with (l := tlog_new owner n).
    destruct IH as [IH1 IH2]. unfold t_step, tlogs_of. destruct (t_exec x.1 (t_run t0 tr) x.2) as [[t' e]|] eqn:E.
    + apply (tlogs_told x _ _ _ _ _ (TI_run _ _ HI) E IH1 IH2).
    + split; assumption.
Qed.

(** events alone *)
Lemma filter_bal ls : forall f, (forall l w n, l ∈ ls -> l = EClosed w n -> n = 0) -> forall a,
  fold_left heard_bal (filter (fun l => is_event l = true) ls) f a = fold_left heard_bal ls f a.
Proof.
  induction ls as [|l ls IH]; intros f H a; [reflexivity|].
  assert (H' : forall l w n, l ∈ ls -> l = EClosed w n -> n = 0) by (intros l' w n Hl; apply H; right; exact Hl).
  destruct (is_event l) eqn:E.
  - rewrite filter_cons_True by exact E. cbn [fold_left]. apply IH, H'.
  - rewrite filter_cons_False by congruence. cbn [fold_left]. rewrite IH by exact H'. apply hb_ext. intros b.
    destruct l; try discriminate E; cbn [heard_bal]; try reflexivity. unfold add_to.
    rewrite (H _ w n (elem_of_list_here _ _) eq_refl). case_decide; lia.
Qed.
Lemma filter_sup ls : forall k, (forall l w n, l ∈ ls -> l = EClosed w n -> n = 0) ->
  fold_left heard_sup (filter (fun l => is_event l = true) ls) k = fold_left heard_sup ls k.
Proof.
  induction ls as [|l ls IH]; intros k H; [reflexivity|].
  assert (H' : forall l w n, l ∈ ls -> l = EClosed w n -> n = 0) by (intros l' w n Hl; apply H; right; exact Hl).
  destruct (is_event l) eqn:E.
  - rewrite filter_cons_True by exact E. cbn [fold_left]. apply IH, H'.
  - rewrite filter_cons_False by congruence. cbn [fold_left]. rewrite IH by exact H'. f_equal.
    destruct l; try discriminate E; cbn [heard_sup]; try reflexivity. rewrite (H _ w n (elem_of_list_here _ _) eq_refl). lia.
Qed.
Lemma closed_zero t x w n : TI t -> x.2 <> TUnregister true -> EClosed w n ∈ tlogs_of t x -> n = 0.
Proof.
  intros HI Hx Hin. unfold tlogs_of in Hin. destruct (t_exec x.1 t x.2) as [[t' e]|] eqn:E; [|apply elem_of_nil in Hin; contradiction].
  destruct x as [c o]. cbn [fst snd] in *. destruct o as [a|a|a|m|m|r m|r m g|sn r m u|a|m|b]; cbn [tlogs] in Hin;
    try (apply elem_of_nil in Hin; contradiction); try (apply elem_of_list_singleton in Hin; discriminate Hin).
  - unfold resolve_log in Hin. destruct (0 <? _); [|apply elem_of_nil in Hin; contradiction]. destruct (0 <? _); [|apply elem_of_nil in Hin; contradiction].
    destruct (om_get _ _); repeat (apply elem_of_cons in Hin as [Hin|Hin]; [discriminate Hin|]); apply elem_of_nil in Hin; contradiction.
  - destruct (om_get _ _); [apply elem_of_list_singleton in Hin; discriminate Hin|apply elem_of_nil in Hin; contradiction].
  - destruct b; [contradiction Hx; reflexivity|]. cbn [t_exec] in E. apply bind_Ok in E as (t1 & E & _).
    destruct (t_unregister_spec _ _ _ _ HI E) as (_ & _ & _ & _ & _ & _ & _ & _ & Hz & _).
    destruct (om_get (t_accounts t) (c_pred c)) as [z|] eqn:Ez; apply elem_of_list_singleton in Hin; [|discriminate Hin].
    injection Hin as -> ->. destruct Hz as [Hz|Hz]; [discriminate|]. rewrite (ft_get _ _ _ Ez) in Hz. exact Hz.
Qed.
Lemma closed_zero_all tr : forall t, TI t -> no_forced tr -> forall w n, EClosed w n ∈ tlog_of t tr -> n = 0.
Proof.
  induction tr as [|x tr IH]; intros t HI Hn w n Hin; cbn [tlog_of] in Hin; [apply elem_of_nil in Hin; contradiction|].
  inversion Hn as [|? ? Hx Hr]; subst. apply elem_of_app in Hin as [Hin|Hin].
  - eapply closed_zero; eassumption.
  - eapply (IH (t_step t x)); [apply TI_step; exact HI|exact Hr|exact Hin].
Qed.
Lemma c81_events self owner n ms t0 tr : t_new self owner n ms = Ok t0 -> no_forced tr ->
  let ls := filter (fun l => is_event l = true) (tlog_new owner n ++ tlog_of t0 tr) in let t := t_run t0 tr in
  (forall a, balances_heard ls a = Z.of_N (ft_balance_of t a)) /\ supply_heard ls = Z.of_N (ft_total_supply t).
Proof.
  intros H0 Hn. cbv zeta. destruct (c81_replay _ _ _ _ _ tr H0) as [R1 R2]. destruct (t_new_spec _ _ _ _ _ H0) as (HI & _).
  assert (K : forall l w m, l ∈ tlog_new owner n ++ tlog_of t0 tr -> l = EClosed w m -> m = 0).
  { intros l w m Hl ->. apply elem_of_app in Hl as [Hl|Hl].
    - apply elem_of_list_singleton in Hl. discriminate Hl.
    - eapply closed_zero_all; eassumption. }
  split; [intros a; rewrite <- R1; apply filter_bal, K|rewrite <- R2; apply filter_sup, K].
Qed.
