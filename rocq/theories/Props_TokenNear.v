(** Props_TokenNear.v -- C86: the storage fees of the token contract. *)

From Verif Require Import TokenNear Props_Token.

(** Whatever happens, what was attached to accepted calls has been sent back, is kept as attached to calls that keep it, or
    is the fee of an account registered now; the fee of one account, registered at the start, was never paid. *)
Theorem C86_held :
  forall self owner n ms t0 tr, t_new self owner n ms = Ok t0 ->
  let t := t_run t0 tr in
  exists accs, NoDup accs /\ (forall a, t_registered t a = true <-> In a accs) /\
    t_sum (fun _ x => c_deposit x.1) t0 tr + ms
    = t_sum (fun t x => near_out x.1 t x.2) t0 tr + ms * N.of_nat (length accs) + t_sum near_kept t0 tr.
Proof. exact c86_held. Qed.
Print Assumptions C86_held.

(** So it never sends back more than was attached and the fee of that one account. *)
Theorem C86_bound :
  forall self owner n ms t0 tr, t_new self owner n ms = Ok t0 ->
  t_sum (fun t x => near_out x.1 t x.2) t0 tr <= t_sum (fun _ x => c_deposit x.1) t0 tr + ms.
Proof. intros self owner n ms t0 tr H. destruct (c86_held self owner n ms t0 tr H) as (accs & _ & _ & E). lia. Qed.
Print Assumptions C86_bound.

(** Without that fee the bound is false: the owner closes the account registered at the start. *)
Theorem C86_received_refuted :
  ~ (forall self owner n ms t0 tr, t_new self owner n ms = Ok t0 ->
     t_sum (fun t x => near_out x.1 t x.2) t0 tr <= t_sum (fun _ x => c_deposit x.1) t0 tr).
Proof.
  intros H. destruct (t_new "tok" "own" 100 5) as [t0|] eqn:E; [|discriminate E].
  specialize (H "tok" "own" 100 5 t0 [txc "own" 1 (TUnregister true)] E). vm_compute in E. injection E as <-. revert H. vm_compute. congruence.
Qed.
Print Assumptions C86_received_refuted.

(** Registering: all but the fee goes back to the caller, and everything if the account was registered already; balances and
    other accounts are as before. *)
Theorem C86_deposit :
  forall c t a t' e, t_exec c t (TStorageDeposit a) = Ok (t', e) ->
  let acc := default (c_pred c) a in
  t_storage_balance_of t' acc = Some (t_min_storage t, 0) /\ (forall b, ft_balance_of t' b = ft_balance_of t b) /\
  (forall b, b <> acc -> t_storage_balance_of t' b = t_storage_balance_of t b) /\
  (forall b n, In (b, n) (t_near_out c t (TStorageDeposit a)) -> b = c_pred c /\ 0 < n) /\
  near_out c t (TStorageDeposit a) + (if t_registered t acc then 0 else t_min_storage t) = c_deposit c.
Proof. exact c86_deposit. Qed.
Print Assumptions C86_deposit.

(** Closing: the caller gets the fee and the attached yoctoNEAR, once; unless forced, only with an empty balance. *)
Theorem C86_unregister :
  forall self owner n ms t0 tr c f t' e, t_new self owner n ms = Ok t0 ->
  let t := t_run t0 tr in t_exec c t (TUnregister f) = Ok (t', e) ->
  t_storage_balance_of t' (c_pred c) = None /\
  (forall b, b <> c_pred c -> t_storage_balance_of t' b = t_storage_balance_of t b) /\
  t_near_out c t (TUnregister f) = (if t_unregister_result c t then [(c_pred c, t_min_storage t + 1)] else []) /\
  (t_unregister_result c t = true <-> t_registered t (c_pred c) = true) /\ (f = false -> ft_balance_of t (c_pred c) = 0).
Proof.
  intros self owner n ms t0 tr c f t' e H. cbv zeta. apply c86_unregister. apply TI_run. exact (proj1 (t_new_spec _ _ _ _ _ H)).
Qed.
Print Assumptions C86_unregister.

(** ** Examples *)
Definition tr_fees : list tcall :=
  [ txc "bob" 8 (TStorageDeposit (Some "eve")); txc "eve" 7 (TStorageDeposit None); txc "bob" 4 (TStorageDeposit None);
    txc "bob" 5 (TStorageDeposit None); txc "own" 3 (TSetOwner "own"); txc "eve" 1 (TUnregister false); txc "eve" 1 (TUnregister false) ].
Example C86_example :
  (t ← t_new "tok" "own" 100 5;
   Ok (t_sum (fun _ x => c_deposit x.1) t tr_fees, t_sum (fun t x => near_out x.1 t x.2) t tr_fees, t_sum near_kept t tr_fees,
       map (t_registered (t_run t tr_fees)) ["own"; "bob"; "eve"]))
  = Ok (25, 16, 4, [true; true; false]) /\
  (t ← t_new "tok" "own" 100 5; Ok (map (fun k => let x := nth k tr_fees (txc "" 0 (TMint 0)) in t_near_out x.1 (t_run t (firstn k tr_fees)) x.2) [0; 1; 3; 5; 6]%nat))
  = Ok [[("bob", 3)]; [("eve", 7)]; []; [("eve", 6)]; []].
Proof. split; vm_compute; reflexivity. Qed.
