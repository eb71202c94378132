(** Props_TokenRoles.v -- C70: the token's calls succeed exactly when they should; its roles. *)

From Verif Require Import TokenRoles Props_Token.

(** a call succeeds exactly when its conditions hold *)
Theorem C70_accepted_exactly :
  forall self owner n ms t0 tr x, t_new self owner n ms = Ok t0 ->
  let t := t_run t0 tr in (exists t' e, t_exec x.1 t x.2 = Ok (t', e)) <-> t_allowed t x.
Proof. exact c70_iff. Qed.
Print Assumptions C70_accepted_exactly.

(** owner, minters and registered accounts after a successful call *)
Theorem C70_roles :
  forall self owner n ms t0 tr x t' e, t_new self owner n ms = Ok t0 ->
  let t := t_run t0 tr in t_exec x.1 t x.2 = Ok (t', e) ->
  t_get_owner_id t' = owner_after t x /\ NoDup (get_minters t') /\ (forall m, In m (get_minters t') <-> minter_after t x m) /\
  (forall a, t_registered t' a = true <-> registered_after t x a).
Proof. exact c70_roles. Qed.
Print Assumptions C70_roles.

(** the minters are exactly the accounts added by an owner and not removed since *)
Theorem C70_minters :
  forall self owner n ms t0 tr m, t_new self owner n ms = Ok t0 ->
  In m (get_minters (t_run t0 tr)) <->
  exists tr1 x tr2, tr = tr1 ++ x :: tr2 /\ x.2 = TAddMinter m /\ t_accepted (t_run t0 tr1) x /\
    (forall tr3 y tr4, tr2 = tr3 ++ y :: tr4 -> y.2 = TRemoveMinter m -> ~ t_accepted (t_run t0 (tr1 ++ x :: tr3)) y).
Proof. exact c70_minter. Qed.
Print Assumptions C70_minters.

(** the resolution of a transfer-call never panics and answers the amount used *)
Theorem C70_resolve :
  forall self owner n ms t0 tr s r k u, t_new self owner n ms = Ok t0 ->
  let t := t_run t0 tr in exists t', t_resolve t s r k u = Ok (t', used_amount t s r k u).
Proof. exact c70_resolve. Qed.
Print Assumptions C70_resolve.

(** the receiver of a transfer is called back only for a transfer-call, with the caller named as sender *)
Theorem C70_notified :
  forall t x t' e s r k m, t_exec x.1 t x.2 = Ok (t', e) ->
  In (OnTransfer s r k m) e <-> s = c_pred x.1 /\ x.2 = TTransferCall r k m.
Proof. exact c70_notified. Qed.
Print Assumptions C70_notified.

Definition tok_panics {A} (r : res A) : bool := match r with Ok _ => false | Panic _ => true end.
Example C70_example :
  (t0 ← t_new "tok" "own" 100 5;
   let t := t_run t0 (tr_tok ++ [txc "own" 1 (TAddMinter "m2"); txc "own" 1 (TRemoveMinter "min"); txc "own" 0 (TSetOwner "own2")]) in
   let bad x := tok_panics (t_exec (fst x) t (snd x)) in
   Ok (get_minters t, t_get_owner_id t,
     map bad [txc "own" 1 (TAddMinter "m3"); txc "own2" 1 (TAddMinter "m2"); txc "min" 1 (TMint 1); txc "m2" 1 (TMint 1);
              txc "m2" 4 (TStorageDeposit None); txc "min" 1 (TTransfer "min" 1); txc "min" 1 (TTransfer "eve" 1);
              txc "min" 1 (TTransfer "app" 43); txc "min" 1 (TUnregister false); txc "min" 1 (TStorageWithdraw (Some 1))],
     map bad [txc "own2" 1 (TAddMinter "m3"); txc "own2" 1 (TRemoveMinter "m2"); txc "min" 1 (TTransfer "app" 42);
              txc "m2" 5 (TStorageDeposit None); txc "min" 1 (TUnregister true); txc "min" 1 (TStorageWithdraw (Some 0))]))
  = Ok (["m2"], "own2", [true; true; true; true; true; true; true; true; true; true],
        [false; false; false; false; false; false]).
Proof. vm_compute. reflexivity. Qed.

(** somebody else signed the transaction in which "min" calls *)
Example C70_example_notified :
  (t0 ← t_new "tok" "own" 100 5;
   let t := t_run t0 tr_tok in
   let c := mkCtx "min" "eve" 1 0 (fun _ => None) (fun _ => None) in
   r ← t_exec c t (TTransferCall "app" 7 "hi"); Ok (snd r)) = Ok [OnTransfer "min" "app" 7 "hi"].
Proof. vm_compute. reflexivity. Qed.
