(** Props_Token.v -- C54: the token contract. *)

From Verif Require Import TokenProofs.

(** the supply is the sum of all balances, and fits *)
Theorem C54_supply_is_sum :
  forall self owner n ms t0 tr, t_new self owner n ms = Ok t0 ->
    let t := t_run t0 tr in
    exists accs, NoDup accs /\ (forall a, ft_balance_of t a <> 0 -> In a accs) /\
      ft_total_supply t = sum_by (ft_balance_of t) accs /\ ft_total_supply t < 2 ^ 128.
Proof. exact c54_sum. Qed.
Print Assumptions C54_supply_is_sum.

(** every successful call, in every reachable state: who may make it, what it mints and burns, and
    what it does to every balance *)
Theorem C54_calls :
  forall self owner n ms t0 tr x t' e, t_new self owner n ms = Ok t0 ->
    let t := t_run t0 tr in t_exec x.1 t x.2 = Ok (t', e) ->
    t_permitted t x /\ ft_total_supply t' + burned t x = ft_total_supply t + minted x /\
    (forall a, ft_balance_of t' a + debit t x a = ft_balance_of t a + credit t x a).
Proof. exact c54_step. Qed.
Print Assumptions C54_calls.

(** over a whole history *)
Theorem C54_history :
  forall self owner n ms t0 tr, t_new self owner n ms = Ok t0 ->
    ft_total_supply (t_run t0 tr) + t_sum burned t0 tr = n + t_sum (fun _ => minted) t0 tr.
Proof. exact c54_history. Qed.
Print Assumptions C54_history.

(** minting, a transfer-call whose sender closes the account before the refund, burning *)
Definition txc (p : string) (d : N) (o : top) : tcall := (mkCtx p p d 0 (fun _ => None) (fun _ => None), o).
Definition tr_tok : list tcall :=
  [ txc "own" 1 (TAddMinter "min"); txc "min" 1 (TMint 50); txc "min" 5 (TStorageDeposit None); txc "min" 1 (TMint 50);
    txc "bob" 5 (TStorageDeposit None); txc "own" 1 (TTransfer "bob" 30); txc "app" 5 (TStorageDeposit None);
    txc "bob" 1 (TTransferCall "app" 20 "hi"); txc "bob" 1 (TUnregister true); txc "own" 1 (TTransferCall "app" 5 "ho");
    txc "tok" 0 (TResolve "bob" "app" 20 (Some 7)); txc "tok" 0 (TResolve "own" "app" 5 None);
    txc "own" 1 (TTransfer "bob" 1); txc "min" 1 (TBurn 8); txc "eve" 1 (TMint 1000) ].
Example C54_example :
  (t ← t_new "tok" "own" 100 5; Ok (map (ft_balance_of (t_run t tr_tok)) ["own"; "min"; "bob"; "app"], ft_total_supply (t_run t tr_tok),
     t_sum burned t tr_tok, t_sum (fun _ => minted) t tr_tok))
  = Ok ([70; 42; 0; 13], 125, 25, 50).
Proof. vm_compute. reflexivity. Qed.
