(** Props_Exact.v -- C84: every token the contract holds is accounted for. *)

From Verif Require Import WorldExact MVWitness Props_World.

(** The contract's tokens are exactly: what it owes, what is in flight, what it had, what it was given by plain transfers, and
    what callbacks left behind whose receipts failed. *)
Theorem C84_accounted :
  forall k w0 evs, wstart w0 -> Forall (calm k w0) evs ->
  let w := wrun w0 evs in
  ft_balance_of (tok_of w k) (self_id (w_mv w)) =
    owed k (w_mv w) + out_flight k w + in_flight k w
    + ft_balance_of (tok_of w0 k) (self_id (w_mv w0)) + over_run (given k) w0 evs + over_run (stranded k) w0 evs.
Proof. exact c84_accounted. Qed.
Print Assumptions C84_accounted.

(** So without the last two it holds exactly what it owes, once nothing is in flight. *)
Theorem C84_settled :
  forall k w0 evs, wstart w0 -> Forall (calm k w0) evs -> Forall (tidy (self_id (w_mv w0))) evs ->
  let w := wrun w0 evs in
  funds k w0 = 0 -> w_pend w = [] -> ft_balance_of (tok_of w k) (self_id (w_mv w)) = owed k (w_mv w).
Proof.
  intros k w0 evs Hs Hg Ht w Hz Hp. pose proof (c84_tidy k w0 evs Hs Hg Ht) as H. fold w in H. unfold out_flight, in_flight in H. rewrite Hp, !sum_by_nil in H.
  unfold funds in H at 1. lia.
Qed.
Print Assumptions C84_settled.

(** What was given or left behind never goes anywhere: nothing later can lower it. *)
Theorem C84_surplus_stays :
  forall k w0 evs evs', wstart w0 -> Forall (calm k w0) (evs ++ evs') ->
  surplus k (wrun w0 (evs ++ evs')) = surplus k (wrun w0 evs) + over_run (given k) (wrun w0 evs) evs' + over_run (stranded k) (wrun w0 evs) evs'.
Proof. exact c84_surplus. Qed.
Print Assumptions C84_surplus_stays.

(** A payment ends in the receiver's wallet or back on the books, never both and never neither, whether the transfer's
    receipt fails or not. *)
Theorem C84_payment_ends :
  forall k w0 evs i tok src rcv n c fail ans c' ans', wstart w0 -> Forall (calm k w0) evs ->
  let w := wrun w0 evs in
  w_pend w !! i = Some (PPay k tok src rcv n) ->
  let w' := wrun w [ERun i c fail ans; ERun (Nat.pred (length (w_pend w))) c' false ans'] in
  w_pend w' = delete i (w_pend w) /\
  ((ft_balance_of (tok_of w' k) rcv = ft_balance_of (tok_of w k) rcv + n /\ w_mv w' = w_mv w) \/
   (books k (w_mv w') src = books k (w_mv w) src + n /\ tok_of w' k = tok_of w k)).
Proof. exact c84_transfer. Qed.
Print Assumptions C84_payment_ends.

(** A deposit ends on the books or back with its sender. *)
Theorem C84_deposit_ends :
  forall k w0 evs i sn n msg c fail ans c' ans', wstart w0 -> Forall (calm k w0) evs ->
  let w := wrun w0 evs in
  w_pend w !! i = Some (PDeliver k sn (self_id (w_mv w)) n msg) -> t_registered (tok_of w k) sn = true ->
  let w' := wrun w [ERun i c fail ans; ERun (Nat.pred (length (w_pend w))) c' false ans'] in
  w_pend w' = delete i (w_pend w) /\
  ((owed k (w_mv w') = owed k (w_mv w) + n /\ tok_of w' k = tok_of w k) \/
   (ft_balance_of (tok_of w' k) sn = ft_balance_of (tok_of w k) sn + n /\ funds k w' + n = funds k w /\ w_mv w' = w_mv w)).
Proof. exact c84_deposit. Qed.
Print Assumptions C84_deposit_ends.

(** If the receipt of the callback fails, too, the tokens of the payment are neither in the wallet nor on the books. *)
Definition evs_drop : list wev := evs_out ++ [ERun 0 (cx "" 0 1) true None; ERun 2 (cx "" 0 1) true None].
Theorem C84_callback_refuted :
  ~ (forall w0 evs i tok src rcv n c fail ans c' fail' ans', wstart w0 -> Forall (calm Mp w0) evs ->
     let w := wrun w0 evs in
     w_pend w !! i = Some (PPay Mp tok src rcv n) ->
     let w' := wrun w [ERun i c fail ans; ERun (Nat.pred (length (w_pend w))) c' fail' ans'] in
     ft_balance_of (w_mp w') rcv + raw_balance (w_mv w') src = ft_balance_of (w_mp w) rcv + raw_balance (w_mv w) src + n).
Proof.
  intros H. assert (Hc : Forall (calm Mp w0) evs_out) by (unfold evs_out, evs_setup; repeat constructor).
  specialize (H w0 evs_out 0%nat "mpdao.near" "bob" "bob" (M 3) (cx "" 0 1) true None (cx "" 0 1) true None w0_start Hc ltac:(vm_compute; reflexivity)).
  revert H. vm_compute. discriminate.
Qed.
Print Assumptions C84_callback_refuted.

(** ** Examples *)
Definition evs_gift : list wev := evs_out ++ [tcx Mp "bob" 1 (TTransfer "mv.near" (M 2))].
Example C84_example :
  Forall (calm Mp w0) evs_gift /\ Forall (calm Mp w0) evs_drop /\ Forall (tidy "mv.near") evs_setup /\ funds Mp w0 = 0 /\ w_pend (wrun w0 evs_setup) = [] /\
  owed Mp (w_mv (wrun w0 evs_setup)) = M 110 /\
  (let w := wrun w0 evs_gift in
   ft_balance_of (w_mp w) "mv.near" = M 119 /\ owed Mp (w_mv w) = M 107 /\ out_flight Mp w = M 3 /\ in_flight Mp w = M 7 /\ surplus Mp w = M 2) /\
  (let w := wrun w0 evs_drop in
   over_run (stranded Mp) w0 evs_drop = M 3 /\ surplus Mp w = M 3 /\ owed Mp (w_mv w) = M 107 /\ funds Mp w = M 117) /\
  (* both ways a payment can end *)
  (let w := wrun w0 evs_out in
   w_pend w !! 0%nat = Some (PPay Mp "mpdao.near" "bob" "bob" (M 3)) /\
   ft_balance_of (w_mp (wrun w [run1 0; run1 2])) "bob" = ft_balance_of (w_mp w) "bob" + M 3 /\
   raw_balance (w_mv (wrun w [fail1 0; run1 2])) "bob" = raw_balance (w_mv w) "bob" + M 3 /\
   w_pend w !! 2%nat = Some (PPay St "stnear.near" "bob" "bob" (10 ^ 19)) /\
   get_claimable_stnear (w_mv (wrun w [fail1 2; run1 2])) "bob" = 10 ^ 20) /\
  (* and a deposit *)
  (let w := wrun w0 (firstn 9 evs_setup) in
   w_pend w !! 0%nat = Some (PDeliver Mp "alice" "mv.near" (M 100) "60") /\ t_registered (w_mp w) "alice" = true /\ length (w_pend w) = 2%nat /\
   owed Mp (w_mv (wrun w [run1 0; run1 1])) = M 100 /\
   ft_balance_of (w_mp (wrun w [fail1 0; run1 1])) "alice" = M 100).
Proof.
  split; [unfold evs_gift, evs_out, evs_setup; repeat constructor|]. split; [unfold evs_drop, evs_out, evs_setup; repeat constructor|].
  split; [unfold evs_setup; repeat constructor; discriminate|]. conj; vmr.
Qed.
