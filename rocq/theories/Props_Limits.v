(** Props_Limits.v -- C58-C61. *)

From Verif Require Import MVLimits MVWitness MVRefuted.

(** C58. What the contract owes differs from what it received and sent only after a call of the
    previous governance contract or of the operator. *)
Theorem C58_imports_need_authority : forall a s0 tr x s' e,
  mv_new a = Ok s0 -> exec x.1 (run s0 tr) x.2 = Ok (s', e) ->
  mp_owed s' + mp_sent e <> mp_owed (run s0 tr) + mp_received (run s0 tr) x ->
  ((exists vid l d, x.2 = MigrationCreateLps vid l d) /\ c_pred x.1 = prev_gov (run s0 tr)) \/
  ((exists ext l, x.2 = MirrorLps ext l) /\ c_pred x.1 = operator_id (run s0 tr)).
Proof. exact c58. Qed.
Print Assumptions C58_imports_need_authority.

(** an import by the previous contract, one by the operator, and the same calls by somebody else *)
Example C58_example :
  let s := run s0 tr_demo in
  let m v := usr v 900 (MigrationCreateLps "z.near" [(M 5 * 1000000000000000000, 60)] None) in
  let o v := usr v 900 (MirrorLps "0xz" [(60, M 7)]) in
  match exec (m "old.near").1 s (m "old.near").2 with
  | Ok (s', e) => mp_owed s' = mp_owed s + M 5 /\ e = []
  | Panic _ => False
  end /\
  match exec (o "opr.near").1 s (o "opr.near").2 with
  | Ok (s', e) => mp_owed s' = mp_owed s + M 7 /\ e = []
  | Panic _ => False
  end /\
  panics (exec (m "opr.near").1 s (m "opr.near").2) = true /\
  panics (exec (o "own.near").1 s (o "own.near").2) = true.
Proof. conj; [vm_compute; conj; reflexivity|vm_compute; conj; reflexivity|vmr|vmr]. Qed.

(** C59. Locked tokens grow by the minimum deposit at least. *)
Theorem C59_minimum_deposit : forall a s0 tr x s' e vid d,
  mv_new a = Ok s0 -> exec x.1 (run s0 tr) x.2 = Ok (s', e) -> exempt_from_minimum x = false ->
  locked_amount_at (run s0 tr) vid d < locked_amount_at s' vid d ->
  locked_amount_at (run s0 tr) vid d + i_min_deposit a <= locked_amount_at s' vid d.
Proof. exact c59_growth. Qed.
Print Assumptions C59_minimum_deposit.

(** A partial unlock leaves the minimum deposit and one mpDAO, and unlocks one mpDAO at least. *)
Theorem C59_partial_unlock : forall a s0 tr x s' e i amount,
  mv_new a = Ok s0 -> exec x.1 (run s0 tr) x.2 = Ok (s', e) -> x.2 = UnlockPartial i amount ->
  exists j, get_locking_position (now_ms x.1) (run s0 tr) i (c_pred x.1) = Some j /\
    (amount = j_amount j \/
     i_min_deposit a + amount <= j_amount j /\ 1000000 <= amount /\ 1000000 + amount <= j_amount j).
Proof. exact c59_partial_unlock. Qed.
Print Assumptions C59_partial_unlock.

(** No position is ever empty, unless an empty one is imported. *)
Theorem C59_no_empty_position : forall a s0 tr,
  mv_new a = Ok s0 -> 0 < i_min_deposit a -> Forall imports_positive tr -> no_empty_position (run s0 tr).
Proof. exact c59_no_empty. Qed.
Print Assumptions C59_no_empty_position.

(** But a locked position can be smaller than the minimum deposit: relock all but one unit of an
    unlocking position, then relock the rest. *)
Definition tr_dust : list call :=
  [ dep "a.near" 100 "60" 1; usr "a.near" 2 (Unlock 0);
    usr "a.near" 3 (RelockPartial 0 (M 100 - 1) 90 0); usr "a.near" 4 (Relock 0 120 0) ].
Theorem C59_positions_above_minimum_refuted :
  ~ (forall a s0 tr vid i j, mv_new a = Ok s0 -> Forall (fun x => imports x = false) tr ->
       get_locking_position 0 (run s0 tr) i vid = Some j -> j_is_locked j = true ->
       i_min_deposit a <= j_amount j).
Proof.
  intros H.
  assert (E : (fun o => match o with Some j => (j_amount j, j_is_locked j) | None => (0, false) end)
                (get_locking_position 0 (run s0 tr_dust) 1 "a.near") = (1, true)) by vmr.
  destruct (get_locking_position 0 (run s0 tr_dust) 1 "a.near") as [j|] eqn:Ej; [|discriminate E].
  injection E as E1 E2.
  specialize (H ia s0 tr_dust "a.near" 1%nat j s0_ok). rewrite E1 in H.
  assert (K : i_min_deposit ia <= 1); [|vm_compute in K; apply K; reflexivity].
  apply H; [|exact Ej|exact E2].
  unfold tr_dust. repeat (apply List.Forall_cons; [reflexivity|]). apply List.Forall_nil.
Qed.
Print Assumptions C59_positions_above_minimum_refuted.

(** the history of the refutation succeeds; one unit below the minimum is refused; a partial unlock
    leaving too little is refused *)
Example C59_example :
  all_ok s0 tr_dust = true /\
  i_min_deposit ia = M 1 /\
  Forall imports_positive tr_demo /\
  (let s := run s0 tr_demo in
   match exec (cx "mpdao.near" 0 1000) s (FtOnTransfer "a.near" (M 1) "75") with
   | Ok (s', _) => locked_amount_at s "a.near" 75 = 0 /\ locked_amount_at s' "a.near" 75 = M 1
   | Panic _ => False
   end /\
   panics (exec (cx "mpdao.near" 0 1000) s (FtOnTransfer "a.near" (M 1 - 1) "75")) = true) /\
  (let s := run s0 [dep "a.near" 100 "60" 1] in
   panics (exec (cx "a.near" 0 5) s (UnlockPartial 0 (M 99))) = false /\
   panics (exec (cx "a.near" 0 5) s (UnlockPartial 0 (M 99 + 1))) = true).
Proof.
  conj; [vmr|vmr| |vm_compute; conj; reflexivity|vmr|vmr|vmr].
  unfold tr_demo. repeat (apply List.Forall_cons; [first [exact I|vm_compute; repeat constructor; discriminate]|]). apply List.Forall_nil.
Qed.

(** C60. Accounts enter the list only through a deposit, an import or a returned withdrawal; they
    leave it only by withdrawing everything, and then always. *)
Theorem C60_list_of_accounts : forall a s0 tr x s' e,
  mv_new a = Ok s0 -> exec x.1 (run s0 tr) x.2 = Ok (s', e) ->
  let s := run s0 tr in
  (forall w, In w (voter_ids s) -> ~ In w (voter_ids s') ->
     w = c_pred x.1 /\ is_withdrawal x = true /\ e = [PayMp w (holdings s w)]) /\
  (forall w, ~ In w (voter_ids s) -> In w (voter_ids s') -> w = call_target x /\ can_register x = true) /\
  (is_withdrawal x = true ->
     In (c_pred x.1) (voter_ids s) /\
     (In (c_pred x.1) (voter_ids s') <->
      0 < raw_balance s' (c_pred x.1) \/ get_all_locking_positions 0 s' (c_pred x.1) <> [])).
Proof. intros a s0 tr x s' e H0 Hx s. apply c60_step; [|exact Hx]. eapply voter_ids_nodup; exact H0. Qed.
Print Assumptions C60_list_of_accounts.

(** an account leaves with all it has; another one stays because of a locked position *)
Example C60_example :
  let tr := [dep "a.near" 100 "60" 1; dep "b.near" 50 "60" 2; dep "b.near" 20 "90" 3;
             usr "a.near" 4 (Unlock 0); usr "b.near" 4 (Unlock 0)] in
  let s := run s0 tr in
  all_ok s0 tr = true /\ voter_ids s = ["a.near"; "b.near"] /\
  match exec (cx "a.near" 1 (61 * DAY)) s WithdrawAll with
  | Ok (s', e) => voter_ids s' = ["b.near"] /\ e = [PayMp "a.near" (M 100)]
  | Panic _ => False
  end /\
  match exec (cx "b.near" 1 (61 * DAY)) s WithdrawAll with
  | Ok (s', e) => voter_ids s' = ["a.near"; "b.near"] /\ e = [PayMp "b.near" (M 50)]
  | Panic _ => False
  end.
Proof. conj; [vmr|vmr|vm_compute; conj; reflexivity|vm_compute; conj; reflexivity]. Qed.

(** C61. A delegated EVM address contains no dot, so no account <address>.evmp.near is a sub-account. *)
Theorem C61_no_dot : forall a s0 tr e,
  mv_new a = Ok s0 ->
  get_pre_delegate (run s0 tr) e <> None \/ get_delegate (run s0 tr) e <> None \/
  (exists n, In e (get_delegating_evm_addresses (run s0 tr) n)) ->
  ~ occurs "." e.
Proof. exact c61. Qed.
Print Assumptions C61_no_dot.

Example C61_example :
  let s := run s0 [usr1 "a.near" 1 (PreDelegate "0xab" "sig"); usr1 "opr.near" 2 (OpConfirm "0xab");
                   usr1 "b.near" 3 (PreDelegate "0xcd" "sig2")] in
  get_delegate s "0xab" = Some "a.near" /\ get_pre_delegate s "0xcd" = Some ("b.near", "sig2") /\
  panics (exec (cx "b.near" 1 5) s (PreDelegate "0x.ab" "sig2")) = true.
Proof. conj; vmr. Qed.
