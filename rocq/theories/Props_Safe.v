(** Props_Safe.v -- C85: only an account's own transfers take tokens from it. *)

From Verif Require Import WorldSafe MVWitness Props_World Props_Exact.

(** As long as the account does not spend from its wallet and no callback of a failed transfer to it is lost, what it owns
    (wallet, books of the contract, on its way back) never shrinks, whatever calls anybody makes, the account itself, owner
    and operator included, and in whatever order receipts run and fail. *)
Theorem C85_never_taken :
  forall k w0 evs evs2 a, wstart w0 -> Forall (calm k w0) (evs ++ evs2) -> a <> self_id (w_mv w0) -> ~ is_pseudo a ->
  while (untouched k a) (wrun w0 evs) evs2 -> owns k (wrun w0 evs) a <= owns k (wrun w0 (evs ++ evs2)) a.
Proof. exact c85_kept. Qed.
Print Assumptions C85_never_taken.

(** mpDAO, also while positions are imported, if what the contract owes fits a u128 *)
Theorem C85_never_taken_imports :
  forall w0 evs evs2 a, wstart w0 -> Forall (not_mpdao w0) (evs ++ evs2) -> a <> self_id (w_mv w0) -> ~ is_pseudo a ->
  while (fun w ev => untouched Mp a w ev /\ mp_owed (w_mv w) + out_flight Mp w < 2 ^ 128) (wrun w0 evs) evs2 ->
  owns Mp (wrun w0 evs) a <= owns Mp (wrun w0 (evs ++ evs2)) a.
Proof. exact c85_imports. Qed.
Print Assumptions C85_never_taken_imports.

(** Positions of an account of the other chain go when the operator mirrors it anew. *)
Definition evs_wipe : list wev := [umv "opr.near" 3 (MirrorLps "0xabc" [(60, M 2)])].
Theorem C85_mirrored_refuted :
  ~ (forall w0 evs evs2 a, wstart w0 -> Forall (not_mpdao w0) (evs ++ evs2) -> a <> self_id (w_mv w0) ->
     while (fun w ev => untouched Mp a w ev /\ mp_owed (w_mv w) + out_flight Mp w < 2 ^ 128) (wrun w0 evs) evs2 ->
     owns Mp (wrun w0 evs) a <= owns Mp (wrun w0 (evs ++ evs2)) a).
Proof.
  intros H. specialize (H w0 evs_import evs_wipe "0xabc.evmp.near" w0_start).
  assert (H1 : owns Mp (wrun w0 evs_import) "0xabc.evmp.near" = M 5) by vmr.
  assert (H2 : owns Mp (wrun w0 (evs_import ++ evs_wipe)) "0xabc.evmp.near" = M 2) by vmr.
  rewrite H1, H2 in H. assert (M 5 <= M 2); [|vm_compute in *; congruence]. apply H.
  - unfold evs_import, evs_setup, evs_wipe. repeat constructor.
  - vm_compute. discriminate.
  - cbn [while evs_wipe]. split; [|exact I]. split; [split; intros []|]. vm_compute. reflexivity.
Qed.
Print Assumptions C85_mirrored_refuted.

Lemma not_bob : ~ is_pseudo "bob".
Proof. intros [ext E]. destruct ext as [|c1 [|c2 [|c3 [|c4 ext]]]]; discriminate E. Qed.
(** A lost callback loses the tokens of the payment. *)
Theorem C85_dropped_refuted :
  ~ (forall k w0 evs evs2 a, wstart w0 -> Forall (calm k w0) (evs ++ evs2) -> a <> self_id (w_mv w0) -> ~ is_pseudo a ->
     while (fun w ev => ~ spends k a w ev) (wrun w0 evs) evs2 -> owns k (wrun w0 evs) a <= owns k (wrun w0 (evs ++ evs2)) a).
Proof.
  intros H. specialize (H Mp w0 evs_out [ERun 0 (cx "" 0 1) true None; ERun 2 (cx "" 0 1) true None] "bob" w0_start).
  assert (H1 : owns Mp (wrun w0 evs_out) "bob" = M 50) by vmr. change (evs_out ++ _) with evs_drop in H.
  assert (H2 : owns Mp (wrun w0 evs_drop) "bob" = M 47) by vmr.
  rewrite H1, H2 in H. assert (M 50 <= M 47); [|vm_compute in *; congruence]. apply H.
  - unfold evs_drop, evs_out, evs_setup. repeat constructor.
  - vm_compute. discriminate.
  - exact not_bob.
  - cbn [while]. split; [vm_compute; tauto|]. split; [vm_compute; tauto|exact I].
Qed.
Print Assumptions C85_dropped_refuted.

(** ** Examples *)
(** bob's withdrawal fails and is put back, is repeated and arrives; the owner changes settings, another account spends *)
Definition evs_bob : list wev :=
  [ fail1 0; run1 2; run1 0; umv1 "own.near" (5 + 30 * DAY) (SetOperator "eve"); tcx Mp "alice" 1 (TTransfer "own.near" (M 1));
    umv "bob" (6 + 30 * DAY) (ClaimStnear (10 ^ 18)); umv1 "bob" (6 + 30 * DAY) WithdrawAll; run1 2; run1 0 ].
Example C85_example :
  Forall (calm Mp w0) (evs_out ++ evs_bob) /\ Forall (calm St w0) (evs_out ++ evs_bob) /\ "bob" <> self_id (w_mv w0) /\ ~ is_pseudo "bob" /\
  while (untouched Mp "bob") (wrun w0 evs_out) evs_bob /\ while (untouched St "bob") (wrun w0 evs_out) evs_bob /\
  owns Mp (wrun w0 evs_out) "bob" = M 50 /\ owns Mp (wrun w0 (evs_out ++ evs_bob)) "bob" = M 50 /\
  ft_balance_of (w_mp (wrun w0 evs_out)) "bob" = M 40 /\ ft_balance_of (w_mp (wrun w0 (evs_out ++ evs_bob))) "bob" = M 50 /\
  owns St (wrun w0 evs_out) "bob" = 10 ^ 20 /\ owns St (wrun w0 (evs_out ++ evs_bob)) "bob" = 10 ^ 20.
Proof.
  split; [unfold evs_out, evs_setup, evs_bob; repeat constructor|]. split; [unfold evs_out, evs_setup, evs_bob; repeat constructor|].
  split; [vm_compute; discriminate|]. split; [exact not_bob|].
  split. { cbn [while evs_bob]. unfold untouched. repeat apply conj; vm_compute; intuition congruence. }
  split. { cbn [while evs_bob]. unfold untouched. repeat apply conj; vm_compute; intuition congruence. }
  conj; vmr.
Qed.
