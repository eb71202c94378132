(** Props_Small.v -- C77: with a token supply of realistic size no call of the voting contract fails by overflow. *)

From Verif Require Import WorldSmall MVFits4 MVWitness MVRefuted Props_Step Props_Fits Props_World.

(** C77: as long as 60 * 10^18 times the mpDAO the contract owes, together with what the call brings, is below 2^128,
    and the all-time counters of rewards have room for what the call adds, a call is accepted exactly when the
    specification of C72 enables it. *)
Theorem C77_accepted :
  forall a s0 tr c o,
    mv_new a = Ok s0 -> collision_free (tr ++ [(c, o)]) -> no_zero_votes (tr ++ [(c, o)]) -> named_once o ->
    N.of_nat (length tr) < 2 ^ 64 -> imports (c, o) = false ->
    let s := run s0 tr in
    60 * 10 ^ 18 * (mp_owed s + mp_received s (c, o)) < 2 ^ 128 -> spare c (observe s) o ->
    (exists s' e, exec c s o = Ok (s', e)) <-> enabled c (observe s) o.
Proof. exact c77. Qed.
Print Assumptions C77_accepted.

(** The total voting power is at most 60 * 10^18 for every unit of mpDAO owed. *)
Theorem C77_power_bounded :
  forall a s0 tr, mv_new a = Ok s0 -> collision_free tr -> N.of_nat (length tr) < 2 ^ 64 ->
    get_total_voting_power (run s0 tr) <= 60 * 10 ^ 18 * mp_owed (run s0 tr).
Proof.
  intros a s0 tr H0 Hc Hn. etransitivity; [exact (total_lean a s0 tr H0 Hc Hn)|]. apply N.mul_le_mono_l.
  pose proof (owed_parts s0 tr ""). lia.
Qed.
Print Assumptions C77_power_bounded.

(** In the world with both tokens it is enough that 60 * 10^18 times the mpDAO supply is below 2^128 (with six
    decimals: a supply below 5.6 * 10^12 mpDAO) and that a further distribution of all tokens would fit the all-time
    counters: then no call that reaches the contract, be it from a user, a token or the contract itself, fails unless
    the specification forbids it. *)
Theorem C77_world :
  forall w0 evs ev x,
    wstart w0 -> Forall (fun ev => calm Mp w0 ev /\ calm St w0 ev) evs -> N.of_nat (length evs) < 2 ^ 64 ->
    let w := wrun w0 evs in
    let L := observe (w_mv w) in
    heard_at w ev = [x] -> imports x = false -> named_once x.2 ->
    collision_free (heard w0 (evs ++ [ev])) -> no_zero_votes (heard w0 (evs ++ [ev])) ->
    60 * 10 ^ 18 * t_supply (w_mp w) < 2 ^ 128 ->
    l_mp_ever L + t_supply (w_mp w) < 2 ^ 128 -> l_st_ever L + t_supply (w_st w) < 2 ^ 128 ->
    (exists s' e, exec x.1 (w_mv w) x.2 = Ok (s', e)) <-> enabled x.1 L x.2.
Proof. exact c77_world. Qed.
Print Assumptions C77_world.

(** the calls named by [heard] are all the contract ever sees *)
Theorem C77_heard : forall w evs, w_mv (wrun w evs) = run (w_mv w) (heard w evs).
Proof. intros w evs. exact (heard_run evs w). Qed.
Print Assumptions C77_heard.

(** ** Examples *)
Definition nz_b (x : call) : bool := match x.2 with Vote n _ _ | VoteDelegated _ n _ _ => negb (n =? 0) | _ => true end.
Lemma nz_of tr : forallb nz_b tr = true -> no_zero_votes tr.
Proof.
  intros H. apply List.Forall_forall. intros [c o] Hx. pose proof (proj1 (forallb_forall _ _) H _ Hx) as Hb. unfold nz_b in Hb. cbn [snd] in Hb.
  destruct o; try exact I; apply negb_true_iff, N.eqb_neq in Hb; exact Hb.
Qed.
Lemma cf_of tr : forallb (fun p : string * string => negb (has_hyphen p.1)) (vote_targets tr) = true -> collision_free tr.
Proof.
  intros H. apply collision_free_voter. intros p Hp. apply negb_true_iff. exact (proj1 (forallb_forall _ _) H p Hp).
Qed.

(** the contract alone: 5 * 10^14 units (the mpDAO supply, 500 million) deposited for 300 days, then put to vote *)
Definition tr_big : list call := [ (cx "mpdao.near" 0 1, FtOnTransfer "a.near" (5 * 10 ^ 14) "300") ].
Definition x_big : call := usr "a.near" 2 (Vote (25 * 10 ^ 32) "A" "o1").
Lemma ex_small tr x : ok_on tr x = true -> collision_free (tr ++ [(x.1, x.2)]) ->
  no_zero_votes (tr ++ [(x.1, x.2)]) -> named_once x.2 -> N.of_nat (length tr) < 2 ^ 64 -> imports (x.1, x.2) = false ->
  60 * 10 ^ 18 * (mp_owed (run s0 tr) + mp_received (run s0 tr) (x.1, x.2)) < 2 ^ 128 -> spare x.1 (observe (run s0 tr)) x.2 ->
  enabled x.1 (observe (run s0 tr)) x.2.
Proof.
  intros H Hc Hz Hn Hl Hi Hb Hr. apply (C77_accepted ia s0 tr x.1 x.2 s0_ok Hc Hz Hn Hl Hi Hb Hr).
  unfold ok_on in H. destruct (exec x.1 (run s0 tr) x.2) as [[s' e]|]; [eauto|discriminate].
Qed.
Example C77_example_contract :
  get_total_voting_power (run s0 tr_big) = 25 * 10 ^ 32 /\ mp_owed (run s0 tr_big) = 5 * 10 ^ 14 /\
  enabled x_big.1 (observe (run s0 tr_big)) x_big.2.
Proof.
  split; [vmr|]. split; [vmr|]. apply ex_small; [vmr|apply cf_of; vmr|apply nz_of; vmr|exact I|vmr|vmr|vmr|exact I].
Qed.

(** the world: 500 million mpDAO and 10^12 stNEAR exist; the history of C06's example is followed by a vote, by the
    delivery of a deposit of all the remaining mpDAO and by the return of the refused payment *)
Definition wS : world :=
  mkWorld s0 (match t_new "mpdao.near" "own.near" (5 * 10 ^ 14) 5 with Ok t => t | Panic _ => mkTok "" [] 0 "" [] 0 end)
    (tok0 "stnear.near") [].
Lemma wS_start : wstart wS.
Proof.
  exists ia, "own.near", (5 * 10 ^ 14), 5, "own.near", (10 ^ 30), 5. conj; try (vm_compute; reflexivity); vm_compute; discriminate.
Qed.
Definition evs_s : list wev :=
  evs_setup ++
  [ umv "bob" 2 (Unlock 0); umv1 "bob" (3 + 30 * DAY) (Withdraw [0%nat] (M 4)); fail1 0;
    tcx Mp "own.near" 1 (TTransferCall "mv.near" (49999985 * 10 ^ 7) "300") ].
Lemma ex_world evs ev x :
  Forall (fun ev => calm Mp wS ev /\ calm St wS ev) evs -> N.of_nat (length evs) < 2 ^ 64 ->
  heard_at (wrun wS evs) ev = [x] -> imports x = false -> named_once x.2 ->
  collision_free (heard wS (evs ++ [ev])) -> no_zero_votes (heard wS (evs ++ [ev])) ->
  60 * 10 ^ 18 * t_supply (w_mp (wrun wS evs)) < 2 ^ 128 ->
  l_mp_ever (observe (w_mv (wrun wS evs))) + t_supply (w_mp (wrun wS evs)) < 2 ^ 128 ->
  l_st_ever (observe (w_mv (wrun wS evs))) + t_supply (w_st (wrun wS evs)) < 2 ^ 128 ->
  ok_at (w_mv (wrun wS evs)) x = true -> enabled x.1 (observe (w_mv (wrun wS evs))) x.2.
Proof.
  intros H1 H2 H3 H4 H5 H6 H7 H8 H9 H10 H11.
  apply (C77_world wS evs ev x wS_start H1 H2 H3 H4 H5 H6 H7 H8 H9 H10). apply ok_at_true. exact H11.
Qed.
Lemma evs_s_calm : Forall (fun ev => calm Mp wS ev /\ calm St wS ev) evs_s.
Proof. unfold evs_s, evs_setup. cbn [app]. repeat (apply List.Forall_cons; [split; [split|]; first [exact I|reflexivity]|]). apply List.Forall_nil. Qed.
Example C77_example_world :
  (let x := usr "alice" 9 (Vote (V 1) "A" "o1") in
   heard_at (wrun wS evs_s) (EMv x) = [x] /\ enabled x.1 (observe (w_mv (wrun wS evs_s))) x.2) /\
  (let x := (called_by (cx "" 0 1) "mpdao.near" 0, FtOnTransfer "own.near" (49999985 * 10 ^ 7) "300") in
   heard_at (wrun wS evs_s) (run1 1) = [x] /\ enabled x.1 (observe (w_mv (wrun wS evs_s))) x.2) /\
  (let x := (called_by (cx "" 0 1) "mv.near" 0, AfterMp "bob" (M 4) false) in
   heard_at (wrun wS evs_s) (run1 0) = [x] /\ enabled x.1 (observe (w_mv (wrun wS evs_s))) x.2).
Proof.
  cbv zeta. split; [|split]; (split; [vmr|]).
  - apply (ex_world evs_s (EMv (usr "alice" 9 (Vote (V 1) "A" "o1")))); [exact evs_s_calm|vmr|vmr|vmr|exact I|apply cf_of; vmr|apply nz_of; vmr|vmr|vmr|vmr|vmr].
  - apply (ex_world evs_s (run1 1)); [exact evs_s_calm|vmr|vmr|vmr|exact I|apply cf_of; vmr|apply nz_of; vmr|vmr|vmr|vmr|vmr].
  - apply (ex_world evs_s (run1 0)); [exact evs_s_calm|vmr|vmr|vmr|exact I|apply cf_of; vmr|apply nz_of; vmr|vmr|vmr|vmr|vmr].
Qed.
