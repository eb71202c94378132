(** Props_Positions.v -- locking positions: C09, C10, C11, C12, C14, C15, C26, C27, C28. *)

From Verif Require Import MVRelock MVRefuted.

(** * C09 *)
Theorem C09_relock :
  forall c s i d afb s' e, exec c s (Relock i d afb) = Ok (s', e) ->
  let vid := c_pred c in let now := now_ms c in
  exists j t, get_locking_position now s i vid = Some j /\ j_unl j = Some t /\
    (now < t + j_days j * 86400000 -> t + j_days j * 86400000 < now + d * 86400000) /\
    (forall k, locked_amount_at s' vid k
               = locked_amount_at s vid k + (if d =? k then j_amount j + afb else 0)) /\
    raw_balance s' vid + afb = raw_balance s vid.
Proof. exact relock_views. Qed.
Print Assumptions C09_relock.

Theorem C09_relock_partial_amount :
  forall c s i afp d afb s' e, exec c s (RelockPartial i afp d afb) = Ok (s', e) ->
  let vid := c_pred c in let now := now_ms c in
  exists j t, get_locking_position now s i vid = Some j /\ j_unl j = Some t /\ afp <= j_amount j /\
    (now < t + j_days j * 86400000 -> t + j_days j * 86400000 < now + d * 86400000) /\
    (forall k, locked_amount_at s' vid k
               = locked_amount_at s vid k + (if d =? k then afp + afb else 0)) /\
    raw_balance s' vid + afb
    = raw_balance s vid + (if now <? t + j_days j * 86400000 then 0 else j_amount j - afp).
Proof. exact relock_partial_views. Qed.
Print Assumptions C09_relock_partial_amount.

(** An unbonding 60-day position can be re-locked for 60 days but not for 30 right after unlocking. *)
Definition s_c09 : state := run s0 [dep "a.near" 100 "60" 1; usr "a.near" 2 (Unlock 0)].
Example C09_example :
  (exists s', exec (cx "a.near" 0 3) s_c09 (Relock 0 60 0) = Ok (s', []) /\
     locked_amount_at s' "a.near" 60 = M 100) /\
  (exists m, exec (cx "a.near" 0 3) s_c09 (Relock 0 30 0) = Panic m) /\
  (exists s', exec (cx "a.near" 0 3) s_c09 (RelockPartial 0 (M 40) 90 0) = Ok (s', []) /\
     locked_amount_at s' "a.near" 90 = M 40).
Proof.
  split; [eexists; split; vm_compute; reflexivity|]. split; [eexists; vm_compute; reflexivity|].
  eexists; split; vm_compute; reflexivity.
Qed.

(** * C10 *)
Theorem C10_formula :
  forall a d r, calculate_voting_power a d = Ok r <->
  r = a * 10^18 * d / 60 /\ d < 3600 /\ a * 10^18 < 2^128 /\ a * 10^18 * d / 60 < 2^128.
Proof. exact calc_formula. Qed.
Print Assumptions C10_formula.

Theorem C10_monotone :
  forall a d r a' d' r',
  calculate_voting_power a d = Ok r -> calculate_voting_power a' d' = Ok r' ->
  a <= a' -> d <= d' -> r <= r'.
Proof. exact calc_mono. Qed.
Print Assumptions C10_monotone.

Theorem C10_split :
  forall a b d r1 r2 r,
  calculate_voting_power a d = Ok r1 -> calculate_voting_power b d = Ok r2 ->
  calculate_voting_power (a + b) d = Ok r -> r1 + r2 <= r /\ r <= r1 + r2 + 1.
Proof. exact calc_split. Qed.
Print Assumptions C10_split.

Theorem C10_part :
  forall a b d r, calculate_voting_power (a + b) d = Ok r ->
  exists r1, calculate_voting_power a d = Ok r1 /\ r1 <= r.
Proof. exact calc_part. Qed.
Print Assumptions C10_part.

Example C10_example :
  calculate_voting_power (M 100) 30 = Ok (V 50) /\ calculate_voting_power (M 100) 60 = Ok (V 100) /\
  calculate_voting_power (M 100) 300 = Ok (V 500) /\
  (exists m, calculate_voting_power (M 100) 3600 = Panic m).
Proof. repeat split; try (vm_compute; reflexivity). eexists. vm_compute. reflexivity. Qed.

(** * C11 *)
Theorem C11_position_power :
  forall a s0 tr now vid i j, mv_new a = Ok s0 ->
  get_locking_position now (run s0 tr) i vid = Some j ->
  j_days j mod 3 = 0 -> 60 * j_vp j = j_amount j * 10^18 * j_days j.
Proof.
  intros a s0 tr now vid i j H0 Hj. unfold get_locking_position in Hj.
  apply fmap_Some in Hj as (p & Hp & ->). exact (positions_exact a s0 tr vid i p H0 Hp).
Qed.
Print Assumptions C11_position_power.

Example C11_example :
  mv_new ia = Ok s0 /\
  map pos_data (get_all_locking_positions 0 (run s0 tr_demo) "a.near")
  = [(M 110, 90, V 165, None); (M 35, 300, V 175, None)].
Proof. split; [reflexivity|]. vm_compute. reflexivity. Qed.

(** * C12 *)
Theorem C12_positions_bounded :
  forall a s0 tr now vid, mv_new a = Ok s0 ->
  N.of_nat (length (get_all_locking_positions now (run s0 tr) vid))
    <= ci_max_lps (get_contract_info (run s0 tr)) /\
  ci_max_lps (get_contract_info (run s0 tr)) < 256.
Proof.
  intros a s0 tr now vid H0. unfold get_all_locking_positions. rewrite imap_length.
  pose proof (constants_fixed s0 tr) as E. cbn in E. injection E as _ _ E _. cbn. rewrite E.
  exact (positions_count a s0 tr vid H0).
Qed.
Print Assumptions C12_positions_bounded.

(** 20 positions are possible with the limit 20; the 21st is refused. *)
Definition tr_full : list call :=
  map (fun n => (mkCtx "mpdao.near" "mpdao.near" 0 1 (fun _ => Some ("a.near", 30 + N.of_nat n)) (fun _ => None),
                 FtOnTransfer "own.near" (M 2) "[a.near,days]")) (seq 0 20).
Example C12_example :
  all_ok s0 tr_full = true /\ length (get_all_locking_positions 0 (run s0 tr_full) "a.near") = 20%nat /\
  (exists m, exec (cx "mpdao.near" 0 1) (run s0 tr_full) (FtOnTransfer "a.near" (M 2) "300") = Panic m).
Proof. repeat split; try (vm_compute; reflexivity). eexists. vm_compute. reflexivity. Qed.

(** * C14 *)
Theorem C14_one_locked_per_period :
  forall a s0 tr, mv_new a = Ok s0 ->
  Forall (fun x : call => forall i d, x.2 <> ExtendDays i d) tr -> one_locked_per_period (run s0 tr).
Proof. exact one_locked. Qed.
Print Assumptions C14_one_locked_per_period.

Theorem C14_refuted :
  ~ (forall a s tr, mv_new a = Ok s -> timed tr -> one_locked_per_period (run s tr)).
Proof. exact r_c14. Qed.
Print Assumptions C14_refuted.

Example C14_example :
  let tr := [dep "a.near" 100 "60" 1; dep "a.near" 50 "60" 2; dep "a.near" 10 "90" 3;
             usr "a.near" 4 (UnlockPartial 0 (M 30)); dep "a.near" 1 "60" 5] in
  all_ok s0 tr = true /\ Forall (fun x : call => forall i d, x.2 <> ExtendDays i d) tr /\
  map pos_data (get_all_locking_positions 0 (run s0 tr) "a.near")
  = [(M 121, 60, V 121, None); (M 10, 90, V 15, None); (M 30, 60, V 30, Some 4)].
Proof. split; [vm_compute; reflexivity|]. split; [repeat constructor; discriminate|]. vm_compute. reflexivity. Qed.

(** * C15 *)
(** Only periods within the configured bounds get more tokens, except by extension and mirroring. *)
Theorem C15_growth_in_bounds :
  forall a s0 tr c o s' e vid d, mv_new a = Ok s0 -> exec c (run s0 tr) o = Ok (s', e) ->
  match o with ExtendDays _ _ | MirrorLps _ _ => False | _ => True end ->
  amount_at (run s0 tr) vid d < amount_at s' vid d ->
  let i := get_contract_info (run s0 tr) in ci_min_unbond i <= d <= ci_max_unbond i.
Proof. intros a s0 tr c o s' e vid d. exact (growth_in_bounds a s0 tr c o s' e vid d). Qed.
Print Assumptions C15_growth_in_bounds.

Theorem C15_all_below_3600 :
  forall a s0 tr now vid i j, mv_new a = Ok s0 ->
  get_locking_position now (run s0 tr) i vid = Some j -> j_days j < 3600.
Proof.
  intros a s0 tr now vid i j H0 Hj. unfold get_locking_position in Hj.
  apply fmap_Some in Hj as (p & Hp & ->). exact (positions_3600 a s0 tr vid i p H0 Hp).
Qed.
Print Assumptions C15_all_below_3600.

(** Every stored period is within fixed bounds if nobody extends or mirrors positions. *)
Theorem C15_periods_in_bounds :
  forall a s0 tr vid i p, mv_new a = Ok s0 -> Forall quiet_bounds tr ->
  get_locking_position 0 (run s0 tr) i vid = Some p -> min_unbond s0 <= j_days p <= max_unbond s0.
Proof. exact quiet_periods. Qed.
Print Assumptions C15_periods_in_bounds.

Theorem C15_refuted :
  ~ (forall a s tr, mv_new a = Ok s -> timed tr ->
   Forall (fun x => match x.2 with UpdateMaxUnbond _ => False | _ => True end) tr ->
   periods_bounded (run s tr)).
Proof. exact r_c15. Qed.
Print Assumptions C15_refuted.

Example C15_example :
  let s := run s0 tr_demo in
  let x := (cx "mpdao.near" 0 5, FtOnTransfer "b.near" (M 5) "300") in
  exec x.1 s x.2 = Ok (step s x, []) /\
  amount_at s "b.near" 300 = 0 /\ amount_at (step s x) "b.near" 300 = M 5 /\
  panics (exec (cx "mpdao.near" 0 5) s (FtOnTransfer "b.near" (M 5) "301")) = true /\
  panics (exec (cx "mpdao.near" 0 5) s (FtOnTransfer "b.near" (M 5) "29")) = true.
Proof. conj; vmr. Qed.

(** * C26 *)
Theorem C26_withdraw_all_pays :
  forall a s0 tr c b, mv_new a = Ok s0 ->
  let s := run s0 tr in let vid := c_pred c in let now := now_ms c in
  c_deposit c = 1 -> get_balance now s vid = Ok b -> 0 < b ->
  exists s', exec c s WithdrawAll = Ok (s', [PayMp vid b]) /\
    raw_balance s' vid = 0 /\ get_balance now s' vid = Ok 0 /\
    (forall j, In j (get_all_locking_positions now s' vid) -> j_is_unlocked j = false) /\
    positions_amount s' vid + b = raw_balance s vid + positions_amount s vid.
Proof. exact withdraw_all_pays. Qed.
Print Assumptions C26_withdraw_all_pays.

Theorem C26_withdraw_all_zero :
  forall c s, get_balance (now_ms c) s (c_pred c) = Ok 0 -> exists m, exec c s WithdrawAll = Panic m.
Proof. exact withdraw_all_zero. Qed.
Print Assumptions C26_withdraw_all_zero.

Definition s_c26 : state :=
  run s0 [dep "a.near" 100 "60" 1; dep "a.near" 40 "30" 1; dep "a.near" 7 "90" 1;
          usr "a.near" 2 (Unlock 0); usr "a.near" 2 (Unlock 1); usr "a.near" 2 (Unlock 2)].
Example C26_example :
  let c := cx "a.near" 1 (61 * DAY) in
  mv_new ia = Ok s0 /\ c_deposit c = 1 /\ get_balance (now_ms c) s_c26 (c_pred c) = Ok (M 140).
Proof. conj; vmr. Qed.

(** * C27 *)
Theorem C27_flags :
  forall now s vid j, In j (get_all_locking_positions now s vid) ->
  (j_is_locked j = true /\ j_is_unlocking j = false /\ j_is_unlocked j = false) \/
  (j_is_locked j = false /\ j_is_unlocking j = true /\ j_is_unlocked j = false) \/
  (j_is_locked j = false /\ j_is_unlocking j = false /\ j_is_unlocked j = true).
Proof. exact flags_view. Qed.
Print Assumptions C27_flags.

Theorem C27_partition :
  forall now s vid a b g,
  get_locked_balance s vid = Ok a -> get_unlocking_balance now s vid = Ok b -> get_balance now s vid = Ok g ->
  a + b + g = raw_balance s vid + positions_amount s vid.
Proof. exact partition_views. Qed.
Print Assumptions C27_partition.

Theorem C27_views_total :
  forall now s vid, raw_balance s vid + positions_amount s vid < 2^128 ->
  (exists a, get_locked_balance s vid = Ok a) /\ (exists b, get_unlocking_balance now s vid = Ok b) /\
  (exists g, get_balance now s vid = Ok g).
Proof. exact partition_total. Qed.
Print Assumptions C27_views_total.

Example C27_example :
  let s := run s0 tr_demo in let now := 300 * DAY + 50 in
  get_locked_balance s "a.near" = Ok (M 145) /\ get_unlocking_balance (50 * DAY) s_c26 "a.near" = Ok (M 107) /\
  get_balance (50 * DAY) s_c26 "a.near" = Ok (M 40) /\ get_balance now s "a.near" = Ok (M 11).
Proof. conj; vmr. Qed.

(** * C28 *)
Theorem C28_clear_exact :
  forall a s0 tr c l s' e, mv_new a = Ok s0 -> NoDup l -> let s := run s0 tr in
  exec c s (ClearPositions l) = Ok (s', e) ->
  let vid := c_pred c in let now := now_ms c in
  (forall i, i ∈ l -> is_Some (get_locking_position now s i vid)) /\
  map pos_data (get_all_locking_positions now s' vid)
    ≡ₚ map pos_data (List.filter (fun j => negb (listed_unlocked l j)) (get_all_locking_positions now s vid)) /\
  raw_balance s' vid = raw_balance s vid
    + sum_by (fun j => if listed_unlocked l j then j_amount j else 0) (get_all_locking_positions now s vid) /\
  get_available_voting_power s' vid = get_available_voting_power s vid /\ e = [].
Proof. exact clear_views. Qed.
Print Assumptions C28_clear_exact.

Theorem C28_out_of_range :
  forall c s l i, i ∈ l -> get_locking_position (now_ms c) s i (c_pred c) = None ->
  exists m, exec c s (ClearPositions l) = Panic m.
Proof. exact clear_panics. Qed.
Print Assumptions C28_out_of_range.

Example C28_example :
  let x := (cx "a.near" 0 (61 * DAY), ClearPositions [0; 2; 1]%nat) in
  exec x.1 s_c26 x.2 = Ok (step s_c26 x, []) /\
  map pos_data (get_all_locking_positions 0 (step s_c26 x) "a.near") = [(M 7, 90, M 10500000000000000000, Some 2)] /\
  raw_balance (step s_c26 x) "a.near" = M 140 /\
  panics (exec (cx "a.near" 0 (61 * DAY)) s_c26 (ClearPositions [0; 3]%nat)) = true.
Proof. conj; vmr. Qed.
