(** MVSpecFits.v -- which numbers must fit in 128 bits for an enabled call of the voting contract to be
    accepted (C76), in terms of the ledger of MVSpecStep.v. *)

From Verif Require Export MVSpecStep.

Definition u128 (n : N) : Prop := n < 2 ^ 128.

(** locking [amount] for [days] in an account with positions [l]: the power of the tokens, the total power, and the
    position joined, if there is one *)
Definition lock_fits (L : ledger) (l : list pos) (amount days : N) : Prop :=
  u128 (amount * 10 ^ 18) /\ u128 (l_power L + power days amount) /\
  forall p, List.find (fun q => locked q && (p_days q =? days)) l = Some p ->
    u128 (p_amount p + amount) /\ u128 (p_vp p + power days amount).
Fixpoint locks_fit (w : string) (l : list (N * N)) (L : ledger) : Prop :=
  match l with
  | [] => True
  | lp :: r =>
      lock_fits L (a_pos (l_acct L w)) (lp.1 / 10 ^ 18) lp.2 /\ locks_fit w r (lock_for w (lp.1 / 10 ^ 18) lp.2 L)
  end.

Definition fits (c : ctx) (L : ledger) (o : op) : Prop :=
  let me := c_pred c in
  let now := now_ms c in
  let a := l_acct L me in
  match o with
  | ClaimAndLock amount days | RelockFromBalance days amount => lock_fits L (a_pos a) amount days
  | UnlockPartial k amount => forall p, a_pos a !! k = Some p -> amount <> p_amount p -> u128 (amount * 10 ^ 18)
  | ExtendDays k days => forall p, a_pos a !! k = Some p ->
      u128 (p_amount p * 10 ^ 18) /\ u128 (power days (p_amount p)) /\ u128 (l_power L + (power days (p_amount p) - p_vp p))
  | Relock k days afb => forall p, a_pos a !! k = Some p ->
      u128 (p_amount p + afb) /\ lock_fits L (take_out k (a_pos a)) (p_amount p + afb) days
  | RelockPartial k afp days afb => forall p t, a_pos a !! k = Some p -> p_since p = Some t ->
      u128 (afb + afp) /\ lock_fits L (a_pos (relock_part now k p afp afb a)) (afb + afp) days /\
      if now <? ends p t then u128 ((p_amount p - afp) * 10 ^ 18) /\ u128 (power (p_days p) (p_amount p - afp))
      else u128 (a_bal a + (p_amount p - afp))
  | ClearPositions l | Withdraw l _ => u128 (a_bal (collect_acct now (in_list l) a))
  | WithdrawAll => u128 (a_bal (collect_acct now (fun _ => true) a))
  | MigrationCreateLps w l _ => locks_fit w l L
  | MirrorLps _ l =>
      Forall (fun lp => u128 (lp.2 * 10 ^ 18)) l /\ u128 (l_power L + sum_by (fun lp => power lp.1 lp.2) l)
  | AfterMp w amount ok => ok = false -> u128 (a_bal (l_acct L w) + amount)
  | AfterSt _ amount ok => ok = false -> u128 (l_st_total L + amount)
  | FtOnTransfer sender amount msg =>
      match after_prefix "for-claims:" msg with
      | Some _ =>
          if decide (me = l_mpdao L) then u128 (l_mp_total L + amount) /\ u128 (l_mp_ever L + amount)
          else u128 (l_st_total L + amount) /\ u128 (l_st_ever L + amount)
      | None => forall w days, lock_target c sender msg = Some (w, days) -> lock_fits L (a_pos (l_acct L w)) amount days
      end
  | _ => True
  end.

(** ** Whole histories *)
Definition accepted (c : ctx) (L : ledger) (o : op) : Prop := enabled c L o /\ fits c L o.
(** one call: carried out if it is accepted, without any effect otherwise *)
Definition follows (L : ledger) (x : call) (M : ledger) (e : list eff) : Prop :=
  (accepted x.1 L x.2 /\ becomes x.1 L x.2 M /\ e = pays x.1 L x.2) \/ (~ accepted x.1 L x.2 /\ same M L /\ e = []).
(** from [L] the calls lead to [M] and order the token transfers [e] *)
Fixpoint leads (L : ledger) (tr : list call) (M : ledger) (e : list eff) : Prop :=
  match tr with
  | [] => same M L /\ e = []
  | x :: r => exists K e1 e2, follows L x K e1 /\ leads K r M e2 /\ e = e1 ++ e2
  end.
