(** MVSpecLog.v -- what a reader of the log makes of its lines (C80).  Nothing of the model's functions is used. *)

From Verif Require Export MVLog MVSpecStep.

(** votes per account, address, object, as read from the log *)
Definition book := string -> string -> string -> N.
Definition entry (w addr obj : string) (n : N) (f : book) : book :=
  fun w' a' o' => if decide (w' = w /\ a' = addr /\ o' = obj) then n else f w' a' o'.
Definition told (f : book) (l : line) : book :=
  match l with
  | LVote w n o a => entry w a o (f w a o + n) f
  | LUp w n o a | LDown w n o a => entry w a o n f
  | LUnvote w o a => entry w a o 0 f
  | _ => f
  end.
Definition told_all (ls : list line) (f : book) : book := fold_left told ls f.
Definition nothing_told : book := fun _ _ _ => 0.

(** names of accounts and addresses hold no space, as in NEAR account ids; object ids are free *)
Fixpoint no_space (s : string) : bool :=
  match s with EmptyString => true | String a r => negb (bool_decide (a = " "%char)) && no_space r end.
Definition clean (l : line) : Prop :=
  match l with
  | LUnlock w _ | LUnlockPart w _ | LExtend w _ _ | LRelock w _ | LRelockPart w _ | LRelockBal w | LGodspeed w
  | LSent _ w | LFailed _ w | LStSent w _ | LStFailed _ w | LDeposit _ w => no_space w = true
  | LVote w _ _ a | LUp w _ _ a | LDown w _ _ a | LUnvote w _ a => no_space w = true /\ no_space a = true
  | LMirror _ _ _ => True
  end.

(** all tokens an account has in its positions *)
Definition in_positions (s : state) (w : string) : N := sum_by j_amount (get_all_locking_positions 0 s w).

(** what a line about positions says; [L], [L']: what is shown before and after *)
Definition in_lock (a : acct) : N := sum_by (fun p => if locked p then p_amount p else 0) (a_pos a).
Definition line_holds (now : N) (L L' : ledger) (l : line) : Prop :=
  match l with
  | LUnlock w i =>
      exists q, a_pos (l_acct L w) !! i = Some q /\ a_pos (l_acct L' w) !! i = Some (mkPos (p_amount q) (p_days q) (p_vp q) (Some now))
  | LUnlockPart w i =>
      exists q q' r, a_pos (l_acct L w) !! i = Some q /\ a_pos (l_acct L' w) !! i = Some q' /\
        last (a_pos (l_acct L' w)) = Some r /\ p_since r = Some now /\ p_since q' = p_since q /\
        p_amount q = p_amount q' + p_amount r /\ 0 < p_amount q' /\ 0 < p_amount r
  | LExtend w i d =>
      exists q q', a_pos (l_acct L w) !! i = Some q /\ a_pos (l_acct L' w) !! i = Some q' /\
        p_since q = None /\ p_since q' = None /\ p_amount q' = p_amount q /\ p_days q < d /\ p_days q' = d
  | LRelock w i =>
      exists q t n, a_pos (l_acct L w) !! i = Some q /\ p_since q = Some t /\ a_bal (l_acct L w) = a_bal (l_acct L' w) + n /\
        in_lock (l_acct L' w) = in_lock (l_acct L w) + p_amount q + n
  | LRelockPart w i =>
      exists q t n, a_pos (l_acct L w) !! i = Some q /\ p_since q = Some t /\
        in_lock (l_acct L' w) = in_lock (l_acct L w) + n /\
        a_bal (l_acct L' w) + sum_by p_amount (a_pos (l_acct L' w)) = a_bal (l_acct L w) + sum_by p_amount (a_pos (l_acct L w))
  | LRelockBal w =>
      exists n, a_bal (l_acct L w) = a_bal (l_acct L' w) + n /\ in_lock (l_acct L' w) = in_lock (l_acct L w) + n
  | _ => True
  end.
