(** MVSpecStep.v -- a complete specification of the voting contract (C72): what its views show (a
    ledger), when a call is accepted and what the ledger is afterwards.  There is no storage here, no
    collections and no arithmetic that can fail; nothing of the model's functions is used. *)

From Verif Require Export MVSpecAccept.
From RecordUpdate Require Export RecordUpdate.

(** ** The ledger *)
(** a locking position: unbonding since [p_since] (ms) if any *)
Record pos := mkPos { p_amount : N; p_days : N; p_vp : N; p_since : option N }.
Record acct := mkAcct {
  a_voter : bool;                      (* listed among the voters *)
  a_bal : N;
  a_pos : list pos;
  a_free : N;                          (* available voting power *)
  a_used : N;
  a_votes : string -> string -> N;     (* by address and object *)
}.
Global Instance eta_acct : Settable _ := settable! mkAcct <a_voter; a_bal; a_pos; a_free; a_used; a_votes>.
Record ledger := mkLedger {
  l_self : string; l_owner : string; l_operator : string; l_mpdao : string; l_stnear : string; l_gov : string;
  l_min_days : N; l_max_days : N; l_min_deposit : N; l_max_pos : N; l_max_addr : N; l_fee : N;
  l_hold : N * option string * N;      (* lock-in of votes: until, address, number *)
  l_acct : string -> acct;
  l_power : N; l_tally : string -> string -> N;
  l_mp : string -> N; l_mp_total : N; l_mp_ever : N;      (* claimable mpDAO *)
  l_st : string -> N; l_st_total : N; l_st_ever : N;      (* claimable stNEAR *)
  l_data : string -> option string;                       (* airdrop data *)
  l_pre : string -> option (string * string);             (* announced delegations of an EVM address: to, signature *)
  l_deleg : string -> option (string * string);           (* confirmed ones *)
  l_evms : string -> list string;
}.
Global Instance eta_ledger : Settable _ := settable! mkLedger
  <l_self; l_owner; l_operator; l_mpdao; l_stnear; l_gov; l_min_days; l_max_days; l_min_deposit; l_max_pos; l_max_addr;
   l_fee; l_hold; l_acct; l_power; l_tally; l_mp; l_mp_total; l_mp_ever; l_st; l_st_total; l_st_ever; l_data; l_pre;
   l_deleg; l_evms>.

Definition ok_or {A B} (f : A -> B) (d : B) (r : res A) : B := match r with Ok x => f x | Panic _ => d end.
(** what the views show (and the contract's own account name) *)
Definition pos_of (j : lp_json) : pos := mkPos (j_amount j) (j_days j) (j_vp j) (j_unl j).
Definition acct_of (s : state) (w : string) : acct :=
  mkAcct (bool_decide (w ∈ voter_ids s)) (raw_balance s w) (map pos_of (get_all_locking_positions 0 s w))
    (get_available_voting_power s w) (used_or0 s w) (votes_or0 s w).
Definition observe (s : state) : ledger :=
  let i := get_contract_info s in
  {| l_self := self_id s; l_owner := ci_owner i; l_operator := ci_operator i; l_mpdao := ci_mpdao i;
     l_stnear := ci_stnear i; l_gov := ci_prev_gov i; l_min_days := ci_min_unbond i; l_max_days := ci_max_unbond i;
     l_min_deposit := ci_min_deposit i; l_max_pos := ci_max_lps i; l_max_addr := ci_max_vps i; l_fee := ci_reg_cost i;
     l_hold := get_lock_in_vote_filters s; l_acct := acct_of s; l_power := get_total_voting_power s;
     l_tally := get_total_votes s;
     l_mp := get_claimable_mpdao s; l_mp_total := ci_uncl_mp i; l_mp_ever := ci_accum_mp i;
     l_st := get_claimable_stnear s; l_st_total := ci_uncl_st i; l_st_ever := ci_accum_st i;
     l_data := fun a => ok_or Some None (get_airdrop_account s a);
     l_pre := get_pre_delegate s; l_deleg := fun e => ok_or Some None (get_delegation_signature s e);
     l_evms := get_delegating_evm_addresses s |}.

(** equal in everything shown *)
Definition same_acct (a b : acct) : Prop :=
  a_voter a = a_voter b /\ a_bal a = a_bal b /\ a_pos a = a_pos b /\ a_free a = a_free b /\ a_used a = a_used b /\
  forall x y, a_votes a x y = a_votes b x y.
Definition settings (L : ledger) :=
  (l_self L, l_owner L, l_operator L, l_mpdao L, l_stnear L, l_gov L, l_min_days L, l_max_days L, l_min_deposit L,
   l_max_pos L, l_max_addr L, l_fee L, l_hold L).
Definition same (L M : ledger) : Prop :=
  settings L = settings M /\ (forall w, same_acct (l_acct L w) (l_acct M w)) /\
  l_power L = l_power M /\ (forall x y, l_tally L x y = l_tally M x y) /\
  (forall w, l_mp L w = l_mp M w) /\ l_mp_total L = l_mp_total M /\ l_mp_ever L = l_mp_ever M /\
  (forall w, l_st L w = l_st M w) /\ l_st_total L = l_st_total M /\ l_st_ever L = l_st_ever M /\
  (forall w, l_data L w = l_data M w) /\ (forall w, l_pre L w = l_pre M w) /\
  (forall w, l_deleg L w = l_deleg M w) /\ (forall w, l_evms L w = l_evms M w).

(** ** Changes *)
Definition put {A} (k : string) (v : A) (f : string -> A) : string -> A := fun x => if decide (x = k) then v else f x.
Definition put2 {A} (k1 k2 : string) (v : A) (f : string -> string -> A) : string -> string -> A :=
  fun x y => if decide (x = k1 /\ y = k2) then v else f x y.
Definition on (w : string) (f : acct -> acct) (L : ledger) : ledger := L <| l_acct := put w (f (l_acct L w)) (l_acct L) |>.

Definition power (days amount : N) : N := amount * 10 ^ 18 * days / 60.
Definition locked (p : pos) : bool := match p_since p with None => true | _ => false end.
(** the end of the unbonding that began at [t] *)
Definition ends (p : pos) (t : N) : N := t + p_days p * 86400000.
Definition ended (now : N) (p : pos) : bool := match p_since p with Some t => ends p t <? now | None => false end.

(** a deposit joins the locked position of the same period, if there is one *)
Fixpoint add_to (p : pos) (l : list pos) : list pos :=
  match l with
  | [] => [p]
  | q :: r =>
      if locked q && (p_days q =? p_days p) then mkPos (p_amount q + p_amount p) (p_days q) (p_vp q + p_vp p) None :: r
      else q :: add_to p r
  end.
Definition lock_acct (amount days : N) (a : acct) : acct :=
  a <| a_voter := true |> <| a_pos := add_to (mkPos amount days (power days amount) None) (a_pos a) |>
    <| a_free := a_free a + power days amount |>.
Definition lock_for (w : string) (amount days : N) (L : ledger) : ledger :=
  on w (lock_acct amount days) L <| l_power := l_power L + power days amount |>.

(** a position that leaves the list is replaced by the last one *)
Definition take_out (k : nat) (l : list pos) : list pos :=
  match last l with Some z => take (length l - 1) (<[k := z]> l) | None => [] end.
(** the ended positions among [ks] go to the balance, those with the highest index first *)
Fixpoint collect (now : N) (ks : nat -> bool) (n : nat) (b : N) (l : list pos) : N * list pos :=
  match n with
  | O => (b, l)
  | S k =>
      match l !! k with
      | Some p => if ks k && ended now p then collect now ks k (b + p_amount p) (take_out k l) else collect now ks k b l
      | None => collect now ks k b l
      end
  end.
Definition collect_acct (now : N) (ks : nat -> bool) (a : acct) : acct :=
  let r := collect now ks (length (a_pos a)) (a_bal a) (a_pos a) in a <| a_bal := r.1 |> <| a_pos := r.2 |>.

Definition unlock_acct (now : N) (k : nat) (p : pos) (a : acct) : acct :=
  a <| a_pos := <[k := mkPos (p_amount p) (p_days p) (p_vp p) (Some now)]> (a_pos a) |> <| a_free := a_free a - p_vp p |>.
Definition unlock_part (now : N) (k : nat) (p : pos) (amount : N) (a : acct) : acct :=
  let vp := power (p_days p) amount in
  a <| a_pos := <[k := mkPos (p_amount p - amount) (p_days p) (p_vp p - vp) (p_since p)]> (a_pos a)
               ++ [mkPos amount (p_days p) vp (Some now)] |>
    <| a_free := a_free a - vp |>.
Definition extend (k : nat) (p : pos) (days : N) (a : acct) : acct :=
  let vp := power days (p_amount p) in
  a <| a_pos := <[k := mkPos (p_amount p) days vp None]> (a_pos a) |> <| a_free := a_free a + (vp - p_vp p) |>.
Definition relock_part (now : N) (k : nat) (p : pos) (afp afb : N) (a : acct) : acct :=
  if match p_since p with Some t => now <? ends p t | None => false end
  then a <| a_pos := <[k := mkPos (p_amount p - afp) (p_days p) (power (p_days p) (p_amount p - afp)) (p_since p)]> (a_pos a) |>
         <| a_bal := a_bal a - afb |>
  else a <| a_pos := take_out k (a_pos a) |> <| a_bal := a_bal a + (p_amount p - afp) - afb |>.

(** the votes of [w] for an object become [n] *)
Definition set_votes (w addr obj : string) (n : N) (L : ledger) : ledger :=
  let a := l_acct L w in
  let old := a_votes a addr obj in
  on w (fun a => a <| a_votes := put2 addr obj n (a_votes a) |> <| a_free := a_free a + old - n |>
                   <| a_used := a_used a + n - old |>) L
    <| l_tally := put2 addr obj (l_tally L addr obj + n - old) (l_tally L) |>.

Definition take_mp (w : string) (amount : N) (L : ledger) : ledger :=
  L <| l_mp := put w (l_mp L w - amount) (l_mp L) |> <| l_mp_total := l_mp_total L - amount |>.
Definition take_st (w : string) (amount : N) (L : ledger) : ledger :=
  L <| l_st := put w (l_st L w - amount) (l_st L) |> <| l_st_total := l_st_total L - amount |>.

Definition no_account : acct := mkAcct false 0 [] 0 0 (fun _ _ => 0).
(** what is left when [n] is paid out of the balance: an empty account is forgotten *)
Definition pay_out (n : N) (a : acct) : acct :=
  if (a_bal a =? n) && match a_pos a with [] => true | _ => false end then no_account
  else a <| a_bal := a_bal a - n |>.

Definition without (e : string) (l : list string) : list string := List.filter (fun x => negb (String.eqb x e)) l.

(** the account and period for which a transfer with message [msg] is locked *)
Definition lock_target (c : ctx) (sender msg : string) : option (string * N) :=
  match after_prefix "[" msg with
  | Some _ => c_json_pair c msg
  | None => match parse_u16 msg with Some d => Some (sender, d) | None => None end
  end.

Definition at_pos (L : ledger) (w : string) (k : nat) (f : pos -> ledger) : ledger :=
  match a_pos (l_acct L w) !! k with Some p => f p | None => L end.

(** the balance after collecting, and the amount paid (0 asks for all) *)
Definition collected_acct (c : ctx) (L : ledger) (ks : nat -> bool) : acct := collect_acct (now_ms c) ks (l_acct L (c_pred c)).
Definition paid (c : ctx) (L : ledger) (ks : nat -> bool) (amount : N) : N :=
  if amount =? 0 then a_bal (collected_acct c L ks) else amount.
Definition in_list (l : list nat) (k : nat) : bool := bool_decide (k ∈ l).

(** ** The ledger after an accepted call; mirroring is given below *)
Definition next (c : ctx) (L : ledger) (o : op) : ledger :=
  let me := c_pred c in
  let now := now_ms c in
  match o with
  | SetStnear a => L <| l_stnear := a |>
  | SetOperator a => L <| l_operator := a |>
  | SetOwner a => L <| l_owner := a |>
  | UpdateRegCost n => L <| l_fee := n |>
  | UpdateMinUnbond n => L <| l_min_days := n |>
  | UpdateMaxUnbond n => L <| l_max_days := n |>
  | SetPrevGov a => L <| l_gov := a |>
  | SetLockIn until id a => L <| l_hold := (until, a, id) |>
  | UpdateAirdrop d => L <| l_data := put me (Some d) (l_data L) |>
  | OpMultiSetAirdrop l => L <| l_data := fold_left (fun f p => put p.1 (Some p.2) f) l (l_data L) |>
  | ClaimAndLock amount days => lock_for me amount days (take_mp me amount L)
  | ClaimStnear amount => take_st me amount L
  | Unlock k => at_pos L me k (fun p => on me (unlock_acct now k p) L <| l_power := l_power L - p_vp p |>)
  | UnlockPartial k amount => at_pos L me k (fun p =>
      if amount =? p_amount p then on me (unlock_acct now k p) L <| l_power := l_power L - p_vp p |>
      else on me (unlock_part now k p amount) L <| l_power := l_power L - power (p_days p) amount |>)
  | ExtendDays k days => at_pos L me k (fun p =>
      on me (extend k p days) L <| l_power := l_power L + (power days (p_amount p) - p_vp p) |>)
  | Relock k days afb => at_pos L me k (fun p =>
      lock_for me (p_amount p + afb) days
        (on me (fun a => a <| a_pos := take_out k (a_pos a) |> <| a_bal := a_bal a - afb |>) L))
  | RelockPartial k afp days afb => at_pos L me k (fun p =>
      lock_for me (afb + afp) days (on me (relock_part now k p afp afb) L))
  | RelockFromBalance days amount => lock_for me amount days (on me (fun a => a <| a_bal := a_bal a - amount |>) L)
  | ClearPositions l => on me (collect_acct now (in_list l)) L
  | Vote n addr obj => set_votes me addr obj (a_votes (l_acct L me) addr obj + n) L
  | Rebalance n addr obj => set_votes me addr obj n L
  | Unvote addr obj => set_votes me addr obj 0 L
  | VoteDelegated evm n addr obj =>
      let w := evm_account evm in set_votes w addr obj (a_votes (l_acct L w) addr obj + n) L
  | UnvoteDelegated evm addr obj => set_votes (evm_account evm) addr obj 0 L
  | MigrationCreateLps w l data =>
      let M := fold_left (fun M lp => lock_for w (lp.1 / 10 ^ 18) lp.2 M) l L in
      match data, l_data L me with
      | Some d, None => M <| l_data := put me (Some d) (l_data M) |>
      | _, _ => M
      end
  | MirrorLps _ _ => L
  | PreDelegate evm sig => L <| l_pre := put evm (Some (me, sig)) (l_pre L) |>
  | OpRemovePre evm => L <| l_pre := put evm None (l_pre L) |>
  | OpConfirm evm =>
      match l_pre L evm with
      | None => L
      | Some (to, sig) =>
          let M := L <| l_pre := put evm None (l_pre L) |> in
          let add f := put to (f to ++ [evm]) f in
          match l_deleg L evm with
          | Some (old, _) =>
              if decide (old = to) then M
              else M <| l_deleg := put evm (Some (to, sig)) (l_deleg L) |>
                     <| l_evms := add (put old (without evm (l_evms L old)) (l_evms L)) |>
          | None => M <| l_deleg := put evm (Some (to, sig)) (l_deleg L) |> <| l_evms := add (l_evms L) |>
          end
      end
  | RemoveDelegated evm =>
      L <| l_deleg := put evm None (l_deleg L) |> <| l_evms := put me (without evm (l_evms L me)) (l_evms L) |>
  | DelegatedClaim evm amount => take_st (evm_account evm) amount L
  | Withdraw l amount => on me (fun a => pay_out (paid c L (in_list l) amount) (collect_acct now (in_list l) a)) L
  | WithdrawAll => on me (fun a => pay_out (paid c L (fun _ => true) 0) (collect_acct now (fun _ => true) a)) L
  | AfterMp w amount ok =>
      if ok then L else on w (fun a => a <| a_voter := true |> <| a_bal := a_bal a + amount |>) L
  | AfterSt w amount ok =>
      if ok then L else L <| l_st := put w (l_st L w + amount) (l_st L) |> <| l_st_total := l_st_total L + amount |>
  | FtOnTransfer sender amount msg =>
      match after_prefix "for-claims:" msg with
      | Some rest =>
          let l := default [] (c_json_claims c rest) in
          if decide (me = l_mpdao L)
          then L <| l_mp := fun w => l_mp L w + mp_unit * listed_for w l |> <| l_mp_total := l_mp_total L + amount |>
                 <| l_mp_ever := l_mp_ever L + amount |>
          else L <| l_st := fun w => l_st L w + st_unit * listed_for w l |> <| l_st_total := l_st_total L + amount |>
                 <| l_st_ever := l_st_ever L + amount |>
      | None => match lock_target c sender msg with Some (w, days) => lock_for w amount days L | None => L end
      end
  end.

(** Mirroring [lps] (days, amount): the account holds exactly these positions; votes [gone], one object after
    another, are dropped while the others exceed the new power. *)
Definition gone_power (a : acct) (gone : list (string * string)) : N := sum_by (fun x => a_votes a x.1 x.2) gone.
Definition mirror_to (w : string) (lps : list (N * N)) (gone : list (string * string)) (L : ledger) : ledger :=
  let a := l_acct L w in
  let new := sum_by (fun lp => power lp.1 lp.2) lps in
  let u := a_used a - gone_power a gone in
  L <| l_acct := put w (mkAcct true (a_bal a) (map (fun lp => mkPos lp.2 lp.1 (power lp.1 lp.2) None) lps) (new - u) u
                         (fun x y => if decide ((x, y) ∈ gone) then 0 else a_votes a x y)) (l_acct L) |>
    <| l_power := l_power L + new - (a_free a + a_used a) |>
    <| l_tally := fun x y => if decide ((x, y) ∈ gone) then l_tally L x y - a_votes a x y else l_tally L x y |>.
Definition must_go (a : acct) (new : N) (gone : list (string * string)) : Prop :=
  NoDup gone /\ (forall x, x ∈ gone -> 0 < a_votes a x.1 x.2) /\
  (forall r x, gone = r ++ [x] -> new < a_used a - gone_power a r) /\ a_used a - gone_power a gone <= new.

Definition becomes (c : ctx) (L : ledger) (o : op) (M : ledger) : Prop :=
  match o with
  | MirrorLps ext lps =>
      exists gone, must_go (l_acct L (evm_account ext)) (sum_by (fun lp => power lp.1 lp.2) lps) gone /\
        same M (mirror_to (evm_account ext) lps gone L)
  | _ => same M (next c L o)
  end.

(** the token transfers ordered by an accepted call *)
Definition pays (c : ctx) (L : ledger) (o : op) : list eff :=
  let me := c_pred c in
  match o with
  | ClaimStnear n => [PaySt (l_stnear L) me me n]
  | DelegatedClaim evm n => [PaySt (l_stnear L) (evm_account evm) me n]
  | Withdraw l n => [PayMp me (paid c L (in_list l) n)]
  | WithdrawAll => [PayMp me (paid c L (fun _ => true) 0)]
  | _ => []
  end.

(** ** When a call is accepted *)
Definition pos_locked_for (a : acct) (days : N) : Prop := exists p, In p (a_pos a) /\ locked p = true /\ p_days p = days.
Definition npos (a : acct) : N := N.of_nat (length (a_pos a)).
Definition may_lock (L : ledger) (w : string) (days freed : N) : Prop :=
  l_min_days L <= days <= l_max_days L /\ days < 3600 /\
  (pos_locked_for (l_acct L w) days \/ npos (l_acct L w) < l_max_pos L + freed).
Definition longer (now : N) (p : pos) (t days : N) : Prop := now < ends p t -> ends p t < now + days * 86400000.
Definition may_vote (L : ledger) (w : string) (n : N) : Prop :=
  let a := l_acct L w in
  a_voter a = true /\ n <= a_free a /\
  exists voted, NoDup voted /\ (forall x, In x voted <-> exists y, 0 < a_votes a x y) /\ N.of_nat (length voted) <= l_max_addr L.
Definition held (L : ledger) (now : N) (addr obj : string) : Prop :=
  let '(until, a, id) := l_hold L in now < until /\ a = Some addr /\ occurs (" #" +:+ pretty id +:+ " ") obj.
Definition may_unvote (L : ledger) (now : N) (w addr obj : string) : Prop :=
  0 < a_votes (l_acct L w) addr obj /\ ~ held L now addr obj.
Definition delegated_to (L : ledger) (evm w : string) : Prop := exists sig, l_deleg L evm = Some (w, sig).

Definition enabled (c : ctx) (L : ledger) (o : op) : Prop :=
  let me := c_pred c in
  let now := now_ms c in
  let d := c_deposit c in
  let a := l_acct L me in
  match o with
  | SetStnear _ | SetOperator _ | SetOwner _ | UpdateMinUnbond _ | UpdateMaxUnbond _ | SetPrevGov _ => d = 1 /\ me = l_owner L
  | UpdateRegCost _ => d = 0 /\ me = l_owner L
  | OpMultiSetAirdrop _ | SetLockIn _ _ _ => d = 0 /\ me = l_operator L
  | UpdateAirdrop _ => d = l_fee L
  | ClaimAndLock amount days =>
      d = 0 /\ l_min_deposit L <= amount /\ amount <= l_mp L me /\ a_voter a = true /\ may_lock L me days 0
  | ClaimStnear amount => d = 0 /\ amount <= l_st L me
  | Unlock k => d = 0 /\ exists p, a_pos a !! k = Some p /\ p_vp p <= a_free a
  | UnlockPartial k amount =>
      d = 0 /\ exists p, a_pos a !! k = Some p /\
        ((amount = p_amount p /\ p_vp p <= a_free a) \/
         (amount < p_amount p /\ l_min_deposit L <= p_amount p - amount /\ 1000000 <= amount /\ 1000000 <= p_amount p - amount /\
          power (p_days p) amount <= p_vp p /\ power (p_days p) amount <= a_free a /\ npos a < l_max_pos L))
  | ExtendDays k days =>
      d = 0 /\ exists p, a_pos a !! k = Some p /\ locked p = true /\ p_days p < days /\ days < 3600 /\
        p_vp p <= power days (p_amount p)
  | Relock k days afb =>
      d = 0 /\ afb <= a_bal a /\
      exists p t, a_pos a !! k = Some p /\ p_since p = Some t /\ longer now p t days /\ may_lock L me days 1
  | RelockPartial k afp days afb =>
      d = 0 /\ afb <= a_bal a /\ l_min_deposit L <= afb + afp /\
      exists p t, a_pos a !! k = Some p /\ p_since p = Some t /\ afp <= p_amount p /\ longer now p t days /\
        ((now < ends p t /\ afp < p_amount p /\ may_lock L me days 0) \/ (ends p t <= now /\ may_lock L me days 1))
  | RelockFromBalance days amount =>
      d = 0 /\ a_voter a = true /\ amount <= a_bal a /\ l_min_deposit L <= amount /\ may_lock L me days 0
  | ClearPositions l => d = 0 /\ l <> [] /\ forall k, k ∈ l -> is_Some (a_pos a !! k)
  | Vote n _ _ => d = 0 /\ may_vote L me n
  | Rebalance n addr obj =>
      d = 0 /\ 0 < a_votes a addr obj /\ n <> a_votes a addr obj /\ (n = 0 -> ~ held L now addr obj) /\
      n <= a_votes a addr obj + a_free a
  | Unvote addr obj => d = 0 /\ may_unvote L now me addr obj
  | VoteDelegated evm n _ _ => d = 0 /\ delegated_to L evm me /\ may_vote L (evm_account evm) n
  | UnvoteDelegated evm addr obj => d = 0 /\ delegated_to L evm me /\ may_unvote L now (evm_account evm) addr obj
  | MigrationCreateLps w l _ =>
      d = 0 /\ me = l_gov L /\ Forall (fun lp => l_min_days L <= lp.2 <= l_max_days L /\ lp.2 < 3600) l /\
      exists new, NoDup new /\ (forall k, In k new <-> In k l.*2 /\ ~ pos_locked_for (l_acct L w) k) /\
        npos (l_acct L w) + N.of_nat (length new) <= l_max_pos L
  | MirrorLps ext l =>
      d = 0 /\ me = l_operator L /\ NoDup l.*1 /\ N.of_nat (length l) <= l_max_pos L /\ Forall (fun lp => lp.1 < 3600) l
  | PreDelegate evm _ => d = 1 /\ ~ occurs "." evm
  | OpRemovePre _ | OpConfirm _ => d = 1 /\ me = l_operator L
  | RemoveDelegated evm => d = 1 /\ delegated_to L evm me
  | DelegatedClaim evm amount => delegated_to L evm me /\ amount <= l_st L (evm_account evm)
  | Withdraw l amount =>
      d = 1 /\ (forall k, k ∈ l -> is_Some (a_pos a !! k)) /\
      let b := a_bal (collect_acct now (in_list l) a) in 0 < b /\ amount <= b
  | WithdrawAll => d = 1 /\ 0 < a_bal (collect_acct now (fun _ => true) a)
  | AfterMp _ _ _ => d = 0 /\ me = l_self L
  | AfterSt _ amount ok => d = 0 /\ me = l_self L /\ (ok = true \/ 0 < amount)
  | FtOnTransfer sender amount msg =>
      d = 0 /\ sliceable 11 msg /\
      match after_prefix "for-claims:" msg with
      | Some rest =>
          exists l, c_json_claims c rest = Some l /\ Forall (fun p => 0 < p.2 < 2 ^ 64) l /\
            ((me = l_mpdao L /\ amount = mp_unit * sum_by snd l) \/
             (me <> l_mpdao L /\ me = l_stnear L /\ amount = st_unit * sum_by snd l))
      | None =>
          me = l_mpdao L /\ l_min_deposit L <= amount /\ sliceable 1 msg /\
          exists w days, lock_target c sender msg = Some (w, days) /\ may_lock L w days 0 /\
            (after_prefix "[" msg <> None -> days < 2 ^ 16 /\ sender = l_owner L)
      end
  end.

(** ** The new contract *)
Definition fits_types (a : init_args) : Prop :=
  i_min_unbond a < 2 ^ 16 /\ i_max_unbond a < 2 ^ 16 /\ i_min_deposit a < 2 ^ 128 /\ i_max_lps a < 2 ^ 8 /\
  i_max_vps a < 2 ^ 8 /\ i_reg_cost a < 2 ^ 128.
Definition new_ledger (a : init_args) : ledger :=
  {| l_self := i_self a; l_owner := i_owner a; l_operator := i_operator a; l_mpdao := i_mpdao a; l_stnear := i_stnear a;
     l_gov := i_prev_gov a; l_min_days := i_min_unbond a; l_max_days := i_max_unbond a; l_min_deposit := i_min_deposit a;
     l_max_pos := i_max_lps a; l_max_addr := i_max_vps a; l_fee := i_reg_cost a; l_hold := (0, None, 0);
     l_acct := fun _ => no_account; l_power := 0; l_tally := fun _ _ => 0;
     l_mp := fun _ => 0; l_mp_total := 0; l_mp_ever := 0; l_st := fun _ => 0; l_st_total := 0; l_st_ever := 0;
     l_data := fun _ => None; l_pre := fun _ => None; l_deleg := fun _ => None; l_evms := fun _ => [] |}.
