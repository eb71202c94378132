(** MVSpecMoney.v -- vocabulary of the specifications about tokens, rewards and delegation
    (C05, C07, C08, C16-C19, C22-C24, C32, C34, C36, C37). *)

From Verif Require Export MVSpec.

(** ** Sums over a history: only calls that succeed count *)
Fixpoint run_sum (f : state -> call -> list eff -> N) (s : state) (tr : list call) : N :=
  match tr with
  | [] => 0
  | x :: tr' =>
      match exec x.1 s x.2 with
      | Ok (s', e) => f s x e + run_sum f s' tr'
      | Panic _ => run_sum f s tr'
      end
  end.

(** ** mpDAO and stNEAR in and out of one call *)

(** what the contract owes in mpDAO *)
Definition mp_owed (s : state) : N :=
  sum_by (fun vid => raw_balance s vid + positions_amount s vid) (voter_ids s)
  + get_total_unclaimed_mpdao s.

Definition mp_sent (e : list eff) : N :=
  sum_by (fun f => match f with PayMp _ a => a | _ => 0 end) e.
Definition st_sent (e : list eff) : N :=
  sum_by (fun f => match f with PaySt _ _ _ a => a | _ => 0 end) e.

(** a transfer announced by the token contract, or a withdrawal reported as failed *)
Definition mp_received (s : state) (x : call) : N :=
  match x.2 with
  | FtOnTransfer _ amount _ => if decide (c_pred x.1 = mpdao_addr s) then amount else 0
  | AfterMp _ amount false => amount
  | _ => 0
  end.
Definition st_received (s : state) (x : call) : N :=
  match x.2 with
  | FtOnTransfer _ amount _ =>
      if decide (c_pred x.1 = mpdao_addr s) then 0
      else if decide (c_pred x.1 = stnear_addr s) then amount else 0
  | AfterSt _ amount false => amount
  | _ => 0
  end.

(** the two calls that import positions from another contract *)
Definition imports (x : call) : bool :=
  match x.2 with MirrorLps _ _ | MigrationCreateLps _ _ _ => true | _ => false end.

(** what they add and what a mirroring replaces *)
Definition import_in (x : call) : N :=
  match x.2 with
  | MirrorLps _ l => sum_by snd l
  | MigrationCreateLps _ l _ => sum_by (fun lp => lp.1 / 10 ^ 18) l
  | _ => 0
  end.
Definition import_out (s : state) (x : call) : N :=
  match x.2 with MirrorLps ext _ => positions_amount s (ext +:+ ".evmp.near") | _ => 0 end.

(** ** Rewards *)

(** what follows the prefix [p] in [s] *)
Fixpoint after_prefix (p s : string) : option string :=
  match p, s with
  | EmptyString, _ => Some s
  | String a p', String b s' => if Ascii.eqb a b then after_prefix p' s' else None
  | String _ _, EmptyString => None
  end.

(** the (account, units) list of a for-claims transfer; [c_json_claims] decodes its JSON *)
Definition claims_list (x : call) : option (list (string * N)) :=
  match x.2 with
  | FtOnTransfer _ _ msg =>
      match after_prefix "for-claims:" msg with
      | Some rest => c_json_claims x.1 rest
      | None => None
      end
  | _ => None
  end.

(** units listed for account [a] *)
Definition listed_for (a : string) (l : list (string * N)) : N :=
  sum_by (fun p => if decide (p.1 = a) then p.2 else 0) l.

(** amounts in the smallest units: whole mpDAO has 6 decimals, a unit of stNEAR is 1e-4 of 1e24 *)
Definition mp_unit : N := 10 ^ 6.
Definition st_unit : N := 10 ^ 20.

(** distributed to [a] by a call *)
Definition mp_given (a : string) (s : state) (x : call) (e : list eff) : N :=
  if decide (c_pred x.1 = mpdao_addr s) then mp_unit * listed_for a (default [] (claims_list x)) else 0.
Definition st_given (a : string) (s : state) (x : call) (e : list eff) : N :=
  if decide (c_pred x.1 = mpdao_addr s) then 0
  else if decide (c_pred x.1 = stnear_addr s) then st_unit * listed_for a (default [] (claims_list x)) else 0.

(** claimed by [a] *)
Definition mp_claimed (a : string) (s : state) (x : call) (e : list eff) : N :=
  match x.2 with
  | ClaimAndLock amount _ => if decide (c_pred x.1 = a) then amount else 0
  | _ => 0
  end.
(** stNEAR sent out of the claims of [a] *)
Definition st_claimed (a : string) (s : state) (x : call) (e : list eff) : N :=
  sum_by (fun f => match f with PaySt _ src _ n => if decide (src = a) then n else 0 | _ => 0 end) e.
(** stNEAR put back after a transfer reported as failed *)
Definition st_restored (a : string) (s : state) (x : call) (e : list eff) : N :=
  match x.2 with
  | AfterSt src amount false => if decide (src = a) then amount else 0
  | _ => 0
  end.

(** the same for all accounts together *)
Definition mp_given_all (s : state) (x : call) (e : list eff) : N :=
  if decide (c_pred x.1 = mpdao_addr s) then mp_unit * sum_by snd (default [] (claims_list x)) else 0.
Definition st_given_all (s : state) (x : call) (e : list eff) : N :=
  if decide (c_pred x.1 = mpdao_addr s) then 0
  else if decide (c_pred x.1 = stnear_addr s) then st_unit * sum_by snd (default [] (claims_list x)) else 0.
Definition mp_claimed_all (s : state) (x : call) (e : list eff) : N :=
  match x.2 with ClaimAndLock amount _ => amount | _ => 0 end.
Definition st_claimed_all (s : state) (x : call) (e : list eff) : N := st_sent e.
Definition st_restored_all (s : state) (x : call) (e : list eff) : N :=
  match x.2 with AfterSt _ amount false => amount | _ => 0 end.

(** C16 *)
Definition claims_match (s : state) : Prop :=
  exists lm ls,
    get_claims s 0 (length (claim_mp s)) = Ok lm /\ get_stnear_claims s 0 (length (claim_st s)) = Ok ls /\
    NoDup lm.*1 /\ NoDup ls.*1 /\
    (forall a n, In (a, n) lm <-> get_claimable_mpdao s a = n /\ 0 < n) /\
    (forall a n, In (a, n) ls <-> get_claimable_stnear s a = n /\ 0 < n) /\
    get_total_unclaimed_mpdao s = sum_by snd lm /\
    ci_uncl_st (get_contract_info s) = sum_by snd ls.

(** C17: a distribution of [l], each unit worth [u], of one token (its claims [g], unclaimed total
    and accumulated total before and after) *)
Definition distributed (u amount : N) (l : list (string * N))
  (g g' : string -> N) (un un' ac ac' : N) : Prop :=
  amount = u * sum_by snd l /\
  (forall a, g' a = g a + u * listed_for a l) /\
  un' = un + amount /\ ac' = ac + amount.

(** C19: what [claim_and_lock] needs besides claimable mpDAO *)
Definition lockable (s : state) (vid : string) (amount days : N) : Prop :=
  let i := get_contract_info s in
  let ps := get_all_locking_positions 0 s vid in
  ci_min_deposit i <= amount /\ ci_min_unbond i <= days <= ci_max_unbond i /\ days < 3600 /\
  (* room for one more position, or a locked one with this period *)
  (N.of_nat (length ps) < ci_max_lps i \/ exists j, In j ps /\ j_is_locked j = true /\ j_days j = days) /\
  N.of_nat (length ps) < 256 /\
  (* all numbers fit *)
  amount * 10 ^ 18 < 2 ^ 128 /\
  positions_amount s vid + amount < 2 ^ 128 /\
  sum_by j_vp ps + amount * 10 ^ 18 * days / 60 < 2 ^ 128 /\
  get_available_voting_power s vid + amount * 10 ^ 18 * days / 60 < 2 ^ 128 /\
  get_total_voting_power s + amount * 10 ^ 18 * days / 60 < 2 ^ 128.

(** ** Time lock (C08) *)

(** (voter, amount, days) credited by a successful call *)
Definition credits (s : state) (x : call) : list (string * N * N) :=
  match x.2 with
  | FtOnTransfer sender amount msg =>
      match after_prefix "for-claims:" msg with
      | Some _ => []
      | None =>
          match parse_u16 msg with
          | Some d => [(sender, amount, d)]
          | None => match c_json_pair x.1 msg with Some (v, d) => [(v, amount, d)] | None => [] end
          end
      end
  | ClaimAndLock amount d => [(c_pred x.1, amount, d)]
  | MigrationCreateLps vid l _ => map (fun lp => (vid, lp.1 / 10 ^ 18, lp.2)) l
  | MirrorLps ext l => map (fun lp => (ext +:+ ".evmp.near", lp.2, lp.1)) l
  | _ => []
  end.
(** credited to [vid] and, if the clock of the unbonding period started at once, free by [T] *)
Definition matured (vid : string) (T : N) (s : state) (x : call) (e : list eff) : N :=
  sum_by (fun '(v, amount, d) =>
    if decide (v = vid) then if now_ms x.1 + d * 86400000 <=? T then amount else 0 else 0)
    (credits s x).
Definition withdrawn (vid : string) (s : state) (x : call) (e : list eff) : N :=
  sum_by (fun f => match f with PayMp v a => if decide (v = vid) then a else 0 | _ => 0 end) e.
Definition given_back (vid : string) (s : state) (x : call) (e : list eff) : N :=
  match x.2 with
  | AfterMp v amount false => if decide (v = vid) then amount else 0
  | _ => 0
  end.

(** ** Decimal numbers (C37) *)
Definition digit_value (a : ascii) : N := N_of_ascii a - 48.
Inductive decimal : string -> N -> Prop :=
| dec_one a : 48 <= N_of_ascii a <= 57 -> decimal (String a EmptyString) (digit_value a)
| dec_more s n a : decimal s n -> 48 <= N_of_ascii a <= 57 ->
    decimal (s +:+ String a EmptyString) (10 * n + digit_value a).
Definition u16_text (s : string) (n : N) : Prop :=
  n < 65536 /\ (decimal s n \/ exists s', s = "+" +:+ s' /\ decimal s' n).

(** ** Delegation (C22-C24) *)
Definition delegation_consistent (s : state) : Prop :=
  (forall e a, get_delegate s e = Some a <-> In e (get_delegating_evm_addresses s a)) /\
  (forall a, NoDup (get_delegating_evm_addresses s a)).

(** the account of an EVM address *)
Definition evm_account (e : string) : string := e +:+ ".evmp.near".

(** [x] succeeds after the history [tr] *)
Definition succeeds_after (s0 : state) (tr : list call) (x : call) : Prop :=
  exists s' e, exec x.1 (run s0 tr) x.2 = Ok (s', e).

(** ** Listings page by page (C34): [n] pages of size [k] *)
Fixpoint pages {A} (f : nat -> nat -> res (list A)) (k n : nat) : res (list A) :=
  match n with
  | O => Ok []
  | S n' => l ← pages f k n'; l' ← f (n' * k)%nat k; Ok (l ++ l')
  end.

(** ** Airdrop data (C36): the last value listed for [k] *)
Fixpoint last_listed (k : string) (l : list (string * string)) : option string :=
  match l with
  | [] => None
  | p :: l' =>
      match last_listed k l' with
      | Some v => Some v
      | None => if decide (p.1 = k) then Some p.2 else None
      end
  end.
