(** Token.v -- the mpDAO token contract: test-meta-token/src/lib.rs.

    The contract delegates to FungibleToken of near-contract-standards 5.0.0, whose source is not
    in /repo; its core is modelled from the published library: core_impl.rs and storage_impl.rs.
    [accounts] is a LookupMap<AccountId, Balance>; only get, insert and remove are used, so the
    order of the list below does not matter.
    Events and logs are in TokenLog.v, the NEAR refunds of the storage methods in TokenNear.v.
    Not modelled: metadata, gas, the price of storage ([t_min_storage] stands for
    storage_balance_bounds().min). *)

From Verif Require Export OMap.
From RecordUpdate Require Import RecordUpdate.

(** lib.rs:40-45 *)
Record tstate := mkTok {
  t_self : string;                 (* env::current_account_id() *)
  t_accounts : omap_t string N;    (* token.accounts *)
  t_supply : N;                    (* token.total_supply *)
  t_owner : string;
  t_minters : list string;
  t_min_storage : N;
}.
Global Instance eta_tok : Settable _ := settable! mkTok <t_self; t_accounts; t_supply; t_owner; t_minters; t_min_storage>.

(** ** FungibleToken *)
(** core_impl.rs internal_unwrap_balance_of *)
Definition t_unwrap_balance (t : tstate) (a : string) : res N :=
  expect (om_get (t_accounts t) a) "The account is not registered".
(** core_impl.rs internal_deposit *)
Definition t_deposit (t : tstate) (a : string) (amount : N) : res tstate :=
  b ← t_unwrap_balance t a;
  _ ← require (b + amount <? U128_SIZE) "Balance overflow";
  _ ← require (t_supply t + amount <? U128_SIZE) "Total supply overflow";
  Ok (t <| t_accounts := om_set (t_accounts t) a (b + amount) |> <| t_supply := t_supply t + amount |>).
(** core_impl.rs internal_withdraw *)
Definition t_withdraw (t : tstate) (a : string) (amount : N) : res tstate :=
  b ← t_unwrap_balance t a;
  _ ← require (amount <=? b) "The account doesn't have enough balance";
  _ ← require (amount <=? t_supply t) "Total supply overflow";
  Ok (t <| t_accounts := om_set (t_accounts t) a (b - amount) |> <| t_supply := t_supply t - amount |>).
(** core_impl.rs internal_transfer *)
Definition t_transfer (t : tstate) (sender receiver : string) (amount : N) : res tstate :=
  _ ← require (negb (bool_decide (sender = receiver))) "Sender and receiver should be different";
  _ ← require (0 <? amount) "The amount should be a positive number";
  t1 ← t_withdraw t sender amount;
  t_deposit t1 receiver amount.
(** core_impl.rs internal_register_account *)
Definition t_register (t : tstate) (a : string) : res tstate :=
  _ ← require (match om_get (t_accounts t) a with None => true | Some _ => false end) "The account is already registered";
  Ok (t <| t_accounts := om_set (t_accounts t) a 0 |>).
(** core_impl.rs internal_ft_resolve_transfer; [result]: the amount the receiver returned as
    unused, [None] if its call failed or the answer does not parse *)
Definition t_resolve (t : tstate) (sender receiver : string) (amount : N) (result : option N) : res (tstate * N) :=
  let unused := match result with Some u => N.min amount u | None => amount end in
  if 0 <? unused then
    let rb := default 0 (om_get (t_accounts t) receiver) in
    if 0 <? rb then
      let refund := N.min rb unused in
      let t1 := t <| t_accounts := om_set (t_accounts t) receiver (rb - refund) |> in
      match om_get (t_accounts t1) sender with
      | Some sb =>
          _ ← require (sb + refund <? U128_SIZE) "Sender balance overflow";
          Ok (t1 <| t_accounts := om_set (t_accounts t1) sender (sb + refund) |>, amount - refund)
      | None =>
          _ ← require (refund <=? t_supply t1) "Total supply underflow";
          Ok (t1 <| t_supply := t_supply t1 - refund |>, amount)
      end
    else Ok (t, amount)
  else Ok (t, amount).
(** storage_impl.rs internal_storage_unregister *)
Definition t_unregister (c : ctx) (t : tstate) (force : bool) : res tstate :=
  _ ← assert_one_yocto c;
  match om_get (t_accounts t) (c_pred c) with
  | Some b =>
      _ ← require ((b =? 0) || force) "Can't unregister the account with the positive balance without force";
      _ ← require (b <=? t_supply t) "attempt to subtract with overflow";
      Ok (t <| t_accounts := om_remove (t_accounts t) (c_pred c) |> <| t_supply := t_supply t - b |>)
  | None => Ok t
  end.

(** ** Methods of the contract *)
(** lib.rs:80-98 *)
Definition t_new (self owner : string) (total_supply min_storage : N) : res tstate :=
  t ← t_register (mkTok self [] 0 owner [] min_storage) owner;
  t_deposit t owner total_supply.
(** lib.rs:100-105 *)
Definition t_assert_owner (c : ctx) (t : tstate) : res unit :=
  require (bool_decide (c_pred c = t_owner t)) "can only be called by the owner".
(** lib.rs:110-115 (payable, any deposit) *)
Definition t_set_owner (c : ctx) (t : tstate) (a : string) : res tstate :=
  _ ← t_assert_owner c t; Ok (t <| t_owner := a |>).
(** lib.rs:118-127 *)
Definition t_add_minter (c : ctx) (t : tstate) (a : string) : res tstate :=
  _ ← assert_one_yocto c;
  _ ← t_assert_owner c t;
  _ ← require (negb (bool_decide (a ∈ t_minters t))) "already in the list";
  Ok (t <| t_minters := t_minters t ++ [a] |>).
(** lib.rs:129-139 *)
Definition t_remove_minter (c : ctx) (t : tstate) (a : string) : res tstate :=
  _ ← assert_one_yocto c;
  _ ← t_assert_owner c t;
  match list_find (eq a) (t_minters t) with
  | Some (i, _) => Ok (t <| t_minters := swap_remove i (t_minters t) |>)
  | None => Panic "not a minter"
  end.
(** lib.rs:150-162 *)
Definition t_mint (c : ctx) (t : tstate) (amount : N) : res tstate :=
  _ ← assert_one_yocto c;
  _ ← require (bool_decide (c_pred c ∈ t_minters t)) "not a minter";
  t_deposit t (c_pred c) amount.
(** lib.rs:165-176 *)
Definition t_burn (c : ctx) (t : tstate) (amount : N) : res tstate :=
  _ ← assert_one_yocto c;
  t_withdraw t (c_pred c) amount.
(** lib.rs:181-184 *)
Definition t_ft_transfer (c : ctx) (t : tstate) (receiver : string) (amount : N) : res tstate :=
  _ ← assert_one_yocto c;
  t_transfer t (c_pred c) receiver amount.
(** lib.rs:227-234; an account already registered gets its deposit back *)
Definition t_storage_deposit (c : ctx) (t : tstate) (a : option string) : res tstate :=
  let acc := default (c_pred c) a in
  match om_get (t_accounts t) acc with
  | Some _ => Ok t
  | None =>
      _ ← require (t_min_storage t <=? c_deposit c) "The attached deposit is less than the minimum storage balance";
      t_register t acc
  end.
(** lib.rs:236-239: nothing can be withdrawn *)
Definition t_storage_withdraw (c : ctx) (t : tstate) (amount : option N) : res tstate :=
  _ ← assert_one_yocto c;
  _ ← t_unwrap_balance t (c_pred c);
  _ ← require (match amount with Some n => n =? 0 | None => true end) "The amount is greater than the available storage balance";
  Ok t.

(** promises *)
Inductive teff :=
| OnTransfer (sender receiver : string) (amount : N) (msg : string).
    (* receiver.ft_on_transfer(sender, amount, msg).then(self.ft_resolve_transfer(sender, receiver, amount)) *)

Inductive top :=
| TSetOwner (a : string)
| TAddMinter (a : string)
| TRemoveMinter (a : string)
| TMint (amount : N)
| TBurn (amount : N)
| TTransfer (receiver : string) (amount : N)
| TTransferCall (receiver : string) (amount : N) (msg : string)
| TResolve (sender receiver : string) (amount : N) (result : option N)
| TStorageDeposit (a : option string)
| TStorageWithdraw (amount : option N)
| TUnregister (force : bool).

Definition noteff (r : res tstate) : res (tstate * list teff) := t ← r; Ok (t, []).
(** lib.rs:186-195 ft_transfer_call, 208-222 ft_resolve_transfer (#[private], non-payable) *)
Definition t_exec (c : ctx) (t : tstate) (o : top) : res (tstate * list teff) :=
  match o with
  | TSetOwner a => noteff (t_set_owner c t a)
  | TAddMinter a => noteff (t_add_minter c t a)
  | TRemoveMinter a => noteff (t_remove_minter c t a)
  | TMint n => noteff (t_mint c t n)
  | TBurn n => noteff (t_burn c t n)
  | TTransfer r n => noteff (t_ft_transfer c t r n)
  | TTransferCall r n m => t' ← t_ft_transfer c t r n; Ok (t', [OnTransfer (c_pred c) r n m])
  | TResolve s r n u => noteff (_ ← non_payable c; _ ← assert_private c (t_self t); '(t', _) ← t_resolve t s r n u; Ok t')
  | TStorageDeposit a => noteff (t_storage_deposit c t a)
  | TStorageWithdraw n => noteff (t_storage_withdraw c t n)
  | TUnregister f => noteff (t_unregister c t f)
  end.

Definition tcall : Type := ctx * top.
Definition t_step (t : tstate) (x : tcall) : tstate :=
  match t_exec x.1 t x.2 with Ok (t', _) => t' | Panic _ => t end.
Definition t_run (t : tstate) (tr : list tcall) : tstate := fold_left t_step tr t.

(** ** Views *)
(** lib.rs:197-203 *)
Definition ft_total_supply (t : tstate) : N := t_supply t.
Definition ft_balance_of (t : tstate) (a : string) : N := default 0 (om_get (t_accounts t) a).
(** lib.rs:107-109, 141-143 *)
Definition t_get_owner_id (t : tstate) : string := t_owner t.
Definition get_minters (t : tstate) : list string := t_minters t.
(** lib.rs:256-258, as a boolean *)
Definition t_registered (t : tstate) (a : string) : bool :=
  match om_get (t_accounts t) a with Some _ => true | None => false end.
