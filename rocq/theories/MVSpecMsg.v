(** MVSpecMsg.v -- C91: what the text sent along with a token transfer orders, when the order is carried out, and the ledger then.
    The text is read by the grammar of JsonSpec.v; none of the model's readers is used. *)

From Verif Require Export JsonSpec MVSpecFits.

Inductive order :=
| Distribute (l : list (string * N))      (* to these accounts, in the token's units for claims *)
| LockFor (w : string) (days : N)
| LockOwn (days : N).

Definition says (msg : string) (o : order) : Prop :=
  match o with
  | Distribute l => exists t, msg = "for-claims:" +:+ t /\ around (fun x => list_text (2 ^ 64) x l) t
  | LockFor w days => exists t, msg = "[" +:+ t /\ around (fun x => pair_text (2 ^ 16) x (w, days)) msg
  | LockOwn days => u16_text msg days
  end.

(** the code cuts the message after its eleventh byte, which must not be inside a character *)
Definition cut_ok (msg : string) : Prop := forall a, String.get 11 msg = Some a -> ~ cont a.

Definition obeyed (by_ : string) (L : ledger) (sender : string) (amount : N) (msg : string) (o : order) : Prop :=
  match o with
  | Distribute l =>
      Forall (fun p => 0 < p.2) l /\
      ((by_ = l_mpdao L /\ amount = 1000000 * sum_by snd l /\ u128 (l_mp_total L + amount) /\ u128 (l_mp_ever L + amount)) \/
       (by_ <> l_mpdao L /\ by_ = l_stnear L /\ amount = 10 ^ 20 * sum_by snd l /\
        u128 (l_st_total L + amount) /\ u128 (l_st_ever L + amount)))
  | LockFor w days =>
      by_ = l_mpdao L /\ l_min_deposit L <= amount /\ sender = l_owner L /\ cut_ok msg /\ may_lock L w days 0 /\
      lock_fits L (a_pos (l_acct L w)) amount days
  | LockOwn days =>
      by_ = l_mpdao L /\ l_min_deposit L <= amount /\ may_lock L sender days 0 /\ lock_fits L (a_pos (l_acct L sender)) amount days
  end.

(** the units of the list that name [w] *)
Definition share (w : string) (l : list (string * N)) : N := sum_by (fun p => if String.eqb p.1 w then p.2 else 0) l.
Definition result (by_ : string) (L : ledger) (sender : string) (amount : N) (o : order) : ledger :=
  match o with
  | Distribute l =>
      if String.eqb by_ (l_mpdao L)
      then L <| l_mp := fun w => l_mp L w + 1000000 * share w l |> <| l_mp_total := l_mp_total L + amount |>
             <| l_mp_ever := l_mp_ever L + amount |>
      else L <| l_st := fun w => l_st L w + 10 ^ 20 * share w l |> <| l_st_total := l_st_total L + amount |>
             <| l_st_ever := l_st_ever L + amount |>
  | LockFor w days => lock_for w amount days L
  | LockOwn days => lock_for sender amount days L
  end.

(** the call reads its JSON with serde_json *)
Definition reads_json (c : ctx) : Prop :=
  (forall t, c_json_pair c t = json_pair t) /\ (forall t, c_json_claims c t = json_claims t).
