(** MVSpecSmall.v -- the counters that grow without bound (C77). *)

From Verif Require Export MVSpecFits MVSpecMoney.

(** the all-time counters of distributed tokens, and the stNEAR total, have room for what the call adds *)
Definition spare (c : ctx) (L : ledger) (o : op) : Prop :=
  match o with
  | FtOnTransfer _ amount msg =>
      match after_prefix "for-claims:" msg with
      | Some _ =>
          if decide (c_pred c = l_mpdao L) then u128 (l_mp_ever L + amount)
          else u128 (l_st_total L + amount) /\ u128 (l_st_ever L + amount)
      | None => True
      end
  | AfterSt _ amount false => u128 (l_st_total L + amount)
  | _ => True
  end.
