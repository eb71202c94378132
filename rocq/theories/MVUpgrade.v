(** MVUpgrade.v -- meta-vote-contract/src/migrate.rs on the account's storage: the record STATE is read and written, no other is.

    Simplified: as in Migrate.v and MVBytes.v. *)

From Verif Require Export Migrate MVAsk.

(** migrate.rs:39-86, with what near_bindgen adds to it (Migrate.v): env::state_read and the env::state_write of the returned struct
    use the key "STATE" *)
Definition xb_migrate (self : string) (st : flat) (c : ctx) : res flat :=
  b ← migrate c self (st !! "STATE"); Ok (<["STATE" := b]> st).
