(** Props_Migrate.v -- C33: the state upgrade. *)

From Verif Require Import MigrateProofs.

(** From the bytes of any old state, migrate() by the contract account writes the bytes of a new
    state with inactive filters.  Whatever the other storage records hold, every view answers what
    it answers on the old fields. *)
Theorem C33_migrate_preserves :
  forall rd self c o,
    old_fits o -> c_deposit c = 0 -> c_pred c = self ->
    exists b n, migrate c self (Some (enc_old o)) = Ok b /\ try_from_slice dec_new b = Some n /\
      get_lock_in_vote_filters (state_of rd self n) = (0, None, 0) /\
      (forall now addr obj, ~ lock_in_applies (state_of rd self n) now addr obj) /\
      forall e a i, same_views (state_of rd self (root_with o e a i)) (state_of rd self n).
Proof. exact c33_views. Qed.
Print Assumptions C33_migrate_preserves.

Theorem C33_only_contract_account :
  forall c self st b, migrate c self st = Ok b -> c_pred c = self /\ c_deposit c = 0.
Proof. exact c33_only_self. Qed.
Print Assumptions C33_only_contract_account.

(** a second migrate() does nothing: it cannot switch off filters set since the upgrade *)
Theorem C33_only_once :
  forall c self o e a i b, old_fits o -> migrate c self (Some (enc_new (root_with o e a i))) <> Ok b.
Proof. exact c33_once. Qed.
Print Assumptions C33_only_once.

(** if the old fields and storage are those of a state reached by calls, so is the upgraded state *)
Theorem C33_reachable :
  forall s0 tr rd o e a i,
    state_of rd (self_id (run s0 tr)) (root_with o e a i) = run s0 tr ->
    exists x : call, c_pred x.1 = operator_id (run s0 tr) /\
      state_of rd (self_id (run s0 tr)) (migrate_root o) = run s0 (tr ++ [x]).
Proof. exact c33_reachable. Qed.
Print Assumptions C33_reachable.

(** a small old state, through the bytes *)
Definition ex_umh (p : string) (n : N) : umh := mkUmh (p +:+ "i") n (p +:+ "k") n (p +:+ "v").
Definition ex_old : oldroot :=
  mkOldRoot "own.near" "op.near" (ex_umh "0" 3) (ex_umh "1" 2) 30 300 1000000 20 20 "mpdao.near" 123456789012345678901234567890
    (ex_umh "2" 1) 77 66 "stnear.near" (ex_umh "3" 0) 55 44 33 (ex_umh "4" 9) "prev.near" (ex_umh "5" 1) "6" "7".
Definition ex_ctx (p : string) : ctx := mkCtx p p 0 0 (fun _ => None) (fun _ => None).
Example C33_example :
  String.length (enc_old ex_old) = 397%nat /\
  (b ← migrate (ex_ctx "mv.near") "mv.near" (Some (enc_old ex_old)); expect (try_from_slice dec_new b) "")
    = Ok (root_with ex_old 0 None 0) /\
  (b ← migrate (ex_ctx "mv.near") "mv.near" (Some (enc_old ex_old)); migrate (ex_ctx "mv.near") "mv.near" (Some b))
    = Panic "Cannot deserialize the contract state." /\
  migrate (ex_ctx "eve.near") "mv.near" (Some (enc_old ex_old)) = Panic "Method is private".
Proof. split; [|split; [|split]]; vm_compute; reflexivity. Qed.
Example C33_example_fits : old_fits ex_old.
Proof. unfold old_fits, umh_fits, str_fits. cbn -[N.lt]. repeat split; vm_compute; reflexivity. Qed.
