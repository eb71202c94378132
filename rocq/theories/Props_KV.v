(** Props_KV.v -- C53: the key-value store contract. *)

From Verif Require Import KVProofs.

(** get_value never panics and is the last accepted write *)
Theorem C53_last_write :
  forall owner operator tr k, kv_get_value (kv_run (kv_new owner operator) tr) k = Ok (kvalue owner operator tr k).
Proof. exact c53_value. Qed.
Print Assumptions C53_last_write.

(** a call succeeds exactly when its caller has the role and the right deposit *)
Theorem C53_authorised :
  forall owner operator tr x,
    (exists r, kv_exec x.1 (kv_run (kv_new owner operator) tr) x.2 = Ok r) <->
    kv_authorised (kv_run (kv_new owner operator) tr) x.
Proof. exact c53_authorised. Qed.
Print Assumptions C53_authorised.

(** the roles are what the owner's calls made them *)
Theorem C53_roles :
  forall owner operator tr, let s := kv_run (kv_new owner operator) tr in
    (kv_get_owner_id s, kv_get_operator_id s) = roles_after owner operator tr.
Proof. exact c53_roles. Qed.
Print Assumptions C53_roles.

(** remove_value answers the value it removes and touches no other key *)
Theorem C53_remove :
  forall owner operator tr c k s' r,
    kv_exec c (kv_run (kv_new owner operator) tr) (KRemove k) = Ok (s', r) ->
    Ok r = kv_get_value (kv_run (kv_new owner operator) tr) k /\ kv_get_value s' k = Ok None /\
    forall k', k' <> k -> kv_get_value s' k' = kv_get_value (kv_run (kv_new owner operator) tr) k'.
Proof. exact c53_remove. Qed.
Print Assumptions C53_remove.

Theorem C53_count :
  forall owner operator tr, exists keys, NoDup keys /\
    kv_get_kv_count (kv_run (kv_new owner operator) tr) = length keys /\
    forall k, In k keys <-> kvalue owner operator tr k <> None.
Proof. exact c53_count. Qed.
Print Assumptions C53_count.

Theorem C53_pages :
  forall owner operator tr k n, let s := kv_run (kv_new owner operator) tr in
    (kv_get_kv_count s <= n * k)%nat ->
    exists l, pages (kv_get_values s) k n = Ok l /\ NoDup l.*1 /\ length l = kv_get_kv_count s /\
      forall key v, In (key, v) l <-> kv_get_value s key = Ok (Some v).
Proof. exact c53_pages. Qed.
Print Assumptions C53_pages.

(** a change of operator, refused calls, overwriting, a batch with a repeated key, removal *)
Definition kcall (p : string) (d : N) (o : kvop) : kvcall := (mkCtx p p d 0 (fun _ => None) (fun _ => None), o).
Definition tr_kv : list kvcall :=
  [ kcall "op" 0 (KSet "a" "1"); kcall "eve" 0 (KSet "a" "666"); kcall "op" 0 (KSetAll [("b", "2"); ("c", "3"); ("b", "4")]);
    kcall "own" 1 (KSetOperator "op2"); kcall "op" 0 (KRemove "b"); kcall "op2" 0 (KRemove "a"); kcall "op2" 0 (KSet "d" "5");
    kcall "own" 0 (KSetOwner "eve"); kcall "op2" 1 (KSet "d" "6"); kcall "own" 0 (KNew "eve" "eve") ].
Example C53_example :
  pages (kv_get_values (kv_run (kv_new "own" "op") tr_kv)) 2 2 = Ok [("c", "3"); ("b", "4"); ("d", "5")] /\
  map (kvalue "own" "op" tr_kv) ["a"; "b"; "c"; "d"] = [None; Some "4"; Some "3"; Some "5"] /\
  roles_after "own" "op" tr_kv = ("own", "op2").
Proof. split; [|split]; vm_compute; reflexivity. Qed.
