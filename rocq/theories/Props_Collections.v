(** Props_Collections.v -- C35: the storage maps are finite maps. *)

From Verif Require Import Collections.

(** Any sequence of operations on any number of collections, each created again only while it is
    empty, never panics; each collection holds exactly the last written values. *)
Theorem C35_storage_maps_are_maps :
  forall (V : Type) (tr : list (cop V)),
    clean_news tr -> exists s, crun cempty tr = Ok s /\ forall p, let h := handle s p in
      (forall k, uget s.1 h k = Ok (value tr p k)) /\
      exists l, uentries s.1 h = Ok l /\ ukeys s.1 h = Ok l.*1 /\ uvals s.1 h = Ok l.*2 /\
        NoDup l.*1 /\ length l = h_len h /\ (forall k v, In (k, v) l <-> value tr p k = Some v).
Proof. exact @c35_map. Qed.
Print Assumptions C35_storage_maps_are_maps.

(** Iteration order: insertion order, except that a removal moves the last entry into the hole. *)
Theorem C35_iteration_order :
  forall (V : Type) (tr : list (cop V)) o s s' p l l',
    clean_news (tr ++ [o]) -> crun cempty tr = Ok s -> cstep s o = Ok s' ->
    uentries s.1 (handle s p) = Ok l -> uentries s'.1 (handle s' p) = Ok l' ->
    match o with
    | CIns q k v =>
        if decide (q = p) then
          (forall i v0, l !! i = Some (k, v0) -> l' = <[i := (k, v)]> l) /\
          (value tr p k = None -> l' = l ++ [(k, v)])
        else l' = l
    | CRem q k =>
        if decide (q = p) then
          (forall i v0, l !! i = Some (k, v0) -> l' = swap_remove i l) /\ (value tr p k = None -> l' = l)
        else l' = l
    | CNew q => l' = l
    end.
Proof. exact @c35_order. Qed.
Print Assumptions C35_iteration_order.

(** two collections; one is emptied, dropped, created again and used again *)
Definition tr_coll2 : list (cop N) :=
  [ CNew "A"; CNew "B"; CIns "A" "x" 1; CIns "B" "x" 10; CIns "A" "y" 2; CIns "A" "z" 3; CRem "A" "x";
    CIns "B" "y" 20; CRem "B" "x"; CRem "B" "y"; CNew "B"; CIns "B" "x" 30; CIns "A" "y" 4 ].
Definition entries_of (tr : list (cop N)) (p : string) : res (list (string * N)) :=
  s ← crun cempty tr; uentries s.1 (handle s p).
Example C35_example :
  clean_news tr_coll2 /\ entries_of tr_coll2 "A" = Ok [("z", 3); ("y", 4)] /\ entries_of tr_coll2 "B" = Ok [("x", 30)] /\
  value tr_coll2 "A" "y" = Some 4 /\ value tr_coll2 "A" "x" = None.
Proof.
  split; [|repeat match goal with |- _ /\ _ => split end; vm_compute; reflexivity].
  intros tr1 p tr2 E k. unfold tr_coll2 in E.
  repeat (destruct tr1 as [|? tr1]; [first [discriminate E | injection E as <- _; unfold value; cbn; repeat case_decide; reflexivity || (exfalso; intuition congruence)]|];
     injection E as <- E).
  destruct tr1; discriminate E.
Qed.
(** creating it again while it is not empty breaks it: a stale index record *)
Example C35_needs_empty :
  crun cempty [CIns "A" "x" 1; CNew "A"; CIns "A" "x" 2] = Panic "index out of bounds".
Proof. vm_compute. reflexivity. Qed.
