(** Collections.v -- C35: sequences of operations on the storage-level maps of UMap.v.

    A contract holds any number of collections, told apart by their storage prefix.  The handle
    (prefix and length) lives in the contract state; the records live in the heap. *)

From Verif Require Export UMap.

Section Coll.
Context {V : Type}.

(** near_sdk collections::UnorderedMap: insert, remove, new *)
Inductive cop :=
| CIns (p k : string) (v : V)
| CRem (p k : string)
| CNew (p : string).

Definition cstate : Type := heap V * gmap string nat.
Definition handle (s : cstate) (p : string) : hmap := mkH p (default 0%nat (s.2 !! p)).

Definition cstep (s : cstate) (o : cop) : res cstate :=
  match o with
  | CIns p k v => '(hp, h) ← uinsert s.1 (handle s p) k v; Ok (hp, <[p := h_len h]> s.2)
  | CRem p k => '(hp, h) ← uremove s.1 (handle s p) k; Ok (hp, <[p := h_len h]> s.2)
  | CNew p => Ok (s.1, <[p := h_len (unew p)]> s.2)
  end.
Definition crun (s : cstate) (tr : list cop) : res cstate := foldM cstep tr s.
Definition cempty : cstate := (∅, ∅).

(** *** Specification *)

(** what an operation does to the entry of key [k] under prefix [p]: nothing, or this new value *)
Definition touches (o : cop) (p k : string) : option (option V) :=
  match o with
  | CIns p' k' v => if decide (p' = p /\ k' = k) then Some (Some v) else None
  | CRem p' k' => if decide (p' = p /\ k' = k) then Some None else None
  | CNew _ => None
  end.
(** the last write or removal *)
Fixpoint last_write (tr : list cop) (p k : string) : option (option V) :=
  match tr with
  | [] => None
  | o :: tr' => match last_write tr' p k with Some r => Some r | None => touches o p k end
  end.
Definition value (tr : list cop) (p k : string) : option V := default None (last_write tr p k).

(** a collection is created again only while it is empty *)
Definition clean_news (tr : list cop) : Prop :=
  forall tr1 p tr2, tr = tr1 ++ CNew p :: tr2 -> forall k, value tr1 p k = None.

(** ** Proofs *)
Lemma last_write_snoc tr o p k :
  last_write (tr ++ [o]) p k = match touches o p k with Some r => Some r | None => last_write tr p k end.
Proof.
  induction tr as [|x tr IH]; cbn; [destruct (touches o p k); reflexivity|]. rewrite IH. destruct (touches o p k); reflexivity.
Qed.
Lemma value_snoc tr o p k : value (tr ++ [o]) p k = match touches o p k with Some r => r | None => value tr p k end.
Proof. unfold value. rewrite last_write_snoc. destruct (touches o p k); reflexivity. Qed.
Lemma clean_prefix tr tr' : clean_news (tr ++ tr') -> clean_news tr.
Proof. intros H tr1 p tr2 -> k. apply (H tr1 p (tr2 ++ tr')). rewrite <- app_assoc. reflexivity. Qed.

Definition crefines (s : cstate) (tr : list cop) (L : string -> list (string * V)) : Prop :=
  forall p, urep s.1 (handle s p) (L p) /\ uexact s.1 (handle s p) (L p) /\ forall k, om_get (L p) k = value tr p k.

(** the ordered map after one operation *)
Definition oset (L : string -> list (string * V)) (o : cop) (p : string) : list (string * V) :=
  match o with
  | CIns p' k v => if decide (p' = p) then om_set (L p) k v else L p
  | CRem p' k => if decide (p' = p) then om_remove (L p) k else L p
  | CNew p' => L p
  end.

Lemma crefines_step s tr L o :
  crefines s tr L -> clean_news (tr ++ [o]) -> exists s', cstep s o = Ok s' /\ crefines s' (tr ++ [o]) (oset L o).
Proof.
  intros HR Hc. destruct o as [p k v|p k|p].
  - destruct (HR p) as (Hr & Hx & Hv). destruct (cinsert_exact _ _ _ k v Hr Hx) as (ce & len & E & Hr' & Hx').
    cbn [handle h_pref h_len] in E. cbn [cstep]. unfold uinsert. cbn [handle h_pref h_len]. rewrite E. cbn [mbind res_bind].
    eexists. split; [reflexivity|]. intros q. unfold urep, uexact, handle. cbn [fst snd h_pref h_len oset].
    destruct (decide (p = q)) as [<-|Hne].
    + rewrite cell_at_insert_eq, lookup_insert. cbn [default from_option]. unfold Datatypes.id. split; [exact Hr'|]. split; [exact Hx'|].
      intros k'. rewrite value_snoc. cbn [touches]. destruct (decide (k = k')) as [<-|Hk].
      * rewrite om_get_set_eq, decide_True by auto. reflexivity.
      * rewrite om_get_set_ne by exact Hk. rewrite decide_False by (intros [_ ?]; contradiction). apply Hv.
    + rewrite cell_at_insert_ne by exact Hne. rewrite lookup_insert_ne by exact Hne. destruct (HR q) as (A & B & C).
      split; [exact A|]. split; [exact B|]. intros k'. rewrite value_snoc. cbn [touches].
      rewrite decide_False by (intros [? _]; contradiction). apply C.
  - destruct (HR p) as (Hr & Hx & Hv). destruct (cremove_exact _ _ _ k Hr Hx) as (ce & len & E & Hr' & Hx').
    cbn [handle h_pref h_len] in E. cbn [cstep]. unfold uremove. cbn [handle h_pref h_len]. rewrite E. cbn [mbind res_bind].
    eexists. split; [reflexivity|]. intros q. unfold urep, uexact, handle. cbn [fst snd h_pref h_len oset].
    destruct (decide (p = q)) as [<-|Hne].
    + rewrite cell_at_insert_eq, lookup_insert. cbn [default from_option]. unfold Datatypes.id. split; [exact Hr'|]. split; [exact Hx'|].
      pose proof (crep_NoDup _ _ _ Hr) as Hnd.
      intros k'. rewrite value_snoc. cbn [touches]. destruct (decide (k = k')) as [<-|Hk].
      * rewrite om_get_remove_eq, decide_True by auto. reflexivity.
      * rewrite om_get_remove_ne by assumption. rewrite decide_False by (intros [_ ?]; contradiction). apply Hv.
    + rewrite cell_at_insert_ne by exact Hne. rewrite lookup_insert_ne by exact Hne. destruct (HR q) as (A & B & C).
      split; [exact A|]. split; [exact B|]. intros k'. rewrite value_snoc. cbn [touches].
      rewrite decide_False by (intros [? _]; contradiction). apply C.
  - cbn [cstep]. eexists. split; [reflexivity|]. intros q. unfold urep, uexact, handle. cbn [fst snd h_pref h_len oset unew].
    destruct (HR q) as (A & B & C).
    assert (Hv : forall k, om_get (L q) k = value (tr ++ [CNew p]) q k) by (intros k; rewrite value_snoc; apply C).
    destruct (decide (p = q)) as [<-|Hne].
    + assert (EL : L p = []).
      { destruct (L p) as [|[k v] l] eqn:EL; [reflexivity|]. exfalso. specialize (C k). cbn in C. rewrite decide_True in C by reflexivity.
        rewrite (Hc tr p [] eq_refl k) in C. discriminate. }
      rewrite lookup_insert. cbn. rewrite EL in *. split; [split; [reflexivity|]; intros i k v H; rewrite lookup_nil in H; discriminate|].
      split; [exact B|exact Hv].
    + rewrite lookup_insert_ne by exact Hne. split; [exact A|]. split; [exact B|exact Hv].
Qed.
Lemma crefines_empty : crefines cempty [] (fun _ => []).
Proof.
  intros p. unfold urep, uexact, handle, cempty. cbn. rewrite lookup_empty. split; [apply crep_nil|]. split.
  - intros k i H. unfold cell_at in H. rewrite lookup_empty in H. cbn in H. rewrite lookup_empty in H. discriminate.
  - reflexivity.
Qed.
Lemma crun_refines tr : clean_news tr -> exists s, crun cempty tr = Ok s /\ crefines s tr (fold_left oset tr (fun _ => [])).
Proof.
  induction tr as [|o tr IH] using rev_ind; intros Hc; [exists cempty; split; [reflexivity|apply crefines_empty]|].
  destruct (IH (clean_prefix _ _ Hc)) as (s & Hs & HR). destruct (crefines_step _ _ _ o HR Hc) as (s' & Hs' & HR').
  exists s'. split.
  - unfold crun. rewrite foldM_app. unfold crun in Hs. rewrite Hs. cbn [mbind res_bind foldM]. rewrite Hs'. reflexivity.
  - rewrite fold_left_app. exact HR'.
Qed.

Lemma c35_map tr :
  clean_news tr -> exists s, crun cempty tr = Ok s /\ forall p, let h := handle s p in
    (forall k, uget s.1 h k = Ok (value tr p k)) /\
    exists l, uentries s.1 h = Ok l /\ ukeys s.1 h = Ok l.*1 /\ uvals s.1 h = Ok l.*2 /\
      NoDup l.*1 /\ length l = h_len h /\ (forall k v, In (k, v) l <-> value tr p k = Some v).
Proof.
  intros Hc. destruct (crun_refines tr Hc) as (s & Hs & HR). exists s. split; [exact Hs|]. intros p. cbn zeta.
  set (l := fold_left oset tr (fun _ => []) p). destruct (HR p) as (Hr & Hx & Hv). fold l in Hr, Hx, Hv.
  pose proof (crep_NoDup _ _ _ Hr) as Hnd. split.
  - intros k. unfold uget. rewrite (cget_exact _ _ _ _ Hr Hx). rewrite Hv. reflexivity.
  - exists l. unfold uentries, ukeys, uvals. rewrite (crep_keys _ _ _ Hr), (crep_vals _ _ _ Hr). cbn [mbind res_bind].
    split; [f_equal; apply zip_fst_snd|]. split; [reflexivity|]. split; [reflexivity|]. split; [exact Hnd|].
    split; [symmetry; apply Hr|]. intros k v. rewrite <- Hv. split; [apply om_In_get; exact Hnd|apply om_get_Some_In].
Qed.

(** order of iteration *)
Lemma om_set_at (l : list (string * V)) i k v v' : NoDup l.*1 -> l !! i = Some (k, v') -> om_set l k v = <[i := (k, v)]> l.
Proof.
  revert i. induction l as [|[k2 v2] l IH]; intros i Hnd Hl; [rewrite lookup_nil in Hl; discriminate|].
  csimpl in Hnd. apply NoDup_cons in Hnd as [Hk Hnd]. destruct i; cbn in Hl.
  - injection Hl as <- <-. cbn. rewrite decide_True by reflexivity. reflexivity.
  - cbn. rewrite decide_False; [f_equal; apply IH; assumption|]. intros ->. apply Hk. apply elem_of_list_fmap.
    exists (k2, v'). split; [reflexivity|]. eapply elem_of_list_lookup_2; eauto.
Qed.
Lemma om_set_new (l : list (string * V)) k v : om_get l k = None -> om_set l k v = l ++ [(k, v)].
Proof.
  induction l as [|[k2 v2] l IH]; [reflexivity|]. cbn. case_decide; [discriminate|]. intros E. rewrite IH by exact E. reflexivity.
Qed.
Lemma om_index_at (l : list (string * V)) i k v : NoDup l.*1 -> l !! i = Some (k, v) -> om_index l k = Some i.
Proof.
  revert i. induction l as [|[k2 v2] l IH]; intros i Hnd Hl; [rewrite lookup_nil in Hl; discriminate|].
  csimpl in Hnd. apply NoDup_cons in Hnd as [Hk Hnd]. destruct i; cbn in Hl.
  - injection Hl as <- <-. cbn. rewrite decide_True by reflexivity. reflexivity.
  - cbn. rewrite decide_False; [rewrite (IH i Hnd Hl); reflexivity|]. intros ->. apply Hk. apply elem_of_list_fmap.
    exists (k2, v). split; [reflexivity|]. eapply elem_of_list_lookup_2; eauto.
Qed.
Lemma c35_order tr o s s' p l l' :
  clean_news (tr ++ [o]) -> crun cempty tr = Ok s -> cstep s o = Ok s' ->
  uentries s.1 (handle s p) = Ok l -> uentries s'.1 (handle s' p) = Ok l' ->
  match o with
  | CIns q k v =>
      if decide (q = p) then
        (forall i v0, l !! i = Some (k, v0) -> l' = <[i := (k, v)]> l) /\ (value tr p k = None -> l' = l ++ [(k, v)])
      else l' = l
  | CRem q k =>
      if decide (q = p) then
        (forall i v0, l !! i = Some (k, v0) -> l' = swap_remove i l) /\ (value tr p k = None -> l' = l)
      else l' = l
  | CNew q => l' = l
  end.
Proof.
  intros Hc Hs Hst Hl Hl'. destruct (crun_refines tr (clean_prefix _ _ Hc)) as (s1 & Hs1 & HR).
  assert (s1 = s) as -> by congruence. set (L := fold_left oset tr (fun _ => [])) in *.
  destruct (crefines_step _ _ _ o HR Hc) as (s2 & Hs2 & HR2). assert (s2 = s') as -> by congruence.
  assert (He : forall t L0 tr0, crefines t tr0 L0 -> uentries t.1 (handle t p) = Ok (L0 p)).
  { intros t L0 tr0 H0. destruct (H0 p) as (Hr & _ & _). unfold uentries, ukeys, uvals. rewrite (crep_keys _ _ _ Hr), (crep_vals _ _ _ Hr).
    cbn [mbind res_bind]. f_equal. apply zip_fst_snd. }
  rewrite (He _ _ _ HR) in Hl. rewrite (He _ _ _ HR2) in Hl'. injection Hl as <-. injection Hl' as <-.
  destruct (HR p) as (Hr & Hx & Hv). pose proof (crep_NoDup _ _ _ Hr) as Hnd.
  destruct o as [q k v|q k|q]; cbn [oset]; [| |reflexivity]; (destruct (decide (q = p)) as [->|]; [|reflexivity]).
  - split; [intros i v0 Hi; eapply om_set_at; eassumption|]. intros E. apply om_set_new. rewrite Hv. exact E.
  - split; [intros i v0 Hi; unfold om_remove; rewrite (om_index_at _ _ _ _ Hnd Hi); reflexivity|].
    intros E. apply om_remove_None. rewrite Hv. exact E.
Qed.
End Coll.
Arguments cop : clear implicits.
Arguments cstate : clear implicits.
