(** KVProofs.v -- C53: the key-value store is a map, written only by its operator. *)

From Verif Require Export KV MVMisc.

(** *** Specification, over the history of calls *)

(** the value a call assigns to key [k], if it assigns one; [Some None] is a removal *)
Fixpoint last_pair (l : list (string * string)) (k : string) : option string :=
  match l with
  | [] => None
  | (k', v) :: l' => match last_pair l' k with Some v' => Some v' | None => if decide (k' = k) then Some v else None end
  end.
Definition kwrites (o : kvop) (k : string) : option (option string) :=
  match o with
  | KSet k' v => if decide (k' = k) then Some (Some v) else None
  | KSetAll l => Some <$> last_pair l k
  | KRemove k' => if decide (k' = k) then Some None else None
  | _ => None
  end.

(** who may call what, in terms of the views *)
Definition kv_authorised (s : kvstate) (x : kvcall) : Prop :=
  match x.2 with
  | KNew _ _ => False
  | KSetOperator _ | KSetOwner _ => c_deposit x.1 = 1 /\ c_pred x.1 = kv_get_owner_id s
  | KSet _ _ | KSetAll _ | KRemove _ => c_deposit x.1 = 0 /\ c_pred x.1 = kv_get_operator_id s
  end.
(** the roles are determined by the authorised role changes *)
Fixpoint roles_after (owner operator : string) (tr : list kvcall) : string * string :=
  match tr with
  | [] => (owner, operator)
  | (c, o) :: tr' =>
      let auth := (c_deposit c =? 1) && bool_decide (c_pred c = owner) in
      match o with
      | KSetOwner a => roles_after (if auth then a else owner) operator tr'
      | KSetOperator a => roles_after owner (if auth then a else operator) tr'
      | _ => roles_after owner operator tr'
      end
  end.
(** an accepted data call of a history: sent by the operator of that moment, without deposit *)
Definition accepted_at (owner operator : string) (tr1 : list kvcall) (x : kvcall) : bool :=
  (c_deposit x.1 =? 0) && bool_decide (c_pred x.1 = (roles_after owner operator tr1).2).
(** [kvalue]: the last accepted write to [k] in the history *)
Fixpoint kvalue_from (owner operator : string) (tr1 tr : list kvcall) (k : string) : option (option string) :=
  match tr with
  | [] => None
  | x :: tr' =>
      match kvalue_from owner operator (tr1 ++ [x]) tr' k with
      | Some r => Some r
      | None => if accepted_at owner operator tr1 x then kwrites x.2 k else None
      end
  end.
Definition kvalue (owner operator : string) (tr : list kvcall) (k : string) : option string :=
  default None (kvalue_from owner operator [] tr k).

(** ** Proofs *)
Definition KVI (s : kvstate) (l : list (string * string)) : Prop := crep (k_cell s) (k_len s) l /\ cexact (k_cell s) l.

Lemma kv_insert_ok s l kv : KVI s l -> exists s', kv_insert s kv = Ok s' /\ KVI s' (om_set l kv.1 kv.2) /\ k_owner s' = k_owner s /\ k_operator s' = k_operator s.
Proof.
  intros [Hr Hx]. destruct (cinsert_exact _ _ _ kv.1 kv.2 Hr Hx) as (ce & len & E & Hr' & Hx'). unfold kv_insert. rewrite E. cbn [mbind res_bind].
  eexists. split; [reflexivity|]. split; [split; assumption|]. split; reflexivity.
Qed.
Lemma kv_inserts_ok kvs : forall s l, KVI s l -> exists s', foldM kv_insert kvs s = Ok s' /\
  KVI s' (fold_left (fun m kv => om_set m kv.1 kv.2) kvs l) /\ k_owner s' = k_owner s /\ k_operator s' = k_operator s.
Proof.
  induction kvs as [|kv kvs IH]; intros s l HI; [exists s; exact (conj eq_refl (conj HI (conj eq_refl eq_refl)))|].
  destruct (kv_insert_ok s l kv HI) as (s1 & E & HI1 & E1 & E2). destruct (IH s1 _ HI1) as (s2 & F & HI2 & F1 & F2).
  exists s2. cbn [foldM fold_left]. rewrite E. cbn [mbind res_bind]. split; [exact F|]. split; [exact HI2|]. split; congruence.
Qed.
Lemma om_sets_get kvs : forall l k, om_get (fold_left (fun m kv => om_set m kv.1 kv.2) kvs l) k =
  match last_pair kvs k with Some v => Some v | None => om_get l k end.
Proof.
  induction kvs as [|[k1 v1] kvs IH]; intros l k; [reflexivity|]. cbn [fold_left last_pair]. rewrite IH.
  destruct (last_pair kvs k); [reflexivity|]. cbn [fst snd]. case_decide as E.
  - subst. apply om_get_set_eq.
  - apply om_get_set_ne. exact E.
Qed.

(** the map after one accepted call *)
Lemma kv_exec_ok s l x :
  KVI s l -> kv_authorised s x -> exists s' r l', kv_exec x.1 s x.2 = Ok (s', r) /\ KVI s' l' /\
    (forall k, om_get l' k = match kwrites x.2 k with Some w => w | None => om_get l k end) /\
    k_owner s' = (match x.2 with KSetOwner a => a | _ => k_owner s end) /\
    k_operator s' = (match x.2 with KSetOperator a => a | _ => k_operator s end) /\
    r = (match x.2 with KRemove k => om_get l k | _ => None end).
Proof.
  destruct x as [c o]. intros HI Ha. unfold kv_authorised, kv_get_owner_id, kv_get_operator_id in Ha. cbn [fst snd] in *.
  destruct o as [ow op|a|a|k v|kvs|k]; [contradiction| | | | | ]; destruct Ha as [Hd Hp]; cbn [kv_exec].
  - unfold kv_set_operator_id, assert_one_yocto, kv_assert_owner. rewrite Hd, Hp. rewrite bool_decide_true by reflexivity. cbn [require mbind res_bind N.eqb Pos.eqb].
    eexists _, _, l. split; [reflexivity|]. split; [exact HI|]. split; [reflexivity|]. auto.
  - unfold kv_set_owner_id, assert_one_yocto, kv_assert_owner. rewrite Hd, Hp. rewrite bool_decide_true by reflexivity. cbn [require mbind res_bind N.eqb Pos.eqb].
    eexists _, _, l. split; [reflexivity|]. split; [exact HI|]. split; [reflexivity|]. auto.
  - unfold kv_set_value, non_payable, kv_assert_operator. rewrite Hd, Hp. rewrite bool_decide_true by reflexivity. cbn [require mbind res_bind N.eqb].
    destruct (kv_insert_ok s l (k, v) HI) as (s1 & E & HI1 & E1 & E2). rewrite E. cbn [mbind res_bind]. exists s1, None, (om_set l k v).
    split; [reflexivity|]. split; [exact HI1|]. split; [|auto]. intros k'. cbn [kwrites]. case_decide as Ek; [subst; apply om_get_set_eq|apply om_get_set_ne; exact Ek].
  - unfold kv_set_values, non_payable, kv_assert_operator. rewrite Hd, Hp. rewrite bool_decide_true by reflexivity. cbn [require mbind res_bind N.eqb].
    destruct (kv_inserts_ok kvs s l HI) as (s1 & E & HI1 & E1 & E2). rewrite E. cbn [mbind res_bind]. eexists s1, None, _.
    split; [reflexivity|]. split; [exact HI1|]. split; [|auto]. intros k'. rewrite om_sets_get. cbn [kwrites]. destruct (last_pair kvs k'); reflexivity.
  - unfold kv_remove_value, non_payable, kv_assert_operator. rewrite Hd, Hp. rewrite bool_decide_true by reflexivity. cbn [require mbind res_bind N.eqb].
    destruct HI as [Hr Hx]. rewrite (cget_exact _ _ _ _ Hr Hx). cbn [mbind res_bind].
    destruct (cremove_exact _ _ _ k Hr Hx) as (ce & len & E & Hr' & Hx'). rewrite E. cbn [mbind res_bind].
    eexists _, _, (om_remove l k). split; [reflexivity|]. split; [split; assumption|]. split; [|auto].
    pose proof (crep_NoDup _ _ _ Hr) as Hnd. intros k'. cbn [kwrites]. case_decide as Ek; [subst; apply om_get_remove_eq; exact Hnd|apply om_get_remove_ne; assumption].
Qed.
Lemma kv_exec_auth s x r : kv_exec x.1 s x.2 = Ok r -> kv_authorised s x.
Proof.
  destruct x as [c o]. unfold kv_authorised, kv_get_owner_id, kv_get_operator_id. cbn [fst snd].
  destruct o as [ow op|a|a|k v|kvs|k]; cbn [kv_exec]; [discriminate| | | | |]; intros H;
    try match type of H with kv_remove_value _ _ _ = _ => fail 1 | _ => apply bind_Ok in H as (s1 & H & _) end;
    unfold kv_set_operator_id, kv_set_owner_id, kv_set_value, kv_set_values, kv_remove_value, assert_one_yocto, non_payable in H;
    apply bind_Ok in H as (u & H1 & H); apply bind_Ok in H as (u2 & H2 & _);
    apply require_Ok in H1; apply require_Ok in H2; apply N.eqb_eq in H1; apply bool_decide_eq_true in H2; auto.
Qed.
Lemma kv_authorised_dec s x : {kv_authorised s x} + {~ kv_authorised s x}.
Proof.
  unfold kv_authorised. destruct x as [c []]; cbn; try (right; tauto); apply decide; apply _.
Qed.
Lemma kv_step_ok s l x :
  KVI s l -> exists l', KVI (kv_step s x) l' /\
    (forall k, om_get l' k = if kv_authorised_dec s x then match kwrites x.2 k with Some w => w | None => om_get l k end else om_get l k).
Proof.
  intros HI. destruct (kv_authorised_dec s x) as [Ha|Hn].
  - destruct (kv_exec_ok _ _ _ HI Ha) as (s' & r & l' & E & HI' & Hg & _). exists l'. unfold kv_step. rewrite E. split; assumption.
  - exists l. unfold kv_step. destruct (kv_exec x.1 s x.2) as [[s' r]|] eqn:E; [apply kv_exec_auth in E; contradiction|]. split; [exact HI|reflexivity].
Qed.
Lemma kv_new_KVI a b : KVI (kv_new a b) [].
Proof. split; [apply crep_nil|]. intros k i H. cbn in H. rewrite lookup_empty in H. discriminate. Qed.
Lemma kv_run_KVI tr : forall s l, KVI s l -> exists l', KVI (kv_run s tr) l'.
Proof.
  induction tr as [|x tr IH]; intros s l HI; [exists l; exact HI|]. destruct (kv_step_ok s l x HI) as (l1 & HI1 & _). exact (IH _ _ HI1).
Qed.
Lemma kv_run_new a b tr : exists l, KVI (kv_run (kv_new a b) tr) l.
Proof. eapply kv_run_KVI, kv_new_KVI. Qed.
Lemma kv_run_snoc s tr x : kv_run s (tr ++ [x]) = kv_step (kv_run s tr) x.
Proof. unfold kv_run. rewrite fold_left_app. reflexivity. Qed.

(** *** roles *)
Lemma roles_after_app a b tr1 tr2 : roles_after a b (tr1 ++ tr2) = let r := roles_after a b tr1 in roles_after r.1 r.2 tr2.
Proof.
  revert a b. induction tr1 as [|[c o] tr1 IH]; intros a b; [reflexivity|]. cbn [app roles_after]. destruct o; apply IH.
Qed.
Lemma c53_roles a b tr : let s := kv_run (kv_new a b) tr in (kv_get_owner_id s, kv_get_operator_id s) = roles_after a b tr.
Proof.
  cbn zeta. induction tr as [|x tr IH] using rev_ind; [reflexivity|]. rewrite kv_run_snoc, roles_after_app, <- IH. cbn [fst snd].
  set (s := kv_run (kv_new a b) tr). destruct (kv_run_new a b tr) as [l HI]. fold s in HI.
  unfold kv_get_owner_id, kv_get_operator_id. destruct (kv_authorised_dec s x) as [Ha|Hn].
  - destruct (kv_exec_ok _ _ _ HI Ha) as (s' & r & l' & E & _ & _ & E1 & E2 & _). unfold kv_step. rewrite E, E1, E2.
    destruct x as [c o]. unfold kv_authorised, kv_get_owner_id in Ha. cbn [fst snd roles_after] in *.
    destruct o; try reflexivity; destruct Ha as [Hd Hp]; rewrite Hd, Hp, bool_decide_true by reflexivity; reflexivity.
  - unfold kv_step. destruct (kv_exec x.1 s x.2) as [[s' r]|] eqn:E; [apply kv_exec_auth in E; contradiction|].
    destruct x as [c o]. unfold kv_authorised, kv_get_owner_id in Hn. cbn [fst snd roles_after] in *.
    destruct o; try reflexivity; destruct (N.eqb_spec (c_deposit c) 1); cbn [andb]; try reflexivity;
      (case_bool_decide; [exfalso; apply Hn; auto|reflexivity]).
Qed.

(** *** values *)
Lemma kvalue_from_snoc a b tr : forall tr1 x k, kvalue_from a b tr1 (tr ++ [x]) k =
  match (if accepted_at a b (tr1 ++ tr) x then kwrites x.2 k else None) with Some r => Some r | None => kvalue_from a b tr1 tr k end.
Proof.
  induction tr as [|y tr IH]; intros tr1 x k; cbn [app kvalue_from].
  - rewrite app_nil_r. destruct (accepted_at a b tr1 x); [destruct (kwrites x.2 k)|]; reflexivity.
  - rewrite IH, <- app_assoc. cbn [app]. destruct (if accepted_at a b (tr1 ++ y :: tr) x then kwrites x.2 k else None); reflexivity.
Qed.
Lemma kv_run_values a b tr : exists l, KVI (kv_run (kv_new a b) tr) l /\ forall k, om_get l k = kvalue a b tr k.
Proof.
  induction tr as [|x tr IH] using rev_ind; [exists []; split; [apply kv_new_KVI|reflexivity]|].
  destruct IH as (l & HI & Hg). destruct (kv_step_ok _ _ x HI) as (l' & HI' & Hg'). exists l'. rewrite kv_run_snoc. split; [exact HI'|].
  intros k. rewrite Hg'. unfold kvalue. rewrite kvalue_from_snoc. cbn [app].
  pose proof (c53_roles a b tr) as Hro. cbn zeta in Hro. unfold accepted_at. rewrite <- Hro. cbn [snd].
  specialize (Hg k). unfold kvalue in Hg.
  destruct (kv_authorised_dec (kv_run (kv_new a b) tr) x) as [Ha|Hn].
  - unfold kv_authorised in Ha. destruct x as [c o]. cbn [fst snd] in *.
    destruct o; cbn [kwrites]; try contradiction;
      try (rewrite Hg; destruct ((c_deposit c =? 0) && _); reflexivity);
      (destruct Ha as [Hd Hp]; rewrite Hd, Hp, bool_decide_true by reflexivity; cbn [N.eqb andb]).
    + case_decide; [reflexivity|exact Hg].
    + destruct (last_pair l0 k); [reflexivity|exact Hg].
    + case_decide; [reflexivity|exact Hg].
  - rewrite Hg. destruct ((c_deposit x.1 =? 0) && _) eqn:E; [|reflexivity]. apply andb_true_iff in E as [E1 E2].
    apply N.eqb_eq in E1. apply bool_decide_eq_true in E2. unfold kv_authorised in Hn. destruct x as [c o]. cbn [fst snd] in *.
    destruct o; cbn [kwrites]; try reflexivity; exfalso; apply Hn; auto.
Qed.
Lemma c53_value a b tr k : kv_get_value (kv_run (kv_new a b) tr) k = Ok (kvalue a b tr k).
Proof.
  destruct (kv_run_values a b tr) as (l & [Hr Hx] & Hg). unfold kv_get_value. rewrite (cget_exact _ _ _ _ Hr Hx), Hg. reflexivity.
Qed.
Lemma c53_authorised a b tr x :
  (exists r, kv_exec x.1 (kv_run (kv_new a b) tr) x.2 = Ok r) <-> kv_authorised (kv_run (kv_new a b) tr) x.
Proof.
  destruct (kv_run_new a b tr) as [l HI]. split; [intros [r H]; eapply kv_exec_auth; exact H|].
  intros Ha. destruct (kv_exec_ok _ _ _ HI Ha) as (s' & r & l' & E & _). eexists. exact E.
Qed.
Lemma c53_remove a b tr c k s' r :
  kv_exec c (kv_run (kv_new a b) tr) (KRemove k) = Ok (s', r) ->
  Ok r = kv_get_value (kv_run (kv_new a b) tr) k /\ kv_get_value s' k = Ok None /\
  forall k', k' <> k -> kv_get_value s' k' = kv_get_value (kv_run (kv_new a b) tr) k'.
Proof.
  intros H. destruct (kv_run_new a b tr) as [l HI]. pose proof (kv_exec_auth _ (c, KRemove k) _ H) as Ha.
  destruct (kv_exec_ok _ _ _ HI Ha) as (s2 & r2 & l' & E & [Hr' Hx'] & Hg & _ & _ & Er). cbn [fst snd] in *. rewrite H in E. injection E as <- <-.
  destruct HI as [Hr Hx]. unfold kv_get_value. rewrite (cget_exact _ _ _ _ Hr Hx). rewrite Er. split; [reflexivity|].
  rewrite (cget_exact _ _ _ _ Hr' Hx'), Hg. cbn [kwrites]. rewrite decide_True by reflexivity. split; [reflexivity|].
  intros k' Hne. rewrite (cget_exact _ _ _ _ Hr Hx), (cget_exact _ _ _ _ Hr' Hx'), Hg. cbn [kwrites]. rewrite decide_False by congruence. reflexivity.
Qed.

(** *** pages and the count *)
Lemma kv_page s l from limit : KVI s l -> kv_get_values s from limit = Ok (take limit (drop from l)).
Proof.
  intros [Hr Hx]. rewrite <- (map_page_spec l from limit) by (eapply crep_NoDup; exact Hr).
  unfold kv_get_values, map_page. pose proof (proj1 Hr) as El. rewrite El.
  assert (Hin : forall i, In i (seq from (min (from + limit) (length l) - from)) -> (i < length l)%nat) by (intros i Hi; apply in_seq in Hi; lia).
  revert Hin. generalize (seq from (min (from + limit) (length l) - from)). intros il. induction il as [|i il IH]; intros Hin; [reflexivity|].
  cbn [mapMr]. rewrite IH by (intros j Hj; apply Hin; right; exact Hj). f_equal.
  destruct (lookup_lt_is_Some_2 l i (Hin i (or_introl eq_refl))) as [[k v] Hi]. destruct Hr as [_ Hr0]. destruct (Hr0 _ _ _ Hi) as (Ek & _).
  unfold vec_get. destruct (Nat.ltb_spec i (length l)) as [_|Hge]; [|apply lookup_lt_Some in Hi; lia]. rewrite Ek. cbn [mbind res_bind expect].
  rewrite list_lookup_fmap, Hi. cbn [fmap option_fmap option_map expect mbind res_bind fst].
  pose proof (cget_exact (k_cell s) (length l) l k (conj eq_refl Hr0) Hx) as Eg. rewrite Eg. reflexivity.
Qed.
Lemma c53_pages a b tr k n :
  let s := kv_run (kv_new a b) tr in (kv_get_kv_count s <= n * k)%nat ->
  exists l, pages (kv_get_values s) k n = Ok l /\ NoDup l.*1 /\ length l = kv_get_kv_count s /\
    forall key v, In (key, v) l <-> kv_get_value s key = Ok (Some v).
Proof.
  cbn zeta. intros Hn. destruct (kv_run_values a b tr) as (l & HI & Hg). exists l.
  pose proof (proj1 HI) as Hr. pose proof (crep_NoDup _ _ _ Hr) as Hnd. pose proof (proj1 Hr) as El. unfold kv_get_kv_count in *.
  split; [apply pages_all; [intros i _; apply kv_page; exact HI|lia]|]. split; [exact Hnd|]. split; [symmetry; exact El|].
  intros key v. rewrite c53_value, <- Hg. split.
  - intros Hin. rewrite (om_In_get _ _ _ Hnd Hin). reflexivity.
  - intros E. injection E as E. apply om_get_Some_In. exact E.
Qed.
Lemma c53_count a b tr :
  exists keys, NoDup keys /\ kv_get_kv_count (kv_run (kv_new a b) tr) = length keys /\
    forall k, In k keys <-> kvalue a b tr k <> None.
Proof.
  destruct (kv_run_values a b tr) as (l & HI & Hg). exists l.*1. pose proof (proj1 HI) as Hr.
  split; [eapply crep_NoDup; exact Hr|]. split; [rewrite fmap_length; apply Hr|]. intros k. rewrite <- Hg, <- elem_of_list_In.
  pose proof (om_get_None l k) as Hnone. destruct (om_get l k) eqn:E.
  - split; [discriminate|]. intros _. eapply om_get_Some_key. exact E.
  - split; [intros Hin; exfalso; exact (proj1 Hnone eq_refl Hin)|intros H; contradiction H; reflexivity].
Qed.
