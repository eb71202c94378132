(** MVTotals.v -- exact invariant behind C03, C29, C30, C31: without zero-power votes and
    colliding keys the storage holds exactly one entry per vote and the tallies are their sums. *)

From Verif Require Export MVCases MVSpecVote.

Notation vlist := (list (string * (hmap * list (string * N)))) (only parsing).

(** ** Lists *)
Lemma outer_set L a h m : outer (om_set L a (h, m)) = om_set (outer L) a h.
Proof.
  unfold outer. induction L as [|[b [hb mb]] L IH]; [reflexivity|]. cbn.
  destruct (decide (a = b)); cbn; [reflexivity|]. rewrite IH. reflexivity.
Qed.

Lemma outer_get L a : om_get (outer L) a = fst <$> om_get L a.
Proof.
  unfold outer. induction L as [|[b [hb mb]] L IH]; [reflexivity|]. cbn.
  destruct (decide (a = b)); cbn; [reflexivity|]. exact IH.
Qed.

Lemma outer_index L a : om_index (outer L) a = om_index L a.
Proof.
  unfold outer. induction L as [|[b [hb mb]] L IH]; [reflexivity|]. cbn.
  destruct (decide (a = b)); cbn; [reflexivity|]. rewrite IH. reflexivity.
Qed.

Lemma fmap_swap_remove {A B} (f : A -> B) l i : f <$> swap_remove i l = swap_remove i (f <$> l).
Proof.
  unfold swap_remove. rewrite fmap_last, fmap_length. destruct (last l); cbn; [|reflexivity].
  rewrite fmap_take, list_fmap_insert. reflexivity.
Qed.

Lemma outer_remove L a : outer (om_remove L a) = om_remove (outer L) a.
Proof.
  unfold om_remove. rewrite outer_index. destruct (om_index L a); [|reflexivity].
  unfold outer. apply fmap_swap_remove.
Qed.

Lemma om_remove_keys {V} (L : list (string * V)) a b :
  NoDup L.*1 -> b ∈ (om_remove L a).*1 <-> b ∈ L.*1 /\ b <> a.
Proof.
  intros Hnd. destruct (decide (b = a)) as [->|Hne].
  - pose proof (om_get_remove_eq L a Hnd) as Hg. apply om_get_None in Hg. split; [contradiction|]. intros [_ []]. reflexivity.
  - pose proof (om_get_remove_ne L a b Hnd ltac:(congruence)) as Hg.
    destruct (om_get L b) eqn:E.
    + apply om_get_Some_key in Hg. apply om_get_Some_key in E. split; auto.
    + apply om_get_None in Hg, E. split; [contradiction|intros [? _]; contradiction].
Qed.

Lemma om_set_elem {V} (L : list (string * V)) a v b :
  b ∈ (om_set L a v).*1 <-> b ∈ L.*1 \/ b = a.
Proof.
  rewrite om_set_keys. destruct (om_get L a) eqn:E.
  - apply om_get_Some_key in E. split; [auto|intros [?| ->]; assumption].
  - rewrite elem_of_app, elem_of_list_singleton. reflexivity.
Qed.

(** sum over a larger list when the function is zero outside the smaller *)
Lemma sum_super {A} (f : A -> N) (l u : list A) :
  NoDup l -> NoDup u -> (forall x, x ∈ l -> x ∈ u) -> (forall x, x ∉ l -> f x = 0) ->
  sum_by f l = sum_by f u.
Proof.
  intros Hl Hu Hsub Hz. apply NoDup_submseteq in Hsub; [|exact Hl].
  apply submseteq_Permutation in Hsub as [r Hr]. rewrite (sum_by_perm f _ _ Hr), sum_by_app.
  rewrite (sum_by_zero f r); [lia|]. intros x Hx. apply Hz. intros Hxl.
  rewrite Hr in Hu. apply NoDup_app in Hu as (_ & Hd & _). apply (Hd x Hxl). apply elem_of_list_In. exact Hx.
Qed.

Lemma sum_change {A} `{EqDecision A} (f f' : A -> N) (l l' : list A) k :
  NoDup l -> NoDup l' -> (forall x, x ∉ l -> f x = 0) -> (forall x, x ∉ l' -> f' x = 0) ->
  (forall x, x <> k -> f' x = f x) ->
  sum_by f' l' + f k = sum_by f l + f' k.
Proof.
  intros Hl Hl' Hz Hz' He.
  set (u := remove_dups (k :: l ++ l')).
  assert (Hu : NoDup u) by apply NoDup_remove_dups.
  rewrite (sum_super f l u), (sum_super f' l' u); auto.
  2,3: intros x Hx; apply elem_of_remove_dups, elem_of_list_further, elem_of_app; auto.
  assert (k ∈ u) as Hk by (apply elem_of_remove_dups; left).
  apply elem_of_Permutation in Hk as [r Hr].
  rewrite (sum_by_perm f _ _ Hr), (sum_by_perm f' _ _ Hr), !sum_by_cons.
  rewrite (sum_by_ext f' f r); [lia|]. intros x Hx. apply He. intros ->.
  rewrite Hr in Hu. apply NoDup_cons in Hu as [Hu _]. apply Hu. apply elem_of_list_In. exact Hx.
Qed.

(** ** Exact representation of one voter's votes *)
Definition lvotes (L : list (string * (hmap * list (string * N)))) (addr obj : string) : N :=
  match om_get L addr with Some (_, m) => default 0 (om_get m obj) | None => 0 end.

Section VExact.
Context (P : string -> string -> Prop).

Record vexact (hp : heap hmap) (hv : heap N) (vid : string) (h : hmap) (L : vlist) : Prop := {
  ve_rep : vrep hp hv vid h L;
  ve_P : forall a, a ∈ L.*1 -> P vid a;
  ve_out : cexact (cell_at hp vid) (outer L);
  ve_in : forall a hh m, om_get L a = Some (hh, m) ->
     cexact (cell_at hv (vkey vid a)) m /\ m <> [] /\ (forall o x, om_get m o = Some x -> 0 < x);
  ve_free : forall a, P vid a -> om_get L a = None -> ce_idx (cell_at hv (vkey vid a)) = ∅;
}.

Lemma vrep_get hp hv vid h L a hh m :
  vrep hp hv vid h L -> om_get L a = Some (hh, m) ->
  h_pref hh = vkey vid a /\ crep (cell_at hv (vkey vid a)) (h_len hh) m.
Proof.
  intros Hr Hg. apply om_get_Some_In in Hg. apply elem_of_list_In, elem_of_list_lookup in Hg as [i Hi].
  destruct (vr_inner _ _ _ _ _ Hr _ _ _ _ Hi) as [Hp Hc]. unfold urep in Hc. rewrite Hp in Hc. auto.
Qed.

Lemma vrep_intro hp hv vid h L :
  h_pref h = vid -> crep (cell_at hp vid) (h_len h) (outer L) ->
  (forall a hh m, om_get L a = Some (hh, m) ->
     h_pref hh = vkey vid a /\ crep (cell_at hv (vkey vid a)) (h_len hh) m) ->
  vrep hp hv vid h L.
Proof.
  intros Hp Ho Hi. constructor; [exact Hp|unfold urep; rewrite Hp; exact Ho|].
  intros i a hh m Hl. destruct (Hi a hh m) as [H1 H2].
  { eapply om_get_lookup; [|exact Hl]. rewrite <- outer_keys. eapply crep_NoDup. exact Ho. }
  split; [exact H1|]. unfold urep. rewrite H1. exact H2.
Qed.

Lemma cexact_nil {V} (ce : cell V) : cexact ce [] -> ce_idx ce = ∅.
Proof.
  intros H. apply map_eq. intros k. rewrite lookup_empty. destruct (ce_idx ce !! k) eqn:E; [|reflexivity].
  destruct (H _ _ E) as [v Hv]. rewrite lookup_nil in Hv. discriminate.
Qed.
Lemma cexact_empty {V} (ce : cell V) : ce_idx ce = ∅ -> cexact ce [].
Proof. intros H k i Hk. rewrite H, lookup_empty in Hk. discriminate. Qed.

Section One.
Context (hp : heap hmap) (hv : heap N) (vid : string) (hd : hmap) (L : vlist).
Context (HX : vexact hp hv vid hd L).

Definition ihand (addr : string) : hmap := default (unew (vkey vid addr)) (fst <$> om_get L addr).
Definition imap_ (addr : string) : list (string * N) := default [] (snd <$> om_get L addr).

Lemma ve_uget_outer addr : uget hp hd addr = Ok (fst <$> om_get L addr).
Proof.
  unfold uget. rewrite <- outer_get. apply cget_exact.
  - exact (vr_outer _ _ _ _ _ (ve_rep _ _ _ _ _ HX)).
  - rewrite (vr_pref _ _ _ _ _ (ve_rep _ _ _ _ _ HX)). exact (ve_out _ _ _ _ _ HX).
Qed.

Lemma ve_inner addr : P vid addr ->
  h_pref (ihand addr) = vkey vid addr /\
  crep (cell_at hv (vkey vid addr)) (h_len (ihand addr)) (imap_ addr) /\
  cexact (cell_at hv (vkey vid addr)) (imap_ addr).
Proof.
  intros HP. unfold ihand, imap_. destruct (om_get L addr) as [[hh m]|] eqn:E; cbn.
  - destruct (vrep_get _ _ _ _ _ _ _ _ (ve_rep _ _ _ _ _ HX) E) as [H1 H2].
    destruct (ve_in _ _ _ _ _ HX _ _ _ E) as (H3 & _). auto.
  - split; [reflexivity|]. split; [apply crep_nil|]. apply cexact_empty.
    apply (ve_free _ _ _ _ _ HX); assumption.
Qed.

Lemma ve_uget_inner addr obj : P vid addr -> uget hv (ihand addr) obj = Ok (om_get (imap_ addr) obj).
Proof.
  intros HP. destruct (ve_inner addr HP) as (H1 & H2 & H3). unfold uget. rewrite H1.
  apply cget_exact; assumption.
Qed.

Lemma lvotes_imap addr obj : lvotes L addr obj = default 0 (om_get (imap_ addr) obj).
Proof. unfold lvotes, imap_. destruct (om_get L addr) as [[hh m]|]; reflexivity. Qed.

Lemma ve_NoDup : NoDup L.*1.
Proof. exact (vrep_NoDup _ _ _ _ _ (ve_rep _ _ _ _ _ HX)). Qed.
Lemma ve_imap_NoDup addr : P vid addr -> NoDup (imap_ addr).*1.
Proof. intros HP. destruct (ve_inner addr HP) as (_ & H2 & _). eapply crep_NoDup; exact H2. Qed.

Lemma ve_imap_pos addr o x : om_get (imap_ addr) o = Some x -> 0 < x /\ P vid addr.
Proof.
  unfold imap_. destruct (om_get L addr) as [[hh m]|] eqn:E; cbn; [|discriminate].
  intros H. split.
  - destruct (ve_in _ _ _ _ _ HX _ _ _ E) as (_ & _ & Hp). eapply Hp; exact H.
  - apply (ve_P _ _ _ _ _ HX). eapply om_get_Some_key; exact E.
Qed.

(** storing a positive vote *)
Lemma ve_set addr obj x : P vid addr -> 0 < x ->
  exists hv' h' hp' hd',
    uinsert hv (ihand addr) obj x = Ok (hv', h') /\ uinsert hp hd addr h' = Ok (hp', hd') /\
    let L' := om_set L addr (h', om_set (imap_ addr) obj x) in
    vexact hp' hv' vid hd' L' /\
    (forall q, q <> vid -> cell_at hp' q = cell_at hp q) /\
    (forall q, q <> vkey vid addr -> cell_at hv' q = cell_at hv q).
Proof.
  intros HP Hx. destruct (ve_inner addr HP) as (H1 & H2 & H3).
  pose proof (vr_pref _ _ _ _ _ (ve_rep _ _ _ _ _ HX)) as Hpf.
  destruct (cinsert_exact _ _ _ obj x H2 H3) as (ce1 & len1 & E1 & C1 & X1).
  set (h' := mkH (vkey vid addr) len1).
  pose proof (vr_outer _ _ _ _ _ (ve_rep _ _ _ _ _ HX)) as Ho. unfold urep in Ho. rewrite Hpf in Ho.
  destruct (cinsert_exact _ _ _ addr h' Ho (ve_out _ _ _ _ _ HX)) as (ce2 & len2 & E2 & C2 & X2).
  exists (<[vkey vid addr := ce1]> hv), h', (<[vid := ce2]> hp), (mkH vid len2).
  split. { unfold uinsert. rewrite H1, E1. reflexivity. }
  split. { unfold uinsert. rewrite Hpf, E2. reflexivity. }
  cbn zeta. split; [|split; intros q Hq; apply cell_at_insert_ne; congruence].
  constructor.
  - apply vrep_intro; [reflexivity| |].
    + rewrite cell_at_insert_eq, outer_set. exact C2.
    + intros a hh m Hg. destruct (decide (addr = a)) as [<-|Hne].
      * rewrite om_get_set_eq in Hg. injection Hg as <- <-. rewrite cell_at_insert_eq. auto.
      * rewrite om_get_set_ne in Hg by exact Hne.
        rewrite cell_at_insert_ne by (intros E; apply vkey_inj_addr in E; congruence).
        apply (vrep_get _ _ _ _ _ _ _ _ (ve_rep _ _ _ _ _ HX) Hg).
  - intros a Ha. apply om_set_elem in Ha as [Ha| ->]; [apply (ve_P _ _ _ _ _ HX); exact Ha|exact HP].
  - rewrite cell_at_insert_eq, outer_set. exact X2.
  - intros a hh m Hg. destruct (decide (addr = a)) as [<-|Hne].
    + rewrite om_get_set_eq in Hg. injection Hg as <- <-. rewrite cell_at_insert_eq.
      split; [exact X1|]. split.
      * intros Hn. pose proof (om_get_set_eq (imap_ addr) obj x) as Hs. rewrite Hn in Hs. discriminate.
      * intros o y Hy. destruct (decide (obj = o)) as [<-|Hno].
        -- rewrite om_get_set_eq in Hy. injection Hy as <-. exact Hx.
        -- rewrite om_get_set_ne in Hy by exact Hno. apply (ve_imap_pos _ _ _ Hy).
    + rewrite om_get_set_ne in Hg by exact Hne.
      rewrite cell_at_insert_ne by (intros E; apply vkey_inj_addr in E; congruence).
      apply (ve_in _ _ _ _ _ HX _ _ _ Hg).
  - intros a HPa Hg. destruct (decide (addr = a)) as [<-|Hne].
    + rewrite om_get_set_eq in Hg. discriminate.
    + rewrite om_get_set_ne in Hg by exact Hne.
      rewrite cell_at_insert_ne by (intros E; apply vkey_inj_addr in E; congruence).
      apply (ve_free _ _ _ _ _ HX _ HPa Hg).
Qed.

(** removing a vote *)
Definition lrem (addr obj : string) (h' : hmap) : vlist :=
  match om_remove (imap_ addr) obj with
  | [] => om_remove L addr
  | m' => om_set L addr (h', m')
  end.

Lemma ve_remove addr obj x : om_get (imap_ addr) obj = Some x ->
  exists hv' h' hp' hd',
    uremove hv (ihand addr) obj = Ok (hv', h') /\
    (if (h_len h' =? 0)%nat then uremove hp hd addr else uinsert hp hd addr h') = Ok (hp', hd') /\
    vexact hp' hv' vid hd' (lrem addr obj h') /\
    (forall q, q <> vid -> cell_at hp' q = cell_at hp q) /\
    (forall q, q <> vkey vid addr -> cell_at hv' q = cell_at hv q).
Proof.
  intros Hx. destruct (ve_imap_pos _ _ _ Hx) as [Hxp HP].
  destruct (ve_inner addr HP) as (H1 & H2 & H3).
  pose proof (vr_pref _ _ _ _ _ (ve_rep _ _ _ _ _ HX)) as Hpf.
  destruct (cremove_exact _ _ _ obj H2 H3) as (ce1 & len1 & E1 & C1 & X1).
  set (h' := mkH (vkey vid addr) len1).
  pose proof (vr_outer _ _ _ _ _ (ve_rep _ _ _ _ _ HX)) as Ho. unfold urep in Ho. rewrite Hpf in Ho.
  pose proof ve_NoDup as HndL. pose proof (ve_imap_NoDup addr HP) as Hndm.
  assert (Hlen : len1 = length (om_remove (imap_ addr) obj)) by apply C1.
  destruct (decide (om_remove (imap_ addr) obj = [])) as [Hnil|Hnn].
  - destruct (cremove_exact _ _ _ addr Ho (ve_out _ _ _ _ _ HX)) as (ce2 & len2 & E2 & C2 & X2).
    exists (<[vkey vid addr := ce1]> hv), h', (<[vid := ce2]> hp), (mkH vid len2).
    split. { unfold uremove. rewrite H1, E1. reflexivity. }
    split. { cbn. rewrite Hlen, Hnil. cbn. unfold uremove. rewrite Hpf, E2. reflexivity. }
    unfold lrem. rewrite Hnil in *.
    split; [|split; intros q Hq; apply cell_at_insert_ne; congruence].
    constructor.
    + apply vrep_intro; [reflexivity| |].
      * rewrite cell_at_insert_eq, outer_remove. exact C2.
      * intros a hh m Hg. destruct (decide (addr = a)) as [<-|Hne].
        -- rewrite om_get_remove_eq in Hg by exact HndL. discriminate.
        -- rewrite om_get_remove_ne in Hg by auto.
           rewrite cell_at_insert_ne by (intros E; apply vkey_inj_addr in E; congruence).
           apply (vrep_get _ _ _ _ _ _ _ _ (ve_rep _ _ _ _ _ HX) Hg).
    + intros a Ha. apply om_remove_keys in Ha as [Ha _]; [|exact HndL]. apply (ve_P _ _ _ _ _ HX); exact Ha.
    + rewrite cell_at_insert_eq, outer_remove. exact X2.
    + intros a hh m Hg. destruct (decide (addr = a)) as [<-|Hne].
      * rewrite om_get_remove_eq in Hg by exact HndL. discriminate.
      * rewrite om_get_remove_ne in Hg by auto.
        rewrite cell_at_insert_ne by (intros E; apply vkey_inj_addr in E; congruence).
        apply (ve_in _ _ _ _ _ HX _ _ _ Hg).
    + intros a HPa Hg. destruct (decide (addr = a)) as [<-|Hne].
      * rewrite cell_at_insert_eq. apply cexact_nil. exact X1.
      * rewrite om_get_remove_ne in Hg by auto.
        rewrite cell_at_insert_ne by (intros E; apply vkey_inj_addr in E; congruence).
        apply (ve_free _ _ _ _ _ HX _ HPa Hg).
  - destruct (cinsert_exact _ _ _ addr h' Ho (ve_out _ _ _ _ _ HX)) as (ce2 & len2 & E2 & C2 & X2).
    assert (Elr : lrem addr obj h' = om_set L addr (h', om_remove (imap_ addr) obj)).
    { unfold lrem. destruct (om_remove (imap_ addr) obj); [contradiction|reflexivity]. }
    exists (<[vkey vid addr := ce1]> hv), h', (<[vid := ce2]> hp), (mkH vid len2).
    split. { unfold uremove. rewrite H1, E1. reflexivity. }
    split. { cbn [h_len h']. destruct (Nat.eqb_spec len1 0) as [Hz|Hz].
             - exfalso. apply Hnn. rewrite Hlen in Hz. destruct (om_remove (imap_ addr) obj); [reflexivity|discriminate].
             - unfold uinsert. rewrite Hpf, E2. reflexivity. }
    rewrite Elr. split; [|split; intros q Hq; apply cell_at_insert_ne; congruence].
    constructor.
    + apply vrep_intro; [reflexivity| |].
      * rewrite cell_at_insert_eq, outer_set. exact C2.
      * intros a hh m Hg. destruct (decide (addr = a)) as [<-|Hne].
        -- rewrite om_get_set_eq in Hg. injection Hg as <- <-. rewrite cell_at_insert_eq. auto.
        -- rewrite om_get_set_ne in Hg by exact Hne.
           rewrite cell_at_insert_ne by (intros E; apply vkey_inj_addr in E; congruence).
           apply (vrep_get _ _ _ _ _ _ _ _ (ve_rep _ _ _ _ _ HX) Hg).
    + intros a Ha. apply om_set_elem in Ha as [Ha| ->]; [apply (ve_P _ _ _ _ _ HX); exact Ha|exact HP].
    + rewrite cell_at_insert_eq, outer_set. exact X2.
    + intros a hh m Hg. destruct (decide (addr = a)) as [<-|Hne].
      * rewrite om_get_set_eq in Hg. injection Hg as <- <-. rewrite cell_at_insert_eq.
        split; [exact X1|]. split; [exact Hnn|].
        intros o y Hy. destruct (decide (obj = o)) as [<-|Hno].
        -- rewrite om_get_remove_eq in Hy by exact Hndm. discriminate.
        -- rewrite om_get_remove_ne in Hy by auto. apply (ve_imap_pos _ _ _ Hy).
      * rewrite om_get_set_ne in Hg by exact Hne.
        rewrite cell_at_insert_ne by (intros E; apply vkey_inj_addr in E; congruence).
        apply (ve_in _ _ _ _ _ HX _ _ _ Hg).
    + intros a HPa Hg. destruct (decide (addr = a)) as [<-|Hne].
      * rewrite om_get_set_eq in Hg. discriminate.
      * rewrite om_get_set_ne in Hg by exact Hne.
        rewrite cell_at_insert_ne by (intros E; apply vkey_inj_addr in E; congruence).
        apply (ve_free _ _ _ _ _ HX _ HPa Hg).
Qed.

Lemma lvotes_set addr obj h' x a o :
  lvotes (om_set L addr (h', om_set (imap_ addr) obj x)) a o
  = if decide (a = addr /\ o = obj) then x else lvotes L a o.
Proof.
  destruct (decide (a = addr)) as [->|Hne].
  - unfold lvotes at 1. rewrite om_get_set_eq. destruct (decide (o = obj)) as [->|Hno].
    + rewrite om_get_set_eq, decide_True by auto. reflexivity.
    + rewrite om_get_set_ne by congruence. rewrite decide_False by tauto.
      rewrite lvotes_imap. reflexivity.
  - rewrite decide_False by tauto. unfold lvotes. rewrite om_get_set_ne by congruence. reflexivity.
Qed.

Lemma lvotes_rem addr obj h' a o : P vid addr ->
  lvotes (lrem addr obj h') a o = if decide (a = addr /\ o = obj) then 0 else lvotes L a o.
Proof.
  intros HP. pose proof ve_NoDup as HndL. pose proof (ve_imap_NoDup addr HP) as Hndm.
  assert (Hm : forall o, default 0 (om_get (om_remove (imap_ addr) obj) o)
                         = if decide (o = obj) then 0 else default 0 (om_get (imap_ addr) o)).
  { intros o'. destruct (decide (o' = obj)) as [->|Hno].
    - rewrite om_get_remove_eq by exact Hndm. reflexivity.
    - rewrite om_get_remove_ne by auto. reflexivity. }
  unfold lrem. destruct (decide (a = addr)) as [->|Hne].
  - assert (Hl : lvotes (match om_remove (imap_ addr) obj with [] => om_remove L addr | m' => om_set L addr (h', m') end) addr o
                 = default 0 (om_get (om_remove (imap_ addr) obj) o)).
    { unfold lvotes. destruct (om_remove (imap_ addr) obj) as [|e m'].
      - rewrite om_get_remove_eq by exact HndL. reflexivity.
      - rewrite om_get_set_eq. reflexivity. }
    rewrite Hl, Hm. destruct (decide (o = obj)) as [->|].
    + rewrite decide_True by auto. reflexivity.
    + rewrite decide_False by tauto. rewrite lvotes_imap. reflexivity.
  - rewrite decide_False by tauto. unfold lvotes.
    destruct (om_remove (imap_ addr) obj) as [|e m'].
    + rewrite om_get_remove_ne by auto. reflexivity.
    + rewrite om_get_set_ne by congruence. reflexivity.
Qed.

Lemma lvotes_P addr obj : lvotes L addr obj <> 0 -> P vid addr /\ om_get (imap_ addr) obj = Some (lvotes L addr obj).
Proof.
  rewrite lvotes_imap. destruct (om_get (imap_ addr) obj) as [x|] eqn:E; cbn; [|congruence].
  intros _. split; [apply (ve_imap_pos _ _ _ E)|reflexivity].
Qed.

Lemma used_nil : used L = 0 -> L = [].
Proof.
  intros H. destruct L as [|[a [hh m]] L'] eqn:EL; [reflexivity|]. exfalso.
  assert (Hg : om_get L a = Some (hh, m)) by (rewrite EL; cbn; rewrite decide_True; reflexivity).
  rewrite <- EL in *. destruct (ve_in _ _ _ _ _ HX _ _ _ Hg) as (_ & Hne & Hpos).
  destruct m as [|[o x] m]; [contradiction|].
  specialize (Hpos o x). cbn in Hpos. rewrite decide_True in Hpos by reflexivity. specialize (Hpos eq_refl).
  rewrite EL in H. unfold used in H. rewrite sum_by_cons in H. cbn in H. unfold mpow in H. rewrite sum_by_cons in H. cbn in H. lia.
Qed.

End One.

Lemma vexact_frame hp hv hp' hv' vid h L :
  vexact hp hv vid h L -> cell_at hp' vid = cell_at hp vid ->
  (forall a, P vid a -> cell_at hv' (vkey vid a) = cell_at hv (vkey vid a)) ->
  vexact hp' hv' vid h L.
Proof.
  intros HX E1 E2. destruct HX as [H1 H2 H3 H4 H5]. constructor; auto.
  - eapply vrep_frame; [exact H1|exact E1|]. intros a Ha. apply E2. auto.
  - rewrite E1. exact H3.
  - intros a hh m Hg. rewrite E2; [apply H4 with hh; exact Hg|]. apply H2. eapply om_get_Some_key; exact Hg.
  - intros a HPa Hg. rewrite E2 by exact HPa. auto.
Qed.

End VExact.

(** ** The per-object totals *)
Definition votes_nd (s : state) : Prop :=
  NoDup (votes s).*1 /\ forall a m, om_get (votes s) a = Some m -> NoDup m.*1.

Definition tm (s : state) (a : string) : list (string * N) := default [] (om_get (votes s) a).

Lemma tm_total s a o : get_total_votes s a o = default 0 (om_get (tm s a) o).
Proof. unfold get_total_votes, tm. destruct (om_get (votes s) a); reflexivity. Qed.

Lemma tm_nd s a : votes_nd s -> NoDup (tm s a).*1.
Proof. intros [_ H]. unfold tm. destruct (om_get (votes s) a) eqn:E; [apply (H _ _ E)|constructor]. Qed.

(** replacing the map of one address *)
Definition tput (vs : list (string * list (string * N))) (a : string) (m : list (string * N)) :=
  match m with [] => om_remove vs a | _ => om_set vs a m end.

Lemma tput_spec s a m : votes_nd s -> NoDup m.*1 ->
  let s' := s <| votes := tput (votes s) a m |> in
  votes_nd s' /\ tm s' a = m /\ (forall b, b <> a -> tm s' b = tm s b).
Proof.
  intros [H1 H2] Hm. cbn zeta.
  assert (Hs : votes_nd (s <| votes := om_set (votes s) a m |>) /\
    tm (s <| votes := om_set (votes s) a m |>) a = m /\
    (forall b, b <> a -> tm (s <| votes := om_set (votes s) a m |>) b = tm s b)).
  { unfold votes_nd, tm. cbn. split; [split|split].
    - apply om_set_NoDup. exact H1.
    - intros b m' Hg. destruct (decide (a = b)) as [<-|Hne].
      + rewrite om_get_set_eq in Hg. injection Hg as <-. exact Hm.
      + rewrite om_get_set_ne in Hg by exact Hne. eapply H2; exact Hg.
    - rewrite om_get_set_eq. reflexivity.
    - intros b Hb. rewrite om_get_set_ne by congruence. reflexivity. }
  destruct m as [|e m]; [|exact Hs]. clear Hs. cbn [tput]. unfold votes_nd, tm. cbn. split; [split|split].
  - apply om_remove_NoDup. exact H1.
  - intros b m' Hg. destruct (decide (a = b)) as [<-|Hne].
    + rewrite om_get_remove_eq in Hg by exact H1. discriminate.
    + rewrite om_get_remove_ne in Hg by auto. eapply H2; exact Hg.
  - rewrite om_get_remove_eq by exact H1. reflexivity.
  - intros b Hb. rewrite om_get_remove_ne by auto. reflexivity.
Qed.

Lemma increase_exact s vp a o s' :
  votes_nd s -> increase_total_votes s vp a o = Ok s' ->
  votes_nd s' /\
  (forall b q, get_total_votes s' b q = get_total_votes s b q + if decide (b = a /\ q = o) then vp else 0).
Proof.
  intros Hnd H. unfold increase_total_votes in H. fold (tm s a) in H.
  apply bind_Ok in H as (x & Hx & H). apply add128_Ok in Hx as [-> Hx]. injection H as <-.
  assert (E : om_set (votes s) a (om_set (tm s a) o (default 0 (om_get (tm s a) o) + vp))
              = tput (votes s) a (om_set (tm s a) o (default 0 (om_get (tm s a) o) + vp))).
  { unfold tput. destruct (om_set (tm s a) _ _) eqn:Em; [|reflexivity].
    pose proof (om_get_set_eq (tm s a) o (default 0 (om_get (tm s a) o) + vp)) as Hg. rewrite Em in Hg. discriminate. }
  rewrite E. destruct (tput_spec s a (om_set (tm s a) o (default 0 (om_get (tm s a) o) + vp)) Hnd) as (H1 & H2 & H3).
  { apply om_set_NoDup, tm_nd, Hnd. }
  split; [exact H1|]. intros b q. rewrite !tm_total. destruct (decide (b = a)) as [->|Hne].
  - rewrite H2. destruct (decide (q = o)) as [->|Hq].
    + rewrite om_get_set_eq, decide_True by auto. reflexivity.
    + rewrite om_get_set_ne by congruence. rewrite decide_False by tauto. cbn. lia.
  - rewrite H3 by exact Hne. rewrite decide_False by tauto. lia.
Qed.

Lemma decrease_exact s vp a o s' :
  votes_nd s -> decrease_total_votes s vp a o = Ok s' ->
  votes_nd s' /\ vp <= get_total_votes s a o /\
  (forall b q, get_total_votes s b q = get_total_votes s' b q + if decide (b = a /\ q = o) then vp else 0).
Proof.
  intros Hnd H. unfold decrease_total_votes in H. fold (tm s a) in H.
  apply bind_Ok in H as (x & Hx & H). apply expect_Ok in Hx.
  apply bind_Ok in H as (? & Hle & H). apply require_Ok in Hle. nb.
  apply bind_Ok in H as (y & Hy & H). apply sub128_Ok in Hy as [-> _]. injection H as <-.
  set (m := if x - vp =? 0 then om_remove (tm s a) o else om_set (tm s a) o (x - vp)).
  change (votes_nd (s <| votes := tput (votes s) a m |>) /\ vp <= get_total_votes s a o /\
   (forall b q, get_total_votes s b q = get_total_votes (s <| votes := tput (votes s) a m |>) b q
       + if decide (b = a /\ q = o) then vp else 0)).
  pose proof (tm_nd s a Hnd) as Htm.
  destruct (tput_spec s a m Hnd) as (H1 & H2 & H3).
  { unfold m. destruct (x - vp =? 0); [apply om_remove_NoDup, Htm|apply om_set_NoDup, Htm]. }
  split; [exact H1|]. split; [rewrite tm_total, Hx; exact Hle|].
  intros b q. rewrite !tm_total. destruct (decide (b = a)) as [->|Hne].
  - rewrite H2. unfold m. destruct (decide (q = o)) as [->|Hq].
    + rewrite decide_True by auto. rewrite Hx. cbn. destruct (x - vp =? 0) eqn:Ez; nb.
      * rewrite om_get_remove_eq by exact Htm. cbn. lia.
      * rewrite om_get_set_eq. cbn. lia.
    + rewrite decide_False by tauto. destruct (x - vp =? 0).
      * rewrite om_get_remove_ne by auto. lia.
      * rewrite om_get_set_ne by congruence. lia.
  - rewrite H3 by exact Hne. rewrite decide_False by tauto. lia.
Qed.

Lemma decrease_total s vp a o :
  0 < vp -> vp <= get_total_votes s a o -> exists s', decrease_total_votes s vp a o = Ok s'.
Proof.
  intros Hp Hle. unfold decrease_total_votes. fold (tm s a). rewrite tm_total in Hle.
  destruct (om_get (tm s a) o) as [x|] eqn:E; cbn in Hle; [|lia].
  cbn [expect mbind res_bind]. unfold require. destruct (N.leb_spec vp x); [|lia].
  cbn [mbind res_bind]. unfold sub128. destruct (N.leb_spec vp x); [|lia]. cbn [mbind res_bind]. eauto.
Qed.

(** ** Moves of one voter's votes *)
Section Move.
Context (P : string -> string -> Prop).

Record vmove (s s' : state) (vid : string) (v v' : voter) (L L' : vlist) : Prop := {
  vm_ex : vexact P (hp_vp s') (hp_vv s') vid (v_vp v') L';
  vm_hp : forall q, q <> vid -> cell_at (hp_vp s') q = cell_at (hp_vp s) q;
  vm_hv : forall q, (forall a, P vid a -> q <> vkey vid a) -> cell_at (hp_vv s') q = cell_at (hp_vv s) q;
  vm_nd : votes_nd s';
  vm_tot : forall a o, get_total_votes s' a o + lvotes L a o = get_total_votes s a o + lvotes L' a o;
  vm_lps : v_lps v' = v_lps v;
  vm_bal : v_bal v' = v_bal v;
  vm_pow : v_avail v' + used L' = v_avail v + used L;
  vm_st : exists vs hv hp, s' = s <| votes := vs |> <| hp_vv := hv |> <| hp_vp := hp |>;
}.

Lemma vmove_refl s vid v L :
  vexact P (hp_vp s) (hp_vv s) vid (v_vp v) L -> votes_nd s -> vmove s s vid v v L L.
Proof.
  intros H1 H2. constructor; auto. exists (votes s), (hp_vv s), (hp_vp s). destruct s; reflexivity.
Qed.

Lemma vmove_trans s1 s2 s3 vid v1 v2 v3 L1 L2 L3 :
  vmove s1 s2 vid v1 v2 L1 L2 -> vmove s2 s3 vid v2 v3 L2 L3 -> vmove s1 s3 vid v1 v3 L1 L3.
Proof.
  intros [A1 A2 A3 A4 A5 A6 A7 A8 (vs & hv & hp & A9)] [B1 B2 B3 B4 B5 B6 B7 B8 (vs' & hv' & hp' & B9)].
  constructor; auto.
  - intros q Hq. rewrite B2, A2; auto.
  - intros q Hq. rewrite B3, A3; auto.
  - intros a o. specialize (A5 a o). specialize (B5 a o). lia.
  - congruence.
  - congruence.
  - lia.
  - exists vs', hv', hp'. rewrite B9, A9. destruct s1; reflexivity.
Qed.

Lemma gvp_exact s v vid addr L :
  vexact P (hp_vp s) (hp_vv s) vid (v_vp v) L ->
  get_vote_position_for_address s v vid addr = Ok (ihand vid L addr).
Proof.
  intros HX. unfold get_vote_position_for_address. rewrite (ve_uget_outer P _ _ _ _ _ HX). reflexivity.
Qed.

Lemma create_vp_exact s vid v vp addr obj s' v' L :
  vexact P (hp_vp s) (hp_vv s) vid (v_vp v) L -> votes_nd s -> P vid addr -> 0 < vp ->
  internal_create_voting_position s vid v vp addr obj = Ok (s', v') ->
  exists L', vmove s s' vid v v' L L' /\ vp <= v_avail v /\ v_avail v' = v_avail v - vp /\
    (forall a o, lvotes L' a o = lvotes L a o + if decide (a = addr /\ o = obj) then vp else 0).
Proof.
  intros HX Hnd HP Hvp H.
  pose proof (create_vp_inv _ _ _ _ _ _ _ _ _ (ve_rep _ _ _ _ _ _ HX) H)
    as (Lw & Hrw & _ & Huw & Hle & Hav & _ & Hlps & Hbal & _ & _ & Hst).
  unfold internal_create_voting_position in H.
  apply bind_Ok in H as (? & _ & H). apply bind_Ok in H as (? & _ & H).
  rewrite (gvp_exact _ _ _ _ _ HX) in H. cbn [mbind res_bind] in H.
  rewrite (ve_uget_inner P _ _ _ _ _ HX _ obj HP) in H. cbn [mbind res_bind] in H.
  apply bind_Ok in H as (av & _ & H). apply bind_Ok in H as (vts & Hv & H). apply add128_Ok in Hv as [-> _].
  rewrite <- lvotes_imap in H. 
  destruct (ve_set P _ _ _ _ _ HX addr obj (lvotes L addr obj + vp) HP ltac:(lia))
    as (hv' & h' & hp' & hd' & E1 & E2 & HX' & F1 & F2).
  rewrite E1 in H. cbn [mbind res_bind] in H. rewrite E2 in H. cbn [mbind res_bind] in H.
  apply bind_Ok in H as (s1 & Hinc & H). injection H as <- <-.
  pose proof (increase_total_inv _ _ _ _ _ Hinc) as [vs Es].
  apply increase_exact in Hinc as [Hnd' Htot]; [|exact Hnd].
  set (L' := om_set L addr (h', om_set (imap_ L addr) obj (lvotes L addr obj + vp))) in *.
  assert (Hlv : forall a o, lvotes L' a o = lvotes L a o + if decide (a = addr /\ o = obj) then vp else 0).
  { intros a o. unfold L'. rewrite lvotes_set. case_decide as Hd; [destruct Hd as [-> ->]|]; lia. }
  exists L'. split; [|split; [exact Hle|split; [exact Hav|exact Hlv]]].
  subst s1. constructor; cbn; auto.
  - intros a o. rewrite Htot, Hlv.
    change (get_total_votes (s <| hp_vv := hv' |> <| hp_vp := hp' |>) a o) with (get_total_votes s a o). lia.
  - cbn in Hav, Hrw. rewrite Hav. cbn in Hrw. 
    pose proof (used_raw_rep _ _ _ _ _ Hrw) as U1. pose proof (used_raw_rep _ _ _ _ _ (ve_rep _ _ _ _ _ _ HX')) as U2.
    cbn in U1. lia.
Qed.

Lemma remove_vp_exact s vid v addr obj s' v' L :
  vexact P (hp_vp s) (hp_vv s) vid (v_vp v) L -> votes_nd s ->
  P vid addr -> internal_remove_voting_position s vid v addr obj = Ok (s', v') ->
  exists L', vmove s s' vid v v' L L' /\ 0 < lvotes L addr obj /\
    v_avail v' = v_avail v + lvotes L addr obj /\ used L' + lvotes L addr obj = used L /\
    (forall a o, lvotes L' a o = if decide (a = addr /\ o = obj) then 0 else lvotes L a o) /\
    exists h', L' = lrem L addr obj h'.
Proof.
  intros HX Hnd HP H.
  pose proof (remove_vp_inv _ _ _ _ _ _ _ _ (ve_rep _ _ _ _ _ _ HX) H)
    as (Lw & y & Hrw & _ & Huw & Hav & _ & Hlps & Hbal & _ & (h0 & o0 & Ho0 & -> & Hy) & Hst).
  rewrite (ve_uget_outer P _ _ _ _ _ HX) in Ho0. injection Ho0 as <-.
  change (uget (hp_vv s) (ihand vid L addr) obj = Ok (Some y)) in Hy.
  unfold internal_remove_voting_position in H.
  rewrite (gvp_exact _ _ _ _ _ HX) in H. cbn [mbind res_bind] in H.
  rewrite (ve_uget_inner P _ _ _ _ _ HX _ obj HP) in H, Hy. cbn [mbind res_bind] in H.
  apply bind_Ok in H as (x & Hx & H). apply expect_Ok in Hx.
  assert (y = x) as -> by congruence. clear Hy.
  assert (Hlx : lvotes L addr obj = x) by (rewrite lvotes_imap, Hx; reflexivity).
  pose proof (ve_imap_pos P _ _ _ _ _ HX _ _ _ Hx) as [Hpos _].
  apply bind_Ok in H as (av & _ & H).
  destruct (ve_remove P _ _ _ _ _ HX addr obj x Hx)
    as (hv' & h' & hp' & hd' & E1 & E2 & HX' & F1 & F2).
  rewrite E1 in H. cbn [mbind res_bind] in H. rewrite E2 in H. cbn [mbind res_bind] in H.
  apply bind_Ok in H as (s1 & Hdec & H). injection H as <- <-.
  pose proof (decrease_total_inv _ _ _ _ _ Hdec) as [vs Es].
  apply decrease_exact in Hdec as (Hnd' & _ & Htot); [|exact Hnd].
  set (L' := lrem L addr obj h') in *.
  assert (Hlv : forall a o, lvotes L' a o = if decide (a = addr /\ o = obj) then 0 else lvotes L a o).
  { intros a o. apply (lvotes_rem P _ _ _ _ _ HX _ _ _ _ _ HP). }
  assert (Hused : used Lw = used L').
  { pose proof (used_raw_rep _ _ _ _ _ Hrw) as U1. pose proof (used_raw_rep _ _ _ _ _ (ve_rep _ _ _ _ _ _ HX')) as U2.
    subst s1. cbn in U1. congruence. }
  rewrite Hlx. exists L'. split; [|split; [exact Hpos|split; [exact Hav|split; [lia|split; [exact Hlv|exists h'; reflexivity]]]]].
  subst s1. constructor; cbn; auto.
  - intros a o. rewrite Hlv. specialize (Htot a o).
    change (get_total_votes (s <| hp_vv := hv' |> <| hp_vp := hp' |>) a o) with (get_total_votes s a o) in Htot.
    rewrite Htot. case_decide as Hd; [destruct Hd as [-> ->]|]; lia.
  - cbn in Hav. lia.
Qed.

(** and the removal does succeed *)
Lemma remove_vp_total s vid v addr obj L :
  vexact P (hp_vp s) (hp_vv s) vid (v_vp v) L -> votes_nd s ->
  0 < lvotes L addr obj -> lvotes L addr obj <= get_total_votes s addr obj ->
  v_avail v + lvotes L addr obj < U128_SIZE ->
  exists r, internal_remove_voting_position s vid v addr obj = Ok r.
Proof.
  intros HX Hnd Hpos Htot Hav.
  destruct (lvotes_P P _ _ _ _ _ HX addr obj ltac:(lia)) as [HP Hx].
  unfold internal_remove_voting_position.
  rewrite (gvp_exact _ _ _ _ _ HX). cbn [mbind res_bind].
  rewrite (ve_uget_inner P _ _ _ _ _ HX _ obj HP). cbn [mbind res_bind]. rewrite Hx. cbn [expect mbind res_bind].
  unfold add128 at 1. destruct (N.ltb_spec (v_avail v + lvotes L addr obj) U128_SIZE); [|lia]. cbn [mbind res_bind].
  destruct (ve_remove P _ _ _ _ _ HX addr obj _ Hx)
    as (hv' & h' & hp' & hd' & E1 & E2 & HX' & F1 & F2).
  rewrite E1. cbn [mbind res_bind]. rewrite E2. cbn [mbind res_bind].
  match goal with |- context [decrease_total_votes ?t _ _ _] =>
    destruct (decrease_total t (lvotes L addr obj) addr obj Hpos Htot) as [s1 ->] end.
  cbn [mbind res_bind]. eauto.
Qed.

End Move.

(** ** Listing of the votes *)
Definition vabs (L : vlist) : list (string * list (string * N)) := (fun e => (e.1, e.2.2)) <$> L.

Lemma vabs_power L : listing_power (vabs L) = used L.
Proof. unfold listing_power, vabs. rewrite sum_by_fmap. reflexivity. Qed.

Lemma ukey_at_rep {V} (hp : heap V) h l : urep hp h l -> ukey_at hp h 0 = Ok (fst <$> l !! 0%nat).
Proof.
  intros [Hl Hr]. unfold ukey_at, vec_get. rewrite Hl.
  destruct l as [|[k v] l]; [reflexivity|]. destruct (Hr O k v eq_refl) as (-> & _). reflexivity.
Qed.

Lemma pop_first_swap {A} (l : list A) : swap_remove 0 l = pop_first l.
Proof.
  destruct l as [|x r]; [reflexivity|]. unfold pop_first.
  destruct r as [|y r] using rev_ind; [reflexivity|].
  rewrite rev_app_distr. cbn [rev app]. rewrite rev_involutive.
  unfold swap_remove. change (x :: r ++ [y]) with ((x :: r) ++ [y]). rewrite last_snoc.
  rewrite app_length. cbn [length].
  replace (S (length r) + 1 - 1)%nat with (S (length r)) by lia. cbn. f_equal.
  rewrite take_app. reflexivity.
Qed.

Lemma vabs_drop L addr obj h' :
  fst <$> outer L !! 0%nat = Some addr -> fst <$> imap_ L addr !! 0%nat = Some obj ->
  vabs (lrem L addr obj h') = drop_first (vabs L).
Proof.
  destruct L as [|[a [h m]] L]; [discriminate|]. intros E0. cbn in E0. injection E0 as ->.
  assert (Him : imap_ ((addr, (h, m)) :: L) addr = m).
  { unfold imap_. cbn. rewrite decide_True by reflexivity. reflexivity. }
  rewrite Him. destruct m as [|[o x] m]; [discriminate|]. intros E0. cbn in E0. injection E0 as ->.
  unfold lrem. rewrite Him.
  assert (Hm : om_remove ((obj, x) :: m) obj = pop_first ((obj, x) :: m)).
  { unfold om_remove. cbn [om_index]. rewrite decide_True by reflexivity. apply pop_first_swap. }
  assert (Hd : drop_first (vabs ((addr, (h, (obj, x) :: m)) :: L))
    = match pop_first ((obj, x) :: m) with [] => pop_first (vabs ((addr, (h, (obj, x) :: m)) :: L))
      | m' => (addr, m') :: vabs L end) by reflexivity.
  rewrite Hm, Hd. clear Hd. destruct (pop_first ((obj, x) :: m)) as [|e m'] eqn:E.
  - assert (Hr : om_remove ((addr, (h, (obj, x) :: m)) :: L) addr = pop_first ((addr, (h, (obj, x) :: m)) :: L)).
    { unfold om_remove. cbn [om_index]. rewrite decide_True by reflexivity. apply pop_first_swap. }
    rewrite Hr, <- !pop_first_swap. unfold vabs. rewrite fmap_swap_remove. reflexivity.
  - cbn. rewrite decide_True by reflexivity. reflexivity.
Qed.

(** ** The invariant *)
Section SInv.
Context (P : string -> string -> Prop) (HinjP : injP P).

Lemma get_votes_exact s vid L a o :
  vexact P (hp_vp s) (hp_vv s) vid (v_vp (get_voter s vid)) L ->
  get_votes_for_object s vid a o = Ok (lvotes L a o).
Proof.
  intros HX. unfold get_votes_for_object. rewrite (ve_uget_outer P _ _ _ _ _ HX). cbn [mbind res_bind].
  destruct (om_get L a) as [[h m]|] eqn:E; cbn.
  - assert (HP : P vid a) by (apply (ve_P _ _ _ _ _ _ HX); eapply om_get_Some_key; exact E).
    pose proof (ve_uget_inner P _ _ _ _ _ HX a o HP) as Hu. unfold ihand, imap_ in Hu. rewrite E in Hu. cbn in Hu.
    rewrite Hu. cbn. unfold lvotes. rewrite E. reflexivity.
  - unfold lvotes. rewrite E. reflexivity.
Qed.

Record SInv (s : state) : Prop := {
  si_inv : Inv weak P s;
  si_nd : votes_nd s;
  si_ex : forall vid, exists L, vexact P (hp_vp s) (hp_vv s) vid (v_vp (get_voter s vid)) L;
  si_tot : forall a o, get_total_votes s a o = sum_by (fun vid => votes_or0 s vid a o) (voter_ids s);
}.

Lemma votes_or0_exact s vid L a o :
  vexact P (hp_vp s) (hp_vv s) vid (v_vp (get_voter s vid)) L -> votes_or0 s vid a o = lvotes L a o.
Proof. intros HX. unfold votes_or0. rewrite (get_votes_exact _ _ _ _ _ HX). reflexivity. Qed.

Lemma vexact_new hp hv vid L : vexact P hp hv vid (unew vid) L -> L = [].
Proof.
  intros HX. pose proof (vr_outer _ _ _ _ _ (ve_rep _ _ _ _ _ _ HX)) as [Hl _]. cbn in Hl.
  unfold outer in Hl. rewrite fmap_length in Hl. destruct L; [reflexivity|discriminate].
Qed.

Lemma votes_absent s vid a o :
  (exists L, vexact P (hp_vp s) (hp_vv s) vid (v_vp (get_voter s vid)) L) ->
  vid ∉ voter_ids s -> votes_or0 s vid a o = 0.
Proof.
  intros [L HX] Hn. rewrite (votes_or0_exact _ _ _ _ _ HX). apply om_get_None in Hn.
  unfold get_voter in HX. rewrite Hn in HX. cbn in HX. apply vexact_new in HX as ->. reflexivity.
Qed.

Lemma sinv_update s s' vid L L' :
  SInv s -> Inv weak P s' -> votes_nd s' ->
  (forall q, q <> vid -> cell_at (hp_vp s') q = cell_at (hp_vp s) q) ->
  (forall q, (forall a, P vid a -> q <> vkey vid a) -> cell_at (hp_vv s') q = cell_at (hp_vv s) q) ->
  (forall q, q <> vid -> v_vp (get_voter s' q) = v_vp (get_voter s q)) ->
  vexact P (hp_vp s) (hp_vv s) vid (v_vp (get_voter s vid)) L ->
  vexact P (hp_vp s') (hp_vv s') vid (v_vp (get_voter s' vid)) L' ->
  (forall a o, get_total_votes s' a o + lvotes L a o = get_total_votes s a o + lvotes L' a o) ->
  SInv s'.
Proof.
  intros [H1 H2 H3 H4] HI' Hnd F1 F2 Hv HL HL' Ht.
  assert (Hoth : forall q, q <> vid -> forall Lq, vexact P (hp_vp s) (hp_vv s) q (v_vp (get_voter s q)) Lq ->
    vexact P (hp_vp s') (hp_vv s') q (v_vp (get_voter s' q)) Lq).
  { intros q Hq Lq HX. rewrite Hv by exact Hq. eapply vexact_frame; [exact HX|apply F1; exact Hq|].
    intros a Ha. apply F2. intros b Hb E. destruct (HinjP _ _ _ _ Ha Hb E) as [? _]. contradiction. }
  assert (Hex' : forall q, exists Lq, vexact P (hp_vp s') (hp_vv s') q (v_vp (get_voter s' q)) Lq).
  { intros q. destruct (decide (q = vid)) as [->|Hq]; [exists L'; exact HL'|].
    destruct (H3 q) as [Lq HX]. exists Lq. apply Hoth; assumption. }
  constructor; auto. intros a o.
  pose proof (sum_change (fun q => votes_or0 s q a o) (fun q => votes_or0 s' q a o) (voter_ids s) (voter_ids s') vid
     (i_nd _ _ _ H1) (i_nd _ _ _ HI')) as Hs. cbn beta in Hs.
  rewrite (votes_or0_exact _ _ _ _ _ HL), (votes_or0_exact _ _ _ _ _ HL') in Hs.
  specialize (Ht a o). rewrite H4 in Ht.
  assert (sum_by (fun q => votes_or0 s' q a o) (voter_ids s') + lvotes L a o =
          sum_by (fun q => votes_or0 s q a o) (voter_ids s) + lvotes L' a o); [apply Hs|lia].
  - intros q Hq. apply votes_absent; auto.
  - intros q Hq. apply votes_absent; auto.
  - intros q Hq. destruct (H3 q) as [Lq HX].
    rewrite (votes_or0_exact _ _ _ _ _ HX), (votes_or0_exact _ _ _ _ _ (Hoth q Hq Lq HX)). reflexivity.
Qed.

Lemma sinv_keep s s' :
  SInv s -> Inv weak P s' -> votes_kept s s' ->
  (forall q, v_vp (get_voter s' q) = v_vp (get_voter s q)) -> SInv s'.
Proof.
  intros HS HI' (E1 & E2 & E3) Hv. destruct (si_ex _ HS "") as [L HX].
  eapply (sinv_update s s' "" L L); auto.
  - destruct (si_nd _ HS). unfold votes_nd. rewrite E1. auto.
  - intros q _. rewrite E2. reflexivity.
  - intros q _. rewrite E3. reflexivity.
  - rewrite E2, E3, Hv. exact HX.
  - intros a o. unfold get_total_votes. rewrite E1. lia.
Qed.

Lemma sinv_init a s : mv_new a = Ok s -> SInv s.
Proof.
  intros H. pose proof (inv_init weak P _ _ weak_0 H) as HI. unfold mv_new in H. rinv.
  assert (HX : forall vid, vexact P ∅ ∅ vid (unew vid) []).
  { intros vid. constructor.
    - apply vrep_nil.
    - intros b Hb. inversion Hb.
    - intros k i Hk. unfold cell_at in Hk. rewrite lookup_empty in Hk. cbn in Hk. rewrite lookup_empty in Hk. discriminate.
    - intros b hh m Hg. discriminate.
    - intros b _ _. unfold cell_at. rewrite lookup_empty. reflexivity. }
  constructor; [exact HI| | |].
  - split; cbn; [constructor|]. intros b m Hg. discriminate.
  - intros vid. exists []. apply HX.
  - intros b o. reflexivity.
Qed.

(** calls other than votes leave the handles of the votes alone *)
Lemma deps_vvp s v l v' : deps s v l v' -> v_vp v' = v_vp v.
Proof. induction 1 as [|v v1 v' lp l (vp & l' & _ & _ & _ & _ & ->) _ IH]; [reflexivity|]. exact IH. Qed.

Lemma vchg_vvp c s o s' e vid v v' :
  vchg c s o s' e vid v v' -> is_vote_op o = false -> v_vp v' = v_vp v.
Proof.
  intros H Ho. destruct H;
    repeat match goal with H : dep1 _ _ _ _ _ |- _ => destruct H as (? & ? & _ & _ & _ & _ & ->) end;
    try reflexivity; try discriminate.
  - eapply deps_vvp; eassumption.
  - match goal with H : clears _ _ _ |- _ => apply clears_facts in H as (_ & E & _); exact E end.
  - match goal with H : clears _ _ _ |- _ => apply clears_facts in H as (_ & E & _); exact E end.
  - exfalso. match goal with H : _ \/ _ |- _ => destruct H as [(_ & [(? & ? & ? & ->)|[(? & ? & ? & ->)|(? & ? & ->)]])|(? & _ & [(? & ? & ? & ->)|(? & ? & ->)])] end;
      discriminate.
Qed.

Lemma nonvote_vvp c s o s' e :
  SInv s -> exec c s o = Ok (s', e) -> is_vote_op o = false ->
  forall q, v_vp (get_voter s' q) = v_vp (get_voter s q).
Proof.
  intros HS H Ho q. apply exec_cases in H as [_ Hc].
  destruct Hc as [(Ev & _)|(vid & v' & Hst & Hc)].
  { unfold get_voter. rewrite Ev. reflexivity. }
  pose proof (vchg_vvp _ _ _ _ _ _ _ _ Hc Ho) as Evp.
  pose proof (i_nd _ _ _ (si_inv _ HS)) as Hnd.
  destruct Hst as [Ev|(Ev & Hb & Hl & [v Hv] & Hz)]; unfold get_voter in *; rewrite Ev.
  - destruct (decide (vid = q)) as [<-|Hne].
    + rewrite om_get_set_eq. exact Evp.
    + rewrite om_get_set_ne by exact Hne. reflexivity.
  - destruct (decide (vid = q)) as [<-|Hne].
    + rewrite om_get_remove_eq by exact Hnd. cbn.
      rewrite Hv in Evp, Hc |- *. cbn in Evp, Hc |- *. destruct (si_ex _ HS vid) as [L HX].
      unfold get_voter in HX. rewrite Hv in HX. cbn in HX.
      pose proof (inv_get _ _ s vid (si_inv _ HS)) as (Lw & Hrw & _ & Hbw & _).
      unfold get_voter in Hrw, Hbw. rewrite Hv in Hrw, Hbw, Hz. cbn in Hrw, Hbw, Hz.
      pose proof (used_raw_rep _ _ _ _ _ Hrw) as U1.
      pose proof (used_raw_rep _ _ _ _ _ (ve_rep _ _ _ _ _ _ HX)) as U2.
      assert (L = []) as -> by (apply (used_nil P _ _ _ _ _ HX); lia).
      pose proof (vr_pref _ _ _ _ _ (ve_rep _ _ _ _ _ _ HX)) as Hpf.
      pose proof (vr_outer _ _ _ _ _ (ve_rep _ _ _ _ _ _ HX)) as [Hlen _]. cbn in Hlen.
      destruct (v_vp v) as [pf n]. cbn in *. subst pf. unfold unew. f_equal. exact (eq_sym Hlen).
    + rewrite om_get_remove_ne by auto. reflexivity.
Qed.

Lemma sinv_nonvote c s o s' e :
  SInv s -> Inv weak P s' -> exec c s o = Ok (s', e) -> is_vote_op o = false -> SInv s'.
Proof.
  intros HS HI' H Ho. pose proof (nonvote_vvp _ _ _ _ _ HS H Ho) as Hv. apply exec_cases in H as [Hk _].
  apply (sinv_keep s); auto.
Qed.


Lemma sinv_move s s1 s' vid v' v'' L L' :
  SInv s -> Inv weak P s' -> vexact P (hp_vp s) (hp_vv s) vid (v_vp (get_voter s vid)) L ->
  vmove P s s1 vid (get_voter s vid) v' L L' ->
  voters s' = om_set (voters s) vid v'' -> v_vp v'' = v_vp v' ->
  votes s' = votes s1 -> hp_vp s' = hp_vp s1 -> hp_vv s' = hp_vv s1 -> SInv s'.
Proof.
  intros HS HI' HX [A1 A2 A3 A4 A5 A6 A7 A8 A9] Ev Evp E1 E2 E3.
  assert (Hg : get_voter s' vid = v'') by (unfold get_voter; rewrite Ev, om_get_set_eq; reflexivity).
  eapply (sinv_update s s' vid L L'); auto.
  - unfold votes_nd in *. rewrite E1. exact A4.
  - rewrite E2. exact A2.
  - rewrite E3. exact A3.
  - intros q Hq. unfold get_voter. rewrite Ev, om_get_set_ne by congruence. reflexivity.
  - rewrite Hg, Evp, E2, E3. exact A1.
  - intros a o. unfold get_total_votes in *. rewrite E1. apply A5.
Qed.

Lemma vote_exact s vid vp addr obj s' :
  SInv s -> P vid addr -> 0 < vp -> internal_vote s vid vp addr obj = Ok s' ->
  exists s1 v' L L', om_get (voters s) vid = Some (get_voter s vid) /\
    vexact P (hp_vp s) (hp_vv s) vid (v_vp (get_voter s vid)) L /\
    vmove P s s1 vid (get_voter s vid) v' L L' /\ s' = save_voter s1 vid v' /\
    vp <= v_avail (get_voter s vid) /\ v_avail v' = v_avail (get_voter s vid) - vp /\
    (forall a o, lvotes L' a o = lvotes L a o + if decide (a = addr /\ o = obj) then vp else 0).
Proof.
  intros HS HP Hvp H. unfold internal_vote, get_voter_or_panic in H.
  apply bind_Ok in H as (v & Hv & H). apply expect_Ok in Hv.
  apply bind_Ok in H as ([s1 v1] & Hc & H). injection H as <-.
  destruct (si_ex _ HS vid) as [L HX]. pose proof (get_voter_Some _ _ _ Hv) as Hg. rewrite Hg in *.
  destruct (create_vp_exact P _ _ _ _ _ _ _ _ _ HX (si_nd _ HS) HP Hvp Hc) as (L' & Hm & H1 & H2 & H3).
  exists s1, v1, L, L'. auto 10.
Qed.

Lemma unvote_exact c s vid addr obj s' :
  SInv s -> internal_unvote c s vid addr obj = Ok s' ->
  exists s1 v' L L', om_get (voters s) vid = Some (get_voter s vid) /\
    vexact P (hp_vp s) (hp_vv s) vid (v_vp (get_voter s vid)) L /\
    vmove P s s1 vid (get_voter s vid) v' L L' /\ s' = save_voter s1 vid v' /\
    votes_locked_in c s addr obj = false /\ 0 < lvotes L addr obj /\
    v_avail v' = v_avail (get_voter s vid) + lvotes L addr obj /\
    (forall a o, lvotes L' a o = if decide (a = addr /\ o = obj) then 0 else lvotes L a o).
Proof.
  intros HS H. unfold internal_unvote, get_voter_or_panic in H.
  apply bind_Ok in H as (? & Hl & H). apply require_Ok in Hl. nb.
  apply bind_Ok in H as (v & Hv & H). apply expect_Ok in Hv.
  apply bind_Ok in H as ([s1 v1] & Hc & H). injection H as <-.
  destruct (si_ex _ HS vid) as [L HX]. pose proof (get_voter_Some _ _ _ Hv) as Hg. rewrite Hg in *.
  assert (HP : P vid addr).
  { pose proof (remove_vp_inv _ _ _ _ _ _ _ _ (ve_rep _ _ _ _ _ _ HX) Hc)
      as (_ & y & _ & _ & _ & _ & _ & _ & _ & _ & (h0 & o0 & Ho0 & -> & Hy) & _).
    rewrite (ve_uget_outer P _ _ _ _ _ HX) in Ho0. injection Ho0 as <-.
    destruct (om_get L addr) as [[hh m]|] eqn:E.
    - apply (ve_P _ _ _ _ _ _ HX). eapply om_get_Some_key; exact E.
    - exfalso. cbn in Hy. unfold uget, cget, vec_get, unew in Hy. cbn in Hy.
      destruct (ce_idx _ !! obj); discriminate. }
  destruct (remove_vp_exact P _ _ _ _ _ _ _ _ HX (si_nd _ HS) HP Hc) as (L' & Hm & H1 & H2 & _ & H3 & _).
  exists s1, v1, L, L'. auto 12.
Qed.

Lemma rebalance_exact c s vp addr obj s' :
  SInv s -> rebalance c s vp addr obj = Ok s' ->
  exists s1 v' L L', let vid := c_pred c in
    om_get (voters s) vid = Some (get_voter s vid) /\
    vexact P (hp_vp s) (hp_vv s) vid (v_vp (get_voter s vid)) L /\
    vmove P s s1 vid (get_voter s vid) v' L L' /\ s' = save_voter s1 vid v' /\
    0 < lvotes L addr obj /\ vp <> lvotes L addr obj /\
    v_avail v' + vp = v_avail (get_voter s vid) + lvotes L addr obj /\
    (vp = 0 -> votes_locked_in c s addr obj = false) /\
    (forall a o, lvotes L' a o = if decide (a = addr /\ o = obj) then vp else lvotes L a o).
Proof.
  intros HS H. pose proof H as H0. unfold rebalance, get_voter_or_panic in H.
  apply bind_Ok in H as (u0 & _ & H). cbn zeta in H. apply bind_Ok in H as (v & Hv & H). apply expect_Ok in Hv.
  set (vid := c_pred c) in *. cbn zeta.
  destruct (si_ex _ HS vid) as [L HX]. pose proof (get_voter_Some _ _ _ Hv) as Hg. rewrite Hg in *.
  rewrite (gvp_exact P _ _ _ _ _ HX) in H. cbn [mbind res_bind] in H.
  apply bind_Ok in H as (oo & Hoo & H). apply bind_Ok in H as (x & Hx & H). apply expect_Ok in Hx. subst oo.
  assert (HP : P vid addr).
  { unfold ihand in Hoo. destruct (om_get L addr) as [[hh m]|] eqn:E.
    - apply (ve_P _ _ _ _ _ _ HX). eapply om_get_Some_key; exact E.
    - exfalso. cbn in Hoo. unfold uget, cget, vec_get, unew in Hoo. cbn in Hoo.
      destruct (ce_idx _ !! obj); discriminate. }
  rewrite (ve_uget_inner P _ _ _ _ _ HX _ obj HP) in Hoo. injection Hoo as Hoo.
  assert (Hlx : lvotes L addr obj = x) by (rewrite lvotes_imap, Hoo; reflexivity).
  pose proof (ve_imap_pos P _ _ _ _ _ HX _ _ _ Hoo) as [Hpos _].
  apply bind_Ok in H as (u1 & Hne & H). apply require_Ok in Hne. nb.
  destruct (vp =? 0) eqn:Evp; nb.
  { subst vp. apply unvote_exact in H as (s1 & v' & L1 & L' & H1 & H2 & H3 & H4 & H5 & H6 & H7 & H8); [|exact HS].
    rewrite Hg in *.
    assert (Hll : forall a o, lvotes L1 a o = lvotes L a o).
    { intros a o. pose proof (get_votes_exact s vid L1 a o) as G1. pose proof (get_votes_exact s vid L a o) as G2.
      rewrite Hg in G1, G2. specialize (G1 H2). specialize (G2 HX). congruence. }
    exists s1, v', L1, L'. split; [exact H1|]. split; [exact H2|]. split; [exact H3|]. split; [exact H4|].
    split; [exact H6|]. split; [lia|]. split; [lia|]. split; [auto|exact H8]. }
  apply bind_Ok in H as ([[s1 av] vts'] & Hmid & H).
  assert (votes_nd s1 /\ vts' = vp /\ av + vp = v_avail v + x /\ (exists vs, s1 = s <| votes := vs |>) /\
    forall a o, get_total_votes s1 a o + (if decide (a = addr /\ o = obj) then x else 0)
              = get_total_votes s a o + (if decide (a = addr /\ o = obj) then vp else 0))
    as (Hnd1 & -> & Hav & (vs & Es) & Htot).
  { destruct (x <? vp) eqn:Elt; nb.
    - apply bind_Ok in Hmid as (d & Hd & Hmid). apply sub128_Ok in Hd as [-> Hd].
      apply bind_Ok in Hmid as (? & Hle & Hmid). apply require_Ok in Hle. nb.
      apply bind_Ok in Hmid as (av' & Hav & Hmid). apply sub128_Ok in Hav as [-> Hav].
      apply bind_Ok in Hmid as (y & Hy & Hmid). apply add128_Ok in Hy as [-> Hy].
      apply bind_Ok in Hmid as (s2 & Hinc & Hmid). injection Hmid as <- <- <-.
      pose proof (increase_total_inv _ _ _ _ _ Hinc) as Hs.
      apply increase_exact in Hinc as [Hn Ht]; [|exact (si_nd _ HS)].
      split; [exact Hn|]. split; [lia|]. split; [lia|]. split; [exact Hs|].
      intros a o. rewrite Ht. case_decide; lia.
    - apply bind_Ok in Hmid as (d & Hd & Hmid). apply sub128_Ok in Hd as [-> Hd].
      apply bind_Ok in Hmid as (av' & Hav & Hmid). apply add128_Ok in Hav as [-> Hav].
      apply bind_Ok in Hmid as (y & Hy & Hmid). apply sub128_Ok in Hy as [-> Hy].
      apply bind_Ok in Hmid as (s2 & Hinc & Hmid). injection Hmid as <- <- <-.
      pose proof (decrease_total_inv _ _ _ _ _ Hinc) as Hs.
      apply decrease_exact in Hinc as (Hn & _ & Ht); [|exact (si_nd _ HS)].
      split; [exact Hn|]. split; [lia|]. split; [lia|]. split; [exact Hs|].
      intros a o. rewrite (Ht a o). case_decide; lia. }
  assert (hp_vv s1 = hp_vv s /\ hp_vp s1 = hp_vp s) as [Ehv Ehp] by (subst s1; auto).
  rewrite Ehv, Ehp in H.
  destruct (ve_set P _ _ _ _ _ HX addr obj vp HP ltac:(lia))
    as (hv' & h' & hp' & hd' & E1 & E2 & HX' & F1 & F2).
  rewrite E1 in H. cbn [mbind res_bind] in H. rewrite E2 in H. cbn [mbind res_bind] in H. injection H as <-.
  set (L' := om_set L addr (h', om_set (imap_ L addr) obj vp)) in *.
  assert (Hlv : forall a o, lvotes L' a o = if decide (a = addr /\ o = obj) then vp else lvotes L a o).
  { intros a o. apply lvotes_set. }
  exists (s1 <| hp_vv := hv' |> <| hp_vp := hp' |>), (v <| v_avail := av |> <| v_vp := hd' |>), L, L'.
  split; [exact Hv|]. split; [exact HX|]. split.
  - constructor; cbn; auto.
    + intros a o. specialize (Htot a o).
      change (get_total_votes (s1 <| hp_vv := hv' |> <| hp_vp := hp' |>) a o) with (get_total_votes s1 a o).
      rewrite Hlv. case_decide as Hd; [destruct Hd as [-> ->]|]; lia.
    + destruct (set_vote_weak vid _ _ _ _ (ve_rep _ _ _ _ _ _ HX) _ _ _ _ _ _ _ _ _ (ve_uget_outer P _ _ _ _ _ HX addr)
        (ve_uget_inner P _ _ _ _ _ HX _ obj HP) E1 E2) as (Lw & Hrw & _ & Huw & _).
      pose proof (used_raw_rep _ _ _ _ _ Hrw) as U1. pose proof (used_raw_rep _ _ _ _ _ (ve_rep _ _ _ _ _ _ HX')) as U2.
      rewrite Hoo in Huw. cbn in Huw. lia.
    + exists vs, hv', hp'. subst s1. destruct s; reflexivity.
  - split; [reflexivity|]. rewrite Hlx. split; [exact Hpos|]. split; [congruence|]. split; [exact Hav|].
    split; [intros ->; congruence|exact Hlv].
Qed.

(** the vote removal loop of mirroring *)
Lemma mirror_loop_exact fuel : forall s vid v u new L s' v' u',
  vexact P (hp_vp s) (hp_vv s) vid (v_vp v) L -> votes_nd s -> u = used L ->
  mirror_loop fuel s vid v u new = Ok (s', v', u') ->
  exists L', vmove P s s' vid v v' L L' /\ u' = used L' /\
    (forall a o, lvotes L' a o = lvotes L a o \/ lvotes L' a o = 0) /\ u' <= new /\
    (u <= new -> s' = s /\ v' = v /\ L' = L) /\
    (new < u -> exists a o, 0 < lvotes L a o /\ lvotes L' a o = 0 /\ new < u' + lvotes L a o) /\
    shed new (vabs L) (vabs L').
Proof.
  induction fuel as [|fuel IH]; intros s vid v u new L s' v' u' HX Hnd Hu H; simpl in H;
    destruct (new <? u) eqn:Elt; nb; try discriminate.
  - injection H as <- <- <-. exists L. split; [apply vmove_refl; assumption|]. split; [exact Hu|].
    split; [auto|]. split; [lia|]. split; [auto|]. split; [lia|]. apply shed_done. rewrite vabs_power. lia.
  - apply bind_Ok in H as (ok & Hok & H). apply bind_Ok in H as (addr & Hadr & H). apply expect_Ok in Hadr. subst ok.
    apply bind_Ok in H as (oh & Hoh & H). apply bind_Ok in H as (h & Hh & H). apply expect_Ok in Hh. subst oh.
    apply bind_Ok in H as (oo & Hoo & H). apply bind_Ok in H as (obj & Hobj & H). apply expect_Ok in Hobj. subst oo.
    rewrite (ukey_at_rep _ _ _ (vr_outer _ _ _ _ _ (ve_rep _ _ _ _ _ _ HX))) in Hok. injection Hok as Hok.
    apply bind_Ok in H as (ov & Hov & H). apply bind_Ok in H as (x & Hx & H). apply expect_Ok in Hx. subst ov.
    apply bind_Ok in H as ([s1 v1] & Hrm & H). apply bind_Ok in H as (u1 & Hu1 & H).
    apply sub128_Ok in Hu1 as [-> Hle].
    rewrite (ve_uget_outer P _ _ _ _ _ HX) in Hoh. injection Hoh as Hoh.
    assert (HP : P vid addr).
    { apply (ve_P _ _ _ _ _ _ HX). destruct (om_get L addr) as [[hh m]|] eqn:E; [|discriminate].
      eapply om_get_Some_key; exact E. }
    assert (Hlx : lvotes L addr obj = x).
    { pose proof (ve_uget_inner P _ _ _ _ _ HX _ obj HP) as Hui. unfold ihand in Hui. rewrite Hoh in Hui.
      cbn in Hui. rewrite Hov in Hui. injection Hui as Hui. rewrite lvotes_imap, <- Hui. reflexivity. }
    destruct (remove_vp_exact P _ _ _ _ _ _ _ _ HX Hnd HP Hrm) as (L1 & Hm1 & Hpos & Hav & Hus & Hlv & h1 & EL1).
    assert (Hu1 : u - x = used L1) by lia.
    destruct (IH _ _ _ _ _ _ _ _ _ (vm_ex _ _ _ _ _ _ _ _ Hm1) (vm_nd _ _ _ _ _ _ _ _ Hm1) Hu1 H)
      as (L' & Hm & Hu' & Hor & Hnew & Hsame & Hlast & Hshed).
    assert (Hdrop : vabs L1 = drop_first (vabs L)).
    { rewrite EL1. apply vabs_drop; [exact Hok|].
      assert (Hr : crep (cell_at (hp_vv s) (vkey vid addr)) (h_len (ihand vid L addr)) (imap_ L addr))
        by apply (ve_inner P _ _ _ _ _ HX addr HP).
      assert (Eh : ihand vid L addr = h) by (unfold ihand; rewrite Hoh; reflexivity).
      pose proof (ve_inner P _ _ _ _ _ HX addr HP) as (Hpf & _ & _). rewrite Eh in Hr, Hpf.
      assert (Hr' : urep (hp_vv s) h (imap_ L addr)) by (unfold urep; rewrite Hpf; exact Hr).
      rewrite (ukey_at_rep _ _ _ Hr') in Hoo. injection Hoo as Hoo. exact Hoo. }
    exists L'. split; [eapply vmove_trans; eassumption|]. split; [exact Hu'|]. split.
    { intros a o. destruct (Hor a o) as [E|E]; [|auto]. rewrite E, Hlv. case_decide; auto. }
    split; [exact Hnew|]. split; [lia|].
    split; [|apply shed_step; [rewrite vabs_power; lia|rewrite <- Hdrop; exact Hshed]]. intros _.
    destruct (N.lt_ge_cases new (u - x)) as [Hc|Hc].
    + destruct (Hlast Hc) as (a & o & H1 & H2 & H3). exists a, o. rewrite Hlv in H1, H3. case_decide; [lia|]. auto.
    + destruct (Hsame Hc) as (-> & -> & ->). exists addr, obj. split; [exact Hpos|].
      split; [rewrite Hlv, decide_True by auto; reflexivity|]. lia.
  - injection H as <- <- <-. exists L. split; [apply vmove_refl; assumption|]. split; [exact Hu|].
    split; [auto|]. split; [lia|]. split; [auto|]. split; [lia|]. apply shed_done. rewrite vabs_power. lia.
Qed.

Lemma mirror_exact c s ext l s' :
  SInv s -> operator_mirror_lps c s ext l = Ok s' ->
  exists L L' vps v1 s1,
    let vid := pseudo_near_address ext in
    let v := get_voter s vid in
    operator_id s = c_pred c /\ c_deposit c = 0 /\
    vexact P (hp_vp s) (hp_vv s) vid (v_vp v) L /\ vmove P s s1 vid v v1 L L' /\
    mapMr (fun lp => calculate_voting_power lp.2 lp.1) l = Ok vps /\ length vps = length l /\
    (forall a o, lvotes L' a o = lvotes L a o \/ lvotes L' a o = 0) /\
    used L' <= sumN vps /\ (used L <= sumN vps -> s1 = s /\ v1 = v /\ L' = L) /\
    (sumN vps < used L ->
       exists a o, 0 < lvotes L a o /\ lvotes L' a o = 0 /\ sumN vps < used L' + lvotes L a o) /\
    shed (sumN vps) (vabs L) (vabs L') /\
    total_vp s + sumN vps < U128_SIZE /\ v_avail v + used L <= total_vp s /\
    s' = upd s1 vid (mkVoter (v_bal v) (zip_with (fun lp vp => mkLpos lp.2 lp.1 vp None) l vps)
            (sumN vps - used L') (v_vp v1)) (total_vp s + sumN vps - (v_avail v + used L)).
Proof.
  intros HS H. pose proof (mirror_inv _ _ _ _ _ _ _ (si_inv _ HS) H)
    as (Lw & Lw' & vps & v1 & s1 & Hop & Hd & Hrw & Hpw & _ & Hvps & Hlen & Hloop & _ & Hrw' & _ & _ & Hle & Ht & _ & Es).
  set (vid := pseudo_near_address ext) in *.
  destruct (si_ex _ HS vid) as [L HX].
  assert (used Lw = used L) as EL.
  { rewrite <- (used_raw_rep _ _ _ _ _ Hrw), <- (used_raw_rep _ _ _ _ _ (ve_rep _ _ _ _ _ _ HX)). reflexivity. }
  rewrite EL in *.
  destruct (mirror_loop_exact _ _ _ _ _ _ _ _ _ _ HX (si_nd _ HS) eq_refl Hloop)
    as (L' & Hm & Hu' & Hor & Hnew & Hsame & Hlast & Hshed).
  pose proof (inv_get _ _ s vid (si_inv _ HS)) as (_ & _ & _ & _ & _ & Hpt).
  rewrite Hpw in Es, Hpt. rewrite Hu' in *.
  exists L, L', vps, v1, s1. cbn zeta. fold vid. auto 20.
Qed.

Lemma sinv_exec x s s' e :
  (forall t, vote_target x = Some t -> P t.1 t.2) ->
  (match x.2 with Vote p _ _ | VoteDelegated _ p _ _ => p <> 0 | _ => True end) ->
  SInv s -> exec x.1 s x.2 = Ok (s', e) -> SInv s'.
Proof.
  destruct x as [c o]. cbn [fst snd]. intros HT HZ HS H.
  assert (HI' : Inv weak P s').
  { eapply (inv_exec weak P HinjP (c, o)); [exact HT|discriminate|intros ? ? ? _; apply weak_0|exact (si_inv _ HS)|exact H]. }
  destruct (is_vote_op o) eqn:Ho; [|eapply sinv_nonvote; eassumption].
  assert (Hmove : forall s1 vid v' L L', vexact P (hp_vp s) (hp_vv s) vid (v_vp (get_voter s vid)) L ->
    vmove P s s1 vid (get_voter s vid) v' L L' -> s' = save_voter s1 vid v' -> SInv s').
  { intros s1 vid v' L L' HX Hm Es. pose proof (vm_st _ _ _ _ _ _ _ _ Hm) as (vs & hv & hp & E1).
    eapply (sinv_move s s1 s' vid v' v'); eauto; rewrite Es; try reflexivity. rewrite E1. reflexivity. }
  destruct o; try discriminate; cbn [exec] in H; apply noeff_Ok in H as [H _].
  - unfold vote in H. apply bind_Ok in H as (? & _ & H).
    apply vote_exact in H as (s1 & v' & L & L' & _ & HX & Hm & Es & _); eauto. { apply (HT _ eq_refl). } lia.
  - apply rebalance_exact in H as (s1 & v' & L & L' & _ & HX & Hm & Es & _); eauto.
  - unfold unvote in H. apply bind_Ok in H as (? & _ & H).
    apply unvote_exact in H as (s1 & v' & L & L' & _ & HX & Hm & Es & _); eauto.
  - apply mirror_exact in H as (L & L' & vps & v1 & s1 & _ & _ & HX & Hm & _ & _ & _ & _ & _ & _ & _ & _ & _ & Es); [|exact HS].
    pose proof (vm_st _ _ _ _ _ _ _ _ Hm) as (vs & hv & hp & E1).
    eapply (sinv_move s s1 s' _ v1 _ L L' HS HI' HX Hm); [rewrite Es, E1; reflexivity|reflexivity|..];
      rewrite Es; reflexivity.
  - unfold vote_delegated, verify_delegate in H. rinv.
    apply vote_exact in H as (s1 & v' & L & L' & _ & HX & Hm & Es & _); eauto. { apply (HT _ eq_refl). } lia.
  - unfold unvote_delegated in H. apply bind_Ok in H as (? & _ & H). apply bind_Ok in H as (? & _ & H).
    apply unvote_exact in H as (s1 & v' & L & L' & _ & HX & Hm & Es & _); eauto.
Qed.

End SInv.

Lemma sinv_run a s0 tr :
  mv_new a = Ok s0 -> collision_free tr -> no_zero_votes tr -> SInv (targetsP tr) (run s0 tr).
Proof.
  intros Hn Hc Hz. apply (run_inv (SInv (targetsP tr))); [eapply sinv_init; exact Hn|].
  intros x s s' e Hin HS He. eapply (sinv_exec _ (targets_injP _ Hc)); eauto.
  - intros [v ad] Ht. eapply In_vote_targets; eauto.
  - unfold no_zero_votes in Hz. rewrite Forall_forall in Hz. apply Hz. apply elem_of_list_In. exact Hin.
Qed.
