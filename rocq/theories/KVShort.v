(** KVShort.v -- C97: the texts of the calls bound what is stored. *)

From Verif Require Import KVBytesProofs EntryProofs ReadLen.
Import KVBytesSpec KVBytesProofs.

Lemma strs_len d : forall l e, mapM val_strs d = Some l -> In e l -> (String.length e.1 + String.length e.2 <= sizes d)%nat.
Proof.
  induction d as [|v d IH]; intros l e E Hin; [injection E as <-; destruct Hin|].
  change (mapM val_strs (v :: d)) with (x ← val_strs v; k ← mapM val_strs d; Some (x :: k)) in E.
  destruct (val_strs v) as [[x y]|] eqn:Ev; [|discriminate]. cbn [mbind option_bind] in E. destruct (mapM val_strs d) as [k|] eqn:Ek; [|discriminate]. cbn [mbind option_bind] in E. injection E as <-.
  change (sizes (v :: d)) with (S (ReadLen.size v) + sizes d)%nat. destruct Hin as [<-|Hin]; [|specialize (IH _ _ eq_refl Hin); lia].
  unfold val_strs in Ev. destruct v as [| | | | | |[|[] [|[] [|]]]|]; try discriminate. injection Ev as <- <-. cbn [ReadLen.size fold_right fst snd]. lia.
Qed.
Lemma strs_count d : forall l, mapM val_strs d = Some l -> (length l <= sizes d)%nat.
Proof.
  induction d as [|v d IH]; intros l E; [injection E as <-; cbn; lia|]. change (mapM val_strs (v :: d)) with (x ← val_strs v; k ← mapM val_strs d; Some (x :: k)) in E.
  destruct (val_strs v) as [x|]; [|discriminate]. cbn [mbind option_bind] in E. destruct (mapM val_strs d) as [k|]; [|discriminate]. cbn [mbind option_bind] in E. injection E as <-.
  specialize (IH _ eq_refl). change (sizes (v :: d)) with (S (ReadLen.size v) + sizes d)%nat. cbn [length]. lia.
Qed.
Lemma writes_len m a o : kv_entry m a = Some o ->
  (length (writes o) <= String.length a)%nat /\ forall e, In e (writes o) -> (String.length e.1 <= String.length a /\ String.length e.2 <= String.length a)%nat.
Proof.
  intros E. pose proof (proj1 (kv_iff _ _ _) E) as (_ & Em & _). destruct o; cbn [writes length]; try (split; [lia|intros e []]); cbn in Em; try discriminate Em; subst m;
    unfold kv_entry in E; (eapply enter_at in E as (vs & E & Ef); [|reflexivity|discriminate]); cbv beta in Ef.
  - destruct vs as [|[] vs]; try discriminate Ef. destruct vs as [|[] vs]; try discriminate Ef. destruct vs; [|discriminate Ef]. injection Ef as <- <-.
    pose proof (args_len _ _ _ (VStr _) E (or_introl eq_refl)) as L1. pose proof (args_len _ _ _ (VStr _) E (or_intror (or_introl eq_refl))) as L2. cbn [ReadLen.size] in L1, L2.
    split; [lia|]. intros e [<-|[]]. cbn [fst snd]. lia.
  - destruct vs as [|[] vs]; try discriminate Ef. destruct vs; [|discriminate Ef]. destruct (mapM val_strs _) as [d|] eqn:Ed; [|discriminate Ef]. cbn [mbind option_bind] in Ef. injection Ef as <-.
    pose proof (args_len _ _ _ (VList _) E (or_introl eq_refl)) as L1. match type of L1 with (ReadLen.size (VList ?x) < _)%nat => change (sizes x < String.length a)%nat in L1 end.
    split; [pose proof (strs_count _ _ Ed); lia|]. intros e He. pose proof (strs_len _ _ _ Ed He). lia.
Qed.
Lemma c97_usual tr : Forall (fun x : bcall => N.of_nat (String.length x.2) < 2 ^ 32) tr -> N.of_nat (length tr) < 2 ^ 32 -> within tr.
Proof.
  intros F L. apply within_if.
  - unfold short_calls. apply forallb_forall. intros [[c m] a] Hin. cbn [fst snd]. destruct (kv_entry m a) as [o|] eqn:E; [|reflexivity]. apply forallb_forall. intros e He.
    destruct (writes_len _ _ _ E) as [_ Hl]. destruct (Hl e He) as [L1 L2]. apply elem_of_list_In in Hin. pose proof (proj1 (Forall_forall _ _) F _ Hin) as Ha. cbn [snd] in Ha.
    apply andb_true_intro. split; apply N.ltb_lt; refine (N.le_lt_trans _ _ _ _ Ha); lia.
  - assert (W : (weights tr <= length tr * N.to_nat (2 ^ 32))%nat -> N.of_nat (weights tr) < 2 ^ 64).
    { intros Hw. assert (N.of_nat (weights tr) <= N.of_nat (length tr) * 2 ^ 32) by lia. change (2 ^ 64) with (2 ^ 32 * 2 ^ 32). nia. }
    apply W. clear W L. induction F as [|[[c m] a] tr Ha F IH]; [cbn; lia|]. cbn [snd] in Ha. cbn [weights fold_right length]. fold (weights tr).
    assert (weight (c, m, a) <= N.to_nat (2 ^ 32))%nat; [|nia]. unfold weight. cbn [fst snd]. destruct (kv_entry m a) as [o|] eqn:E; [|lia]. destruct (writes_len _ _ _ E) as [Hl _]. lia.
Qed.
