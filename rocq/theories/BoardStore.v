(** BoardStore.v -- for C99: the records of the proposal contract are read back, and its maps do not disturb each other. *)

From Verif Require Export BoardMaps.
From Verif Require Import FlatProofs WireProofs EntryProofs AskProofs KVBytesProofs MpipSized.
Import FlatProofs Mpip MpipSized BoardBytes KVBytesProofs.

(** ** Borsh *)
Lemma slice_ok {A} (d : string -> option (A * string)) e x : (forall r, d (e +:+ r) = Some (x, r)) -> try_from_slice d e = Some x.
Proof. intros E. unfold try_from_slice. rewrite <- (sapp_nil e), E. reflexivity. Qed.
Lemma de_u8 x r : x < 256 -> dec_uint 1 (enc_uint 1 x +:+ r) = Some (x, r).
Proof. intros L. apply dec_enc_uint. exact L. Qed.
Lemma de_u16 x r : fits16 x -> dec_uint 2 (enc_uint 2 x +:+ r) = Some (x, r).
Proof. intros L. apply dec_enc_uint. exact L. Qed.
Lemma de_u32 x r : fits32 x -> dec_uint 4 (enc_uint 4 x +:+ r) = Some (x, r).
Proof. intros L. apply dec_enc_uint. exact L. Qed.
Lemma de_u64 x r : fits64 x -> dec_uint 8 (enc_uint 8 x +:+ r) = Some (x, r).
Proof. intros L. apply dec_enc_uint. exact L. Qed.
Lemma de_u128 x r : fits128 x -> dec_uint 16 (enc_uint 16 x +:+ r) = Some (x, r).
Proof. intros L. apply dec_enc_uint. exact L. Qed.
Lemma de_bool b r : dec_bool (enc_bool b +:+ r) = Some (b, r).
Proof. unfold dec_bool, enc_bool. rewrite de_u8 by (destruct b; reflexivity). destruct b; reflexivity. Qed.
Lemma de_o64 o r : opt_fits fits64 o -> dec_onum 8 (enc_onum 8 o +:+ r) = Some (o, r).
Proof.
  unfold dec_onum, enc_onum. destruct o as [x|]; cbn [opt_fits]; intros L; rewrite ?sapp_assoc, de_u8 by reflexivity; [|reflexivity].
  cbn [mbind option_bind]. change (1 =? 0) with false. change (1 =? 1) with true. cbv iota. rewrite de_u64 by exact L. reflexivity.
Qed.
Lemma de_o128 o r : opt_fits fits128 o -> dec_onum 16 (enc_onum 16 o +:+ r) = Some (o, r).
Proof.
  unfold dec_onum, enc_onum. destruct o as [x|]; cbn [opt_fits]; intros L; rewrite ?sapp_assoc, de_u8 by reflexivity; [|reflexivity].
  cbn [mbind option_bind]. change (1 =? 0) with false. change (1 =? 1) with true. cbv iota. rewrite de_u128 by exact L. reflexivity.
Qed.
Lemma de_id s r : account_id s -> dec_id (enc_str s +:+ r) = Some (s, r).
Proof. intros L. unfold dec_id. rewrite (dec_enc_str _ _ (id_short _ L)). cbn [mbind option_bind]. rewrite (proj2 (valid_id_spec _) L). reflexivity. Qed.
Lemma de_nums l r : Forall fits32 l -> N.of_nat (length l) < 2 ^ 32 -> dec_nums (enc_nums l +:+ r) = Some (l, r).
Proof.
  intros F L. unfold dec_nums, enc_nums. rewrite sapp_assoc, de_u32 by exact L. cbn [mbind option_bind]. rewrite Nat2N.id. clear L.
  induction F as [|x l Hx F IH]; [reflexivity|]. cbn [length dec_nums_n fold_right]. rewrite sapp_assoc, de_u32 by exact Hx. cbn [mbind option_bind]. rewrite IH. reflexivity.
Qed.
Lemma de_vtype t r : dec_vtype (enc_vtype t +:+ r) = Some (t, r).
Proof. unfold dec_vtype, enc_vtype. rewrite de_u8 by (destruct t; reflexivity). destruct t; reflexivity. Qed.
Definition okvote (u : mvote) : Prop := fits32 (vt_mpip u) /\ fits128 (vt_power u) /\ str_fits (vt_memo u).
Lemma de_vote u r : okvote u -> dec_vote (enc_vote u +:+ r) = Some (u, r).
Proof.
  intros (H1 & H2 & H3). unfold dec_vote, enc_vote. rewrite !sapp_assoc, de_u32 by exact H1. cbn [mbind option_bind]. rewrite de_vtype. cbn [mbind option_bind].
  rewrite de_u128 by exact H2. cbn [mbind option_bind]. rewrite dec_enc_str by exact H3. cbn [mbind option_bind]. destruct u; reflexivity.
Qed.
Definition okcontent (ct : content) : Prop :=
  str_fits (ct_title ct) /\ str_fits (ct_short ct) /\ str_fits (ct_body ct) /\ str_fits (ct_data ct) /\ str_fits (ct_extra ct).
Definition okmpip (p : mpip) : Prop := sized_mpip p /\ okcontent (pr_content p) /\ account_id (pr_creator p).
Lemma de_mpip p r : okmpip p -> dec_mpip (enc_mpip p +:+ r) = Some (p, r).
Proof.
  intros ((H1 & H2 & H3 & H4) & (C1 & C2 & C3 & C4 & C5) & Hc). unfold dec_mpip, enc_mpip. cbv zeta. rewrite !sapp_assoc.
  rewrite de_u32 by exact H1. cbn [mbind option_bind]. rewrite dec_enc_str by exact C1. cbn [mbind option_bind]. rewrite dec_enc_str by exact C2. cbn [mbind option_bind].
  rewrite dec_enc_str by exact C3. cbn [mbind option_bind]. rewrite dec_enc_str by exact C4. cbn [mbind option_bind]. rewrite dec_enc_str by exact C5. cbn [mbind option_bind].
  rewrite de_id by exact Hc. cbn [mbind option_bind]. rewrite de_o64 by exact H2. cbn [mbind option_bind]. rewrite de_o64 by exact H3. cbn [mbind option_bind].
  rewrite !de_bool. cbn [mbind option_bind]. rewrite !de_bool. cbn [mbind option_bind]. rewrite !de_bool. cbn [mbind option_bind]. rewrite de_o128 by exact H4. cbn [mbind option_bind]. destruct p as [? [] ? ? ? ? ? ? ?]. reflexivity.
Qed.
Lemma hd_fits p n : (String.length p <= 64)%nat -> small n -> umh_fits (hd p n).
Proof.
  intros Hp Hs. assert (S : forall x, str_fits (p +:+ String x "")). { intros x. unfold str_fits, U32_SIZE. rewrite sapp_len. cbn [String.length]. lia. }
  unfold umh_fits, hd. cbn [um_pre um_klen um_kpre um_vlen um_vpre]. split; [apply S|]. split; [exact Hs|]. split; [apply S|]. split; [exact Hs|apply S].
Qed.

Lemma mapMr_same {A B} (f g : A -> res B) l : Forall (fun x => f x = g x) l -> mapMr f l = mapMr g l.
Proof. intros F. induction F as [|x l E F IH]; [reflexivity|]. cbn [mapMr]. rewrite E, IH. reflexivity. Qed.

(** ** The maps *)
Section Maps.
Variables (H : string -> string) (NM : string -> Prop).
Hypothesis H32 : hash32 H.
Hypothesis Hinj : forall x y, NM x -> NM y -> H x = H y -> x = y.

(** has_voted of a proposal, votes of a voter *)
Definition PV (id : N) : string := sk1 H 1 (pretty id).
Definition PM (a : string) : string := sk1 H 5 a.
Definition tbv (id : N) (v : pvote) : bpv := mkBpv (pv_for v) (pv_against v) (pv_abstain v) (hd (PV id) (length (pv_voted v))).
Definition tbm (a : string) (m : omap_t N mvote) : umh := hd (PM a) (length m).

Definition W1 (id : N) (p : mpip) : Prop := fits32 id /\ okmpip p.
Definition W2 (id : N) (v : pvote) : Prop := fits32 id /\ NM (pretty id) /\ fits128 (pv_for v) /\ fits128 (pv_against v) /\ fits128 (pv_abstain v) /\ small (length (pv_voted v)).
Definition W3 (a : string) (m : omap_t N mvote) : Prop := account_id a /\ NM a /\ small (length m).
Definition W4 (a : string) (l : list N) : Prop := account_id a /\ Forall fits32 l /\ N.of_nat (length l) < 2 ^ 32.
Definition W5 (a : string) (u : mvote) : Prop := account_id a /\ okvote u.
Definition W6 (id : N) (u : mvote) : Prop := fits32 id /\ NM (pretty id) /\ okvote u.

Definition T1 := TMap (enc_uint 4) (fun _ => enc_mpip) W1.
Definition T2 := TMap (enc_uint 4) (fun id v => enc_bpv (tbv id v)) W2.
Definition T3 := TMap enc_str (fun a m => enc_umh (tbm a m)) W3.
Definition T4 := TMap enc_str (fun _ => enc_nums) W4.
Definition T5 := TMap enc_str (fun _ => enc_vote) W5.
Definition T6 := TMap (enc_uint 4) (fun _ => enc_vote) W6.

Lemma key_n k : fits32 k -> try_from_slice (dec_uint 4) (enc_uint 4 k) = Some k.
Proof using. intros L. apply slice_ok. intros r. apply de_u32. exact L. Qed.
Lemma key_a k : account_id k -> try_from_slice dec_id (enc_str k) = Some k.
Proof using. intros L. apply slice_ok. intros r. apply de_id. exact L. Qed.
Lemma PV_len id : (String.length (PV id) <= 64)%nat. Proof using H32. unfold PV. rewrite sk1_len by exact H32. lia. Qed.
Lemma PM_len a : (String.length (PM a) <= 64)%nat. Proof using H32. unfold PM. rewrite sk1_len by exact H32. lia. Qed.
Lemma val1 k p : W1 k p -> try_from_slice dec_mpip (enc_mpip p) = Some p.
Proof using. intros [_ L]. apply slice_ok. intros r. apply de_mpip. exact L. Qed.
Lemma val2 k v : W2 k v -> try_from_slice dec_bpv (enc_bpv (tbv k v)) = Some (tbv k v).
Proof using H32.
  intros (_ & _ & L1 & L2 & L3 & L4). apply slice_ok. intros r. unfold dec_bpv, enc_bpv, tbv. cbn [v_for v_against v_abstain v_voted]. rewrite !sapp_assoc.
  rewrite de_u128 by exact L1. cbn [mbind option_bind]. rewrite de_u128 by exact L2. cbn [mbind option_bind]. rewrite de_u128 by exact L3. cbn [mbind option_bind].
  rewrite dec_enc_umh by (apply hd_fits; [apply PV_len|exact L4]). reflexivity.
Qed.
Lemma val3 k m : W3 k m -> try_from_slice dec_umh (enc_umh (tbm k m)) = Some (tbm k m).
Proof using H32. intros (_ & _ & L). apply slice_ok. intros r. apply dec_enc_umh, hd_fits; [apply PM_len|exact L]. Qed.
Lemma val4 k l : W4 k l -> try_from_slice dec_nums (enc_nums l) = Some l.
Proof using. intros (_ & L1 & L2). apply slice_ok. intros r. apply de_nums; assumption. Qed.
Lemma val5 k u : W5 k u -> try_from_slice dec_vote (enc_vote u) = Some u.
Proof using. intros [_ L]. apply slice_ok. intros r. apply de_vote. exact L. Qed.
Lemma val6 k u : W6 k u -> try_from_slice dec_vote (enc_vote u) = Some u.
Proof using. intros (_ & _ & L). apply slice_ok. intros r. apply de_vote. exact L. Qed.
Lemma w1 k p : W1 k p -> fits32 k. Proof using. intros [L _]. exact L. Qed.
Lemma w2 k p : W2 k p -> fits32 k. Proof using. intros [L _]. exact L. Qed.
Lemma w3 k p : W3 k p -> account_id k. Proof using. intros [L _]. exact L. Qed.
Lemma w4 k p : W4 k p -> account_id k. Proof using. intros [L _]. exact L. Qed.
Lemma w5 k p : W5 k p -> account_id k. Proof using. intros [L _]. exact L. Qed.
Lemma w6 k p : W6 k p -> fits32 k. Proof using. intros [L _]. exact L. Qed.

(** *** Prefixes *)
Lemma apart_byte x p y q : x <> y -> apart (String x p) (String y q).
Proof using. intros N a b E. injection E. intros _ E'. exact (N E'). Qed.
Ltac bytes := intros; unfold sk0, sk1, PV, PM; cbn [enc_uint]; apply apart_byte; vm_compute; congruence.
Lemma a02 : apart (sk0 0) (sk0 2). Proof using. bytes. Qed.
Lemma a03 : apart (sk0 0) (sk0 3). Proof using. bytes. Qed.
Lemma a04 : apart (sk0 0) (sk0 4). Proof using. bytes. Qed.
Lemma a23 : apart (sk0 2) (sk0 3). Proof using. bytes. Qed.
Lemma a24 : apart (sk0 2) (sk0 4). Proof using. bytes. Qed.
Lemma a34 : apart (sk0 3) (sk0 4). Proof using. bytes. Qed.
Lemma a0v id : apart (sk0 0) (PV id). Proof using. bytes. Qed.
Lemma a2v id : apart (sk0 2) (PV id). Proof using. bytes. Qed.
Lemma a3v id : apart (sk0 3) (PV id). Proof using. bytes. Qed.
Lemma a4v id : apart (sk0 4) (PV id). Proof using. bytes. Qed.
Lemma a0m a : apart (sk0 0) (PM a). Proof using. bytes. Qed.
Lemma a2m a : apart (sk0 2) (PM a). Proof using. bytes. Qed.
Lemma a3m a : apart (sk0 3) (PM a). Proof using. bytes. Qed.
Lemma a4m a : apart (sk0 4) (PM a). Proof using. bytes. Qed.
Lemma avm id a : apart (PV id) (PM a). Proof using. bytes. Qed.
Lemma avv id id' : NM (pretty id) -> NM (pretty id') -> id <> id' -> apart (PV id) (PV id').
Proof using H32 Hinj. intros N N' D a b E. unfold PV in E. apply sk1_app_inj in E as [E _]; [|exact H32]. apply D. apply Hinj in E; try assumption. exact (inj pretty _ _ E). Qed.
Lemma amm a b : NM a -> NM b -> a <> b -> apart (PM a) (PM b).
Proof using H32 Hinj. intros N N' D x y E. unfold PM in E. apply sk1_app_inj in E as [E _]; [|exact H32]. apply D. exact (Hinj _ _ N N' E). Qed.
Lemma apart_sym p q : apart p q -> apart q p.
Proof using. intros A x y E. exact (A y x (eq_sym E)). Qed.

(** *** All of them together *)
(** a key of one of the maps, or of the record of the contract *)
Definition place (key : string) : Prop :=
  key = "STATE" \/ under (sk0 0) key \/ under (sk0 2) key \/ under (sk0 3) key \/ under (sk0 4) key \/
  (exists id, NM (pretty id) /\ under (PV id) key) \/ (exists a, NM a /\ under (PM a) key).
Record At (st : flat) (A : omap_t N mpip) (B : omap_t N pvote) (C : omap_t string (omap_t N mvote)) (D : omap_t string (list N))
  (E : N -> omap_t string mvote) (F : string -> omap_t N mvote) : Prop := {
  at1 : T1 st (sk0 0) A; at2 : T2 st (sk0 2) B; at3 : T3 st (sk0 3) C; at4 : T4 st (sk0 4) D;
  at5 : forall id, NM (pretty id) -> T5 st (PV id) (E id);
  at6 : forall a, NM a -> T6 st (PM a) (F a);
  at7 : forall key, is_Some (st !! key) -> place key }.
Lemma under_dec p : forall key, under p key \/ ~ under p key.
Proof using.
  induction p as [|x p IH]; intros key; [left; exists key; reflexivity|]. destruct key as [|y key]; [right; intros [z E]; discriminate E|].
  destruct (decide (x = y)) as [->|N]; [|right; intros [z E]; injection E; intros _ E'; exact (N (eq_sym E'))].
  destruct (IH key) as [[z ->]|N]; [left; exists z; reflexivity|]. right. intros [z E]. injection E. intros E'. apply N. exists z. exact E'.
Qed.
Lemma place_keep st st' p : frame st st' p -> (forall key, under p key -> place key) -> (forall key, is_Some (st !! key) -> place key) -> forall key, is_Some (st' !! key) -> place key.
Proof using. intros f U a key Hk. destruct (under_dec p key) as [u|n]; [exact (U _ u)|]. apply a. rewrite <- (f key n). exact Hk. Qed.
Lemma at_ext st A B C D E F E' F' : (forall id, E id = E' id) -> (forall a, F a = F' a) -> At st A B C D E F -> At st A B C D E' F'.
Proof using. intros X Y [a1 a2 a3 a4 a5 a6 a7]. constructor; try assumption; intros x; rewrite <- ?X, <- ?Y; auto. Qed.
Ltac off := first [exact a02|exact a03|exact a04|exact a23|exact a24|exact a34|apply a0v|apply a2v|apply a3v|apply a4v|apply a0m|apply a2m|apply a3m|apply a4m|apply avm|
  apply apart_sym; first [exact a02|exact a03|exact a04|exact a23|exact a24|exact a34|apply a0v|apply a2v|apply a3v|apply a4v|apply a0m|apply a2m|apply a3m|apply a4m|apply avm]].
Ltac keep f := first [
  lazymatch goal with |- forall key, is_Some _ -> place key => eapply place_keep; [exact f|intros ? u; unfold place; eauto 12|eassumption] end |eapply t_other; [exact f|off|eassumption]
  |let x := fresh in let n := fresh in intros x n; eapply t_other; [exact f|off|match goal with h : forall _, NM _ -> _ |- _ => exact (h x n) end]].
Definition upd {K V} `{EqDecision K} (f : K -> V) (k : K) (v : V) : K -> V := fun k' => if decide (k' = k) then v else f k'.
Lemma uput_1 st A B C D E F k v : At st A B C D E F -> W1 k v -> small (length (om_set A k v)) ->
  exists st', u_put dec_mpip st (hd (sk0 0) (length A)) (enc_uint 4 k) (enc_mpip v) = Ok (st', hd (sk0 0) (length (om_set A k v))) /\ At st' (om_set A k v) B C D E F.
Proof using.
  intros [a1 a2 a3 a4 a5 a6 a7] Hw Hs. destruct (t_put _ (fun _ => enc_mpip) _ _ (fun _ p => p) _ _ key_n val1 w1 _ _ _ _ _ a1 Hw Hs) as (st' & Ep & T & f). exists st'. split; [exact Ep|].
  constructor; [exact T|keep f|keep f|keep f|keep f|keep f|keep f].
Qed.
Lemma uput_2 st A B C D E F k v : At st A B C D E F -> W2 k v -> small (length (om_set B k v)) ->
  exists st', u_put dec_bpv st (hd (sk0 2) (length B)) (enc_uint 4 k) (enc_bpv (tbv k v)) = Ok (st', hd (sk0 2) (length (om_set B k v))) /\ At st' A (om_set B k v) C D E F.
Proof using H32.
  intros [a1 a2 a3 a4 a5 a6 a7] Hw Hs. destruct (t_put _ (fun id v => enc_bpv (tbv id v)) _ _ tbv _ _ key_n val2 w2 _ _ _ _ _ a2 Hw Hs) as (st' & Ep & T & f). exists st'. split; [exact Ep|].
  constructor; [keep f|exact T|keep f|keep f|keep f|keep f|keep f].
Qed.
Lemma uput_3 st A B C D E F k v : At st A B C D E F -> W3 k v -> small (length (om_set C k v)) ->
  exists st', u_put dec_umh st (hd (sk0 3) (length C)) (enc_str k) (enc_umh (tbm k v)) = Ok (st', hd (sk0 3) (length (om_set C k v))) /\ At st' A B (om_set C k v) D E F.
Proof using H32.
  intros [a1 a2 a3 a4 a5 a6 a7] Hw Hs. destruct (t_put _ (fun a m => enc_umh (tbm a m)) _ _ tbm _ _ key_a val3 w3 _ _ _ _ _ a3 Hw Hs) as (st' & Ep & T & f). exists st'. split; [exact Ep|].
  constructor; [keep f|keep f|exact T|keep f|keep f|keep f|keep f].
Qed.
Lemma udel_3 st A B C D E F k : At st A B C D E F -> account_id k ->
  exists st', u_del dec_umh st (hd (sk0 3) (length C)) (enc_str k) = Ok (st', hd (sk0 3) (length (om_remove C k))) /\ At st' A B (om_remove C k) D E F.
Proof using H32.
  intros [a1 a2 a3 a4 a5 a6 a7] Hw. destruct (t_del _ (fun a m => enc_umh (tbm a m)) _ _ tbm _ _ key_a val3 w3 _ _ _ _ a3 Hw) as (st' & Ep & T & f). exists st'. split; [exact Ep|].
  constructor; [keep f|keep f|exact T|keep f|keep f|keep f|keep f].
Qed.
Lemma uput_4 st A B C D E F k v : At st A B C D E F -> W4 k v -> small (length (om_set D k v)) ->
  exists st', u_put dec_nums st (hd (sk0 4) (length D)) (enc_str k) (enc_nums v) = Ok (st', hd (sk0 4) (length (om_set D k v))) /\ At st' A B C (om_set D k v) E F.
Proof using.
  intros [a1 a2 a3 a4 a5 a6 a7] Hw Hs. destruct (t_put _ (fun _ => enc_nums) _ _ (fun _ l => l) _ _ key_a val4 w4 _ _ _ _ _ a4 Hw Hs) as (st' & Ep & T & f). exists st'. split; [exact Ep|].
  constructor; [keep f|keep f|keep f|exact T|keep f|keep f|keep f].
Qed.
Lemma uput_5 st A B C D E F id k v : At st A B C D E F -> NM (pretty id) -> W5 k v -> small (length (om_set (E id) k v)) ->
  exists st', u_put dec_vote st (hd (PV id) (length (E id))) (enc_str k) (enc_vote v) = Ok (st', hd (PV id) (length (om_set (E id) k v))) /\
    At st' A B C D (upd E id (om_set (E id) k v)) F.
Proof using H32 Hinj.
  intros [a1 a2 a3 a4 a5 a6 a7] Hn Hw Hs. destruct (t_put _ (fun _ => enc_vote) _ _ (fun _ l => l) _ _ key_a val5 w5 _ _ _ _ _ (a5 id Hn) Hw Hs) as (st' & Ep & T & f). exists st'. split; [exact Ep|].
  constructor; [keep f|keep f|keep f|keep f| |keep f|keep f]. intros j Hj. unfold upd. destruct (decide (j = id)) as [->|Ne]; [exact T|].
  eapply t_other; [exact f|apply avv; congruence || assumption|exact (a5 j Hj)].
Qed.
Lemma udel_5 st A B C D E F id k : At st A B C D E F -> NM (pretty id) -> account_id k ->
  exists st', u_del dec_vote st (hd (PV id) (length (E id))) (enc_str k) = Ok (st', hd (PV id) (length (om_remove (E id) k))) /\
    At st' A B C D (upd E id (om_remove (E id) k)) F.
Proof using H32 Hinj.
  intros [a1 a2 a3 a4 a5 a6 a7] Hn Hw. destruct (t_del _ (fun _ => enc_vote) _ _ (fun _ l => l) _ _ key_a val5 w5 _ _ _ _ (a5 id Hn) Hw) as (st' & Ep & T & f). exists st'. split; [exact Ep|].
  constructor; [keep f|keep f|keep f|keep f| |keep f|keep f]. intros j Hj. unfold upd. destruct (decide (j = id)) as [->|Ne]; [exact T|].
  eapply t_other; [exact f|apply avv; congruence || assumption|exact (a5 j Hj)].
Qed.
Lemma uput_6 st A B C D E F a k v : At st A B C D E F -> NM a -> W6 k v -> small (length (om_set (F a) k v)) ->
  exists st', u_put dec_vote st (hd (PM a) (length (F a))) (enc_uint 4 k) (enc_vote v) = Ok (st', hd (PM a) (length (om_set (F a) k v))) /\
    At st' A B C D E (upd F a (om_set (F a) k v)).
Proof using H32 Hinj.
  intros [a1 a2 a3 a4 a5 a6 a7] Hn Hw Hs. destruct (t_put _ (fun _ => enc_vote) _ _ (fun _ l => l) _ _ key_n val6 w6 _ _ _ _ _ (a6 a Hn) Hw Hs) as (st' & Ep & T & f). exists st'. split; [exact Ep|].
  constructor; [keep f|keep f|keep f|keep f|keep f| |keep f]. intros j Hj. unfold upd. destruct (decide (j = a)) as [->|Ne]; [exact T|].
  eapply t_other; [exact f|apply amm; congruence || assumption|exact (a6 j Hj)].
Qed.
Lemma udel_6 st A B C D E F a k : At st A B C D E F -> NM a -> fits32 k ->
  exists st', u_del dec_vote st (hd (PM a) (length (F a))) (enc_uint 4 k) = Ok (st', hd (PM a) (length (om_remove (F a) k))) /\
    At st' A B C D E (upd F a (om_remove (F a) k)).
Proof using H32 Hinj.
  intros [a1 a2 a3 a4 a5 a6 a7] Hn Hw. destruct (t_del _ (fun _ => enc_vote) _ _ (fun _ l => l) _ _ key_n val6 w6 _ _ _ _ (a6 a Hn) Hw) as (st' & Ep & T & f). exists st'. split; [exact Ep|].
  constructor; [keep f|keep f|keep f|keep f|keep f| |keep f]. intros j Hj. unfold upd. destruct (decide (j = a)) as [->|Ne]; [exact T|].
  eapply t_other; [exact f|apply amm; congruence || assumption|exact (a6 j Hj)].
Qed.

(** ** The contract *)
Definition Maps (st : flat) (s : mstate) : Prop :=
  At st (m_proposals s) (m_votes s) (m_voters s) (m_proposers s) (fun id => pv_voted (get_pvote s id)) (get_mvoter s).
Record Root (s : mstate) : Prop := {
  rt_admin : account_id (m_admin s); rt_operator : account_id (m_operator s); rt_token : account_id (m_meta_token s); rt_vote : account_id (m_meta_vote s);
  rt_period : fits64 (m_period s); rt_meta : fits128 (m_min_meta s); rt_st : fits128 (m_min_st s); rt_vp : fits128 (m_min_vp s);
  rt_cost : fits128 (m_cost_meta s); rt_fee : fits128 (m_storage s); rt_floor : fits16 (m_floor s) }.
Definition broot_of (s : mstate) : broot :=
  mkBroot (m_admin s) (m_operator s) (m_meta_token s) (m_meta_vote s) (hd (sk0 0) (length (m_proposals s))) (hd (sk0 2) (length (m_votes s)))
    (hd (sk0 3) (length (m_voters s))) (hd (sk0 4) (length (m_proposers s))) (m_period s) (m_min_meta s) (m_min_st s) (m_min_vp s) (m_cost_meta s)
    (m_storage s) (m_open s) (m_floor s).
Lemma root_decoded st s : Maps st s -> Root s -> try_from_slice dec_broot (enc_broot (broot_of s)) = Some (broot_of s).
Proof using.
  intros [a1 a2 a3 a4 _ _ _] [R1 R2 R3 R4 R5 R6 R7 R8 R9 R10 R11]. apply slice_ok. intros r. unfold dec_broot, enc_broot, broot_of.
  cbn [bo_admin bo_operator bo_token bo_vote bo_props bo_ballots bo_voters bo_proposers bo_period bo_min_meta bo_min_st bo_min_vp bo_cost bo_storage bo_open bo_floor]. rewrite !sapp_assoc.
  rewrite de_id by exact R1. cbn [mbind option_bind]. rewrite de_id by exact R2. cbn [mbind option_bind]. rewrite de_id by exact R3. cbn [mbind option_bind]. rewrite de_id by exact R4. cbn [mbind option_bind].
  rewrite dec_enc_umh by (apply hd_fits; [cbn; lia|exact (t_len _ _ _ _ _ _ a1)]). cbn [mbind option_bind].
  rewrite dec_enc_umh by (apply hd_fits; [cbn; lia|exact (t_len _ _ _ _ _ _ a2)]). cbn [mbind option_bind].
  rewrite dec_enc_umh by (apply hd_fits; [cbn; lia|exact (t_len _ _ _ _ _ _ a3)]). cbn [mbind option_bind].
  rewrite dec_enc_umh by (apply hd_fits; [cbn; lia|exact (t_len _ _ _ _ _ _ a4)]). cbn [mbind option_bind].
  rewrite de_u64 by exact R5. cbn [mbind option_bind]. rewrite de_u128 by exact R6. cbn [mbind option_bind]. rewrite de_u128 by exact R7. cbn [mbind option_bind].
  rewrite de_u128 by exact R8. cbn [mbind option_bind]. rewrite de_u128 by exact R9. cbn [mbind option_bind]. rewrite de_u128 by exact R10. cbn [mbind option_bind].
  rewrite de_bool. cbn [mbind option_bind]. rewrite de_u16 by exact R11. reflexivity.
Qed.
Lemma maps_state st s b : Maps st s -> Maps (<["STATE" := b]> st) s.
Proof using.
  assert (f : frame st (<["STATE" := b]> st) "STATE"). { intros key N. apply lookup_insert_ne. intros <-. apply N. exists "". symmetry. apply sapp_nil. }
  intros [a1 a2 a3 a4 a5 a6 a7]. constructor.
  - eapply t_other; [exact f| |exact a1]. intros x y E. discriminate E.
  - eapply t_other; [exact f| |exact a2]. intros x y E. discriminate E.
  - eapply t_other; [exact f| |exact a3]. intros x y E. discriminate E.
  - eapply t_other; [exact f| |exact a4]. intros x y E. discriminate E.
  - intros id N. eapply t_other; [exact f| |exact (a5 id N)]. intros x y E. discriminate E.
  - intros a N. eapply t_other; [exact f| |exact (a6 a N)]. intros x y E. discriminate E.
  - intros key Hk. destruct (decide (key = "STATE")) as [->|N]; [left; reflexivity|]. apply a7. rewrite lookup_insert_ne in Hk by congruence. exact Hk.
Qed.

(** ** Reading *)
Lemma r_mpip st s id : Maps st s -> fits32 id -> bb_mpip st (broot_of s) id = get_mpip s id.
Proof using.
  intros M L. unfold bb_mpip, get_mpip. cbn [broot_of bo_props].
  rewrite (t_get _ (fun _ => enc_mpip) _ dec_mpip (fun _ p => p) _ _ key_n val1 w1 _ _ _ _ (at1 _ _ _ _ _ _ _ M) L). cbn [mbind res_bind]. destruct (om_get _ _); reflexivity.
Qed.
Lemma r_pvote st s id : Maps st s -> fits32 id -> bb_pvote H st (broot_of s) id = Ok (tbv id (get_pvote s id)).
Proof using H32.
  intros M L. unfold bb_pvote, get_pvote. cbn [broot_of bo_ballots].
  rewrite (t_get _ (fun id v => enc_bpv (tbv id v)) _ dec_bpv tbv _ _ key_n val2 w2 _ _ _ _ (at2 _ _ _ _ _ _ _ M) L). cbn [mbind res_bind]. destruct (om_get _ _); reflexivity.
Qed.
Lemma r_voters st s a : Maps st s -> account_id a -> u_get dec_umh st (bo_voters (broot_of s)) (enc_str a) = Ok (tbm a <$> om_get (m_voters s) a).
Proof using H32. intros M L. exact (t_get _ (fun a m => enc_umh (tbm a m)) _ dec_umh tbm _ _ key_a val3 w3 _ _ _ _ (at3 _ _ _ _ _ _ _ M) L). Qed.
Lemma r_voter st s a : Maps st s -> account_id a -> bb_voter H st (broot_of s) a = Ok (tbm a (get_mvoter s a)).
Proof using H32. intros M L. unfold bb_voter, get_mvoter. rewrite (r_voters _ _ _ M L). cbn [mbind res_bind]. destruct (om_get _ _); reflexivity. Qed.
Lemma r_proposer st s a : Maps st s -> account_id a -> bb_proposer st (broot_of s) a = Ok (get_proposer s a).
Proof using.
  intros M L. unfold bb_proposer, get_proposer. cbn [broot_of bo_proposers].
  rewrite (t_get _ (fun _ => enc_nums) _ dec_nums (fun _ p => p) _ _ key_a val4 w4 _ _ _ _ (at4 _ _ _ _ _ _ _ M) L). cbn [mbind res_bind]. destruct (om_get _ _); reflexivity.
Qed.
Lemma r_mine st s a id : Maps st s -> NM a -> fits32 id -> u_get dec_vote st (tbm a (get_mvoter s a)) (enc_uint 4 id) = Ok (om_get (get_mvoter s a) id).
Proof using.
  intros M N L. unfold tbm. rewrite (t_get _ (fun _ => enc_vote) _ dec_vote (fun _ p => p) _ _ key_n val6 w6 _ _ _ _ (at6 _ _ _ _ _ _ _ M a N) L). destruct (om_get _ _); reflexivity.
Qed.
Lemma voter_named st s a m : Maps st s -> om_get (m_voters s) a = Some m -> W3 a m /\ get_mvoter s a = m.
Proof using. intros M E. split; [exact (all_get _ _ _ _ (t_all _ _ _ _ _ _ (at3 _ _ _ _ _ _ _ M)) E)|]. unfold get_mvoter. rewrite E. reflexivity. Qed.
Lemma r_has_voted st s id a : Maps st s -> fits32 id -> account_id a -> bb_has_voted st (broot_of s) id a = Ok (internal_has_voted s id a).
Proof using H32.
  intros M L La. unfold bb_has_voted, internal_has_voted. rewrite (r_voters _ _ _ M La). cbn [mbind res_bind]. destruct (om_get (m_voters s) a) as [m|] eqn:E; [|reflexivity].
  destruct (voter_named _ _ _ _ M E) as [(_ & N & _) Em]. cbn [fmap option_fmap option_map]. rewrite <- Em at 1. rewrite (r_mine _ _ _ _ M N L), Em. cbn [mbind res_bind]. destruct (om_get m id); reflexivity.
Qed.
Lemma has_named st s id a : Maps st s -> internal_has_voted s id a = true -> NM a /\ account_id a /\ NM (pretty id).
Proof using.
  intros M E. unfold internal_has_voted in E. destruct (om_get (m_voters s) a) as [m|] eqn:Ea; [|discriminate]. destruct (om_get m id) as [u|] eqn:Eu; [|discriminate].
  destruct (voter_named _ _ _ _ M Ea) as [(L & N & _) Em]. split; [exact N|]. split; [exact L|].
  pose proof (t_all _ _ _ _ _ _ (at6 _ _ _ _ _ _ _ M a N)) as Al. rewrite Em in Al. exact (proj1 (proj2 (all_get _ _ _ _ Al Eu))).
Qed.
Lemma r_voted st s id a : Maps st s -> NM (pretty id) -> account_id a -> u_get dec_vote st (v_voted (tbv id (get_pvote s id))) (enc_str a) = Ok (om_get (pv_voted (get_pvote s id)) a).
Proof using.
  intros M N L. unfold tbv. cbn [v_voted]. rewrite (t_get _ (fun _ => enc_vote) _ dec_vote (fun _ p => p) _ _ key_a val5 w5 _ _ _ _ (at5 _ _ _ _ _ _ _ M id N) L). destruct (om_get _ _); reflexivity.
Qed.
Lemma r_ballots st s id : Maps st s -> u_iter dec_id dec_vote st (v_voted (tbv id (get_pvote s id))) = Ok (pv_voted (get_pvote s id)).
Proof using.
  intros M. unfold tbv. cbn [v_voted]. destruct (om_get (m_votes s) id) as [v|] eqn:E.
  - assert (N : NM (pretty id)) by exact (proj1 (proj2 (all_get _ _ _ _ (t_all _ _ _ _ _ _ (at2 _ _ _ _ _ _ _ M)) E))).
    rewrite (t_iter _ (fun _ => enc_vote) _ dec_vote (fun _ p => p) _ _ key_a val5 w5 _ _ _ (at5 _ _ _ _ _ _ _ M id N)). f_equal. rewrite <- (map_id (pv_voted _)) at 2. apply map_ext. intros []; reflexivity.
  - unfold get_pvote. rewrite E. reflexivity.
Qed.
Lemma r_my_ballots st s a : Maps st s -> u_iter (dec_uint 4) dec_vote st (tbm a (get_mvoter s a)) = Ok (get_mvoter s a).
Proof using.
  intros M. unfold tbm. destruct (om_get (m_voters s) a) as [m|] eqn:E.
  - destruct (voter_named _ _ _ _ M E) as [(_ & N & _) _].
    rewrite (t_iter _ (fun _ => enc_vote) _ dec_vote (fun _ p => p) _ _ key_n val6 w6 _ _ _ (at6 _ _ _ _ _ _ _ M a N)). f_equal. rewrite <- (map_id (get_mvoter _ _)) at 2. apply map_ext. intros []; reflexivity.
  - unfold get_mvoter. rewrite E. reflexivity.
Qed.
Lemma r_reached st s id : Maps st s -> fits32 id -> bb_reached H st (broot_of s) id = is_quorum_reached s id.
Proof using H32. intros M L. unfold bb_reached, is_quorum_reached. rewrite (r_pvote _ _ _ M L). cbn [mbind res_bind]. rewrite (r_mpip _ _ _ M L). reflexivity. Qed.
Lemma r_operator_or_creator st s c id : Maps st s -> fits32 id -> bb_operator_or_creator c st (broot_of s) id = assert_only_operator_or_creator c s id.
Proof using. intros M L. unfold bb_operator_or_creator. rewrite (r_mpip _ _ _ M L). reflexivity. Qed.
Lemma r_creator st s c id : Maps st s -> fits32 id -> bb_creator c st (broot_of s) id = assert_only_creator c s id.
Proof using. intros M L. unfold bb_creator. rewrite (r_mpip _ _ _ M L). reflexivity. Qed.
Lemma r_active st s c id : Maps st s -> fits32 id -> bb_active_or_draft c st (broot_of s) id = assert_active_or_draft c s id.
Proof using. intros M L. unfold bb_active_or_draft. rewrite (r_mpip _ _ _ M L). reflexivity. Qed.
Lemma r_on_voting st s c id : Maps st s -> fits32 id -> bb_on_voting c st (broot_of s) id = assert_on_voting c s id.
Proof using. intros M L. unfold bb_on_voting. rewrite (r_mpip _ _ _ M L). reflexivity. Qed.

(** ** The answers *)
Lemma answer_ok st s c q : Maps st s -> boardq_typed q -> bb_answer H c st (broot_of s) q = board_answer c s q.
Proof using H32.
  intros M L. destruct q; cbn [bb_answer board_answer boardq_typed] in *.
  - rewrite (r_proposer _ _ _ M L). reflexivity.
  - reflexivity.
  - reflexivity.
  - rewrite (r_pvote _ _ _ M L). cbn [mbind res_bind]. rewrite (r_ballots _ _ _ M). reflexivity.
  - unfold get_quorum_reached. rewrite (r_reached _ _ _ M L). change (bb_operator c (broot_of s)) with (assert_only_operator c s). destruct (assert_only_operator c s); reflexivity.
  - unfold bb_succeeded. rewrite (r_pvote _ _ _ M L). reflexivity.
  - unfold bb_state, get_proposal_state. rewrite (r_mpip _ _ _ M L). destruct (get_mpip s id) as [p|]; [|reflexivity]. cbn [mbind res_bind].
    destruct (pr_executed p); [reflexivity|]. destruct (pr_canceled p); [reflexivity|]. destruct (pr_draft p); [reflexivity|].
    destruct (is_on_voting (now_ms c) p) as [[]|]; [reflexivity| |reflexivity]. cbn [mbind res_bind]. destruct (is_active (now_ms c) p); [reflexivity|].
    rewrite (r_reached _ _ _ M L). destruct (is_quorum_reached s id) as [[]|]; [|reflexivity|reflexivity]. cbn [mbind res_bind andb]. unfold bb_succeeded. rewrite (r_pvote _ _ _ M L). cbn [mbind res_bind].
    unfold get_proposal_vote_succeeded. cbn [tbv v_against v_for]. destruct (_ <? _); reflexivity.
  - rewrite (r_mpip _ _ _ M L). reflexivity.
  - unfold page, get_proposals. change (N.to_nat (um_klen (bo_props (broot_of s)))) with (N.to_nat (N.of_nat (length (m_proposals s)))). rewrite Nat2N.id. cbv zeta.
    destruct (Nat.leb_spec (length (m_proposals s)) (N.to_nat from)) as [_|Lt]; [reflexivity|].
    rewrite (mapMr_same _ (fun i => k ← expect ((m_proposals s).*1 !! i) "unwrap on None"; expect (om_get (m_proposals s) k) "unwrap on None")).
    { destruct (mapMr _ _); reflexivity. }
    apply Forall_forall. intros i Hi. apply elem_of_seq in Hi. destruct (m_proposals s !! i) as [[k p]|] eqn:E; [|apply lookup_ge_None in E; lia].
    pose proof (at1 _ _ _ _ _ _ _ M) as T. rewrite list_lookup_fmap, E. cbn [broot_of bo_props].
    rewrite (t_key _ (fun _ => enc_mpip) (dec_uint 4) _ _ key_n w1 _ _ _ _ _ _ T E). cbn [mbind res_bind expect fmap option_fmap option_map fst].
    rewrite (t_get _ (fun _ => enc_mpip) _ dec_mpip (fun _ p => p) _ _ key_n val1 w1 _ _ _ _ T).
    2: { apply (all_get _ _ _ _ (t_all _ _ _ _ _ _ T) (om_get_lookup _ _ _ _ (t_nodup _ _ _ _ _ _ T) E)). }
    cbn [mbind res_bind]. destruct (om_get _ _); reflexivity.
  - rewrite (r_proposer _ _ _ M L). reflexivity.
  - cbn [broot_of bo_props]. rewrite hd_len. cbn [mbind res_bind]. unfold get_last_proposal_id. destruct (length (m_proposals s)) as [|n]; [reflexivity|].
    destruct (N.ltb_spec 0 (N.of_nat (S n))) as [_|X]; [|lia]. destruct (sub128 _ 1); reflexivity.
  - reflexivity.
  - reflexivity.
  - cbn [broot_of bo_voters]. rewrite hd_len. reflexivity.
  - rewrite (r_mpip _ _ _ M L). unfold get_proposal_is_active_or_draft. destruct (get_mpip s id); reflexivity.
  - rewrite (r_has_voted _ _ _ _ M (proj2 L) (proj1 L)). reflexivity.
  - destruct L as [La L]. rewrite (r_has_voted _ _ _ _ M L La). cbn [mbind res_bind]. unfold get_my_vote. destruct (internal_has_voted s id voter) eqn:E; [|reflexivity].
    rewrite (r_voters _ _ _ M La). cbn [mbind res_bind]. destruct (om_get (m_voters s) voter) as [m|] eqn:Ea; [|reflexivity].
    destruct (voter_named _ _ _ _ M Ea) as [(_ & N & _) Em]. cbn [fmap option_fmap option_map expect mbind res_bind]. rewrite <- Em at 1. rewrite (r_mine _ _ _ _ M N L), Em. cbn [mbind res_bind].
    destruct (om_get m id); reflexivity.
  - rewrite (r_voter _ _ _ M L). cbn [mbind res_bind]. rewrite (r_my_ballots _ _ _ M). reflexivity.
Qed.
End Maps.
