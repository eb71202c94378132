(** MVRep.v -- for C100: reading and writing one collection of the voting contract. *)

From Verif Require Export MVStore.
From Verif Require Import FlatProofs MigrateProofs WireProofs EntryProofs AskProofs KVBytesProofs MpipSized.
Import FlatProofs MpipSized MetaVote BoardBytes BoardStore BoardSim MVBytes MVCells MVStore KVBytesProofs.

Definition cap (n : nat) : Prop := N.of_nat n < 2 ^ 32.
Lemma cap_le n m : cap m -> (n <= m)%nat -> cap n.
Proof. unfold cap. generalize (2 ^ 32)%N. intros b. lia. Qed.
Lemma cap_small n k : cap n -> (k <= n)%nat -> small k.
Proof. exact (few_small n k). Qed.

Section Rep.
Variables (H : string -> string) (NM : string -> Prop).
Hypothesis H32 : hash32 H.
Hypothesis Hinj : forall x y, NM x -> NM y -> H x = H y -> x = y.
Notation Inv := (Inv H NM). Notation bvo := (bvo H). Notation tbt := (tbt H). Notation tbh := (tbh H). Notation WV := (WV NM). Notation WT := (WT NM).

Lemma key_s k : str_fits k -> try_from_slice dec_str (enc_str k) = Some k.
Proof using. intros L. apply slice_ok. intros r. apply dec_enc_str, L. Qed.
Lemma sk1_short t x : (String.length (sk1 H t x) <= 64)%nat. Proof using H32. rewrite sk1_len by exact H32. lia. Qed.
Lemma val_v n (bn : cap n) k v : WV n k v -> try_from_slice dec_bvoter (enc_bvoter (bvo k v)) = Some (bvo k v).
Proof using H32.
  intros (A & B & C & D & E & F & G). apply slice_ok. intros r. unfold dec_bvoter, enc_bvoter, MVStore.bvo. cbn [w_bal w_lps w_avail w_vp]. rewrite !sapp_assoc, de_u128 by exact C. cbn [mbind option_bind].
  assert (dec_vech (enc_vech (mkVech (N.of_nat (length (v_lps v))) (sk1 H 0 k)) +:+ (enc_uint 16 (v_avail v) +:+ enc_umh (hd (sk1 H 1 (h_pref (v_vp v))) (h_len (v_vp v))) +:+ r))
     = Some (mkVech (N.of_nat (length (v_lps v))) (sk1 H 0 k), enc_uint 16 (v_avail v) +:+ enc_umh (hd (sk1 H 1 (h_pref (v_vp v))) (h_len (v_vp v))) +:+ r)) as ->.
  { unfold dec_vech, enc_vech. cbn [vh_len vh_pre]. rewrite !sapp_assoc, de_u64 by exact (cap_small _ _ bn E). cbn [mbind option_bind]. rewrite dec_enc_str; [reflexivity|].
    unfold str_fits. rewrite sk1_len by exact H32. reflexivity. }
  cbn [mbind option_bind]. rewrite de_u128 by exact D. cbn [mbind option_bind]. rewrite dec_enc_umh by (apply hd_fits; [apply sk1_short|exact (cap_small _ _ bn F)]). reflexivity.
Qed.
Lemma val_t n (bn : cap n) k m : WT n k m -> try_from_slice dec_umh (enc_umh (tbt k m)) = Some (tbt k m).
Proof using H32. intros (A & B & C). apply slice_ok. intros r. apply dec_enc_umh, hd_fits; [apply sk1_short|exact (cap_small _ _ bn C)]. Qed.
Lemma val_h n (bn : cap n) h : VP NM n h -> try_from_slice dec_umh (enc_umh (tbh h)) = Some (tbh h).
Proof using H32. intros (A & B). apply slice_ok. intros r. apply dec_enc_umh, hd_fits; [apply sk1_short|exact (cap_small _ _ bn B)]. Qed.
Lemma val_x x : fits128 x -> try_from_slice dec_u128 (enc_uint 16 x) = Some x.
Proof using. intros L. apply slice_ok. intros r. apply de_u128, L. Qed.
Lemma val_n k x : WN k x -> try_from_slice dec_u128 (enc_uint 16 x) = Some x.
Proof using. intros [_ L]. apply val_x, L. Qed.
Lemma val_d k x : WD k x -> try_from_slice dec_str (enc_str x) = Some x.
Proof using. intros [_ L]. apply key_s, L. Qed.
Lemma val_l n (bn : cap n) k x : WL n k x -> try_from_slice dec_strs (enc_strs x) = Some x.
Proof using. intros (_ & F & L). apply slice_ok. intros r. apply de_strs; [exact F|]. unfold cap in bn. lia. Qed.
Lemma kv_ n k v : WV n k v -> str_fits k. Proof using. intros [L _]. exact L. Qed.
Lemma kt_ n k v : WT n k v -> str_fits k. Proof using. intros [L _]. exact L. Qed.
Lemma kn_ k v : WN k v -> str_fits k. Proof using. intros [L _]. exact L. Qed.
Lemma kd_ k v : WD k v -> str_fits k. Proof using. intros [L _]. exact L. Qed.
Lemma kl_ n k v : WL n k v -> str_fits k. Proof using. intros [L _]. exact L. Qed.
Lemma kp_ x k : KP NM x k -> str_fits k. Proof using. intros [L _]. exact L. Qed.

Ltac others := let l' := fresh "l" in intros l' ? Hne Hq; destruct l'; first [exact Hq|exfalso; apply Hne; reflexivity|cbn [Q] in *; cbn [gPos gVp gVv gTal set] in *; rewrite upd_ne by congruence; exact Hq].

(** *** reading *)
Lemma rget_voters n st g k : Inv n st g -> cap n -> str_fits k -> u_get dec_bvoter st (hd (sk0 2) (length (gVoters g))) (enc_str k) = Ok (bvo k <$> om_get (gVoters g) k).
Proof using H32. intros I bn L. exact (t_get _ (fun id v => enc_bvoter (bvo id v)) _ _ bvo _ _ key_s (val_v n bn) (kv_ n) _ _ _ _ (proj1 (I LVoters Logic.I)) L). Qed.
Lemma rget_votes n st g k : Inv n st g -> cap n -> str_fits k -> u_get dec_umh st (hd (sk0 3) (length (gVotes g))) (enc_str k) = Ok (tbt k <$> om_get (gVotes g) k).
Proof using H32. intros I bn L. exact (t_get _ (fun a m => enc_umh (tbt a m)) _ _ tbt _ _ key_s (val_t n bn) (kt_ n) _ _ _ _ (proj1 (I LVotes Logic.I)) L). Qed.
Lemma id_some {A} (o : option A) : (fun x => x) <$> o = o. Proof using. destruct o; reflexivity. Qed.
Lemma rget_tal n st g a k : Inv n st g -> NM a -> str_fits k -> u_get dec_u128 st (tbt a (gTal g a)) (enc_str k) = Ok (om_get (gTal g a) k).
Proof using.
  intros I Na L. unfold MVStore.tbt. etransitivity; [exact (t_get _ (fun _ => enc_uint 16) _ _ (fun _ x => x) _ _ key_s val_n kn_ _ _ _ _ (proj1 (I (LTal a) Na)) L)|]. f_equal. apply id_some.
Qed.
Lemma rget_mp n st g k : Inv n st g -> str_fits k -> u_get dec_u128 st (hd (sk0 6) (length (gMp g))) (enc_str k) = Ok (om_get (gMp g) k).
Proof using. intros I L. etransitivity; [exact (t_get _ (fun _ => enc_uint 16) _ _ (fun _ x => x) _ _ key_s val_n kn_ _ _ _ _ (proj1 (I LMp Logic.I)) L)|]. f_equal. apply id_some. Qed.
Lemma rget_st n st g k : Inv n st g -> str_fits k -> u_get dec_u128 st (hd (sk0 7) (length (gSt g))) (enc_str k) = Ok (om_get (gSt g) k).
Proof using. intros I L. etransitivity; [exact (t_get _ (fun _ => enc_uint 16) _ _ (fun _ x => x) _ _ key_s val_n kn_ _ _ _ _ (proj1 (I LSt Logic.I)) L)|]. f_equal. apply id_some. Qed.
Lemma rget_data n st g k : Inv n st g -> str_fits k -> u_get dec_str st (hd (sk0 8) (length (gData g))) (enc_str k) = Ok (om_get (gData g) k).
Proof using. intros I L. etransitivity; [exact (t_get _ (fun _ => enc_str) _ _ (fun _ x => x) _ _ key_s val_d kd_ _ _ _ _ (proj1 (I LData Logic.I)) L)|]. f_equal. apply id_some. Qed.
Lemma rget_del n st g k : Inv n st g -> cap n -> str_fits k -> u_get dec_strs st (hd (sk0 9) (length (gDel g))) (enc_str k) = Ok (om_get (gDel g) k).
Proof using. intros I bn L. etransitivity; [exact (t_get _ (fun _ => enc_strs) _ _ (fun _ x => x) _ _ key_s (val_l n bn) (kl_ n) _ _ _ _ (proj1 (I LDel Logic.I)) L)|]. f_equal. apply id_some. Qed.
Lemma lrep_get st p m e : LRep st p m -> k_get st p e = Ok (m !! e).
Proof using.
  intros [A B]. unfold k_get. rewrite A. destruct (m !! e) as [x|] eqn:E; [|reflexivity]. cbn [fmap option_fmap option_map de_o]. unfold de. destruct (B _ _ E) as [B1 B2].
  rewrite (slice_ok dec_pair _ x) by (intros r; apply de_pair; assumption). reflexivity.
Qed.

(** *** writing *)
Ltac len_ok := match goal with |- small (length (om_set ?A ?k ?v)) => pose proof (olen_set A k v); eapply cap_small; [eassumption|]; lia end.
Lemma rput_voters n st g k v : Inv n st g -> cap (S n) -> WV (S n) k v ->
  exists st', u_put dec_bvoter st (hd (sk0 2) (length (gVoters g))) (enc_str k) (enc_bvoter (bvo k v)) = Ok (st', hd (sk0 2) (length (om_set (gVoters g) k v))) /\ Inv (S n) st' (g <| gVoters := om_set (gVoters g) k v |>).
Proof using H32 Hinj.
  intros I bn W. pose proof (proj2 (I LVoters Logic.I)) as Ln. apply (inv_mono H NM n (S n)) in I; [|lia].
  assert (Hs : small (length (om_set (gVoters g) k v))) by len_ok.
  destruct (t_put _ (fun id v => enc_bvoter (bvo id v)) _ _ bvo _ _ key_s (val_v _ bn) (kv_ (S n)) _ _ _ k v (proj1 (I LVoters Logic.I)) W Hs) as (st' & E & T & f). exists st'. split; [exact E|].
  apply (inv_step H NM H32 Hinj (S n) st st' g _ LVoters I Logic.I f); [others|]. split; [exact T|]. cbn [gVoters set]. pose proof (olen_set (gVoters g) k v). lia.
Qed.
Lemma rdel_voters n st g k : Inv n st g -> cap n -> str_fits k ->
  exists st', u_del dec_bvoter st (hd (sk0 2) (length (gVoters g))) (enc_str k) = Ok (st', hd (sk0 2) (length (om_remove (gVoters g) k))) /\ Inv n st' (g <| gVoters := om_remove (gVoters g) k |>).
Proof using H32 Hinj.
  intros I bn L. pose proof (proj2 (I LVoters Logic.I)) as Ln.
  destruct (t_del _ (fun id v => enc_bvoter (bvo id v)) _ _ bvo _ _ key_s (val_v _ bn) (kv_ n) _ _ _ k (proj1 (I LVoters Logic.I)) L) as (st' & E & T & f). exists st'. split; [exact E|].
  apply (inv_step H NM H32 Hinj n st st' g _ LVoters I Logic.I f); [others|]. split; [exact T|]. cbn [gVoters set]. pose proof (olen_remove (gVoters g) k). lia.
Qed.
Lemma rput_votes n m st g k v : Inv n st g -> (n <= m)%nat -> cap m -> (length (om_set (gVotes g) k v) <= m)%nat -> WT m k v ->
  exists st', u_put dec_umh st (hd (sk0 3) (length (gVotes g))) (enc_str k) (enc_umh (tbt k v)) = Ok (st', hd (sk0 3) (length (om_set (gVotes g) k v))) /\ Inv m st' (g <| gVotes := om_set (gVotes g) k v |>).
Proof using H32 Hinj.
  intros I Le bn Lm W. apply (inv_mono H NM n m) in I; [|lia].
  assert (Hs : small (length (om_set (gVotes g) k v))) by exact (cap_small _ _ bn Lm).
  destruct (t_put _ (fun a m => enc_umh (tbt a m)) _ _ tbt _ _ key_s (val_t _ bn) (kt_ m) _ _ _ k v (proj1 (I LVotes Logic.I)) W Hs) as (st' & E & T & f). exists st'. split; [exact E|].
  apply (inv_step H NM H32 Hinj m st st' g _ LVotes I Logic.I f); [others|]. split; [exact T|]. exact Lm.
Qed.
Lemma rdel_votes n st g k : Inv n st g -> cap n -> str_fits k ->
  exists st', u_del dec_umh st (hd (sk0 3) (length (gVotes g))) (enc_str k) = Ok (st', hd (sk0 3) (length (om_remove (gVotes g) k))) /\ Inv n st' (g <| gVotes := om_remove (gVotes g) k |>).
Proof using H32 Hinj.
  intros I bn L. pose proof (proj2 (I LVotes Logic.I)) as Ln.
  destruct (t_del _ (fun a m => enc_umh (tbt a m)) _ _ tbt _ _ key_s (val_t _ bn) (kt_ n) _ _ _ k (proj1 (I LVotes Logic.I)) L) as (st' & E & T & f). exists st'. split; [exact E|].
  apply (inv_step H NM H32 Hinj n st st' g _ LVotes I Logic.I f); [others|]. split; [exact T|]. cbn [gVotes set]. pose proof (olen_remove (gVotes g) k). lia.
Qed.
Lemma rput_tal n m st g a k v : Inv n st g -> (n <= m)%nat -> cap m -> (length (om_set (gTal g a) k v) <= m)%nat -> NM a -> WN k v ->
  exists st', u_put dec_u128 st (tbt a (gTal g a)) (enc_str k) (enc_uint 16 v) = Ok (st', tbt a (om_set (gTal g a) k v)) /\ Inv m st' (g <| gTal := upd (gTal g) a (om_set (gTal g a) k v) |>).
Proof using H32 Hinj.
  intros I Le bn Lm Na W. apply (inv_mono H NM n m) in I; [|lia].
  assert (Hs : small (length (om_set (gTal g a) k v))) by exact (cap_small _ _ bn Lm).
  destruct (t_put _ (fun _ => enc_uint 16) _ _ (fun _ x => x) _ _ key_s val_n kn_ _ _ _ k v (proj1 (I (LTal a) Na)) W Hs) as (st' & E & T & f). exists st'. split; [exact E|].
  apply (inv_step H NM H32 Hinj m st st' g _ (LTal a) I Na f); [others|]. cbn [Q gTal set]. rewrite upd_eq. split; [exact T|]. exact Lm.
Qed.
Lemma rdel_tal n st g a k : Inv n st g -> NM a -> str_fits k ->
  exists st', u_del dec_u128 st (tbt a (gTal g a)) (enc_str k) = Ok (st', tbt a (om_remove (gTal g a) k)) /\ Inv n st' (g <| gTal := upd (gTal g) a (om_remove (gTal g a) k) |>) /\ (length (om_remove (gTal g a) k) <= n)%nat.
Proof using H32 Hinj.
  intros I Na L. pose proof (proj2 (I (LTal a) Na)) as Ln. pose proof (olen_remove (gTal g a) k) as Ol.
  destruct (t_del _ (fun _ => enc_uint 16) _ _ (fun _ x => x) _ _ key_s val_n kn_ _ _ _ k (proj1 (I (LTal a) Na)) L) as (st' & E & T & f). exists st'. split; [exact E|]. split; [|lia].
  apply (inv_step H NM H32 Hinj n st st' g _ (LTal a) I Na f); [others|]. cbn [Q gTal set]. rewrite upd_eq. split; [exact T|]. lia.
Qed.
Lemma rput_mp n st g k v : Inv n st g -> cap (S n) -> WN k v ->
  exists st', u_put dec_u128 st (hd (sk0 6) (length (gMp g))) (enc_str k) (enc_uint 16 v) = Ok (st', hd (sk0 6) (length (om_set (gMp g) k v))) /\ Inv (S n) st' (g <| gMp := om_set (gMp g) k v |>).
Proof using H32 Hinj.
  intros I bn W. pose proof (proj2 (I LMp Logic.I)) as Ln. apply (inv_mono H NM n (S n)) in I; [|lia].
  assert (Hs : small (length (om_set (gMp g) k v))) by len_ok.
  destruct (t_put _ (fun _ => enc_uint 16) _ _ (fun _ x => x) _ _ key_s val_n kn_ _ _ _ k v (proj1 (I LMp Logic.I)) W Hs) as (st' & E & T & f). exists st'. split; [exact E|].
  apply (inv_step H NM H32 Hinj (S n) st st' g _ LMp I Logic.I f); [others|]. split; [exact T|]. cbn [gMp set]. pose proof (olen_set (gMp g) k v). lia.
Qed.
Lemma rdel_mp n st g k : Inv n st g -> str_fits k ->
  exists st', u_del dec_u128 st (hd (sk0 6) (length (gMp g))) (enc_str k) = Ok (st', hd (sk0 6) (length (om_remove (gMp g) k))) /\ Inv n st' (g <| gMp := om_remove (gMp g) k |>).
Proof using H32 Hinj.
  intros I L. pose proof (proj2 (I LMp Logic.I)) as Ln.
  destruct (t_del _ (fun _ => enc_uint 16) _ _ (fun _ x => x) _ _ key_s val_n kn_ _ _ _ k (proj1 (I LMp Logic.I)) L) as (st' & E & T & f). exists st'. split; [exact E|].
  apply (inv_step H NM H32 Hinj n st st' g _ LMp I Logic.I f); [others|]. split; [exact T|]. cbn [gMp set]. pose proof (olen_remove (gMp g) k). lia.
Qed.
Lemma rput_st n st g k v : Inv n st g -> cap (S n) -> WN k v ->
  exists st', u_put dec_u128 st (hd (sk0 7) (length (gSt g))) (enc_str k) (enc_uint 16 v) = Ok (st', hd (sk0 7) (length (om_set (gSt g) k v))) /\ Inv (S n) st' (g <| gSt := om_set (gSt g) k v |>).
Proof using H32 Hinj.
  intros I bn W. pose proof (proj2 (I LSt Logic.I)) as Ln. apply (inv_mono H NM n (S n)) in I; [|lia].
  assert (Hs : small (length (om_set (gSt g) k v))) by len_ok.
  destruct (t_put _ (fun _ => enc_uint 16) _ _ (fun _ x => x) _ _ key_s val_n kn_ _ _ _ k v (proj1 (I LSt Logic.I)) W Hs) as (st' & E & T & f). exists st'. split; [exact E|].
  apply (inv_step H NM H32 Hinj (S n) st st' g _ LSt I Logic.I f); [others|]. split; [exact T|]. cbn [gSt set]. pose proof (olen_set (gSt g) k v). lia.
Qed.
Lemma rdel_st n st g k : Inv n st g -> str_fits k ->
  exists st', u_del dec_u128 st (hd (sk0 7) (length (gSt g))) (enc_str k) = Ok (st', hd (sk0 7) (length (om_remove (gSt g) k))) /\ Inv n st' (g <| gSt := om_remove (gSt g) k |>).
Proof using H32 Hinj.
  intros I L. pose proof (proj2 (I LSt Logic.I)) as Ln.
  destruct (t_del _ (fun _ => enc_uint 16) _ _ (fun _ x => x) _ _ key_s val_n kn_ _ _ _ k (proj1 (I LSt Logic.I)) L) as (st' & E & T & f). exists st'. split; [exact E|].
  apply (inv_step H NM H32 Hinj n st st' g _ LSt I Logic.I f); [others|]. split; [exact T|]. cbn [gSt set]. pose proof (olen_remove (gSt g) k). lia.
Qed.
Lemma rput_data n st g k v : Inv n st g -> cap (S n) -> WD k v ->
  exists st', u_put dec_str st (hd (sk0 8) (length (gData g))) (enc_str k) (enc_str v) = Ok (st', hd (sk0 8) (length (om_set (gData g) k v))) /\ Inv (S n) st' (g <| gData := om_set (gData g) k v |>).
Proof using H32 Hinj.
  intros I bn W. pose proof (proj2 (I LData Logic.I)) as Ln. apply (inv_mono H NM n (S n)) in I; [|lia].
  assert (Hs : small (length (om_set (gData g) k v))) by len_ok.
  destruct (t_put _ (fun _ => enc_str) _ _ (fun _ x => x) _ _ key_s val_d kd_ _ _ _ k v (proj1 (I LData Logic.I)) W Hs) as (st' & E & T & f). exists st'. split; [exact E|].
  apply (inv_step H NM H32 Hinj (S n) st st' g _ LData I Logic.I f); [others|]. split; [exact T|]. cbn [gData set]. pose proof (olen_set (gData g) k v). lia.
Qed.
Lemma rput_del n st g k v : Inv n st g -> cap (S n) -> WL (S n) k v ->
  exists st', u_put dec_strs st (hd (sk0 9) (length (gDel g))) (enc_str k) (enc_strs v) = Ok (st', hd (sk0 9) (length (om_set (gDel g) k v))) /\ Inv (S n) st' (g <| gDel := om_set (gDel g) k v |>).
Proof using H32 Hinj.
  intros I bn W. pose proof (proj2 (I LDel Logic.I)) as Ln. apply (inv_mono H NM n (S n)) in I; [|lia].
  assert (Hs : small (length (om_set (gDel g) k v))) by len_ok.
  destruct (t_put _ (fun _ => enc_strs) _ _ (fun _ x => x) _ _ key_s (val_l _ bn) (kl_ (S n)) _ _ _ k v (proj1 (I LDel Logic.I)) W Hs) as (st' & E & T & f). exists st'. split; [exact E|].
  apply (inv_step H NM H32 Hinj (S n) st st' g _ LDel I Logic.I f); [others|]. split; [exact T|]. cbn [gDel set]. pose proof (olen_set (gDel g) k v). lia.
Qed.
Lemma rdel_del n st g k : Inv n st g -> cap n -> str_fits k ->
  exists st', u_del dec_strs st (hd (sk0 9) (length (gDel g))) (enc_str k) = Ok (st', hd (sk0 9) (length (om_remove (gDel g) k))) /\ Inv n st' (g <| gDel := om_remove (gDel g) k |>).
Proof using H32 Hinj.
  intros I bn L. pose proof (proj2 (I LDel Logic.I)) as Ln.
  destruct (t_del _ (fun _ => enc_strs) _ _ (fun _ x => x) _ _ key_s (val_l _ bn) (kl_ n) _ _ _ k (proj1 (I LDel Logic.I)) L) as (st' & E & T & f). exists st'. split; [exact E|].
  apply (inv_step H NM H32 Hinj n st st' g _ LDel I Logic.I f); [others|]. split; [exact T|]. cbn [gDel set]. pose proof (olen_remove (gDel g) k). lia.
Qed.
Lemma look_inj p e e' : p +:+ enc_str e = p +:+ enc_str e' -> e = e'.
Proof using. intros E. apply sapp_inj in E. exact (enc_inj _ _ E). Qed.
Lemma lrep_put st p m e x : LRep st p m -> str_fits x.1 -> str_fits x.2 -> LRep (k_put st p e x) p (<[e := x]> m) /\ frame st (k_put st p e x) p.
Proof using.
  intros [A B] C D. split; [split|].
  - intros e'. unfold k_put. destruct (decide (e = e')) as [->|N]; [rewrite !lookup_insert; reflexivity|]. rewrite !lookup_insert_ne; [apply A|exact N|intros E; exact (N (look_inj _ _ _ E))].
  - intros e' y E. apply lookup_insert_Some in E as [[_ <-]|[_ E]]; [split; assumption|exact (B _ _ E)].
  - intros key Hn. apply lookup_insert_ne. intros <-. apply Hn. eexists; reflexivity.
Qed.
Lemma lrep_del st p m e : LRep st p m -> LRep (k_del st p e) p (delete e m) /\ frame st (k_del st p e) p.
Proof using.
  intros [A B]. split; [split|].
  - intros e'. unfold k_del. destruct (decide (e = e')) as [->|N]; [rewrite !lookup_delete; reflexivity|]. rewrite !lookup_delete_ne; [apply A|exact N|intros E; exact (N (look_inj _ _ _ E))].
  - intros e' y E. apply lookup_delete_Some in E as [_ E]. exact (B _ _ E).
  - intros key Hn. apply lookup_delete_ne. intros <-. apply Hn. eexists; reflexivity.
Qed.
Lemma rput_sig n st g e x : Inv n st g -> str_fits x.1 -> str_fits x.2 -> Inv n (k_put st (sk0 10) e x) (g <| gSig := <[e := x]> (gSig g) |>).
Proof using H32 Hinj. intros I A B. destruct (lrep_put _ _ _ e x (I LSig Logic.I) A B) as [R f]. apply (inv_step H NM H32 Hinj n st _ g _ LSig I Logic.I f); [others|exact R]. Qed.
Lemma rdel_sig n st g e : Inv n st g -> Inv n (k_del st (sk0 10) e) (g <| gSig := delete e (gSig g) |>).
Proof using H32 Hinj. intros I. destruct (lrep_del _ _ _ e (I LSig Logic.I)) as [R f]. apply (inv_step H NM H32 Hinj n st _ g _ LSig I Logic.I f); [others|exact R]. Qed.
Lemma rput_pre n st g e x : Inv n st g -> str_fits x.1 -> str_fits x.2 -> Inv n (k_put st (sk0 11) e x) (g <| gPre := <[e := x]> (gPre g) |>).
Proof using H32 Hinj. intros I A B. destruct (lrep_put _ _ _ e x (I LPre Logic.I) A B) as [R f]. apply (inv_step H NM H32 Hinj n st _ g _ LPre I Logic.I f); [others|exact R]. Qed.
Lemma rdel_pre n st g e : Inv n st g -> Inv n (k_del st (sk0 11) e) (g <| gPre := delete e (gPre g) |>).
Proof using H32 Hinj. intros I. destruct (lrep_del _ _ _ e (I LPre Logic.I)) as [R f]. apply (inv_step H NM H32 Hinj n st _ g _ LPre I Logic.I f); [others|exact R]. Qed.
Lemma set_pos n m st st' g id l : Inv n st g -> NM id -> (n <= m)%nat -> (length l <= m)%nat -> VRep st' (sk1 H 0 id) l -> frame st st' (sk1 H 0 id) -> Inv m st' (g <| gPos := upd (gPos g) id l |>).
Proof using H32 Hinj.
  intros I Ni Le Ll R f. apply (inv_mono H NM n m) in I; [|exact Le]. apply (inv_step H NM H32 Hinj m st st' g _ (LPos id) I Ni f); [others|]. cbn [Q gPos set]. rewrite upd_eq. split; assumption.
Qed.
Lemma set_vp n st st' g x ce : Inv n st g -> NM x -> RP H NM n x st' (sk1 H 1 x) ce -> frame st st' (sk1 H 1 x) -> Inv n st' (g <| gVp := upd (gVp g) x ce |>).
Proof using H32 Hinj. intros I Nx R f. apply (inv_step H NM H32 Hinj n st st' g _ (LVp x) I Nx f); [others|]. cbn [Q gVp set]. rewrite upd_eq. exact R. Qed.
Lemma set_vv n st st' g x ce : Inv n st g -> NM x -> RV st' (sk1 H 5 x) ce -> frame st st' (sk1 H 5 x) -> Inv n st' (g <| gVv := upd (gVv g) x ce |>).
Proof using H32 Hinj. intros I Nx R f. apply (inv_step H NM H32 Hinj n st st' g _ (LVv x) I Nx f); [others|]. cbn [Q gVv set]. rewrite upd_eq. exact R. Qed.
End Rep.
