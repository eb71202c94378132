(** MVMsg.v -- C91: the text sent along with a token transfer is carried out as it says. *)

From Verif Require Export MVSpecMsg JsonProofs MVFits4 MVStep8.

Lemma prefix_iff p s t : after_prefix p s = Some t <-> s = p +:+ t.
Proof.
  revert s. induction p as [|a p IH]; intros s; cbn [after_prefix].
  - rewrite app_emp. split; [intros H; injection H as ->; reflexivity|intros ->; reflexivity].
  - destruct s as [|b s]; [split; [discriminate|rewrite app_cons; discriminate]|]. rewrite app_cons. destruct (Ascii.eqb_spec a b) as [->|Hne].
    + rewrite IH. split; [intros ->; reflexivity|intros H; injection H as ->; reflexivity].
    + split; [discriminate|]. intros H. injection H as -> _. contradiction.
Qed.
Lemma boundary_iff n msg : char_boundary n msg = true <-> forall a, String.get n msg = Some a -> ~ cont a.
Proof.
  unfold char_boundary, cont. destruct (String.get n msg) as [a|]; [|split; [discriminate|reflexivity]].
  rewrite negb_true_iff. split.
  - intros H b E. injection E as <-. intros [H1 H2]. apply N.leb_le in H1. apply N.ltb_lt in H2. rewrite H1, H2 in H. discriminate.
  - intros H. apply not_true. rewrite andb_true_iff, N.leb_le, N.ltb_lt. exact (H a eq_refl).
Qed.
Lemma get_len n s a : String.get n s = Some a -> (n < String.length s)%nat.
Proof.
  revert n. induction s as [|b s IH]; intros n H; [destruct n; discriminate|]. destruct n as [|n]; cbn [String.length]; [lia|].
  cbn [String.get] in H. apply IH in H. lia.
Qed.
Lemma sliceable_iff n msg : sliceable n msg <-> forall a, String.get n msg = Some a -> ~ cont a.
Proof.
  unfold sliceable. split.
  - intros H a Ha. pose proof (get_len _ _ _ Ha) as Hl. assert (Hb := H ltac:(lia)). rewrite boundary_iff in Hb. exact (Hb a Ha).
  - intros H _. apply boundary_iff. exact H.
Qed.
Lemma get_app p s n : String.get (String.length p + n) (p +:+ s) = String.get n s.
Proof. induction p as [|a p IH]; [reflexivity|]. exact IH. Qed.

(** *** What the texts start with *)
Definition plain (s : string) : Prop := match s with String a _ => N_of_ascii a < 128 | EmptyString => True end.
Lemma plain_get s a : plain s -> String.get 0 s = Some a -> ~ cont a.
Proof. destruct s as [|b s]; [discriminate|]. intros H E. injection E as <-. unfold cont. cbn [plain] in H. lia. Qed.
Lemma blank_plain w s : blank w -> plain s -> plain (w +:+ s).
Proof.
  intros Hw Hs. destruct w as [|a w]; [exact Hs|]. destruct Hw as [Ha _]. rewrite app_cons. cbn [plain]. cbn [In] in Ha. lia.
Qed.
Lemma list_plain L t l r : list_text L t l -> plain (t +:+ r).
Proof. intros [(w & _ & -> & _)|(ts & _ & ->)]; reflexivity. Qed.
Lemma pair_plain L t p : pair_text L t p -> exists t', t = String "[" t' /\ forall r, plain (t' +:+ r).
Proof.
  intros (w1 & c & w2 & w3 & d & w4 & -> & H1 & _). eexists. split; [reflexivity|]. intros r. unfold dq. norm. apply blank_plain; [exact H1|]. reflexivity.
Qed.
Lemma decimal_get s n i a : decimal s n -> String.get i s = Some a -> is_digit a = true.
Proof.
  intros H. apply decimal_dv in H. revert H. generalize 0 as acc. revert i. induction s as [|b s IH]; intros i acc H E; [destruct i; discriminate|].
  cbn [dv] in H. destruct (is_digit b) eqn:Eb; [|discriminate]. destruct i as [|i]; cbn [String.get] in E; [injection E as <-; exact Eb|].
  exact (IH _ _ H E).
Qed.
Lemma u16_get s n i a : u16_text s n -> String.get i s = Some a -> is_digit a = true \/ a = "+"%char.
Proof.
  intros [_ [H|(s' & -> & H)]] E; [left; exact (decimal_get _ _ _ _ H E)|]. destruct i as [|i].
  - injection E as <-. right. reflexivity.
  - left. exact (decimal_get _ _ _ _ H E).
Qed.
Lemma u16_cont s n i : u16_text s n -> forall a, String.get i s = Some a -> ~ cont a.
Proof.
  intros H a E. unfold cont. destruct (u16_get _ _ _ _ H E) as [Ha| ->]; [apply digit_range in Ha; lia|].
  change (N_of_ascii "+") with 43. lia.
Qed.
Lemma u16_first s n a t : u16_text s n -> s = String a t -> is_digit a = true \/ a = "+"%char.
Proof. intros H ->. exact (u16_get _ _ 0%nat _ H eq_refl). Qed.
Lemma u16_not_claims s n t : u16_text s n -> s <> "for-claims:" +:+ t.
Proof. intros H E. destruct (u16_first _ _ _ _ H E) as [X|X]; discriminate X. Qed.
Lemma u16_not_pair s n t : u16_text s n -> s <> "[" +:+ t.
Proof. intros H E. destruct (u16_first _ _ _ _ H E) as [X|X]; discriminate X. Qed.
Lemma claims_not_pair s t t' : s = "for-claims:" +:+ t -> s <> "[" +:+ t'.
Proof. intros -> E. discriminate E. Qed.
Lemma blank_bracket w s t : blank w -> w +:+ s = String "[" t -> w = EmptyString.
Proof.
  intros Hw E. destruct w as [|a w]; [reflexivity|]. destruct Hw as [Ha _]. rewrite app_cons in E. injection E as -> _. cbn in Ha.
  exfalso. repeat destruct Ha as [Ha|Ha]; try discriminate Ha. exact Ha.
Qed.

(** *** One meaning *)
Lemma one_meaning msg o o' : says msg o -> says msg o' -> o = o'.
Proof.
  destruct o as [l|w d|d], o' as [l'|w' d'|d']; cbn [says].
  - intros (t & -> & H) (t' & E & H'). injection E as <-. apply json_claims_iff in H, H'. congruence.
  - intros (t & E & _) (t' & E' & _). exfalso. exact (claims_not_pair _ _ _ E E').
  - intros (t & E & _) H. exfalso. exact (u16_not_claims _ _ _ H E).
  - intros (t & E & _) (t' & E' & _). exfalso. exact (claims_not_pair _ _ _ E' E).
  - intros (_ & _ & H) (_ & _ & H'). apply json_pair_iff in H, H'. congruence.
  - intros (t & E & _) H. exfalso. exact (u16_not_pair _ _ _ H E).
  - intros H (t & E & _). exfalso. exact (u16_not_claims _ _ _ H E).
  - intros H (t & E & _). exfalso. exact (u16_not_pair _ _ _ H E).
  - intros H H'. apply parse_u16_spec in H, H'. congruence.
Qed.

(** *** Ranges *)
Lemma listing_range L ts l : listing L ts l -> Forall (fun p : string * N => p.2 < L) l.
Proof.
  assert (X : forall t p, pair_text L t p -> p.2 < L) by (intros t p (? & ? & ? & ? & ? & ? & _ & _ & _ & _ & _ & _ & _ & H); exact H).
  induction 1; constructor; eauto.
Qed.
Lemma list_range L t l : list_text L t l -> Forall (fun p : string * N => p.2 < L) l.
Proof. intros [(w & _ & _ & ->)|(ts & H & _)]; [constructor|exact (listing_range _ _ _ H)]. Qed.
Lemma around_pair_range s w d : around (fun x => pair_text (2 ^ 16) x (w, d)) s -> d < 2 ^ 16.
Proof. intros (? & t & ? & _ & _ & _ & ? & ? & ? & ? & ? & ? & _ & _ & _ & _ & _ & _ & _ & H). exact H. Qed.

Lemma cut_sliceable msg : cut_ok msg <-> sliceable 11 msg.
Proof. rewrite sliceable_iff. reflexivity. Qed.

Section Texts.
Context (c : ctx) (Hc : reads_json c).
Lemma accepts_iff L sender amount msg :
  accepted c L (FtOnTransfer sender amount msg) <-> c_deposit c = 0 /\ exists o, says msg o /\ obeyed (c_pred c) L sender amount msg o.
Proof.
  destruct Hc as [Hp Hl]. unfold accepted. cbn [enabled fits]. split.
  - intros [(H0 & Hs & H) Hf]. split; [exact H0|]. destruct (after_prefix "for-claims:" msg) as [t|] eqn:Ep.
    + apply prefix_iff in Ep. destruct H as (l & E & HF & H). rewrite Hl in E. exists (Distribute l). split.
      * exists t. split; [exact Ep|]. apply json_claims_iff. exact E.
      * split; [eapply Forall_impl; [exact HF|]; intros p [X _]; exact X|].
        destruct H as [[H1 H2]|(H1 & H2 & H3)]; [left; rewrite decide_True in Hf by exact H1|right; rewrite decide_False in Hf by exact H1].
        -- split; [exact H1|]. split; [exact H2|exact Hf].
        -- split; [exact H1|]. split; [exact H2|]. split; [exact H3|exact Hf].
    + destruct H as (H1 & H2 & H3 & w & days & E & Hm & Ho). specialize (Hf _ _ E). unfold lock_target in E.
      destruct (after_prefix "[" msg) as [t|] eqn:Eb.
      * rewrite Hp in E. destruct (Ho ltac:(discriminate)) as [_ Ho']. exists (LockFor w days). split.
        -- exists t. split; [apply prefix_iff; exact Eb|]. apply json_pair_iff. exact E.
        -- cbn [obeyed]. apply cut_sliceable in Hs. auto 10.
      * destruct (parse_u16 msg) as [d|] eqn:Ed; [|discriminate]. injection E as <- <-. exists (LockOwn d). split; [apply parse_u16_spec; exact Ed|].
        cbn [obeyed]. auto 10.
  - intros (H0 & o & Hsay & Hob). destruct o as [l|w days|days]; cbn [says obeyed] in *.
    + destruct Hsay as (t & Em & Ht). pose proof Em as Ep. apply prefix_iff in Ep. rewrite Ep.
      destruct Hob as [HF H]. split; [|].
      * split; [exact H0|]. split.
        { apply sliceable_iff. intros a Ha. rewrite Em in Ha. change 11%nat with (String.length "for-claims:" + 0)%nat in Ha. rewrite get_app in Ha.
          destruct Ht as (w & x & w' & -> & Hw & _ & Hx). refine (plain_get _ _ _ Ha). apply blank_plain; [exact Hw|]. exact (list_plain _ _ _ _ Hx). }
        exists l. split; [rewrite Hl; apply json_claims_iff; exact Ht|]. split.
        { destruct Ht as (w & x & w' & _ & _ & _ & Hx). apply list_range in Hx. apply List.Forall_forall. intros p Hi.
          rewrite List.Forall_forall in HF, Hx. split; [exact (HF p Hi)|exact (Hx p Hi)]. }
        destruct H as [(H1 & H2 & _)|(H1 & H2 & H3 & _)]; [left|right]; auto.
      * destruct H as [(H1 & _ & H2)|(H1 & _ & _ & H2)]; [rewrite decide_True by exact H1|rewrite decide_False by exact H1]; exact H2.
    + destruct Hsay as (t & Em & Ht). destruct Hob as (H1 & H2 & H3 & H4 & H5 & H6).
      assert (En : after_prefix "for-claims:" msg = None).
      { destruct (after_prefix "for-claims:" msg) as [x|] eqn:E; [|reflexivity]. apply prefix_iff in E. exfalso. exact (claims_not_pair _ _ _ E Em). }
      assert (Eb : after_prefix "[" msg = Some t) by (apply prefix_iff; exact Em). rewrite En.
      assert (Et : lock_target c sender msg = Some (w, days)).
      { unfold lock_target. rewrite Eb, Hp. apply json_pair_iff. exact Ht. }
      split.
      * split; [exact H0|]. split; [apply cut_sliceable; exact H4|]. split; [exact H1|]. split; [exact H2|]. split.
        { apply sliceable_iff. intros a Ha. destruct Ht as (u & x & u' & E & Hu & _ & Hx). rewrite E in Em. apply blank_bracket in Em as Eu; [|exact Hu].
          subst u. destruct (pair_plain _ _ _ Hx) as (x' & -> & Hpl). rewrite E in Ha. rewrite app_emp, app_cons in Ha. exact (plain_get _ _ (Hpl u') Ha). }
        exists w, days. split; [exact Et|]. split; [exact H5|]. intros _. split; [exact (around_pair_range _ _ _ Ht)|exact H3].
      * intros w2 d2 E2. rewrite Et in E2. injection E2 as <- <-. exact H6.
    + assert (En : after_prefix "for-claims:" msg = None).
      { destruct (after_prefix "for-claims:" msg) as [x|] eqn:E; [|reflexivity]. apply prefix_iff in E. exfalso. exact (u16_not_claims _ _ _ Hsay E). }
      assert (Eb : after_prefix "[" msg = None).
      { destruct (after_prefix "[" msg) as [x|] eqn:E; [|reflexivity]. apply prefix_iff in E. exfalso. exact (u16_not_pair _ _ _ Hsay E). }
      assert (Et : lock_target c sender msg = Some (sender, days)).
      { unfold lock_target. rewrite Eb. pose proof Hsay as Hs. apply parse_u16_spec in Hs. rewrite Hs. reflexivity. }
      destruct Hob as (H1 & H2 & H3 & H4). rewrite En. split.
      * split; [exact H0|]. split; [apply sliceable_iff; exact (u16_cont _ _ _ Hsay)|]. split; [exact H1|]. split; [exact H2|].
        split; [apply sliceable_iff; exact (u16_cont _ _ _ Hsay)|]. exists sender, days. split; [exact Et|]. split; [exact H3|].
        rewrite Eb. intros X. contradiction.
      * intros w2 d2 E2. rewrite Et in E2. injection E2 as <- <-. exact H4.
Qed.

Lemma share_listed w l : share w l = listed_for w l.
Proof.
  unfold share, listed_for. induction l as [|p l IH]; [reflexivity|]. rewrite !sum_by_cons, IH. f_equal.
  destruct (String.eqb_spec p.1 w); [rewrite decide_True by assumption|rewrite decide_False by assumption]; reflexivity.
Qed.
Lemma next_result L sender amount msg o : says msg o -> same (next c L (FtOnTransfer sender amount msg)) (result (c_pred c) L sender amount o).
Proof.
  destruct Hc as [Hp Hl]. intros Hs. cbn [next]. destruct o as [l|w days|days]; cbn [says result] in *.
  - destruct Hs as (t & Em & Ht). apply prefix_iff in Em. rewrite Em, Hl. apply json_claims_iff in Ht. rewrite Ht. cbn [default].
    destruct (String.eqb_spec (c_pred c) (l_mpdao L)) as [E|E]; [rewrite decide_True by exact E|rewrite decide_False by exact E];
      repeat split; intros; cbn; rewrite ?share_listed; reflexivity.
  - destruct Hs as (t & Em & Ht). destruct (after_prefix "for-claims:" msg) as [x|] eqn:E.
    { apply prefix_iff in E. exfalso. exact (claims_not_pair _ _ _ E Em). }
    unfold lock_target. apply prefix_iff in Em. rewrite Em, Hp. apply json_pair_iff in Ht. rewrite Ht. apply same_refl.
  - destruct (after_prefix "for-claims:" msg) as [x|] eqn:E; [apply prefix_iff in E; exfalso; exact (u16_not_claims _ _ _ Hs E)|].
    unfold lock_target. destruct (after_prefix "[" msg) as [x|] eqn:E2; [apply prefix_iff in E2; exfalso; exact (u16_not_pair _ _ _ Hs E2)|].
    apply parse_u16_spec in Hs. rewrite Hs. apply same_refl.
Qed.
End Texts.

Lemma c91_accepted a s0 tr c sender amount msg :
  mv_new a = Ok s0 -> collision_free (tr ++ [(c, FtOnTransfer sender amount msg)]) -> no_zero_votes tr -> reads_json c ->
  (exists s' e, exec c (run s0 tr) (FtOnTransfer sender amount msg) = Ok (s', e)) <->
  c_deposit c = 0 /\ exists o, says msg o /\ obeyed (c_pred c) (observe (run s0 tr)) sender amount msg o.
Proof.
  intros Hn Hcf Hz Hc. rewrite <- accepts_iff by exact Hc. apply (c76 a); try assumption; [|exact I].
  apply Forall_app. split; [exact Hz|]. repeat constructor.
Qed.
Lemma c91_effect a s0 tr c sender amount msg s' e :
  mv_new a = Ok s0 -> collision_free (tr ++ [(c, FtOnTransfer sender amount msg)]) -> no_zero_votes tr -> reads_json c ->
  exec c (run s0 tr) (FtOnTransfer sender amount msg) = Ok (s', e) ->
  e = [] /\ forall o, says msg o -> same (observe s') (result (c_pred c) (observe (run s0 tr)) sender amount o).
Proof.
  intros Hn Hcf Hz Hc H. assert (Hz' : no_zero_votes (tr ++ [(c, FtOnTransfer sender amount msg)])).
  { apply Forall_app. split; [exact Hz|]. repeat constructor. }
  destruct (c72 a s0 tr c (FtOnTransfer sender amount msg) Hn Hcf Hz' I) as [A _]. destruct (A _ _ H) as (_ & Hb & He). split; [exact He|].
  intros o Ho. eapply same_trans; [exact Hb|]. apply next_result; assumption.
Qed.

(** *** Written messages *)
Fixpoint ascii7 (s : string) : Prop := match s with String a r => N_of_ascii a < 128 /\ ascii7 r | EmptyString => True end.
Lemma ascii7_app s t : ascii7 s -> ascii7 t -> ascii7 (s +:+ t).
Proof. induction s as [|a s IH]; intros Hs Ht; [exact Ht|]. destruct Hs as [Ha Hs]. split; [exact Ha|]. apply IH; assumption. Qed.
Lemma ascii7_get s i a : ascii7 s -> String.get i s = Some a -> N_of_ascii a < 128.
Proof.
  revert i. induction s as [|b s IH]; intros i Hs E; [destruct i; discriminate|]. destruct Hs as [Hb Hs].
  destruct i as [|i]; [injection E as <-; exact Hb|exact (IH i Hs E)].
Qed.
Lemma ascii7_esc s : ascii7 s -> ascii7 (esc s).
Proof.
  induction s as [|a s IH]; intros Hs; [exact I|]. destruct Hs as [Ha Hs]. specialize (IH Hs). cbn [esc]. unfold esc_char, to_str. cbv zeta.
  assert (T : forall e, e < 128 -> ascii7 (String BACKSLASH (String (ascii_of_N e) (esc s)))).
  { intros e He. split; [reflexivity|]. split; [rewrite ascii_N by lia; exact He|exact IH]. }
  do 7 (match goal with |- context [if ?b then _ else _] => destruct b end; [apply T; lia|]).
  destruct (N.ltb_spec (N_of_ascii a) 32) as [Hl|_]; [|split; assumption].
  assert (Hh : forall k, k < 16 -> N_of_ascii (hex_digit k) < 128).
  { intros k Hk. unfold hex_digit. destruct (N.ltb_spec k 10); rewrite ascii_N by lia; lia. }
  split; [reflexivity|]. split; [reflexivity|]. split; [reflexivity|]. split; [reflexivity|]. split; [|split; [|exact IH]]; apply Hh.
  - rewrite shr. apply N.div_lt_upper_bound; [lia|]. change (2 ^ 4) with 16. lia.
  - change (N.land (N_of_ascii a) 15) with (N.land (N_of_ascii a) (N.ones 4)). rewrite N.land_ones. apply N.mod_lt. discriminate.
Qed.
Lemma ascii7_pretty (n : N) : ascii7 (pretty n).
Proof.
  destruct (pretty_numeral n) as [H _]. apply decimal_dv in H. revert H. generalize 0 as acc. induction (pretty n) as [|a s IH]; intros acc H; [exact I|].
  cbn [dv] in H. destruct (is_digit a) eqn:E; [|discriminate]. apply digit_range in E. split; [lia|exact (IH _ H)].
Qed.
Lemma c91_written :
  (forall l, Forall (fun p => p.2 < 2 ^ 64) l -> says ("for-claims:" +:+ show_list l) (Distribute l)) /\
  (forall w d, d < 2 ^ 16 -> says (show_pair (w, d)) (LockFor w d) /\ (ascii7 w -> cut_ok (show_pair (w, d)))) /\
  (forall d, d < 2 ^ 16 -> says (pretty d) (LockOwn d)).
Proof.
  split; [|split].
  - intros l H. exists (show_list l). split; [reflexivity|]. apply json_claims_iff, round_claims. exact H.
  - intros w d H. split.
    + eexists. split; [reflexivity|]. apply json_pair_iff, round_pair. exact H.
    + intros Hw a Ha. unfold cont. enough (N_of_ascii a < 128) by lia. refine (ascii7_get _ _ _ _ Ha).
      unfold show_pair. norm. split; [reflexivity|]. split; [reflexivity|]. apply ascii7_app; [apply ascii7_esc; exact Hw|].
      split; [reflexivity|]. split; [reflexivity|]. apply ascii7_app; [apply ascii7_pretty|]. split; [reflexivity|exact I].
  - intros d H. destruct (pretty_numeral d) as [Hd _]. split; [exact H|left; exact Hd].
Qed.
