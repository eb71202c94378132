(** JsonProofs.v -- C90: the reader of messages accepts exactly the texts of the grammar and reads what they denote. *)

From Verif Require Export JsonSpec MVMoney.

Lemma app_cons a (s t : string) : String a s +:+ t = String a (s +:+ t).
Proof. reflexivity. Qed.
Lemma app_emp (t : string) : EmptyString +:+ t = t.
Proof. reflexivity. Qed.
Ltac norm := rewrite ?append_assoc, ?app_cons, ?app_emp.

(** ** White space *)
Lemma is_ws_spec a : is_ws a = true <-> In (N_of_ascii a) [32; 9; 10; 13].
Proof.
  unfold is_ws. cbv zeta. rewrite !orb_true_iff, !N.eqb_eq. cbn [In]. intuition congruence.
Qed.
Definition solid (s : string) : Prop := match s with String a _ => is_ws a = false | EmptyString => True end.
Lemma skip_ws_app w s : blank w -> solid s -> skip_ws (w +:+ s) = s.
Proof.
  induction w as [|a w IH]; intros Hw Hs.
  - rewrite app_emp. destruct s as [|b s]; [reflexivity|]. cbn [skip_ws]. cbn [solid] in Hs. rewrite Hs. reflexivity.
  - destruct Hw as [Ha Hw]. rewrite app_cons. cbn [skip_ws]. apply is_ws_spec in Ha. rewrite Ha. auto.
Qed.
Lemma skip_ws_split s : exists w, blank w /\ s = w +:+ skip_ws s.
Proof.
  induction s as [|a s (w & Hw & E)]; [exists EmptyString; split; [exact I|reflexivity]|]. cbn [skip_ws]. destruct (is_ws a) eqn:Ea.
  - exists (String a w). split; [split; [apply is_ws_spec; exact Ea|exact Hw]|]. rewrite app_cons, <- E. reflexivity.
  - exists EmptyString. split; [exact I|reflexivity].
Qed.
Lemma blank_app v w : blank v -> blank w -> blank (v +:+ w).
Proof. induction v as [|a v IH]; intros Hv Hw; [exact Hw|]. destruct Hv as [Ha Hv]. split; [exact Ha|]. apply IH; assumption. Qed.
Lemma eat_Some a s r : eat a s = Some r <-> s = String a r.
Proof.
  destruct s as [|b s]; cbn [eat]; [split; discriminate|]. destruct (Ascii.eqb_spec b a) as [->|Hne]; split; intros H; congruence.
Qed.
Lemma eat_ws a s r : eat a (skip_ws s) = Some r -> exists w, blank w /\ s = w +:+ String a r.
Proof. intros H. apply eat_Some in H. destruct (skip_ws_split s) as (w & Hw & E). exists w. rewrite H in E. auto. Qed.
Lemma eat_app a w r : blank w -> is_ws a = false -> eat a (skip_ws (w +:+ String a r)) = Some r.
Proof. intros Hw Ha. rewrite skip_ws_app by assumption. apply eat_Some. reflexivity. Qed.

(** ** Bytes *)
Lemma ascii_lt a : N_of_ascii a < 256.
Proof. apply N_ascii_bounded. Qed.
Lemma ascii_inj a b : N_of_ascii a = N_of_ascii b -> a = b.
Proof. intros H. rewrite <- (ascii_N_embedding a), H, ascii_N_embedding. reflexivity. Qed.
Lemma ascii_is a n : N_of_ascii a = n -> a = ascii_of_N n.
Proof. intros <-. symmetry. apply ascii_N_embedding. Qed.
Lemma ascii_N n : n < 256 -> N_of_ascii (ascii_of_N n) = n.
Proof. apply N_ascii_embedding. Qed.

(** ** Hexadecimal *)
Lemma hex_val_spec a k : hex_val a = Some k <-> hexadecimal a k.
Proof.
  unfold hex_val, hexadecimal. cbv zeta. generalize (N_of_ascii a). intros n.
  destruct (N.leb_spec 48 n), (N.leb_spec n 57), (N.leb_spec 65 n), (N.leb_spec n 70), (N.leb_spec 97 n), (N.leb_spec n 102); cbn [andb];
    split; intros H'; try discriminate H'; try (injection H' as <-); try lia; try (f_equal; lia).
Qed.
Lemma hex4_spec a b c d n : hex4 a b c d = Some n <-> four_hex (String a (String b (String c (String d EmptyString)))) n.
Proof.
  unfold hex4. split.
  - destruct (hex_val a) eqn:Ea, (hex_val b) eqn:Eb, (hex_val c) eqn:Ec, (hex_val d) eqn:Ed; try discriminate.
    intros H. injection H as <-. apply hex_val_spec in Ea, Eb, Ec, Ed. rewrite !N.shiftl_mul_pow2.
    change (2 ^ 12) with 4096. change (2 ^ 8) with 256. change (2 ^ 4) with 16.
    replace (n0 * 4096 + n1 * 256 + n2 * 16 + n3) with (((n0 * 16 + n1) * 16 + n2) * 16 + n3) by lia. constructor; assumption.
  - intros H. inversion H; subst. repeat match goal with H : hexadecimal _ _ |- _ => apply hex_val_spec in H; rewrite H; clear H end.
    rewrite !N.shiftl_mul_pow2. change (2 ^ 12) with 4096. change (2 ^ 8) with 256. change (2 ^ 4) with 16. f_equal. lia.
Qed.
Lemma four_hex_lt t n : four_hex t n -> n < 65536.
Proof.
  intros H. destruct H as [a b c d p q r s Ha Hb Hc Hd]. unfold hexadecimal in *.
  assert (p < 16) by lia. assert (q < 16) by lia. assert (r < 16) by lia. assert (s < 16) by lia. lia.
Qed.

(** ** UTF-8 *)
Lemma land63 n : N.land n 63 = n mod 64.
Proof. exact (N.land_ones n 6). Qed.
Lemma shr n k : N.shiftr n k = n / 2 ^ k.
Proof. apply N.shiftr_div_pow2. Qed.
Ltac dm n k := let q := fresh "q" in let r := fresh "r" in pose proof (N.div_mod n k ltac:(lia)); pose proof (N.mod_lt n k ltac:(lia));
  set (q := n / k) in *; set (r := n mod k) in *; clearbody q r.
Lemma push_utf8_ok n r : n < 1114112 -> exists u, push_utf8 n r = u +:+ r /\ utf8 n u.
Proof.
  intros Hn. unfold push_utf8, byte. rewrite !land63, !shr. change (2 ^ 6) with 64. change (2 ^ 12) with (64 * 64). change (2 ^ 18) with (64 * 64 * 64).
  rewrite <- !N.div_div by lia.
  destruct (N.ltb_spec n 128) as [H|H]; [|destruct (N.ltb_spec n 2048) as [H1|H1]; [|destruct (N.ltb_spec n 65536) as [H2|H2]]].
  - eexists (String _ EmptyString). split; [reflexivity|]. rewrite <- (ascii_N n) at 1 by lia. constructor. rewrite ascii_N by lia. exact H.
  - eexists (String _ (String _ EmptyString)). split; [reflexivity|]. dm n 64.
    constructor; unfold cont; rewrite ?ascii_N by lia; lia.
  - eexists (String _ (String _ (String _ EmptyString))). split; [reflexivity|]. dm n 64. dm q 64.
    constructor; unfold cont; rewrite ?ascii_N by lia; lia.
  - eexists (String _ (String _ (String _ (String _ EmptyString)))). split; [reflexivity|]. dm n 64. dm q 64. dm q0 64.
    constructor; unfold cont; rewrite ?ascii_N by lia; lia.
Qed.
Lemma utf8_fun n u v : utf8 n u -> utf8 n v -> u = v.
Proof.
  unfold cont. intros H1 H2. destruct H1; inversion H2; subst; unfold cont in *; try lia;
    repeat match goal with |- String _ _ = String _ _ => f_equal end; try reflexivity; apply ascii_inj; lia.
Qed.
Lemma push_utf8_is n u r : n < 1114112 -> utf8 n u -> push_utf8 n r = u +:+ r.
Proof. intros Hn Hu. destruct (push_utf8_ok n r Hn) as (v & -> & Hv). rewrite (utf8_fun _ _ _ Hu Hv). reflexivity. Qed.

(** ** Strings *)
Lemma escape_spec e x : escape e = Some x <-> short_escape e x.
Proof.
  unfold escape, short_escape. cbv zeta. split.
  - destruct ((N_of_ascii e =? 34) || (N_of_ascii e =? 92) || (N_of_ascii e =? 47)) eqn:E1.
    + intros H. injection H as <-. rewrite !orb_true_iff, !N.eqb_eq in E1. destruct E1 as [[->| ->]| ->]; cbn [In]; tauto.
    + destruct (N.eqb_spec (N_of_ascii e) 98) as [->|_]; [intros H; injection H as <-; cbn; tauto|].
      destruct (N.eqb_spec (N_of_ascii e) 102) as [->|_]; [intros H; injection H as <-; cbn; tauto|].
      destruct (N.eqb_spec (N_of_ascii e) 110) as [->|_]; [intros H; injection H as <-; cbn; tauto|].
      destruct (N.eqb_spec (N_of_ascii e) 114) as [->|_]; [intros H; injection H as <-; cbn; tauto|].
      destruct (N.eqb_spec (N_of_ascii e) 116) as [->|_]; [intros H; injection H as <-; cbn; tauto|discriminate].
  - intros H. cbn [In] in H.
    repeat match type of H with _ \/ _ => destruct H as [H|H] end; try contradiction; injection H as He Hx; rewrite <- He; cbn -[N_of_ascii ascii_of_N];
      f_equal; apply ascii_inj; rewrite <- Hx, ?He; reflexivity.
Qed.
Lemma onto_Some {R} f (o : option (string * R)) v r : onto f o = Some (v, r) <-> exists u, o = Some (u, r) /\ v = f u.
Proof.
  destruct o as [[u r']|]; cbn [onto]; split.
  - intros H. injection H as <- <-. eauto.
  - intros (u' & E & ->). injection E as -> ->. reflexivity.
  - discriminate.
  - intros (u' & E & _). discriminate.
Qed.
Lemma eqb_quote a : Ascii.eqb a QUOTE = true <-> N_of_ascii a = 34.
Proof. rewrite Ascii.eqb_eq. split; [intros ->; reflexivity|intros H; exact (ascii_is _ _ H)]. Qed.
Lemma eqb_backslash a : Ascii.eqb a BACKSLASH = true <-> N_of_ascii a = 92.
Proof. rewrite Ascii.eqb_eq. split; [intros ->; reflexivity|intros H; exact (ascii_is _ _ H)]. Qed.
Lemma not_true b : b <> true -> b = false.
Proof. destruct b; [contradiction|reflexivity]. Qed.

Lemma p_chars_ok t v : quoted t v -> forall r, p_chars (t +:+ String QUOTE r) = Some (v, r).
Proof.
  induction 1 as [|a t v H1 H2 H3 _ IH|e x t v He _ IH|h n u t v Hh Hn Hu _ IH|h n k m u t v Hh Hn Hk Hm Hu _ IH]; intros r.
  - reflexivity.
  - rewrite app_cons. cbn [p_chars]. rewrite (not_true (Ascii.eqb a QUOTE)) by (rewrite eqb_quote; exact H2).
    rewrite (not_true (Ascii.eqb a BACKSLASH)) by (rewrite eqb_backslash; exact H3).
    destruct (N.ltb_spec (N_of_ascii a) 32); [lia|]. rewrite IH. reflexivity.
  - rewrite !app_cons. apply escape_spec in He. cbn [p_chars]. change (Ascii.eqb (ascii_of_N 92) QUOTE) with false.
    change (Ascii.eqb (ascii_of_N 92) BACKSLASH) with true. cbn iota. rewrite He, IH. reflexivity.
  - pose proof (four_hex_lt _ _ Hh) as Hl. inversion Hh as [a b c d p q r' s Ha Hb Hc Hd Et En]. rewrite <- Et in Hh.
    apply hex4_spec in Hh. unfold text_u. norm. cbn [p_chars]. change (Ascii.eqb (ascii_of_N 92) QUOTE) with false.
    change (Ascii.eqb (ascii_of_N 92) BACKSLASH) with true. change (escape "u") with (@None ascii). change (N_of_ascii "u" =? 117) with true.
    cbn iota. rewrite Hh. unfold is_trail, is_lead.
    replace ((56320 <=? n) && (n <=? 57343)) with false by (symmetry; apply not_true; rewrite andb_true_iff, !N.leb_le; lia).
    replace ((55296 <=? n) && (n <=? 56319)) with false by (symmetry; apply not_true; rewrite andb_true_iff, !N.leb_le; lia).
    rewrite IH. cbn [onto]. rewrite (push_utf8_is _ u) by (exact Hu || lia). reflexivity.
  - pose proof (four_hex_lt _ _ Hh) as Hl. pose proof (four_hex_lt _ _ Hk) as Hl'.
    inversion Hh as [a b c d p q r' s Ha Hb Hc Hd Et En]. rewrite <- Et in Hh. clear Ha Hb Hc Hd.
    inversion Hk as [a' b' c' d' p' q' r'' s' Ha Hb Hc Hd Et' En']. rewrite <- Et' in Hk.
    apply hex4_spec in Hh, Hk. unfold text_u. norm. cbn [p_chars]. change (Ascii.eqb (ascii_of_N 92) QUOTE) with false.
    change (Ascii.eqb (ascii_of_N 92) BACKSLASH) with true. change (escape "u") with (@None ascii). change (N_of_ascii "u" =? 117) with true.
    cbn iota. rewrite Hh. unfold is_trail, is_lead.
    replace ((56320 <=? n) && (n <=? 57343)) with false by (symmetry; apply not_true; rewrite andb_true_iff, !N.leb_le; lia).
    replace ((55296 <=? n) && (n <=? 56319)) with true by (symmetry; rewrite andb_true_iff, !N.leb_le; lia).
    cbn [andb]. rewrite Hk.
    replace ((56320 <=? m) && (m <=? 57343)) with true by (symmetry; rewrite andb_true_iff, !N.leb_le; lia).
    rewrite IH. cbn [onto]. rewrite N.shiftl_mul_pow2. change (2 ^ 10) with 1024.
    replace ((n - 55296) * 1024 + (m - 56320) + 65536) with (65536 + (n - 55296) * 1024 + (m - 56320)) by lia.
    rewrite (push_utf8_is _ u) by (exact Hu || lia). reflexivity.
Qed.

Lemma hex4_lt a b c d n : hex4 a b c d = Some n -> n < 65536.
Proof. intros H. apply hex4_spec, four_hex_lt in H. exact H. Qed.
Lemma p_chars_sound : forall k s v r, (String.length s <= k)%nat -> p_chars s = Some (v, r) -> exists t, s = t +:+ String QUOTE r /\ quoted t v.
Proof.
  induction k as [|k IH]; intros s v r Hk H.
  { destruct s; [discriminate|cbn in Hk; lia]. }
  destruct s as [|a s]; [discriminate|]. cbn [String.length] in Hk. cbn [p_chars] in H.
  destruct (Ascii.eqb a QUOTE) eqn:Ea.
  { injection H as <- <-. apply Ascii.eqb_eq in Ea as ->. exists EmptyString. split; [reflexivity|constructor]. }
  destruct (Ascii.eqb a BACKSLASH) eqn:Eb.
  2:{ destruct (N.ltb_spec (N_of_ascii a) 32) as [|Hc]; [discriminate|]. apply onto_Some in H as (u & H & ->).
      apply IH in H as (t & -> & Ht); [|lia]. exists (String a t). split; [reflexivity|]. constructor; [exact Hc| | |exact Ht].
      - intros E. apply eqb_quote in E. congruence.
      - intros E. apply eqb_backslash in E. congruence. }
  apply Ascii.eqb_eq in Eb as ->. clear Ea. destruct s as [|e s]; [discriminate|]. cbn [String.length] in Hk.
  destruct (escape e) as [x|] eqn:Ee.
  { apply onto_Some in H as (u & H & ->). apply IH in H as (t & -> & Ht); [|lia]. exists (String BACKSLASH (String e t)).
    split; [reflexivity|]. constructor; [apply escape_spec; exact Ee|exact Ht]. }
  destruct (N.eqb_spec (N_of_ascii e) 117) as [Eu|]; [|discriminate]. apply ascii_is in Eu. change (ascii_of_N 117) with "u"%char in Eu. subst e.
  destruct s as [|h1 [|h2 [|h3 [|h4 s]]]]; try discriminate. cbn [String.length] in Hk.
  destruct (hex4 h1 h2 h3 h4) as [n|] eqn:Eh; [|discriminate]. pose proof (hex4_lt _ _ _ _ _ Eh) as Hn. apply hex4_spec in Eh.
  unfold is_trail at 1 in H. unfold is_lead in H.
  destruct ((56320 <=? n) && (n <=? 57343)) eqn:Et; [discriminate|].
  destruct ((55296 <=? n) && (n <=? 56319)) eqn:El.
  - rewrite andb_true_iff, !N.leb_le in El. clear Et.
    destruct s as [|b [|u [|k1 [|k2 [|k3 [|k4 s]]]]]]; try discriminate. cbn [String.length] in Hk.
    destruct (Ascii.eqb b BACKSLASH && (N_of_ascii u =? 117)) eqn:Eb; [|discriminate]. apply andb_prop in Eb as [Eb Eu].
    apply Ascii.eqb_eq in Eb as ->. apply N.eqb_eq, ascii_is in Eu. change (ascii_of_N 117) with "u"%char in Eu. subst u.
    destruct (hex4 k1 k2 k3 k4) as [m|] eqn:Ek; [|discriminate]. apply hex4_spec in Ek. unfold is_trail in H.
    destruct ((56320 <=? m) && (m <=? 57343)) eqn:Em; [|discriminate]. rewrite andb_true_iff, !N.leb_le in Em.
    apply onto_Some in H as (u & H & ->). apply IH in H as (t & -> & Ht); [|lia].
    rewrite N.shiftl_mul_pow2. change (2 ^ 10) with 1024.
    replace ((n - 55296) * 1024 + (m - 56320) + 65536) with (65536 + (n - 55296) * 1024 + (m - 56320)) by lia.
    destruct (push_utf8_ok (65536 + (n - 55296) * 1024 + (m - 56320)) u ltac:(lia)) as (w & -> & Hw).
    eexists. split; [|exact (q_surrogates _ _ _ _ _ _ _ Eh El Ek Em Hw Ht)]. unfold text_u. norm. reflexivity.
  - apply onto_Some in H as (u & H & ->). apply IH in H as (t & -> & Ht); [|lia].
    destruct (push_utf8_ok n u ltac:(lia)) as (w & -> & Hw). eexists. split; [|refine (q_code _ _ _ _ _ Eh _ Hw Ht)].
    + unfold text_u. norm. reflexivity.
    + intros Hx. destruct (N.le_gt_cases n 56319).
      * assert (X : (55296 <=? n) && (n <=? 56319) = true) by (rewrite andb_true_iff, !N.leb_le; lia). congruence.
      * assert (X : (56320 <=? n) && (n <=? 57343) = true) by (rewrite andb_true_iff, !N.leb_le; lia). congruence.
Qed.

(** ** Numbers *)
Definition stop (s : string) : Prop := match s with String a _ => is_digit a = false | EmptyString => True end.
Lemma dv_ge s : forall acc n, dv acc s = Some n -> acc <= n.
Proof.
  induction s as [|a s IH]; intros acc n H; cbn [dv] in H; [injection H as <-; lia|]. destruct (is_digit a); [|discriminate].
  apply IH in H. lia.
Qed.
Lemma p_digits_ok L t : forall acc n r, dv acc t = Some n -> acc < L -> n < L -> stop r -> p_digits L acc (t +:+ r) = Some (n, r).
Proof.
  induction t as [|a t IH]; intros acc n r H Ha Hn Hr; cbn [dv] in H.
  - injection H as <-. rewrite app_emp. destruct r as [|b r]; [reflexivity|]. cbn [p_digits]. cbn [stop] in Hr. rewrite Hr. reflexivity.
  - rewrite app_cons. cbn [p_digits]. destruct (is_digit a); [|discriminate]. pose proof (dv_ge _ _ _ H). cbv zeta.
    destruct (N.ltb_spec (acc * 10 + (N_of_ascii a - 48)) L); [|lia]. apply IH; assumption.
Qed.
Lemma p_digits_sound L s : forall acc n r, acc < L -> p_digits L acc s = Some (n, r) ->
  exists t, s = t +:+ r /\ dv acc t = Some n /\ n < L /\ stop r.
Proof.
  induction s as [|a s IH]; intros acc n r Ha H; cbn [p_digits] in H.
  - injection H as <- <-. exists EmptyString. repeat split; try assumption.
  - destruct (is_digit a) eqn:Ed.
    + cbv zeta in H. destruct (N.ltb_spec (acc * 10 + (N_of_ascii a - 48)) L) as [Hl|]; [|discriminate].
      apply IH in H as (t & -> & Ht & Hn & Hr); [|exact Hl]. exists (String a t). split; [reflexivity|]. cbn [dv]. rewrite Ed. auto.
    + injection H as <- <-. exists EmptyString. split; [reflexivity|]. split; [reflexivity|]. split; [exact Ha|]. exact Ed.
Qed.
Lemma decimal_iff t n : t <> EmptyString -> decimal t n <-> dv 0 t = Some n.
Proof.
  intros Ht. split; [apply decimal_dv|]. intros H. destruct t as [|a t]; [contradiction|]. cbn [dv] in H. destruct (is_digit a) eqn:Ea; [|discriminate].
  rewrite <- append_cons1. eapply dv_decimal; [|exact H].
  replace (0 * 10 + (N_of_ascii a - 48)) with (digit_value a) by (unfold digit_value; lia). apply dec_one. apply digit_range. exact Ea.
Qed.
Lemma zero_char a : N_of_ascii a = 48 -> a = "0"%char.
Proof. intros H. exact (ascii_is _ _ H). Qed.
Lemma p_num_ok L t n r : 0 < L -> numeral t n -> n < L -> stop r -> p_num L (t +:+ r) = Some (n, r).
Proof.
  intros HL [Hd Hz] Hn Hr. destruct (decimal_nonempty _ _ Hd) as (a & t' & -> & Ha). apply decimal_dv in Hd as Hv.
  rewrite app_cons. unfold p_num. destruct (N.eqb_spec (N_of_ascii a) 48) as [E|E].
  - apply zero_char in E as ->. destruct Hz as [E|Hz]; [|exfalso; exact (Hz _ eq_refl)]. injection E as ->. cbn in Hv. injection Hv as <-.
    rewrite app_emp. destruct r as [|b r]; [reflexivity|]. cbn [stop] in Hr. rewrite Hr. reflexivity.
  - rewrite Ha, <- app_cons. apply p_digits_ok; assumption.
Qed.
Lemma p_num_sound L s n r : 0 < L -> p_num L s = Some (n, r) -> exists t, s = t +:+ r /\ numeral t n /\ n < L /\ stop r.
Proof.
  intros HL H. destruct s as [|a s]; [discriminate|]. unfold p_num in H. destruct (N.eqb_spec (N_of_ascii a) 48) as [E|E].
  - apply zero_char in E as ->. assert (X : n = 0 /\ r = s /\ stop s).
    { destruct s as [|b s]; [injection H as <- <-; repeat split|]. cbn [stop]. destruct (is_digit b); [discriminate|]. injection H as <- <-. repeat split. }
    destruct X as (-> & -> & Hs). exists "0". split; [reflexivity|]. split; [|split; [exact HL|exact Hs]]. split; [|left; reflexivity].
    apply decimal_iff; [discriminate|reflexivity].
  - destruct (is_digit a) eqn:Ed; [|discriminate]. apply p_digits_sound in H as (t & Et & Ht & Hn & Hr); [|exact HL].
    exists t. split; [exact Et|]. split; [|split; assumption].
    assert (Hne : t <> EmptyString) by (intros ->; rewrite app_emp in Et; subst r; cbn [stop] in Hr; congruence).
    split; [apply decimal_iff; assumption|]. right. intros t' ->. rewrite app_cons in Et. injection Et as -> _. apply E. reflexivity.
Qed.

(** ** Pairs *)
Lemma obind_Some {A B} (f : A -> option B) (o : option A) b : o ≫= f = Some b <-> exists a, o = Some a /\ f a = Some b.
Proof. destruct o; cbn; split; [eauto|intros (? & [= ->] & H); exact H|discriminate|intros (? & ? & _); discriminate]. Qed.
Lemma stop_ws w a r : blank w -> is_digit a = false -> stop (w +:+ String a r).
Proof.
  intros Hw Ha. destruct w as [|b w]; [exact Ha|]. destruct Hw as [Hb _]. rewrite app_cons. cbn [stop]. cbn [In] in Hb.
  unfold is_digit. destruct Hb as [E|[E|[E|[E|[]]]]]; rewrite <- E; reflexivity.
Qed.
Lemma numeral_solid t n r : numeral t n -> solid (t +:+ r).
Proof.
  intros [Hd _]. destruct (decimal_nonempty _ _ Hd) as (a & t' & -> & Ha). rewrite app_cons. cbn [solid]. apply not_true. rewrite is_ws_spec.
  apply digit_range in Ha. cbn [In]. lia.
Qed.
Lemma p_pair_ok L t p r w : 0 < L -> blank w -> pair_text L t p -> p_pair L (w +:+ t +:+ r) = Some (p, r).
Proof.
  intros HL Hw (w1 & c & w2 & w3 & d & w4 & -> & H1 & H2 & H3 & H4 & Hc & Hd & Hn). unfold p_pair, dq. norm.
  rewrite eat_app by (assumption || reflexivity). cbn [mbind option_bind].
  change (ascii_of_N 34) with QUOTE. rewrite eat_app by (assumption || reflexivity). cbn [mbind option_bind].
  rewrite (p_chars_ok _ _ Hc). cbn [mbind option_bind]. rewrite eat_app by (assumption || reflexivity). cbn [mbind option_bind].
  rewrite skip_ws_app; [|exact H3|eapply numeral_solid; exact Hd].
  rewrite (p_num_ok L d p.2); [|exact HL|exact Hd|exact Hn|apply stop_ws; [exact H4|reflexivity]]. cbn [mbind option_bind].
  rewrite eat_app by (assumption || reflexivity). cbn [mbind option_bind]. destruct p; reflexivity.
Qed.
Lemma p_pair_sound L s p r : 0 < L -> p_pair L s = Some (p, r) -> exists w t, s = w +:+ t +:+ r /\ blank w /\ pair_text L t p.
Proof.
  intros HL H. unfold p_pair in H. apply obind_Some in H as (s1 & E1 & H). apply obind_Some in H as (s2 & E2 & H).
  apply obind_Some in H as ([v s3] & E3 & H). apply obind_Some in H as (s4 & E4 & H). apply obind_Some in H as ([n s5] & E5 & H).
  apply obind_Some in H as (s6 & E6 & H). injection H as <- <-.
  apply eat_ws in E1 as (w & Hw & ->). apply eat_ws in E2 as (w1 & H1 & ->). apply p_chars_sound with (k := String.length s2) in E3 as (c & -> & Hc); [|lia].
  apply eat_ws in E4 as (w2 & H2 & ->). destruct (skip_ws_split s4) as (w3 & H3 & E). apply p_num_sound in E5 as (d & E5 & Hd & Hn & _); [|exact HL].
  rewrite E5 in E. subst s4. apply eat_ws in E6 as (w4 & H4 & ->).
  exists w, ("[" +:+ w1 +:+ dq +:+ c +:+ dq +:+ w2 +:+ "," +:+ w3 +:+ d +:+ w4 +:+ "]"). split; [|split; [exact Hw|]].
  - unfold dq. norm. reflexivity.
  - exists w1, c, w2, w3, d, w4. auto 10.
Qed.

(** ** Arrays *)
Lemma pair_bracket L t p : pair_text L t p -> exists t', t = String "[" t'.
Proof. intros (w1 & c & w2 & w3 & d & w4 & -> & _). eexists. reflexivity. Qed.
(** what follows an element: white space, and a comma before each further one, then the bracket *)
Inductive rest (L : N) : string -> list (string * N) -> Prop :=
| rest_nil w : blank w -> rest L (w +:+ "]") []
| rest_more w w' t p s l : blank w -> blank w' -> pair_text L t p -> rest L s l -> rest L (w +:+ "," +:+ w' +:+ t +:+ s) (p :: l).
Lemma len_app (s t : string) : String.length (s +:+ t) = (String.length s + String.length t)%nat.
Proof. induction s as [|a s IH]; [reflexivity|]. cbn. rewrite <- IH. reflexivity. Qed.
Lemma eat_not a b w s : blank w -> is_ws b = false -> a <> b -> eat a (skip_ws (w +:+ String b s)) = None.
Proof.
  intros Hw Hb Hne. rewrite skip_ws_app by assumption. cbn [eat]. destruct (Ascii.eqb_spec b a); [congruence|reflexivity].
Qed.
Lemma p_more_ok L s l r : 0 < L -> rest L s l -> forall f, (String.length s < f)%nat -> p_more f L (s +:+ r) = Some (l, r).
Proof.
  intros HL H. induction H as [w Hw|w w' t p s l Hw Hw' Ht Hs IH]; intros f Hf; (destruct f as [|f]; [lia|]); cbn [p_more]; norm.
  - rewrite eat_app by (assumption || reflexivity). reflexivity.
  - rewrite eat_not by (assumption || reflexivity || discriminate). rewrite eat_app by (assumption || reflexivity). cbn [mbind option_bind].
    rewrite (p_pair_ok L t p) by assumption. cbn [mbind option_bind]. rewrite !len_app in Hf. rewrite IH by (cbn in Hf; lia). reflexivity.
Qed.
Lemma p_more_sound L : 0 < L -> forall f s l r, p_more f L s = Some (l, r) -> exists t, s = t +:+ r /\ rest L t l.
Proof.
  intros HL. induction f as [|f IH]; intros s l r H; [discriminate|]. cbn [p_more] in H. destruct (eat "]" (skip_ws s)) as [r'|] eqn:E.
  - injection H as <- <-. apply eat_ws in E as (w & Hw & ->). exists (w +:+ "]"). split; [norm; reflexivity|constructor; exact Hw].
  - apply obind_Some in H as (s1 & E1 & H). apply obind_Some in H as ([p s2] & E2 & H). apply obind_Some in H as ([l' s3] & E3 & H).
    injection H as <- <-. apply eat_ws in E1 as (w & Hw & ->). apply p_pair_sound in E2 as (w' & t & -> & Hw' & Ht); [|exact HL].
    apply IH in E3 as (t' & -> & Hr). eexists. split; [|exact (rest_more L w w' t p t' l' Hw Hw' Ht Hr)]. norm. reflexivity.
Qed.
(** the elements of the grammar are an element and a rest *)
Lemma listing_rest L ts l : listing L ts l -> exists w t p s l', blank w /\ pair_text L t p /\ rest L s l' /\ l = p :: l' /\ ts +:+ "]" = w +:+ t +:+ s.
Proof.
  induction 1 as [w t w' p Hw Ht Hw'|w t w' p ts l Hw Ht Hw' _ IH].
  - exists w, t, p, (w' +:+ "]"), []. split; [exact Hw|]. split; [exact Ht|]. split; [constructor; exact Hw'|]. split; [reflexivity|norm; reflexivity].
  - destruct IH as (w2 & t2 & p2 & s2 & l2 & B2 & P2 & R2 & -> & E2). exists w, t, p, (w' +:+ "," +:+ w2 +:+ t2 +:+ s2), (p2 :: l2).
    split; [exact Hw|]. split; [exact Ht|]. split; [constructor; assumption|]. split; [reflexivity|]. norm. rewrite E2. reflexivity.
Qed.
Lemma rest_listing L s l : rest L s l -> forall w t p, blank w -> pair_text L t p ->
  exists ts, listing L ts (p :: l) /\ w +:+ t +:+ s = ts +:+ "]".
Proof.
  induction 1 as [w' Hw'|w1 w2 t' p' s l H1 H2 Ht' _ IH]; intros w t p Hw Ht.
  - exists (w +:+ t +:+ w'). split; [constructor; assumption|norm; reflexivity].
  - destruct (IH w2 t' p' H2 Ht') as (ts & Hts & E). exists (w +:+ t +:+ w1 +:+ "," +:+ ts). split; [constructor; assumption|].
    norm. rewrite <- E. reflexivity.
Qed.
Lemma p_list_ok L t l r w : 0 < L -> blank w -> list_text L t l -> p_list L (w +:+ t +:+ r) = Some (l, r).
Proof.
  intros HL Hw [(w1 & H1 & -> & ->)|(ts & Hts & ->)]; unfold p_list; norm; rewrite eat_app by (assumption || reflexivity); cbn [mbind option_bind].
  - norm. rewrite eat_app by (assumption || reflexivity). reflexivity.
  - apply listing_rest in Hts as (w1 & t & p & s & l' & B & P & R & -> & E).
    replace (ts +:+ String "]" r) with (w1 +:+ t +:+ s +:+ r) by (transitivity ((ts +:+ "]") +:+ r); [rewrite E|]; norm; reflexivity).
    pose proof P as P'. apply pair_bracket in P' as (t' & Et). rewrite Et at 1. rewrite app_cons, eat_not by (assumption || reflexivity || discriminate).
    rewrite (p_pair_ok L t p) by assumption. cbn [mbind option_bind]. rewrite (p_more_ok L s l') by (assumption || (rewrite len_app; lia)). reflexivity.
Qed.
Lemma p_list_sound L s l r : 0 < L -> p_list L s = Some (l, r) -> exists w t, s = w +:+ t +:+ r /\ blank w /\ list_text L t l.
Proof.
  intros HL H. unfold p_list in H. apply obind_Some in H as (s1 & E1 & H). apply eat_ws in E1 as (w & Hw & ->). exists w.
  destruct (eat "]" (skip_ws s1)) as [r'|] eqn:E.
  - injection H as <- <-. apply eat_ws in E as (w1 & H1 & ->). exists ("[" +:+ w1 +:+ "]"). split; [norm; reflexivity|]. split; [exact Hw|].
    left. exists w1. auto.
  - apply obind_Some in H as ([p s2] & E2 & H). apply obind_Some in H as ([l' s3] & E3 & H). injection H as <- <-.
    apply p_pair_sound in E2 as (w' & t & -> & Hw' & Ht); [|exact HL]. apply p_more_sound in E3 as (t' & -> & Hr); [|exact HL].
    destruct (rest_listing L t' l' Hr w' t p Hw' Ht) as (ts & Hts & Ets). exists ("[" +:+ ts +:+ "]"). split; [|split; [exact Hw|right; exists ts; auto]].
    norm. replace (ts +:+ String "]" s3) with ((ts +:+ "]") +:+ s3) by (norm; reflexivity). rewrite <- Ets. norm. reflexivity.
Qed.

(** ** Whole texts *)
Lemma at_end_Some {A} (o : option (A * string)) x : at_end o = Some x <-> exists w, o = Some (x, w) /\ blank w.
Proof.
  destruct o as [[y s]|]; cbn [at_end]; [|split; [discriminate|intros (? & ? & _); discriminate]].
  destruct (skip_ws_split s) as (w & Hw & E). split.
  - destruct (skip_ws s) eqn:Es; [|discriminate]. intros H. injection H as <-. rewrite append_nil in E. subst w. eauto.
  - intros (w' & H & Hw'). injection H as -> ->. rewrite <- (append_nil w'), skip_ws_app by (assumption || exact I). reflexivity.
Qed.
Lemma json_pair_iff s p : json_pair s = Some p <-> around (fun t => pair_text (2 ^ 16) t p) s.
Proof.
  unfold json_pair. rewrite at_end_Some. split.
  - intros (w' & H & Hw'). apply p_pair_sound in H as (w & t & -> & Hw & Ht); [|reflexivity]. exists w, t, w'. auto.
  - intros (w & t & w' & -> & Hw & Hw' & Ht). exists w'. split; [|exact Hw']. apply p_pair_ok; [reflexivity|exact Hw|exact Ht].
Qed.
Lemma json_claims_iff s l : json_claims s = Some l <-> around (fun t => list_text (2 ^ 64) t l) s.
Proof.
  unfold json_claims. rewrite at_end_Some. split.
  - intros (w' & H & Hw'). apply p_list_sound in H as (w & t & -> & Hw & Ht); [|reflexivity]. exists w, t, w'. auto.
  - intros (w & t & w' & -> & Hw & Hw' & Ht). exists w'. split; [|exact Hw']. apply p_list_ok; [reflexivity|exact Hw|exact Ht].
Qed.

(** ** Written texts *)
Lemma esc_quoted s : quoted (esc s) s.
Proof.
  induction s as [|a s IH]; [constructor|]. cbn [esc]. unfold esc_char, to_str. cbv zeta.
  assert (S : forall e, short_escape (ascii_of_N e) a -> quoted (String BACKSLASH (String (ascii_of_N e) (esc s))) (String a s)).
  { intros e He. constructor; assumption. }
  assert (T : forall e k, N_of_ascii a = k -> e < 256 -> In (e, k) [(34, 34); (92, 92); (47, 47); (98, 8); (102, 12); (110, 10); (114, 13); (116, 9)] ->
              short_escape (ascii_of_N e) a).
  { intros e k E He Hi. unfold short_escape. rewrite ascii_N by exact He. rewrite E. exact Hi. }
  destruct (N.eqb_spec (N_of_ascii a) 34) as [E1|E1]; [apply S; apply (T 34 _ E1); [lia|cbn [In]; tauto]|].
  destruct (N.eqb_spec (N_of_ascii a) 92) as [E2|E2]; [apply S; apply (T 92 _ E2); [lia|cbn [In]; tauto]|].
  destruct (N.eqb_spec (N_of_ascii a) 8) as [E3|_]; [apply S; apply (T 98 _ E3); [lia|cbn [In]; tauto]|].
  destruct (N.eqb_spec (N_of_ascii a) 12) as [E3|_]; [apply S; apply (T 102 _ E3); [lia|cbn [In]; tauto]|].
  destruct (N.eqb_spec (N_of_ascii a) 10) as [E3|_]; [apply S; apply (T 110 _ E3); [lia|cbn [In]; tauto]|].
  destruct (N.eqb_spec (N_of_ascii a) 13) as [E3|_]; [apply S; apply (T 114 _ E3); [lia|cbn [In]; tauto]|].
  destruct (N.eqb_spec (N_of_ascii a) 9) as [E3|_]; [apply S; apply (T 116 _ E3); [lia|cbn [In]; tauto]|].
  destruct (N.ltb_spec (N_of_ascii a) 32) as [Hl|Hl]; [|constructor; assumption].
  set (n := N_of_ascii a) in *.
  assert (H1 : N.shiftr n 4 = n / 16) by apply shr. assert (H2 : N.land n 15 = n mod 16) by exact (N.land_ones n 4).
  rewrite H1, H2. clear H1 H2. pose proof (N.div_mod n 16 ltac:(lia)) as E. pose proof (N.mod_lt n 16 ltac:(lia)).
  assert (Hd : n / 16 < 16) by (apply N.div_lt_upper_bound; lia).
  assert (Hh : forall k, k < 16 -> hexadecimal (hex_digit k) k).
  { intros k Hk. unfold hexadecimal, hex_digit. destruct (N.ltb_spec k 10); rewrite ascii_N by lia; lia. }
  assert (Hf : four_hex (String "0" (String "0" (String (hex_digit (n / 16)) (String (hex_digit (n mod 16)) EmptyString)))) n).
  { replace n with (((0 * 16 + 0) * 16 + n / 16) * 16 + n mod 16) at 3 by lia.
    constructor; [apply hex_val_spec; reflexivity|apply hex_val_spec; reflexivity|apply Hh; exact Hd|apply Hh; assumption]. }
  exact (q_code _ n (String a EmptyString) _ _ Hf ltac:(lia) (utf8_1 a ltac:(lia)) IH).
Qed.

Lemma digit_char k : k < 10 -> N_of_ascii (pretty_N_char k) = 48 + k.
Proof.
  intros H. assert (X : k = 0 \/ k = 1 \/ k = 2 \/ k = 3 \/ k = 4 \/ k = 5 \/ k = 6 \/ k = 7 \/ k = 8 \/ k = 9) by lia.
  repeat destruct X as [X|X]; subst k; reflexivity.
Qed.
Lemma pretty_go n : forall s, 0 < n -> exists t, pretty_N_go n s = t +:+ s /\ decimal t n /\ forall r, t <> String "0" r.
Proof.
  induction (N.lt_wf_0 n) as [n _ IH]. intros s Hn. rewrite pretty_N_go_step by exact Hn.
  pose proof (N.div_mod n 10 ltac:(lia)) as E. pose proof (N.mod_lt n 10 ltac:(lia)) as Hm. pose proof (digit_char _ Hm) as Hc.
  set (a := pretty_N_char (n mod 10)) in *. set (q := n / 10) in *. set (k := n mod 10) in *.
  destruct (N.eq_dec q 0) as [Eq|Hq].
  - rewrite Eq, pretty_N_go_0. exists (String a EmptyString). split; [reflexivity|]. split.
    + replace n with (digit_value a) by (unfold digit_value; lia). constructor. lia.
    + intros r Er. injection Er as Ea _. rewrite Ea in Hc. change (N_of_ascii "0") with 48 in Hc. lia.
  - destruct (IH q ltac:(lia) (String a s) ltac:(lia)) as (t & -> & Ht & Hz). exists (t +:+ String a EmptyString).
    split; [norm; reflexivity|]. split.
    + replace n with (10 * q + digit_value a) by (unfold digit_value; lia). constructor; [exact Ht|lia].
    + intros r. destruct t as [|b t]; [destruct (decimal_nonempty _ _ Ht) as (? & ? & ? & _); discriminate|].
      rewrite app_cons. intros Er. injection Er as -> _. exact (Hz _ eq_refl).
Qed.
Lemma pretty_numeral n : numeral (pretty n) n.
Proof.
  unfold pretty, pretty_N. destruct (decide (n = 0)) as [->|Hn].
  - split; [|left; reflexivity]. apply decimal_iff; [discriminate|reflexivity].
  - destruct (pretty_go n EmptyString ltac:(lia)) as (t & -> & Ht & Hz). rewrite append_nil. split; [exact Ht|right; exact Hz].
Qed.
Lemma show_pair_text L p : p.2 < L -> pair_text L (show_pair p) p.
Proof.
  intros H. exists EmptyString, (esc p.1), EmptyString, EmptyString, (pretty p.2), EmptyString.
  split; [unfold show_pair, dq; norm; reflexivity|]. do 4 (split; [exact I|]). split; [apply esc_quoted|]. split; [apply pretty_numeral|exact H].
Qed.
Lemma show_more_rest L l : Forall (fun p => p.2 < L) l -> rest L (show_more l) l.
Proof.
  induction 1 as [|p l Hp _ IH]; [exact (rest_nil L EmptyString I)|].
  exact (rest_more L EmptyString EmptyString _ p _ l I I (show_pair_text L p Hp) IH).
Qed.
Lemma show_list_text L l : Forall (fun p => p.2 < L) l -> list_text L (show_list l) l.
Proof.
  destruct l as [|p l]; intros H; [left; exists EmptyString; split; [exact I|split; reflexivity]|]. apply Forall_cons in H as [Hp Hl].
  right. destruct (rest_listing L _ l (show_more_rest L l Hl) EmptyString _ p I (show_pair_text L p Hp)) as (ts & Hts & E).
  exists ts. split; [exact Hts|]. cbn [show_list]. rewrite <- E. reflexivity.
Qed.
Lemma round_pair p : p.2 < 2 ^ 16 -> json_pair (show_pair p) = Some p.
Proof.
  intros H. apply json_pair_iff. exists EmptyString, (show_pair p), EmptyString. rewrite append_nil.
  split; [reflexivity|]. split; [exact I|]. split; [exact I|]. apply show_pair_text. exact H.
Qed.
Lemma round_claims l : Forall (fun p => p.2 < 2 ^ 64) l -> json_claims (show_list l) = Some l.
Proof.
  intros H. apply json_claims_iff. exists EmptyString, (show_list l), EmptyString. rewrite append_nil.
  split; [reflexivity|]. split; [exact I|]. split; [exact I|]. apply show_list_text. exact H.
Qed.
