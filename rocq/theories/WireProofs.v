(** WireProofs.v -- what serde_json writes it reads back. *)

From Verif Require Export Wire WireSpec JsonProofs.

Ltac flat := repeat (rewrite append_assoc || rewrite app_cons || rewrite app_emp).

(** ** Account ids *)
Lemma is_alnum_spec a : is_alnum a = true <-> letter_or_digit a.
Proof. unfold is_alnum, letter_or_digit. cbv zeta. rewrite orb_true_iff, !andb_true_iff, !N.leb_le. reflexivity. Qed.
Lemma is_separator_spec a : is_separator a = true <-> separator a.
Proof. unfold is_separator, separator. cbv zeta. rewrite !orb_true_iff, !N.eqb_eq. cbn [In]. intuition congruence. Qed.
Lemma not_both a : is_alnum a = true -> is_separator a = true -> False.
Proof.
  rewrite is_alnum_spec, is_separator_spec. unfold letter_or_digit, separator. cbn [In]. intros H [E|[E|[E|[]]]]; rewrite <- E in H; lia.
Qed.
Lemma id_chars_spec : forall k s, (String.length s <= k)%nat -> (id_chars true s = true <-> parts s) /\
  (id_chars false s = true <-> s = EmptyString \/ parts s \/ exists b r, s = String b r /\ separator b /\ parts r).
Proof.
  induction k as [|k IH]; intros s Hk.
  { destruct s; [|cbn in Hk; lia]. cbn [id_chars negb]. split; split; [discriminate|intros H; inversion H|auto|reflexivity]. }
  destruct s as [|a s]; [cbn [id_chars negb]; split; split; [discriminate|intros H; inversion H|auto|reflexivity]|].
  cbn [String.length] in Hk. destruct (IH s ltac:(lia)) as [It If]. cbn [id_chars].
  assert (P : is_alnum a = true -> (parts (String a s) <-> s = EmptyString \/ parts s \/ exists b r, s = String b r /\ separator b /\ parts r)).
  { intros Ha. apply is_alnum_spec in Ha as Ha'. split.
    - intros H. inversion H; subst; eauto. right. right. eauto.
    - intros [->|[H|(b & r & -> & Hb & H)]]; [apply part_end|apply part_next|apply part_sep]; assumption. }
  destruct (is_alnum a) eqn:Ea.
  - specialize (P eq_refl). rewrite If, <- P. split; [reflexivity|]. split; [auto|]. intros [E|[H|(b & r & E & Hb & H)]]; [discriminate|exact H|].
    injection E as <- <-. apply is_separator_spec in Hb. destruct (not_both _ Ea Hb).
  - assert (Q : ~ parts (String a s)).
    { intros H. assert (letter_or_digit a) by (inversion H; assumption). apply is_alnum_spec in H0. congruence. }
    destruct (is_separator a) eqn:Es.
    + split; [split; [discriminate|contradiction]|]. rewrite It. split.
      * intros H. right. right. exists a, s. split; [reflexivity|]. split; [apply is_separator_spec; exact Es|exact H].
      * intros [E|[H|(b & r & E & Hb & H)]]; [discriminate|contradiction|]. injection E as <- <-. exact H.
    + split; split; try discriminate; try contradiction. intros [E|[H|(b & r & E & Hb & H)]]; [discriminate|contradiction|].
      injection E as <- <-. apply is_separator_spec in Hb. congruence.
Qed.
Lemma valid_id_spec s : valid_id s = true <-> account_id s.
Proof.
  unfold valid_id, account_id. rewrite !andb_true_iff, !N.leb_le, (proj1 (id_chars_spec _ s (le_n _))). intuition lia.
Qed.

(** ** Parts *)
Lemma p_str_ok s r : p_str (quote s +:+ r) = Some (s, r).
Proof.
  unfold p_str, quote. rewrite !app_cons, append_assoc, app_cons, app_emp. cbn [eat]. rewrite Ascii.eqb_refl. cbn [mbind option_bind]. apply p_chars_ok, esc_quoted.
Qed.
Lemma parse_uint_pretty L n : n < L -> parse_uint L (pretty n) = Some n.
Proof.
  intros Hn. destruct (pretty_numeral n) as [Hd _]. destruct (decimal_nonempty _ _ Hd) as (a & t & E & Ha). apply decimal_dv in Hd.
  unfold parse_uint. rewrite E in *. apply digit_range in Ha as Hr. destruct (N.eqb_spec (N_of_ascii a) 43); [lia|].
  apply parse_dv; [lia|]. split; [exact Hd|exact Hn].
Qed.
Lemma lit_ok l r : lit l (l +:+ r) = Some r.
Proof. induction l as [|a l IH]; [reflexivity|]. cbn [lit]. norm. cbn [eat]. rewrite Ascii.eqb_refl. exact IH. Qed.
Lemma skip_solid s : solid s -> skip_ws s = s.
Proof. intros H. exact (skip_ws_app EmptyString s I H). Qed.

(** ** Sequences *)
Definition reads {A} (rd : string -> option (A * string)) (x : A) (t : string) : Prop :=
  forall r, stop r -> rd (t +:+ r) = Some (x, r).
Fixpoint tails (ts : list string) : string := match ts with [] => EmptyString | t :: ts => "," +:+ t +:+ tails ts end.
Lemma commas_tails t ts : commas (t :: ts) = t +:+ tails ts.
Proof.
  revert t. induction ts as [|u ts IH]; intros t; [cbn [tails]; rewrite append_nil; reflexivity|].
  change (commas (t :: u :: ts)) with (t +:+ "," +:+ commas (u :: ts)). rewrite IH. reflexivity.
Qed.
Definition closer (a : ascii) : Prop := is_ws a = false /\ is_digit a = false /\ a <> ","%char.
Lemma stop_tails ts close r : closer close -> stop (tails ts +:+ String close r).
Proof. intros (_ & H & _). destruct ts; [exact H|reflexivity]. Qed.
Lemma p_items_ok {A} (rd : string -> option (A * string)) close l ts : closer close -> List.Forall2 (reads rd) l ts ->
  forall f r, (length l < f)%nat -> p_items rd close f (tails ts +:+ String close r) = Some (l, r).
Proof.
  intros Hc H. destruct Hc as (C1 & C2 & C3). induction H as [|x t l ts Hx _ IH]; intros f r Hf; (destruct f as [|f]; [cbn in Hf; lia|]).
  - cbn [tails p_items]. rewrite app_emp, skip_solid by exact C1. cbn [eat]. rewrite Ascii.eqb_refl. reflexivity.
  - cbn [tails p_items]. flat. rewrite skip_solid by reflexivity. cbn [eat]. destruct (Ascii.eqb_spec "," close) as [E|_]; [congruence|].
    rewrite Ascii.eqb_refl. cbn [mbind option_bind]. rewrite Hx by (apply stop_tails; repeat split; assumption). cbn [mbind option_bind].
    rewrite IH by (cbn in Hf; lia). reflexivity.
Qed.
Lemma len_tails ts : (length ts <= String.length (tails ts))%nat.
Proof. induction ts as [|t ts IH]; [cbn; lia|]. cbn [tails length]. rewrite !len_app. cbn [String.length]. lia. Qed.
(** an element does not start with the closing bracket *)
Definition opens (close : ascii) (t : string) : Prop := match t with String a _ => is_ws a = false /\ a <> close | EmptyString => False end.
Lemma p_seq_ok {A} (rd : string -> option (A * string)) open close l ts r : closer close ->
  List.Forall2 (reads rd) l ts -> List.Forall (opens close) ts ->
  p_seq rd open close (String open (commas ts +:+ String close r)) = Some (l, r).
Proof.
  intros Hc H Ho. unfold p_seq. cbn [eat]. rewrite Ascii.eqb_refl. cbn [mbind option_bind]. destruct H as [|x t l ts Hx H].
  - change (commas []) with EmptyString. rewrite app_emp, skip_solid by apply Hc. cbn [eat]. rewrite Ascii.eqb_refl. reflexivity.
  - rewrite commas_tails. apply Forall_cons in Ho as [Ho _]. rewrite append_assoc. rewrite (Hx _ (stop_tails ts close r Hc)).
    destruct t as [|a t]; [destruct Ho|]. destruct Ho as [Hw Hn]. rewrite app_cons, skip_solid by exact Hw. cbn [eat].
    destruct (Ascii.eqb_spec a close) as [E|_]; [contradiction|]. cbn [mbind option_bind].
    rewrite (p_items_ok rd close l ts Hc H); [reflexivity|]. rewrite len_app. cbn [String.length]. pose proof (len_tails ts).
    apply Forall2_length in H. lia.
Qed.

(** ** Records *)
Lemma find_key_in {A} (l : list (string * A)) k x : NoDup (map fst l) -> In (k, x) l -> find_key k l = Some x.
Proof.
  induction l as [|[k' y] l IH]; intros Hn Hin; [destruct Hin|]. cbn [map fst] in Hn. apply NoDup_cons in Hn as [Hk Hn]. cbn [find_key].
  destruct Hin as [E|Hin].
  - injection E as -> ->. rewrite String.eqb_refl. reflexivity.
  - destruct (String.eqb_spec k k') as [->|_]; [|apply IH; assumption]. exfalso. apply Hk. apply elem_of_list_In, in_map_iff. exists (k', x). auto.
Qed.
Lemma fill_ok fs : forall l all, NoDup (map fst all) -> (forall p, In p l -> In p all) ->
  List.Forall2 (fun f p => f.1 = p.1 /\ has f.2 p.2) fs l -> fill fs all = Some l.
Proof.
  induction fs as [|[k t] fs IH]; intros l all Hn Hi H; inversion H as [|? [k' v] ? l' [E _] H']; subst; [reflexivity|]. cbn [fst] in E. subst k'.
  cbn [fill]. rewrite (find_key_in all k v Hn) by (apply Hi; left; reflexivity). cbn [mbind option_bind].
  rewrite (IH l' all Hn) by (try assumption; intros p Hp; apply Hi; right; exact Hp). reflexivity.
Qed.
Lemma names_same fs (l : list (string * val)) : List.Forall2 (fun f p => f.1 = p.1 /\ has f.2 p.2) fs l -> map fst l = map fst fs.
Proof. induction 1 as [|f p fs l [E _] _ IH]; [reflexivity|]. cbn [map]. rewrite IH, E. reflexivity. Qed.

(** ** Values *)
Lemma digit_solid a : is_digit a = true -> is_ws a = false.
Proof. intros H. apply not_true. rewrite is_ws_spec. apply digit_range in H. cbn [In]. lia. Qed.
Definition head (P : ascii -> Prop) (s : string) : Prop := match s with String a _ => P a | EmptyString => False end.
Definition starts (a : ascii) : Prop := is_ws a = false /\ a <> "]"%char /\ a <> "}"%char.
Lemma head_plain t v : has t v -> plain t -> head (fun a => starts a /\ a <> "n"%char) (write v).
Proof.
  assert (P : forall n : N, head (fun a => starts a /\ a <> "n"%char) (pretty n)).
  { intros n. destruct (pretty_numeral n) as [Hd _]. destruct (decimal_nonempty _ _ Hd) as (a & r & -> & Ha). cbn [head].
    split; [|intros ->; discriminate]. split; [apply digit_solid; exact Ha|]. split; intros ->; discriminate. }
  assert (Q : forall s, head (fun a => starts a /\ a <> "n"%char) (quote s)) by (intros s; cbn; repeat split; discriminate).
  intros H Hp. destruct H; cbn [write]; try contradiction; auto; try (cbn; repeat split; discriminate).
  destruct b; cbn; repeat split; discriminate.
Qed.
Lemma head_ok t v : has t v -> head starts (write v).
Proof.
  assert (W : forall s, head (fun a => starts a /\ a <> "n"%char) s -> head starts s) by (intros [|a s]; cbn; tauto).
  intros H. destruct H as [ | | | | | |t|t v Hp H| | | ]; try (apply W; eapply head_plain; [econstructor; eassumption|exact I]).
  - cbn. repeat split; discriminate.
  - cbn [write]. apply W. exact (head_plain t v H Hp).
Qed.
Lemma head_solid s r : head starts s -> solid (s +:+ r).
Proof. destruct s as [|a s]; [intros []|]. intros [H _]. exact H. Qed.
Lemma closer_list : closer "]". Proof. repeat split; discriminate. Qed.
Lemma closer_rec : closer "}". Proof. repeat split; discriminate. Qed.
Lemma depth_in (fs : list (string * ty)) f : In f fs -> (depth f.2 <= fold_right (fun f m => Nat.max (depth f.2) m) O fs)%nat.
Proof. induction fs as [|g fs IH]; intros []; cbn [fold_right]; [subst; lia|]. specialize (IH H). lia. Qed.
Lemma lit_null_not s r : head (fun a => a <> "n"%char) s -> lit "null" (s +:+ r) = None.
Proof.
  destruct s as [|a s]; [intros []|]. intros H. cbn [head] in H. rewrite app_cons. cbn [lit eat].
  destruct (Ascii.eqb_spec a "n"); [contradiction|reflexivity].
Qed.

Lemma omap_some {A} (l : list A) : omap Datatypes.id (map Some l) = l.
Proof. induction l as [|a l IH]; [reflexivity|]. cbn. f_equal. exact IH. Qed.
Lemma p_fields_more rd ts : forall l r, List.Forall2 (fun t v => reads (rd t) v (write v)) ts l ->
  p_fields rd false ts (tails (map write l) +:+ String "]" r) = Some (l, r).
Proof.
  intros l r H. induction H as [|t v ts l Hv _ IH]; [cbn [p_fields map tails]; rewrite app_emp, skip_solid by reflexivity; cbn [eat]; rewrite Ascii.eqb_refl; reflexivity|].
  cbn [p_fields map tails]. flat. rewrite skip_solid by reflexivity. cbn [eat]. rewrite Ascii.eqb_refl. cbn [mbind option_bind].
  rewrite (Hv _ (stop_tails _ _ _ closer_list)). cbn [mbind option_bind]. rewrite IH. reflexivity.
Qed.
Lemma p_fields_ok rd ts l r : List.Forall2 (fun t v => reads (rd t) v (write v)) ts l ->
  p_fields rd true ts (commas (map write l) +:+ String "]" r) = Some (l, r).
Proof.
  intros H. destruct H as [|t v ts l Hv H]; [reflexivity|]. cbn [map]. rewrite commas_tails, append_assoc. cbn [p_fields mbind option_bind].
  rewrite (Hv _ (stop_tails _ _ _ closer_list)). cbn [mbind option_bind]. rewrite (p_fields_more rd ts l r H). reflexivity.
Qed.
Lemma read_ok : forall d t v, has t v -> (depth t <= d)%nat -> reads (read d t) v (write v).
Proof.
  induction d as [|d IH]; intros t v Hv Hd r Hr; [destruct t; cbn in Hd; lia|].
  cbn [read]. cbv zeta. rewrite skip_solid by (apply head_solid; exact (head_ok t v Hv)).
  destruct Hv as [L n Hn|L n Hn|b|s|s Hs|names s Hs|t|t v Hp Hv|t l Hl|ts l Hl|fs l Hf Hl]; cbn [write].
  - rewrite (p_num_ok L (pretty n) n r) by (try exact Hn; try exact Hr; try apply pretty_numeral; lia). reflexivity.
  - rewrite p_str_ok. cbn [mbind option_bind]. rewrite parse_uint_pretty by exact Hn. reflexivity.
  - destruct b; [rewrite lit_ok; reflexivity|]. change (lit "true" ("false" +:+ r)) with (@None string). rewrite lit_ok. reflexivity.
  - rewrite p_str_ok. reflexivity.
  - rewrite p_str_ok. cbn [mbind option_bind]. apply valid_id_spec in Hs. rewrite Hs. reflexivity.
  - unfold p_variant. change (eat "{" (quote s +:+ r)) with (@None string). rewrite p_str_ok. cbn [mbind option_bind].
    rewrite bool_decide_eq_true_2 by (apply elem_of_list_In; exact Hs). reflexivity.
  - rewrite lit_ok. reflexivity.
  - rewrite lit_null_not. 2: { pose proof (head_plain t v Hv Hp) as H. destruct (write v); [destruct H|apply H]. }
    cbn [depth] in Hd. rewrite (IH t v Hv ltac:(lia) r Hr). reflexivity.
  - cbn [depth] in Hd. flat. rewrite (p_seq_ok (read d t) "[" "]" l (map write l) r closer_list); [reflexivity| |].
    + clear -IH Hl Hd. induction Hl as [|v l Hv _ IHl]; [constructor|]. cbn [map]. constructor; [|exact IHl]. apply IH; [exact Hv|lia].
    + clear -Hl. induction Hl as [|v l Hv _ IHl]; [constructor|]. cbn [map]. constructor; [|exact IHl]. apply head_ok in Hv.
      destruct (write v); [destruct Hv|]. destruct Hv as (A & B & _). split; assumption.
  - cbn [depth] in Hd. flat. unfold p_tuple. cbn [eat]. rewrite Ascii.eqb_refl. cbn [mbind option_bind].
    rewrite (p_fields_ok (read d) ts l r); [reflexivity|].
    revert Hd. clear -IH Hl. induction Hl as [|t v ts l Hv _ IHl]; intros Hd; [constructor|]. cbn [fold_right] in Hd. constructor; [|apply IHl; lia].
    apply IH; [exact Hv|lia].
  - cbn [depth] in Hd. flat. cbn [eat]. change (Ascii.eqb "{" "[") with false. cbv iota.
    rewrite (p_seq_ok (p_member (read d) fs) "{" "}" (map Some l) (map (fun p => quote p.1 +:+ ":" +:+ write p.2) l) r closer_rec).
    + cbn [mbind option_bind]. rewrite omap_some. unfold record_of. rewrite bool_decide_eq_true_2 by (rewrite (names_same fs l Hl); exact Hf).
      rewrite (fill_ok fs l l) by (try (rewrite (names_same fs l Hl); exact Hf); try assumption; auto). reflexivity.
    + assert (Sub : forall f, In f fs -> find_key f.1 fs = Some f.2).
      { intros [k t] Hin. apply find_key_in; assumption. }
      assert (Dep : forall f, In f fs -> (depth f.2 <= d)%nat).
      { intros f Hin. apply depth_in in Hin. lia. }
      clear Hf Hd Hr r. revert Sub Dep. generalize fs at 2 4 as all. intros all Sub Dep.
      induction Hl as [|f p fs l [E Hv] _ IHl]; [constructor|]. cbn [map]. constructor.
      * intros r Hr. unfold p_member. flat. rewrite skip_solid by reflexivity. rewrite p_str_ok. cbn [mbind option_bind].
        rewrite skip_solid by reflexivity. cbn [eat]. rewrite Ascii.eqb_refl. cbn [mbind option_bind]. rewrite <- E, Sub by (left; reflexivity).
        rewrite (IH f.2 p.2 Hv (Dep f (or_introl eq_refl)) r Hr). cbn [mbind option_bind]. rewrite E. destruct p; reflexivity.
      * apply IHl; intros g Hg; [apply Sub|apply Dep]; right; exact Hg.
    + clear. induction l as [|p l IHl]; [constructor|]. cbn [map]. constructor; [|exact IHl]. cbn. split; [reflexivity|discriminate].
Qed.
Lemma json_ok t v : has t v -> json t (write v) = Some v.
Proof.
  intros H. unfold json. pose proof (read_ok (depth t) t v H (le_n _) EmptyString I) as R. rewrite append_nil in R. rewrite R. reflexivity.
Qed.

(** ** What is read has the type *)
Lemma p_digits_lt L : forall s acc n r, acc < L -> p_digits L acc s = Some (n, r) -> n < L.
Proof.
  induction s as [|a s IH]; intros acc n r Ha H; cbn [p_digits] in H; [injection H as <- _; exact Ha|].
  destruct (is_digit a); [|injection H as <- _; exact Ha]. cbv zeta in H. destruct (N.ltb_spec (acc * 10 + (N_of_ascii a - 48)) L) as [Hl|]; [|discriminate].
  exact (IH _ _ _ Hl H).
Qed.
Lemma p_num_lt L s n r : 0 < L -> p_num L s = Some (n, r) -> n < L.
Proof.
  intros HL H. destruct s as [|a s]; [discriminate|]. cbn [p_num] in H. destruct (N_of_ascii a =? 48).
  - destruct s as [|b s]; [|destruct (is_digit b); [discriminate|]]; injection H as <- _; exact HL.
  - destruct (is_digit a); [|discriminate]. exact (p_digits_lt L _ 0 _ _ HL H).
Qed.
Lemma parse_uint_lt L s n : 0 < L -> parse_uint L s = Some n -> n < L.
Proof.
  intros HL H. assert (D : forall s n, parse_digits L 0 s = Some n -> n < L) by (intros s' n' H'; apply parse_dv in H'; [apply H'|exact HL]).
  unfold parse_uint in H. destruct s as [|a s]; [discriminate|]. destruct (N_of_ascii a =? 43); [destruct s; [discriminate|]|]; exact (D _ _ H).
Qed.
Lemma p_items_all {A} (P : A -> Prop) rd close : (forall s x r, rd s = Some (x, r) -> P x) ->
  forall f s l r, p_items rd close f s = Some (l, r) -> List.Forall P l.
Proof.
  intros Hp. induction f as [|f IH]; intros s l r H; [discriminate|]. cbn [p_items] in H. destruct (eat close (skip_ws s)); [injection H as <- _; constructor|].
  destruct (eat "," (skip_ws s)) as [s1|]; [|discriminate]. cbn [mbind option_bind] in H. destruct (rd s1) as [[x s2]|] eqn:E; [|discriminate]. cbn [mbind option_bind] in H.
  destruct (p_items rd close f s2) as [[l' s3]|] eqn:E2; [|discriminate]. injection H as <- _. constructor; [exact (Hp _ _ _ E)|exact (IH _ _ _ E2)].
Qed.
Lemma p_seq_all {A} (P : A -> Prop) rd open close s l r : (forall s x r, rd s = Some (x, r) -> P x) -> p_seq rd open close s = Some (l, r) -> List.Forall P l.
Proof.
  intros Hp H. unfold p_seq in H. destruct (eat open s) as [s1|]; [|discriminate]. cbn [mbind option_bind] in H. destruct (eat close (skip_ws s1)); [injection H as <- _; constructor|].
  destruct (rd s1) as [[x s2]|] eqn:E; [|discriminate]. cbn [mbind option_bind] in H.
  destruct (p_items rd close (S (String.length s2)) s2) as [[l' s3]|] eqn:E2; [|discriminate]. injection H as <- _.
  constructor; [exact (Hp _ _ _ E)|exact (p_items_all P rd close Hp _ _ _ _ E2)].
Qed.
Lemma p_fields_all rd : (forall t s v r, proper t -> rd t s = Some (v, r) -> has t v) ->
  forall ts first s l r, fold_right (fun t P => proper t /\ P) True ts -> p_fields rd first ts s = Some (l, r) -> List.Forall2 has ts l.
Proof.
  intros Hp. induction ts as [|t ts IH]; intros first s l r Ht H; cbn [p_fields] in H.
  - destruct (eat "]" (skip_ws s)); [|discriminate]. injection H as <- _. constructor.
  - destruct Ht as [Ht Hts]. destruct (if first then Some s else eat "," (skip_ws s)) as [s1|]; [|discriminate]. cbn [mbind option_bind] in H.
    destruct (rd t s1) as [[v s2]|] eqn:E; [|discriminate]. cbn [mbind option_bind] in H. destruct (p_fields rd false ts s2) as [[l' s3]|] eqn:E2; [|discriminate].
    injection H as <- _. constructor; [exact (Hp _ _ _ _ Ht E)|exact (IH _ _ _ _ Hts E2)].
Qed.
Lemma p_tuple_all rd ts s l r : (forall t s v r, proper t -> rd t s = Some (v, r) -> has t v) ->
  fold_right (fun t P => proper t /\ P) True ts -> p_tuple rd ts s = Some (l, r) -> List.Forall2 has ts l.
Proof. intros Hp Ht H. unfold p_tuple in H. destruct (eat "[" s) as [s1|]; [|discriminate]. exact (p_fields_all rd Hp ts true s1 l r Ht H). Qed.
Lemma find_key_Some {A} k (l : list (string * A)) x : find_key k l = Some x -> In (k, x) l.
Proof.
  induction l as [|[k' y] l IH]; [discriminate|]. cbn [find_key]. destruct (String.eqb_spec k k') as [->|_]; [intros [= ->]; left; reflexivity|intros H; right; exact (IH H)].
Qed.
Lemma fill_has fs l r : (forall f v, In f fs -> In (f.1, v) l -> has f.2 v) -> fill fs l = Some r -> List.Forall2 (fun f p => f.1 = p.1 /\ has f.2 p.2) fs r.
Proof.
  revert r. induction fs as [|[k t] fs IH]; intros r Hp H; cbn [fill] in H; [injection H as <-; constructor|].
  destruct (match find_key k l, t with Some v, _ => Some v | None, TOpt _ => Some VNone | None, _ => None end) as [v|] eqn:E; [|discriminate]. cbn [mbind option_bind] in H.
  destruct (fill fs l) as [r'|] eqn:Er; [|discriminate]. injection H as <-. constructor; [|apply IH; [intros f w Hf; apply Hp; right; exact Hf|reflexivity]].
  cbn [fst snd]. split; [reflexivity|]. destruct (find_key k l) as [w|] eqn:Ek.
  - injection E as <-. apply find_key_Some in Ek. exact (Hp (k, t) w (or_introl eq_refl) Ek).
  - destruct t; try discriminate E. injection E as <-. constructor.
Qed.
Lemma omap_id_in {A} (l : list (option A)) x : In x (omap Datatypes.id l) -> In (Some x) l.
Proof. induction l as [|[a|] l IH]; cbn; [tauto| |]; intros H; [destruct H as [->|H]; [left; reflexivity|]|]; right; apply IH; exact H. Qed.
Lemma props_in (fs : list (string * ty)) f : fold_right (fun f P => proper f.2 /\ P) True fs -> In f fs -> proper f.2.
Proof. induction fs as [|g fs IH]; [intros _ []|]. intros [H1 H2] [<-|H]; [exact H1|exact (IH H2 H)]. Qed.
Lemma read_has : forall d t s v r, proper t -> read d t s = Some (v, r) -> has t v.
Proof.
  induction d as [|d IH]; intros t s v r Ht H; [discriminate|]. cbn [read] in H. cbv zeta in H. set (s1 := skip_ws s) in *. clearbody s1.
  destruct t as [L|L| | | |names|t|t|ts|fs]; cbn [proper] in Ht.
  - destruct (p_num L s1) as [[n s2]|] eqn:E; [|discriminate]. injection H as <- _. constructor. exact (p_num_lt _ _ _ _ Ht E).
  - destruct (p_str s1) as [[x s2]|]; [|discriminate]. cbn [mbind option_bind] in H. destruct (parse_uint L x) as [n|] eqn:E; [|discriminate].
    injection H as <- _. constructor. exact (parse_uint_lt _ _ _ Ht E).
  - destruct (lit "true" s1); [injection H as <- _; constructor|]. destruct (lit "false" s1); [|discriminate]. injection H as <- _. constructor.
  - destruct (p_str s1) as [[x s2]|]; [|discriminate]. injection H as <- _. constructor.
  - destruct (p_str s1) as [[x s2]|]; [|discriminate]. cbn [mbind option_bind] in H. destruct (valid_id x) eqn:E; [|discriminate]. injection H as <- _.
    constructor. apply valid_id_spec. exact E.
  - destruct (p_variant s1) as [[x s2]|]; [|discriminate]. cbn [mbind option_bind] in H. destruct (bool_decide_reflect (x ∈ names)) as [E|]; [|discriminate].
    injection H as <- _. constructor. apply elem_of_list_In. exact E.
  - destruct (lit "null" s1); [injection H as <- _; constructor|]. destruct (read d t s1) as [[x s2]|] eqn:E; [|discriminate]. injection H as <- _.
    destruct Ht as [Hp Ht]. constructor; [exact Hp|exact (IH _ _ _ _ Ht E)].
  - destruct (p_seq (read d t) "[" "]" s1) as [[l s2]|] eqn:E; [|discriminate]. injection H as <- _. constructor.
    refine (p_seq_all _ _ _ _ _ _ _ _ E). intros s3 x r3 H3. exact (IH _ _ _ _ Ht H3).
  - destruct (p_tuple (read d) ts s1) as [[l s2]|] eqn:E; [|discriminate]. injection H as <- _. constructor. exact (p_tuple_all _ _ _ _ _ IH Ht E).
  - destruct Ht as [Hn Ht]. destruct (eat "[" s1).
    + destruct (p_tuple (read d) (map snd fs) s1) as [[l s2]|] eqn:E; [|discriminate]. injection H as <- _. constructor; [exact Hn|].
      assert (Ht' : fold_right (fun t P => proper t /\ P) True (map snd fs)) by (clear -Ht; induction fs as [|f fs IH]; [exact I|]; destruct Ht; split; [assumption|apply IH; assumption]).
      pose proof (p_tuple_all _ _ _ _ _ IH Ht' E) as F. clear -F. revert l F. induction fs as [|f fs IH]; intros l F; inversion F; subst; cbn; [constructor|].
      constructor; [split; [reflexivity|assumption]|apply IH; assumption].
    + destruct (p_seq (p_member (read d) fs) "{" "}" s1) as [[l s2]|] eqn:E; [|discriminate]. cbn [mbind option_bind] in H. unfold record_of in H.
      destruct (bool_decide (NoDup (map fst (omap Datatypes.id l)))); [|discriminate]. destruct (fill fs (omap Datatypes.id l)) as [q|] eqn:Eq; [|discriminate].
      injection H as <- _. constructor; [exact Hn|]. refine (fill_has _ _ _ _ Eq). intros [k t] w Hf Hin. cbn [fst snd] in *. apply omap_id_in in Hin.
      apply (p_seq_all (fun o => match o with Some (k, v) => exists t, In (k, t) fs /\ has t v | None => True end)) in E.
      * rewrite List.Forall_forall in E. destruct (E _ Hin) as (t' & Ht' & Hv). pose proof (find_key_in fs k t Hn Hf) as E1. rewrite (find_key_in fs k t' Hn Ht') in E1.
        injection E1 as ->. exact Hv.
      * intros s3 o r3 H3. unfold p_member in H3. destruct (p_str (skip_ws s3)) as [[k3 s4]|]; [|discriminate]. cbn [mbind option_bind] in H3.
        destruct (eat ":" (skip_ws s4)) as [s5|]; [|discriminate]. cbn [mbind option_bind] in H3. destruct (find_key k3 fs) as [t3|] eqn:E3.
        -- destruct (read d t3 s5) as [[v3 s6]|] eqn:E4; [|discriminate]. injection H3 as <- _. exists t3. apply find_key_Some in E3. split; [exact E3|].
           apply (IH t3 s5 v3 s6); [exact (props_in fs (k3, t3) Ht E3)|exact E4].
        -- destruct (skip_value _ _) as [[[] s6]|]; [|discriminate]. injection H3 as <- _. exact I.
Qed.
Lemma json_has t s v : proper t -> json t s = Some v -> has t v.
Proof.
  intros Ht H. unfold json, at_end in H. destruct (read (depth t) t s) as [[x r]|] eqn:E; [|discriminate].
  apply read_has in E; [|exact Ht]. destruct (skip_ws r); [|discriminate]. injection H as <-. exact E.
Qed.
