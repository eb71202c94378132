(** ReadLen.v -- what is read from a text is no bigger than the text. *)

From Verif Require Import Entry JsonProofs WireProofs.

Notation len := String.length.
(** the length of its strings and the number of the elements of its lists; the members of a record count one by one *)
Fixpoint size (v : val) : nat :=
  match v with
  | VStr s => len s
  | VSome v => size v
  | VList l => fold_right (fun v n => (S (size v) + n)%nat) O l
  | VRec l => fold_right (fun e n => Nat.max (size e.2) n) O l
  | _ => O
  end.
Definition sizes (l : list val) : nat := fold_right (fun v n => (S (size v) + n)%nat) O l.
Lemma len_app a b : len (a +:+ b) = (len a + len b)%nat.
Proof. induction a as [|x a IH]; [reflexivity|]. rewrite app_cons. cbn [len]. lia. Qed.
Lemma ws_len s : (len (skip_ws s) <= len s)%nat.
Proof. destruct (skip_ws_split s) as (w & _ & E). rewrite E at 2. rewrite len_app. lia. Qed.
Lemma eat_len a s r : eat a s = Some r -> len s = S (len r).
Proof. intros H. apply eat_Some in H as ->. reflexivity. Qed.
Lemma eatw_len a s r : eat a (skip_ws s) = Some r -> (S (len r) <= len s)%nat.
Proof. intros H. apply eat_len in H. pose proof (ws_len s). lia. Qed.
Lemma lit_len l : forall s r, lit l s = Some r -> len s = (len l + len r)%nat.
Proof.
  induction l as [|a l IH]; intros s r H; cbn [lit] in H; [injection H as ->; reflexivity|]. destruct (eat a s) as [s1|] eqn:E; [|discriminate]. cbn [mbind option_bind] in H.
  apply eat_len in E. apply IH in H. cbn [len]. lia.
Qed.
Lemma quoted_len t v : quoted t v -> (len v <= len t)%nat.
Proof.
  assert (HU : forall n u, utf8 n u -> (len u <= 4)%nat).
  { intros n u []; cbn [len]; lia. }
  assert (H4 : forall h n, four_hex h n -> len h = 4%nat).
  { intros h n []. reflexivity. }
  induction 1 as [|a t v _ _ _ _ IH|e x t v _ _ IH|h n u t v Hh _ Hu _ IH|h n k m u t v Hh _ Hk _ Hu _ IH]; cbn [len]; [lia..| |]; rewrite !len_app;
    apply HU in Hu; change (len text_u) with 2%nat; try rewrite (H4 _ _ Hh); lia.
Qed.
Lemma chars_len s v r : p_chars s = Some (v, r) -> (len v + len r < len s)%nat.
Proof. intros H. apply p_chars_sound with (k := len s) in H as (t & -> & Hq); [|lia]. apply quoted_len in Hq. rewrite len_app. cbn [len]. lia. Qed.
Lemma str_len s v r : p_str s = Some (v, r) -> (len v + len r < len s)%nat.
Proof. unfold p_str. destruct (eat QUOTE s) as [s1|] eqn:E; [|discriminate]. cbn [mbind option_bind]. intros H. apply chars_len in H. apply eat_len in E. lia. Qed.
Lemma digits_len L : forall s acc n r, p_digits L acc s = Some (n, r) -> (len r <= len s)%nat.
Proof.
  induction s as [|a s IH]; intros acc n r H; cbn [p_digits] in H; [injection H as _ <-; lia|]. destruct (is_digit a); [|injection H as _ <-; lia].
  cbv zeta in H. destruct (_ <? L); [|discriminate]. apply IH in H. cbn [len]. lia.
Qed.
Lemma num_len L s n r : p_num L s = Some (n, r) -> (len r < len s)%nat.
Proof.
  unfold p_num. destruct s as [|a s]; [discriminate|]. destruct (_ =? 48).
  - destruct s as [|b s]; [intros [= _ <-]; cbn [len]; lia|]. destruct (is_digit b); [discriminate|]. intros [= _ <-]. cbn [len]. lia.
  - destruct (is_digit a) eqn:Ea; [|discriminate]. cbn [p_digits]. rewrite Ea. cbv zeta. destruct (_ <? L); [|discriminate]. intros H. apply digits_len in H. cbn [len]. lia.
Qed.
(** ** Sequences *)
Lemma items_len {A} (w : A -> nat) rd close : (forall s x r, rd s = Some (x, r) -> (w x + len r < len s)%nat) ->
  forall f s l r, p_items rd close f s = Some (l, r) -> (fold_right (fun x n => (S (w x) + n)%nat) O l + len r < len s)%nat.
Proof.
  intros Hp. induction f as [|f IH]; intros s l r H; [discriminate|]. cbn [p_items] in H. destruct (eat close (skip_ws s)) eqn:E0; [injection H as <- <-; apply eatw_len in E0; cbn; lia|].
  destruct (eat "," (skip_ws s)) as [s1|] eqn:E1; [|discriminate]. cbn [mbind option_bind] in H. destruct (rd s1) as [[x s2]|] eqn:E; [|discriminate]. cbn [mbind option_bind] in H.
  destruct (p_items rd close f s2) as [[l' s3]|] eqn:E2; [|discriminate]. injection H as <- <-. apply eatw_len in E1. apply Hp in E. apply IH in E2. cbn [fold_right]. lia.
Qed.
Lemma seq_len {A} (w : A -> nat) rd open close s l r : (forall s x r, rd s = Some (x, r) -> (w x + len r < len s)%nat) ->
  p_seq rd open close s = Some (l, r) -> (fold_right (fun x n => (S (w x) + n)%nat) O l + len r < len s)%nat.
Proof.
  intros Hp H. unfold p_seq in H. destruct (eat open s) as [s1|] eqn:E1; [|discriminate]. cbn [mbind option_bind] in H. apply eat_len in E1.
  destruct (eat close (skip_ws s1)) eqn:E0; [injection H as <- <-; apply eatw_len in E0; cbn; lia|].
  destruct (rd s1) as [[x s2]|] eqn:E; [|discriminate]. cbn [mbind option_bind] in H.
  destruct (p_items rd close (S (len s2)) s2) as [[l' s3]|] eqn:E2; [|discriminate]. injection H as <- <-. apply Hp in E. apply (items_len w rd close Hp) in E2. cbn [fold_right]. lia.
Qed.
Lemma fields_len rd : (forall t s v r, rd t s = Some (v, r) -> (size v + len r < len s)%nat) ->
  forall ts first s l r, p_fields rd first ts s = Some (l, r) -> (sizes l + len r < len s)%nat.
Proof.
  intros Hp. induction ts as [|t ts IH]; intros first s l r H; cbn [p_fields] in H.
  - destruct (eat "]" (skip_ws s)) eqn:E; [|discriminate]. injection H as <- <-. apply eatw_len in E. cbn. lia.
  - destruct (if first then Some s else eat "," (skip_ws s)) as [s1|] eqn:E1; [|discriminate]. cbn [mbind option_bind] in H. destruct (rd t s1) as [[v s2]|] eqn:E2; [|discriminate]. cbn [mbind option_bind] in H.
    destruct (p_fields rd false ts s2) as [[l' s3]|] eqn:E3; [|discriminate]. injection H as <- <-. apply Hp in E2. apply IH in E3. cbn [sizes fold_right]. fold (sizes l').
    assert (len s1 <= len s)%nat by (destruct first; [injection E1 as ->; lia|apply eatw_len in E1; lia]). lia.
Qed.
Lemma tuple_len rd ts s l r : (forall t s v r, rd t s = Some (v, r) -> (size v + len r < len s)%nat) -> p_tuple rd ts s = Some (l, r) -> (sizes l + len r < len s)%nat.
Proof. intros Hp H. unfold p_tuple in H. destruct (eat "[" s) as [s1|] eqn:E; [|discriminate]. apply (fields_len rd Hp) in H. apply eat_len in E. lia. Qed.
(** ** What is skipped *)
Lemma skip_str_len : forall k s r, (len s <= k)%nat -> skip_str s = Some r -> (len r < len s)%nat.
Proof.
  induction k as [|k IH]; intros s r Hk H; (destruct s as [|a s]; [discriminate|]); cbn [len] in Hk; [lia|]. cbn [skip_str] in H.
  destruct (Ascii.eqb a QUOTE); [injection H as <-; cbn [len]; lia|]. destruct (Ascii.eqb a BACKSLASH).
  - destruct s as [|e s]; [discriminate|]. cbn [len] in *. destruct (escape e); [apply IH in H; [lia|lia]|]. destruct (_ =? 117); [|discriminate].
    destruct s as [|h1 [|h2 [|h3 [|h4 s]]]]; try discriminate. destruct (hex4 h1 h2 h3 h4); [|discriminate]. cbn [len] in *. apply IH in H; lia.
  - destruct (_ <? 32); [discriminate|]. apply IH in H; [cbn [len]; lia|lia].
Qed.
Lemma skip_digits_len s : (len (skip_digits s) <= len s)%nat.
Proof. induction s as [|a s IH]; cbn [skip_digits]; [lia|]. destruct (is_digit a); cbn [len]; lia. Qed.
Lemma some_digits_len s r : some_digits s = Some r -> (len r < len s)%nat.
Proof. unfold some_digits. destruct s as [|a s]; [discriminate|]. destruct (is_digit a); [|discriminate]. intros [= <-]. pose proof (skip_digits_len s). cbn [len]. lia. Qed.
Lemma skip_int_len s r : skip_int s = Some r -> (len r < len s)%nat.
Proof.
  unfold skip_int. destruct s as [|a s]; [discriminate|]. destruct (_ =? 48); [|apply some_digits_len]. destruct s as [|b s]; [intros [= <-]; cbn [len]; lia|].
  destruct (is_digit b); [discriminate|]. intros [= <-]. cbn [len]. lia.
Qed.
Lemma skip_num_len s r : skip_num s = Some r -> (len r < len s)%nat.
Proof.
  unfold skip_num. destruct (skip_int s) as [s1|] eqn:E1; [|discriminate]. cbn [mbind option_bind]. apply skip_int_len in E1.
  destruct (match eat "." s1 with Some r => some_digits r | None => Some s1 end) as [s2|] eqn:E2; [|discriminate]. cbn [mbind option_bind].
  assert (len s2 <= len s1)%nat. { destruct (eat "." s1) as [s3|] eqn:E3; [apply eat_len in E3; apply some_digits_len in E2; lia|injection E2 as ->; lia]. }
  unfold skip_exp. destruct s2 as [|a s2]; [intros [= <-]; lia|]. destruct (_ || _); [|intros [= <-]; lia]. intros H1. apply some_digits_len in H1.
  destruct s2 as [|b s2]; [cbn [len] in *; lia|]. cbn [len] in *. destruct (_ || _); cbn [len] in *; lia.
Qed.
Lemma skip_len : forall f s u r, skip_value f s = Some (u, r) -> (len r < len s)%nat.
Proof.
  induction f as [|f IH]; intros s u r H; [discriminate|]. cbn [skip_value] in H. cbv zeta in H. pose proof (ws_len s) as Hw. set (s1 := skip_ws s) in *. clearbody s1.
  destruct s1 as [|a s1]; [discriminate|]. destruct (Ascii.eqb a QUOTE).
  { destruct (skip_str s1) as [s2|] eqn:E; [|discriminate]. injection H as _ <-. apply (skip_str_len (len s1)) in E; [|lia]. cbn [len] in Hw. lia. }
  destruct (Ascii.eqb a "[").
  { destruct (p_seq _ _ _ _) as [[l s2]|] eqn:E; [|discriminate]. injection H as _ <-. apply (seq_len (fun _ => O)) in E; [lia|]. intros s3 x r3 H3. apply IH in H3. lia. }
  destruct (Ascii.eqb a "{").
  { destruct (p_seq _ _ _ _) as [[l s2]|] eqn:E; [|discriminate]. injection H as _ <-. apply (seq_len (fun _ => O)) in E; [lia|]. intros s3 x r3 H3. cbv beta in H3.
    destruct (eat QUOTE (skip_ws s3)) as [s4|] eqn:E4; [|discriminate]. cbn [mbind option_bind] in H3. destruct (skip_str s4) as [s5|] eqn:E5; [|discriminate]. cbn [mbind option_bind] in H3.
    destruct (eat ":" (skip_ws s5)) as [s6|] eqn:E6; [|discriminate]. cbn [mbind option_bind] in H3. apply IH in H3. apply eatw_len in E4, E6. apply (skip_str_len (len s4)) in E5; lia. }
  destruct (Ascii.eqb a "-").
  { destruct (skip_num s1) as [s2|] eqn:E; [|discriminate]. injection H as _ <-. apply skip_num_len in E. cbn [len] in Hw. lia. }
  destruct (is_digit a).
  { destruct (skip_num (String a s1)) as [s2|] eqn:E; [|discriminate]. injection H as _ <-. apply skip_num_len in E. lia. }
  destruct (lit "null" (String a s1)) as [s2|] eqn:E1; [injection H as _ <-; apply lit_len in E1; cbn [len] in *; lia|].
  destruct (lit "true" (String a s1)) as [s2|] eqn:E2; [injection H as _ <-; apply lit_len in E2; cbn [len] in *; lia|].
  destruct (lit "false" (String a s1)) as [s2|] eqn:E3; [injection H as _ <-; apply lit_len in E3; cbn [len] in *; lia|discriminate].
Qed.
(** ** Values *)
Lemma fill_size B fs l r : (forall k v, In (k, v) l -> (size v <= B)%nat) -> fill fs l = Some r -> (size (VRec r) <= B)%nat.
Proof.
  intros HB. revert r. induction fs as [|[k t] fs IH]; intros r H; cbn [fill] in H; [injection H as <-; cbn; lia|].
  destruct (match find_key k l, t with Some v, _ => Some v | None, TOpt _ => Some VNone | None, _ => None end) as [v|] eqn:E; [|discriminate]. cbn [mbind option_bind] in H.
  destruct (fill fs l) as [r'|] eqn:Er; [|discriminate]. injection H as <-. specialize (IH _ eq_refl). cbn [size fold_right snd] in *.
  assert (size v <= B)%nat. { destruct (find_key k l) as [w|] eqn:Ek; [injection E as <-; apply find_key_Some in Ek; exact (HB _ _ Ek)|]. destruct t; try discriminate E. injection E as <-. cbn. lia. }
  lia.
Qed.
Lemma combine_size ks l : (size (VRec (combine ks l)) <= sizes l)%nat.
Proof. revert ks. induction l as [|v l IH]; intros [|k ks]; cbn [combine size fold_right snd sizes]; try lia. specialize (IH ks). cbn [size sizes] in IH. unfold sizes in IH. lia. Qed.
Lemma elem_sum {A} (w : A -> nat) l x : In x l -> (w x <= fold_right (fun x n => (S (w x) + n)%nat) O l)%nat.
Proof. induction l as [|y l IH]; [intros []|]. intros [->|H]; cbn [fold_right]; [lia|]. apply IH in H. lia. Qed.
Lemma read_len : forall d t s v r, read d t s = Some (v, r) -> (size v + len r < len s)%nat.
Proof.
  induction d as [|d IH]; intros t s v r H; [discriminate|]. cbn [read] in H. cbv zeta in H. pose proof (ws_len s) as Hw. set (s1 := skip_ws s) in *. clearbody s1.
  destruct t as [L|L| | | |names|t|t|ts|fs].
  - destruct (p_num L s1) as [[n s2]|] eqn:E; [|discriminate]. injection H as <- <-. apply num_len in E. cbn [size]. lia.
  - destruct (p_str s1) as [[x s2]|] eqn:E; [|discriminate]. cbn [mbind option_bind] in H. destruct (parse_uint L x) as [n|]; [|discriminate]. injection H as <- <-. apply str_len in E. cbn [size]. lia.
  - destruct (lit "true" s1) as [s2|] eqn:E; [injection H as <- <-; apply lit_len in E; cbn [size len] in *; lia|].
    destruct (lit "false" s1) as [s2|] eqn:E2; [|discriminate]. injection H as <- <-. apply lit_len in E2. cbn [size len] in *. lia.
  - destruct (p_str s1) as [[x s2]|] eqn:E; [|discriminate]. injection H as <- <-. apply str_len in E. cbn [size]. lia.
  - destruct (p_str s1) as [[x s2]|] eqn:E; [|discriminate]. cbn [mbind option_bind] in H. destruct (valid_id x); [|discriminate]. injection H as <- <-. apply str_len in E. cbn [size]. lia.
  - destruct (p_variant s1) as [[x s2]|] eqn:E; [|discriminate]. cbn [mbind option_bind] in H. destruct (bool_decide (x ∈ names)); [|discriminate]. injection H as <- <-. cbn [size].
    unfold p_variant in E. destruct (eat "{" s1) as [s3|] eqn:E3; [|apply str_len in E; lia]. apply eat_len in E3. destruct (p_str (skip_ws s3)) as [[y s4]|] eqn:E4; [|discriminate]. cbn [mbind option_bind] in E.
    destruct (eat ":" (skip_ws s4)) as [s5|] eqn:E5; [|discriminate]. cbn [mbind option_bind] in E. destruct (lit "null" (skip_ws s5)) as [s6|] eqn:E6; [|discriminate]. cbn [mbind option_bind] in E.
    destruct (eat "}" (skip_ws s6)) as [s7|] eqn:E7; [|discriminate]. injection E as <- <-. apply str_len in E4. apply eatw_len in E5, E7. apply lit_len in E6. pose proof (ws_len s3). pose proof (ws_len s5). cbn [len] in E6. lia.
  - destruct (lit "null" s1) as [s2|] eqn:E; [injection H as <- <-; apply lit_len in E; cbn [size len] in *; lia|]. destruct (read d t s1) as [[x s2]|] eqn:E2; [|discriminate]. injection H as <- <-. apply IH in E2. cbn [size]. lia.
  - destruct (p_seq (read d t) "[" "]" s1) as [[l s2]|] eqn:E; [|discriminate]. injection H as <- <-. apply (seq_len size) in E; [cbn [size]; lia|]. intros s3 x r3 H3. exact (IH _ _ _ _ H3).
  - destruct (p_tuple (read d) ts s1) as [[l s2]|] eqn:E; [|discriminate]. injection H as <- <-. apply (tuple_len _ _ _ _ _ IH) in E. change (size (VList l)) with (sizes l). lia.
  - destruct (eat "[" s1).
    + destruct (p_tuple (read d) (map snd fs) s1) as [[l s2]|] eqn:E; [|discriminate]. injection H as <- <-. apply (tuple_len _ _ _ _ _ IH) in E. pose proof (combine_size (map fst fs) l). lia.
    + destruct (p_seq (p_member (read d) fs) "{" "}" s1) as [[l s2]|] eqn:E; [|discriminate]. cbn [mbind option_bind] in H. unfold record_of in H.
      destruct (bool_decide (NoDup (map fst (omap Datatypes.id l)))); [|discriminate]. destruct (fill fs (omap Datatypes.id l)) as [q|] eqn:Eq; [|discriminate]. injection H as <- <-.
      set (w := fun o : option (string * val) => match o with Some e => size e.2 | None => O end). apply (seq_len w) in E.
      * apply (fill_size (fold_right (fun x n => (S (w x) + n)%nat) O l)) in Eq; [lia|]. intros k v Hin. apply omap_id_in in Hin. exact (elem_sum w l (Some (k, v)) Hin).
      * intros s3 o r3 H3. unfold p_member in H3. destruct (p_str (skip_ws s3)) as [[k3 s4]|] eqn:E3; [|discriminate]. cbn [mbind option_bind] in H3. apply str_len in E3. pose proof (ws_len s3).
        destruct (eat ":" (skip_ws s4)) as [s5|] eqn:E5; [|discriminate]. cbn [mbind option_bind] in H3. apply eatw_len in E5. destruct (find_key k3 fs) as [t3|].
        -- destruct (read d t3 s5) as [[v3 s6]|] eqn:E4; [|discriminate]. injection H3 as <- <-. apply IH in E4. cbn [w snd]. lia.
        -- destruct (skip_value _ _) as [[[] s6]|] eqn:E4; [|discriminate]. injection H3 as <- <-. apply skip_len in E4. cbn [w]. lia.
Qed.
Lemma args_len fs a l v : read_args fs a = Some l -> In v l -> (size v < len a)%nat.
Proof.
  unfold read_args, json, at_end. destruct (read (depth (TRec fs)) (TRec fs) a) as [[x r]|] eqn:E; [|discriminate]. apply read_len in E. destruct (skip_ws r); [|discriminate].
  destruct x as [| | | | | | |q]; try discriminate. intros [= <-] Hin. apply in_map_iff in Hin as (e & <- & Hin).
  assert (size e.2 <= size (VRec q))%nat; [|lia]. clear -Hin. induction q as [|y q IH]; [destruct Hin|]. cbn [size fold_right]. destruct Hin as [->|H]; [lia|]. apply IH in H. cbn [size] in H. lia.
Qed.
Lemma enter_at {A} (tbl : list (string * method A)) m a x fs f : enter tbl m a = Some x -> find_key m tbl = Some (fs, f) -> fs <> [] ->
  exists vs, read_args fs a = Some vs /\ f vs = Some x.
Proof.
  unfold enter. intros E Hf N. rewrite Hf in E. cbn [mbind option_bind] in E. destruct fs as [|e fs]; [destruct (N eq_refl)|].
  destruct (read_args (e :: fs) a) as [vs|]; [|discriminate]. exists vs. auto.
Qed.
