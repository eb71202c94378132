(** MVLogText.v -- C80: different lines have different texts. *)

From Verif Require Export MVSpecLog.

(** the words of a text, cut at every space *)
Fixpoint words (s : string) : list string :=
  match s with
  | EmptyString => [""]
  | String c r =>
      if bool_decide (c = " "%char) then "" :: words r
      else match words r with w :: ws => String c w :: ws | [] => [String c ""] end
  end.
Lemma words_cons s : exists w ws, words s = w :: ws.
Proof.
  destruct s as [|c r]; cbn [words]; [eauto|]. destruct (bool_decide _); [eauto|]. destruct (words r); eauto.
Qed.

Lemma words_word a x : no_space a = true -> words (a +:+ " " +:+ x) = a :: words x.
Proof.
  induction a as [|c a IH]; intros H; [reflexivity|]. cbn [no_space] in H. apply andb_true_iff in H as [H1 H2].
  apply negb_true_iff in H1. change (String c a +:+ " " +:+ x) with (String c (a +:+ " " +:+ x)). cbn [words]. rewrite H1, (IH H2). reflexivity.
Qed.
Lemma words_end a : no_space a = true -> words a = [a].
Proof.
  induction a as [|c a IH]; intros H; [reflexivity|]. cbn [no_space] in H. apply andb_true_iff in H as [H1 H2].
  apply negb_true_iff in H1. cbn [words]. rewrite H1, (IH H2). reflexivity.
Qed.
Lemma words_any x y : words (x +:+ " " +:+ y) = words x ++ words y.
Proof.
  induction x as [|c x IH]; [reflexivity|]. change (String c x +:+ " " +:+ y) with (String c (x +:+ " " +:+ y)). cbn [words].
  rewrite IH. destruct (bool_decide _); [reflexivity|]. destruct (words_cons x) as (w & ws & ->). reflexivity.
Qed.

Fixpoint join (l : list string) : string :=
  match l with [] => "" | [w] => w | w :: r => w +:+ " " +:+ join r end.
Lemma join_words s : join (words s) = s.
Proof.
  induction s as [|c r IH]; [reflexivity|]. cbn [words]. destruct (words_cons r) as (w & ws & E). rewrite E in *.
  destruct (bool_decide (c = " "%char)) eqn:Ec.
  - apply bool_decide_eq_true in Ec as ->. change (String " " (join (w :: ws)) = String " " r). rewrite IH. reflexivity.
  - destruct ws as [|w2 ws]; [cbn [join] in *; subst; reflexivity|].
    change (String c (join (w :: w2 :: ws)) = String c r). rewrite IH. reflexivity.
Qed.
Lemma words_inj x y : words x = words y -> x = y.
Proof. intros H. rewrite <- (join_words x), <- (join_words y), H. reflexivity. Qed.

(** ** Numbers *)
Definition digit (a : ascii) : bool := bool_decide (a ∈ ["0"; "1"; "2"; "3"; "4"; "5"; "6"; "7"; "8"; "9"]%char).
Fixpoint all_digits (s : string) : bool := match s with EmptyString => true | String a r => digit a && all_digits r end.
Lemma digit_char x : digit (pretty_N_char x) = true.
Proof. unfold pretty_N_char. repeat match goal with |- digit (match ?x with _ => _ end) = true => destruct x end; reflexivity. Qed.
Lemma go_digits x : forall acc, all_digits acc = true -> all_digits (pretty_N_go x acc) = true.
Proof.
  induction (N.lt_wf_0 x) as [x _ IH]. intros acc H. destruct (decide (x = 0)) as [->|Hx]; [rewrite pretty_N_go_0; exact H|].
  rewrite pretty_N_go_step by lia. apply IH; [apply N.div_lt; lia|]. cbn [all_digits]. rewrite digit_char, H. reflexivity.
Qed.
Lemma pretty_digits (n : N) : all_digits (pretty n) = true.
Proof. unfold pretty, pretty_N. destruct (decide (n = 0)); [reflexivity|]. apply go_digits. reflexivity. Qed.
Lemma pretty_ne (n : N) s : all_digits s = false -> pretty n <> s.
Proof. intros H E. rewrite <- E, pretty_digits in H. discriminate. Qed.
Lemma digits_no_space s : all_digits s = true -> no_space s = true.
Proof.
  induction s as [|a s IH]; [reflexivity|]. cbn [all_digits no_space]. intros H. apply andb_true_iff in H as [H1 H2]. rewrite (IH H2), andb_true_r.
  apply negb_true_iff, bool_decide_eq_false. intros ->. discriminate H1.
Qed.
Lemma pretty_word (n : N) : no_space (pretty n) = true.
Proof. apply digits_no_space, pretty_digits. Qed.

Lemma no_space_app x y : no_space (x +:+ y) = no_space x && no_space y.
Proof. induction x as [|a x IH]; [reflexivity|]. change (String a x +:+ y) with (String a (x +:+ y)). cbn [no_space]. rewrite IH, andb_assoc. reflexivity. Qed.

(** ** The words of a line *)
Definition pieces (l : line) : list string :=
  match l with
  | LUnlock w i => ["UNLOCK:"; w; "unlocked"; "position"; pnat i +:+ "."]
  | LUnlockPart w i => ["UNLOCK:"; w; "partially"; "unlocked"; "position"; pnat i +:+ "."]
  | LExtend w i d => ["EXTEND-TIME:"; w; "position"; "#" +:+ pnat i; pretty d; "days"]
  | LRelock w i => ["RELOCK:"; w; "relocked"; "position"; pnat i +:+ "."]
  | LRelockPart w i => ["RELOCK:"; w; "partially"; "relocked"; "position"; pnat i +:+ "."]
  | LRelockBal w => ["RELOCK:"; w; "relocked"; "position."]
  | LVote w n o a => ["VOTE:"; w; "gave"; pretty n; "votes"; "for"; "object"; o; "at"; "address"; a +:+ "."]
  | LUp w n o a => ["VOTE:"; w; "increased"; "to"; pretty n; "votes"; "for"; "object"; o; "at"; "address"; a +:+ "."]
  | LDown w n o a => ["VOTE:"; w; "decreased"; "to"; pretty n; "votes"; "for"; "object"; o; "at"; "address"; a +:+ "."]
  | LUnvote w o a => ["UNVOTE:"; w; "unvoted"; "object"; o; "at"; "address"; a +:+ "."]
  | LMirror p n u => ["MIRROR:"; "prev_vp"; pretty p; "new_vp"; pretty n; "used_vp"; pretty u +:+ "."]
  | LGodspeed w => ["GODSPEED:"; w; "is"; "no"; "longer"; "part"; "of"; "Meta"; "Vote!"]
  | LSent n w => ["WITHDRAW:"; pretty n; "mpDAO"; "transfer"; "to"; w]
  | LFailed n w => ["FAILED:"; pretty n; "mpDAO"; "not"; "transferred."; "Recovering"; w; "state."]
  | LStSent w n => [w; "WITHDRAW"; pretty n; "stNEAR"]
  | LStFailed n w => ["FAILED:"; pretty n; "stNEAR"; "not"; "transferred."; "Recovering"; w; "state."]
  | LDeposit n w => ["DEPOSIT:"; pretty n; "mpDAO"; "deposited"; "from"; w]
  end.
Lemma render_pieces l : render l = join (pieces l).
Proof. destruct l; reflexivity. Qed.

Lemma words_join p ps : words (join (p :: ps)) = concat (map words (p :: ps)).
Proof.
  revert p. induction ps as [|q ps IH]; intros p; [cbn [join map concat]; rewrite app_nil_r; reflexivity|].
  change (join (p :: q :: ps)) with (p +:+ " " +:+ join (q :: ps)). rewrite words_any, IH. reflexivity.
Qed.

Definition flat (l : line) : list string :=
  match l with
  | LVote w n o a => ["VOTE:"; w; "gave"; pretty n; "votes"; "for"; "object"] ++ words o ++ ["at"; "address"; a +:+ "."]
  | LUp w n o a => ["VOTE:"; w; "increased"; "to"; pretty n; "votes"; "for"; "object"] ++ words o ++ ["at"; "address"; a +:+ "."]
  | LDown w n o a => ["VOTE:"; w; "decreased"; "to"; pretty n; "votes"; "for"; "object"] ++ words o ++ ["at"; "address"; a +:+ "."]
  | LUnvote w o a => ["UNVOTE:"; w; "unvoted"; "object"] ++ words o ++ ["at"; "address"; a +:+ "."]
  | _ => pieces l
  end.
Lemma concat_words ps : Forall (fun p => no_space p = true) ps -> concat (map words ps) = ps.
Proof. induction 1 as [|p ps H _ IH]; [reflexivity|]. cbn [map concat]. rewrite (words_end _ H), IH. reflexivity. Qed.
Ltac np := first [assumption|reflexivity|apply pretty_word|rewrite no_space_app; apply andb_true_iff; split; np].
Lemma words_render l : clean l -> words (render l) = flat l.
Proof.
  intros H. rewrite render_pieces. destruct l; cbn [clean] in H; try match type of H with _ /\ _ => destruct H as [H1 H2] end; cbn [pieces flat]; rewrite words_join;
    try (apply concat_words; repeat constructor; unfold pnat; np).
  all: cbn [map concat]; rewrite (words_end w), (words_end (addr +:+ ".")) by np; rewrite ?(words_end (pretty n)) by np; reflexivity.
Qed.

Lemma app_dot x y : x +:+ "." = y +:+ "." -> x = y.
Proof.
  revert y. induction x as [|a x IH]; intros [|b y] E; [reflexivity| | |].
  - exfalso. change (String "." "" = String b (y +:+ ".")) in E. injection E as _ E. destruct y; discriminate E.
  - exfalso. change (String a (x +:+ ".") = String "." "") in E. injection E as _ E. destruct x; discriminate E.
  - change (String a (x +:+ ".") = String b (y +:+ ".")) in E. injection E as -> E. rewrite (IH _ E). reflexivity.
Qed.
Lemma tail_inj o a o' a' : words o ++ ["at"; "address"; a +:+ "."] = words o' ++ ["at"; "address"; a' +:+ "."] -> o = o' /\ a = a'.
Proof.
  intros E. change (["at"; "address"; a +:+ "."]) with (["at"; "address"] ++ [a +:+ "."]) in E.
  change (["at"; "address"; a' +:+ "."]) with (["at"; "address"] ++ [a' +:+ "."]) in E.
  rewrite !app_assoc in E. apply app_inj_tail in E as [E1 E2]. apply app_dot in E2. apply app_inv_tail in E1. apply words_inj in E1. auto.
Qed.
Lemma pnat_inj i j : pnat i = pnat j -> i = j.
Proof. intros E. apply (inj pretty) in E. lia. Qed.

Ltac num E := first
  [ exfalso; revert E; apply pretty_ne; reflexivity
  | exfalso; symmetry in E; revert E; apply pretty_ne; reflexivity ].
Ltac solve_num := match goal with
  | E : pretty ?n = ?t |- _ => num E
  | E : ?t = pretty ?n |- _ => num E
  end.

Lemma render_inj l l' : clean l -> clean l' -> render l = render l' -> l = l'.
Proof.
  intros H H' E. apply (f_equal words) in E. rewrite (words_render _ H), (words_render _ H') in E. clear H H'.
  destruct l, l'; cbn [flat pieces app] in E; try discriminate E.
  all: try (injection E; intros; subst; try discriminate; try solve_num; fail).
  all: injection E; clear E; intros;
    repeat match goal with
      | H : words _ ++ _ = words _ ++ _ |- _ => apply tail_inj in H as [-> ->]
      | H : _ +:+ "." = _ +:+ "." |- _ => apply app_dot in H
      | H : String "#" _ = String "#" _ |- _ => injection H as H
      | H : pnat _ = pnat _ |- _ => apply pnat_inj in H
      | H : pretty _ = pretty _ |- _ => apply (inj pretty) in H
      end; subst; try reflexivity.
Qed.
