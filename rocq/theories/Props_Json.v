(** Props_Json.v -- C90, C91: the texts sent along with token transfers, how they are read and what they order. *)

From Verif Require Import MVMsg MVWitness MVRefuted.

(** C90: serde_json, as modelled in Json.v, reads a text as a pair of a string and a u16, or as a list of pairs of a string and a
    u64, exactly when the text is JSON for it by the grammar of JsonSpec.v, and reads what it denotes: white space, escapes,
    surrogate pairs, leading zeros and ranges included. *)
Theorem C90_pair : forall t w d, json_pair t = Some (w, d) <-> around (fun x => pair_text (2 ^ 16) x (w, d)) t.
Proof. intros t w d. apply json_pair_iff. Qed.
Print Assumptions C90_pair.

Theorem C90_claims : forall t l, json_claims t = Some l <-> around (fun x => list_text (2 ^ 64) x l) t.
Proof. exact json_claims_iff. Qed.
Print Assumptions C90_claims.

(** What serde_json writes it reads back, whatever bytes the strings hold. *)
Theorem C90_round_trip :
  (forall w d, d < 2 ^ 16 -> json_pair (show_pair (w, d)) = Some (w, d)) /\
  (forall l, Forall (fun p => p.2 < 2 ^ 64) l -> json_claims (show_list l) = Some l).
Proof. split; [intros w d H; exact (round_pair (w, d) H)|exact round_claims]. Qed.
Print Assumptions C90_round_trip.

(** a text with white space and all kinds of escapes: [ "aé😀\n/" , 30 ] *)
Definition Q : string := String (ascii_of_N 34) EmptyString.
Definition bs : string := String (ascii_of_N 92) EmptyString.
Definition bytes (l : list N) : string := fold_right (fun n s => String (ascii_of_N n) s) EmptyString l.
Example C90_example :
  json_pair (" [ " +:+ Q +:+ "a" +:+ bs +:+ "u00e9" +:+ bs +:+ "ud83d" +:+ bs +:+ "uDE00" +:+ bs +:+ "n" +:+ bs +:+ "/" +:+ Q +:+ " , 30 ] ") =
    Some (bytes [97; 195; 169; 240; 159; 152; 128; 10; 47], 30) /\
  json_claims ("[[" +:+ Q +:+ "a.near" +:+ Q +:+ ",10],[" +:+ Q +:+ "b.near" +:+ Q +:+ ", 18446744073709551615]]") =
    Some [("a.near", 10); ("b.near", 18446744073709551615)] /\
  json_claims "[ ]" = Some [].
Proof. conj; vmr. Qed.
(** refused: leading zero, too large, a fraction, a third element, a trailing comma, a lone surrogate, text after the end *)
Example C90_example_refused :
  let p (t : string) := json_pair ("[" +:+ Q +:+ "a" +:+ Q +:+ "," +:+ t) in
  p "30]" = Some ("a", 30) /\ p "030]" = None /\ p "65536]" = None /\ p "30.0]" = None /\ p "30,1]" = None /\ p "30,]" = None /\
  p "-0]" = None /\ p "30]x" = None /\ json_pair ("[" +:+ Q +:+ bs +:+ "ud800" +:+ Q +:+ ",30]") = None.
Proof. conj; vmr. Qed.

(** C91: a message has one meaning at most *)
Theorem C91_one_meaning : forall msg o o', says msg o -> says msg o' -> o = o'.
Proof. exact one_meaning. Qed.
Print Assumptions C91_one_meaning.

(** A transfer is kept exactly when nothing is attached and its message orders something the ledger allows; a message that is not
    of the three forms, or whose order is not allowed, makes the call fail, and the token contract returns the tokens (C06, C56). *)
Theorem C91_accepted :
  forall a s0 tr c sender amount msg,
    mv_new a = Ok s0 -> collision_free (tr ++ [(c, FtOnTransfer sender amount msg)]) -> no_zero_votes tr -> reads_json c ->
    (exists s' e, exec c (run s0 tr) (FtOnTransfer sender amount msg) = Ok (s', e)) <->
    c_deposit c = 0 /\ exists o, says msg o /\ obeyed (c_pred c) (observe (run s0 tr)) sender amount msg o.
Proof. exact c91_accepted. Qed.
Print Assumptions C91_accepted.

(** and then it does what the message says, and nothing else *)
Theorem C91_effect :
  forall a s0 tr c sender amount msg s' e,
    mv_new a = Ok s0 -> collision_free (tr ++ [(c, FtOnTransfer sender amount msg)]) -> no_zero_votes tr -> reads_json c ->
    exec c (run s0 tr) (FtOnTransfer sender amount msg) = Ok (s', e) ->
    e = [] /\ forall o, says msg o -> same (observe s') (result (c_pred c) (observe (run s0 tr)) sender amount o).
Proof. exact c91_effect. Qed.
Print Assumptions C91_effect.

(** Messages written with serde_json, as the project's tests do, and plain numbers say what was meant; names in ASCII are
    never cut. *)
Theorem C91_written :
  (forall l, Forall (fun p => p.2 < 2 ^ 64) l -> says ("for-claims:" +:+ show_list l) (Distribute l)) /\
  (forall w d, d < 2 ^ 16 -> says (show_pair (w, d)) (LockFor w d) /\ (ascii7 w -> cut_ok (show_pair (w, d)))) /\
  (forall d, d < 2 ^ 16 -> says (pretty d) (LockOwn d)).
Proof. exact c91_written. Qed.
Print Assumptions C91_written.

(** the three forms as they arrive from the tokens *)
Definition jx (p : string) (ms : N) : ctx := mkCtx p p 0 (ms * 1000000) json_pair json_claims.
Definition sent (tok : string) (ms : N) (sender : string) (n : N) (msg : string) : call := (jx tok ms, FtOnTransfer sender n msg).
Definition l_ex : list (string * N) := [("a.near", 10); ("c.near", 20)].
Definition tr_msg : list call :=
  [ sent "mpdao.near" 1 "a.near" (M 100) "60"; sent "mpdao.near" 2 "own.near" (M 5) (show_pair ("b.near", 90));
    sent "mpdao.near" 3 "own.near" (M 30) ("for-claims:" +:+ show_list l_ex) ].
Definition x_st : call := sent "stnear.near" 4 "own.near" (3 * 10 ^ 20) ("for-claims: [ [" +:+ Q +:+ "a.near" +:+ Q +:+ ", 3 ] ]").
Example C91_example :
  mv_new ia = Ok s0 /\ collision_free (tr_msg ++ [x_st]) /\ no_zero_votes tr_msg /\ reads_json x_st.1 /\
  all_ok s0 (tr_msg ++ [x_st]) = true /\
  let L := observe (run s0 (tr_msg ++ [x_st])) in
  map p_amount (a_pos (l_acct L "a.near")) = [M 100] /\ map p_days (a_pos (l_acct L "b.near")) = [90] /\
  map (l_mp L) ["a.near"; "b.near"; "c.near"] = [M 10; 0; M 20] /\ l_st L "a.near" = 3 * 10 ^ 20.
Proof.
  conj; [exact s0_ok|cf_tac|repeat (apply List.Forall_cons; [exact I|]); apply List.Forall_nil|split; intros t; reflexivity|vmr|vmr|vmr|vmr|vmr].
Qed.
(** Beyond ASCII a well-formed message can be refused: [aaaaaaaa] followed by a two-byte character is cut in the middle, [aaaaaaa]
    followed by it is not.  And only the owner locks for others. *)
Definition e_acute : string := bytes [195; 169].
Example C91_example_cut :
  let try_ snd w := negb (panics (exec (jx "mpdao.near" 5) s0 (FtOnTransfer snd (M 5) (show_pair (w, 90))))) in
  json_pair (show_pair ("aaaaaaaa" +:+ e_acute, 90)) = Some ("aaaaaaaa" +:+ e_acute, 90) /\
  try_ "own.near" ("aaaaaaaa" +:+ e_acute) = false /\ try_ "own.near" ("aaaaaaa" +:+ e_acute) = true /\ try_ "eve.near" "b.near" = false.
Proof. conj; vmr. Qed.
