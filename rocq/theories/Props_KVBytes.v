(** Props_KVBytes.v -- C97: the key-value store, from the text of a call to the bytes in storage. *)

From Verif Require Import KVBytesProofs KVShort.
Import KVBytesSpec.

(** Whatever texts are sent to the account, by whom and in which order, the contract on bytes accepts the calls the book accepts and
    returns the texts the book returns. *)
Theorem C97_calls : forall tr, within tr -> exists b, history tr b (returns ∅ tr).
Proof. exact c97_history. Qed.
Print Assumptions C97_calls.

(** and these are no others: the texts determine the book and what it returns *)
Theorem C97_determined : forall tr b ts b' ts', history tr b ts -> history tr b' ts' -> b = b' /\ ts = ts'.
Proof. exact c97_once. Qed.
Print Assumptions C97_determined.

(** the records of the book under their keys on disk *)
Theorem C97_records :
  forall tr b ts, within tr -> history tr (Some b) ts ->
    let p := sk0 0 in let n := N.of_nat (length (bk_entries b)) in
    kb_run tr !! "STATE" = Some (enc_str (bk_owner b) +:+ enc_str (bk_operator b) +:+ enc_umh (mkUmh (p +:+ "i") n (p +:+ "k") n (p +:+ "v"))) /\
    forall i k v, bk_entries b !! i = Some (k, v) ->
      kb_run tr !! (p +:+ "i" +:+ enc_str k) = Some (enc_uint 8 (N.of_nat i)) /\
      kb_run tr !! (p +:+ "k" +:+ enc_uint 8 (N.of_nat i)) = Some (enc_str k) /\
      kb_run tr !! (p +:+ "v" +:+ enc_uint 8 (N.of_nat i)) = Some (enc_str v).
Proof. exact c97_records. Qed.
Print Assumptions C97_records.

(** and nothing else is stored: a removed entry leaves no byte behind *)
Theorem C97_nothing_else :
  forall tr b ts, within tr -> history tr (Some b) ts ->
    let p := sk0 0 in
    forall key, is_Some (kb_run tr !! key) ->
      key = "STATE" \/ exists i k v, bk_entries b !! i = Some (k, v) /\
        (key = p +:+ "i" +:+ enc_str k \/ key = p +:+ "k" +:+ enc_uint 8 (N.of_nat i) \/ key = p +:+ "v" +:+ enc_uint 8 (N.of_nat i)).
Proof. exact c97_nothing_else. Qed.
Print Assumptions C97_nothing_else.

(** [within] holds whenever the texts of the calls are short and few *)
Theorem C97_within : forall tr, short_calls tr = true -> N.of_nat (weights tr) < 2 ^ 64 -> within tr.
Proof. exact within_if. Qed.
Print Assumptions C97_within.

(** above all, whenever no text is longer than u32::MAX and there are fewer than 2^32 calls *)
Theorem C97_usual : forall tr, Forall (fun x : bcall => N.of_nat (String.length x.2) < 2 ^ 32) tr -> N.of_nat (length tr) < 2 ^ 32 -> within tr.
Proof. exact c97_usual. Qed.
Print Assumptions C97_usual.

(** ** A case *)
Definition bcx (p : string) (d : N) : ctx := mkCtx p p d 0 (fun _ => None) (fun _ => None).
Definition tr_texts : list bcall :=
  [ (bcx "a.near" 0, "set_value", "{""key"":""a"",""value"":""1""}");
    (bcx "dao.near" 0, "new", "{""owner_id"":""dao.near"",""operator_id"":""bot.near""}");
    (bcx "bot.near" 0, "set_value", " { ""value"" : ""1"", ""key"" : ""a"" , ""more"": [0, null] } ");
    (bcx "bot.near" 0, "set_value", "{""key"":""say \""hi\"""",""value"":""A\n""}");
    (bcx "bot.near" 0, "set_values", "{""kv_array"":[[""b"",""2""],[""a"",""3""]]}");
    (bcx "eve.near" 0, "set_value", "{""key"":""a"",""value"":""bad""}");
    (bcx "bot.near" 0, "set_value", "{""key"":""a""}");
    (bcx "bot.near" 5, "set_value", "{""key"":""a"",""value"":""4""}");
    (bcx "eve.near" 0, "get_value", "{""key"":""a""}");
    (bcx "eve.near" 0, "get_values", "{""from_index"":0,""limit"":9}");
    (bcx "bot.near" 0, "remove_value", "{""key"":""a""}");
    (bcx "bot.near" 0, "remove_value", "{""key"":""a""}");
    (bcx "eve.near" 0, "get_values", "{""from_index"":0,""limit"":9}");
    (bcx "dao.near" 1, "set_operator_id", "{""operator_id"":""eve.near""}");
    (bcx "eve.near" 0, "set_value", "{""key"":""c"",""value"":""5""}");
    (bcx "eve.near" 0, "get_kv_count", "");
    (bcx "eve.near" 0, "new", "{""owner_id"":""eve.near"",""operator_id"":""eve.near""}");
    (bcx "eve.near" 0, "get_owner_id", "{}") ].
Example C97_case_within : within tr_texts.
Proof. apply within_if; vm_compute; reflexivity. Qed.
Example C97_case_returns :
  returns ∅ tr_texts =
  [ None; Some ""; Some ""; Some ""; Some ""; None; None; None; Some """3""";
    Some ("[[""a"",""3""],[""say \""hi\"""",""A\n""],[""b"",""2""]]");
    Some """3"""; Some "null"; Some ("[[""b"",""2""],[""say \""hi\"""",""A\n""]]");
    Some ""; Some ""; Some """3"""; None; Some """dao.near""" ].
Proof. vm_compute. reflexivity. Qed.
Example C97_case_bytes :
  length (map_to_list (kb_run tr_texts)) = 10%nat /\
  kb_run tr_texts !! (sk0 0 +:+ "v" +:+ enc_uint 8 2) = Some (enc_str "5") /\ kb_run tr_texts !! (sk0 0 +:+ "i" +:+ enc_str "a") = None.
Proof. split; [|split]; vm_compute; reflexivity. Qed.
