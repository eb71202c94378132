(** JsonSpec.v -- C90: the JSON texts (RFC 8259) of a string, of a pair of a string and a number, and of an array of such pairs.
    A grammar: it says which texts denote which value, not how to read them. *)

From Verif Require Export Json MVSpecMoney.

(** ** White space *)
Fixpoint blank (s : string) : Prop :=
  match s with
  | EmptyString => True
  | String a r => In (N_of_ascii a) [32; 9; 10; 13] /\ blank r
  end.

(** ** Strings *)
Definition hexadecimal (a : ascii) (k : N) : Prop :=
  let n := N_of_ascii a in (48 <= n <= 57 /\ n = k + 48) \/ (65 <= n <= 70 /\ n = k + 55) \/ (97 <= n <= 102 /\ n = k + 87).
Inductive four_hex : string -> N -> Prop :=
| four_hex_intro a b c d p q r s : hexadecimal a p -> hexadecimal b q -> hexadecimal c r -> hexadecimal d s ->
    four_hex (String a (String b (String c (String d EmptyString)))) (((p * 16 + q) * 16 + r) * 16 + s).

(** the bytes that encode a code point (RFC 3629): they are the shortest that decode to it *)
Definition cont (b : ascii) : Prop := 128 <= N_of_ascii b < 192.
Inductive utf8 : N -> string -> Prop :=
| utf8_1 a : N_of_ascii a < 128 -> utf8 (N_of_ascii a) (String a EmptyString)
| utf8_2 a b n : 192 <= N_of_ascii a < 224 -> cont b ->
    n = (N_of_ascii a - 192) * 64 + (N_of_ascii b - 128) -> 128 <= n -> utf8 n (String a (String b EmptyString))
| utf8_3 a b c n : 224 <= N_of_ascii a < 240 -> cont b -> cont c ->
    n = ((N_of_ascii a - 224) * 64 + (N_of_ascii b - 128)) * 64 + (N_of_ascii c - 128) -> 2048 <= n ->
    utf8 n (String a (String b (String c EmptyString)))
| utf8_4 a b c d n : 240 <= N_of_ascii a < 248 -> cont b -> cont c -> cont d ->
    n = (((N_of_ascii a - 240) * 64 + (N_of_ascii b - 128)) * 64 + (N_of_ascii c - 128)) * 64 + (N_of_ascii d - 128) -> 65536 <= n ->
    utf8 n (String a (String b (String c (String d EmptyString)))).

(** quote, backslash, slash; backspace, form feed, line feed, carriage return, tab as b, f, n, r, t *)
Definition short_escape (e x : ascii) : Prop :=
  In (N_of_ascii e, N_of_ascii x) [(34, 34); (92, 92); (47, 47); (98, 8); (102, 12); (110, 10); (114, 13); (116, 9)].
Definition text_u : string := String (ascii_of_N 92) "u".
(** [quoted t v]: between quotes [t] denotes the string [v] *)
Inductive quoted : string -> string -> Prop :=
| q_nil : quoted EmptyString EmptyString
| q_plain a t v : 32 <= N_of_ascii a -> N_of_ascii a <> 34 -> N_of_ascii a <> 92 -> quoted t v -> quoted (String a t) (String a v)
| q_short e x t v : short_escape e x -> quoted t v -> quoted (String (ascii_of_N 92) (String e t)) (String x v)
| q_code h n u t v : four_hex h n -> ~ (55296 <= n <= 57343) -> utf8 n u -> quoted t v -> quoted (text_u +:+ h +:+ t) (u +:+ v)
| q_surrogates h n k m u t v : four_hex h n -> 55296 <= n <= 56319 -> four_hex k m -> 56320 <= m <= 57343 ->
    utf8 (65536 + (n - 55296) * 1024 + (m - 56320)) u -> quoted t v -> quoted (text_u +:+ h +:+ text_u +:+ k +:+ t) (u +:+ v).

(** ** Numbers: decimal, without leading zeros *)
Definition numeral (t : string) (n : N) : Prop := decimal t n /\ (t = "0" \/ forall r, t <> String "0" r).

(** ** Arrays *)
Definition dq : string := String (ascii_of_N 34) EmptyString.
Definition pair_text (limit : N) (t : string) (p : string * N) : Prop :=
  exists w1 c w2 w3 d w4, t = "[" +:+ w1 +:+ dq +:+ c +:+ dq +:+ w2 +:+ "," +:+ w3 +:+ d +:+ w4 +:+ "]" /\
    blank w1 /\ blank w2 /\ blank w3 /\ blank w4 /\ quoted c p.1 /\ numeral d p.2 /\ p.2 < limit.
Inductive listing (limit : N) : string -> list (string * N) -> Prop :=
| el_one w t w' p : blank w -> pair_text limit t p -> blank w' -> listing limit (w +:+ t +:+ w') [p]
| el_more w t w' p ts l : blank w -> pair_text limit t p -> blank w' -> listing limit ts l ->
    listing limit (w +:+ t +:+ w' +:+ "," +:+ ts) (p :: l).
Definition list_text (limit : N) (t : string) (l : list (string * N)) : Prop :=
  (exists w, blank w /\ t = "[" +:+ w +:+ "]" /\ l = []) \/ (exists ts, listing limit ts l /\ t = "[" +:+ ts +:+ "]").
(** a text with white space around it *)
Definition around (P : string -> Prop) (s : string) : Prop := exists w t w', s = w +:+ t +:+ w' /\ blank w /\ blank w' /\ P t.
