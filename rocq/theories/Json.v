(** Json.v -- serde_json::from_str on the two message formats of ft_on_transfer (meta-vote-contract/src/deposit.rs:24, 39), and
    serde_json::to_string on the values that make them (tests/mod.rs:1132).

    serde_json's source is not in /repo; modelled from the published library (1.0): de.rs, read.rs (SliceRead), ser.rs.  A Rust
    String is its UTF-8 bytes.  An error is [None]: both callers panic on any error.  The recursion limit (128) is never
    reached by these types. *)

From Verif Require Export Base.

(** de.rs parse_whitespace: space, line feed, tab, carriage return *)
Definition is_ws (a : ascii) : bool :=
  let n := N_of_ascii a in (n =? 32) || (n =? 10) || (n =? 9) || (n =? 13).
Fixpoint skip_ws (s : string) : string :=
  match s with String a r => if is_ws a then skip_ws r else s | EmptyString => s end.
(** the next byte must be [a] *)
Definition eat (a : ascii) (s : string) : option string :=
  match s with String b r => if Ascii.eqb b a then Some r else None | EmptyString => None end.

(** read.rs decode_hex_val, decode_hex_escape *)
Definition hex_val (a : ascii) : option N :=
  let n := N_of_ascii a in
  if (48 <=? n) && (n <=? 57) then Some (n - 48)
  else if (65 <=? n) && (n <=? 70) then Some (n - 55)
  else if (97 <=? n) && (n <=? 102) then Some (n - 87)
  else None.
Definition hex4 (a b c d : ascii) : option N :=
  match hex_val a, hex_val b, hex_val c, hex_val d with
  | Some p, Some q, Some r, Some t => Some (N.shiftl p 12 + N.shiftl q 8 + N.shiftl r 4 + t)
  | _, _, _, _ => None
  end.
(** char::encode_utf8, read.rs push_wtf8_codepoint *)
Definition byte (n : N) (r : string) : string := String (ascii_of_N n) r.
Definition push_utf8 (n : N) (r : string) : string :=
  if n <? 128 then byte n r
  else if n <? 2048 then byte (192 + N.shiftr n 6) (byte (128 + N.land n 63) r)
  else if n <? 65536 then byte (224 + N.shiftr n 12) (byte (128 + N.land (N.shiftr n 6) 63) (byte (128 + N.land n 63) r))
  else byte (240 + N.shiftr n 18)
         (byte (128 + N.land (N.shiftr n 12) 63) (byte (128 + N.land (N.shiftr n 6) 63) (byte (128 + N.land n 63) r))).
(** read.rs parse_escape *)
Definition escape (a : ascii) : option ascii :=
  let n := N_of_ascii a in
  if (n =? 34) || (n =? 92) || (n =? 47) then Some a           (* quote, backslash, slash *)
  else if n =? 98 then Some (ascii_of_N 8)                     (* b *)
  else if n =? 102 then Some (ascii_of_N 12)                   (* f *)
  else if n =? 110 then Some (ascii_of_N 10)                   (* n *)
  else if n =? 114 then Some (ascii_of_N 13)                   (* r *)
  else if n =? 116 then Some (ascii_of_N 9)                    (* t *)
  else None.
Definition is_lead (n : N) : bool := (55296 <=? n) && (n <=? 56319).    (* D800-DBFF *)
Definition is_trail (n : N) : bool := (56320 <=? n) && (n <=? 57343).   (* DC00-DFFF *)
Definition QUOTE : ascii := ascii_of_N 34.
Definition BACKSLASH : ascii := ascii_of_N 92.
Definition onto {R} (f : string -> string) (o : option (string * R)) : option (string * R) :=
  match o with Some (v, r) => Some (f v, r) | None => None end.
(** read.rs parse_str, parse_unicode_escape: the string after its opening quote, and what follows the closing one *)
Fixpoint p_chars (s : string) : option (string * string) :=
  match s with
  | EmptyString => None
  | String a r =>
      if Ascii.eqb a QUOTE then Some (EmptyString, r)
      else if Ascii.eqb a BACKSLASH then
        match r with
        | EmptyString => None
        | String e r1 =>
            match escape e with
            | Some x => onto (String x) (p_chars r1)
            | None =>
                if N_of_ascii e =? 117 then                    (* u *)
                  match r1 with
                  | String h1 (String h2 (String h3 (String h4 r2))) =>
                      match hex4 h1 h2 h3 h4 with
                      | None => None
                      | Some n =>
                          if is_trail n then None
                          else if is_lead n then
                            match r2 with
                            | String b (String u (String k1 (String k2 (String k3 (String k4 r3))))) =>
                                if Ascii.eqb b BACKSLASH && (N_of_ascii u =? 117) then
                                  match hex4 k1 k2 k3 k4 with
                                  | None => None
                                  | Some m =>
                                      if is_trail m
                                      then onto (push_utf8 (N.shiftl (n - 55296) 10 + (m - 56320) + 65536)) (p_chars r3)
                                      else None
                                  end
                                else None
                            | _ => None
                            end
                          else onto (push_utf8 n) (p_chars r2)
                      end
                  | _ => None
                  end
                else None
            end
        end
      else if N_of_ascii a <? 32 then None
      else onto (String a) (p_chars r)
  end.

(** de.rs parse_integer, for an unsigned type: digits, no leading zero.  A sign, a fraction, an exponent or a number
    that does not fit gives an error there or at the next byte. *)
Fixpoint p_digits (limit acc : N) (s : string) : option (N * string) :=
  match s with
  | String a r =>
      if is_digit a then
        let acc' := acc * 10 + (N_of_ascii a - 48) in
        if acc' <? limit then p_digits limit acc' r else None
      else Some (acc, s)
  | EmptyString => Some (acc, s)
  end.
Definition p_num (limit : N) (s : string) : option (N * string) :=
  match s with
  | String a r =>
      if N_of_ascii a =? 48 then
        match r with String b _ => if is_digit b then None else Some (0, r) | EmptyString => Some (0, r) end
      else if is_digit a then p_digits limit 0 s
      else None
  | EmptyString => None
  end.

(** de.rs deserialize_tuple, SeqAccess, end_seq: an array of a string and a number *)
Definition p_pair (limit : N) (s : string) : option ((string * N) * string) :=
  s ← eat "[" (skip_ws s);
  s ← eat QUOTE (skip_ws s);
  '(v, s) ← p_chars s;
  s ← eat "," (skip_ws s);
  '(n, s) ← p_num limit (skip_ws s);
  s ← eat "]" (skip_ws s);
  Some ((v, n), s).
(** an array of them, after its bracket and whitespace; [fuel]: every element takes a byte at least *)
Fixpoint p_more (fuel : nat) (limit : N) (s : string) : option (list (string * N) * string) :=
  match fuel with
  | O => None
  | S f =>
      match eat "]" (skip_ws s) with
      | Some r => Some ([], r)
      | None =>
          s ← eat "," (skip_ws s);
          '(p, s) ← p_pair limit s;
          '(l, s) ← p_more f limit s;
          Some (p :: l, s)
      end
  end.
Definition p_list (limit : N) (s : string) : option (list (string * N) * string) :=
  s ← eat "[" (skip_ws s);
  match eat "]" (skip_ws s) with
  | Some r => Some ([], r)
  | None =>
      '(p, s) ← p_pair limit s;
      '(l, s) ← p_more (S (String.length s)) limit s;
      Some (p :: l, s)
  end.
(** de.rs from_str, end: only whitespace may follow *)
Definition at_end {A} (o : option (A * string)) : option A :=
  match o with
  | Some (x, s) => match skip_ws s with EmptyString => Some x | _ => None end
  | None => None
  end.
(** from_str::<(String, u16)>, from_str::<Vec<(String, u64)>> *)
Definition json_pair (s : string) : option (string * N) := at_end (p_pair U16_SIZE s).
Definition json_claims (s : string) : option (list (string * N)) := at_end (p_list U64_SIZE s).

(** ser.rs format_escaped_str_contents, the table ESCAPE *)
Definition hex_digit (n : N) : ascii := ascii_of_N (if n <? 10 then 48 + n else 87 + n).
Definition to_str (e : N) (r : string) : string := String BACKSLASH (String (ascii_of_N e) r).
Definition esc_char (a : ascii) (r : string) : string :=
  let n := N_of_ascii a in
  if n =? 34 then to_str 34 r
  else if n =? 92 then to_str 92 r
  else if n =? 8 then to_str 98 r
  else if n =? 12 then to_str 102 r
  else if n =? 10 then to_str 110 r
  else if n =? 13 then to_str 114 r
  else if n =? 9 then to_str 116 r
  else if n <? 32 then to_str 117 (String "0" (String "0" (String (hex_digit (N.shiftr n 4)) (String (hex_digit (N.land n 15)) r))))
  else String a r.
Fixpoint esc (s : string) : string := match s with String a r => esc_char a (esc r) | EmptyString => EmptyString end.
(** serde_json::to_string of (String, u64) and of a Vec of them *)
Definition show_pair (p : string * N) : string :=
  "[" +:+ String QUOTE (esc p.1) +:+ String QUOTE ("," +:+ pretty p.2 +:+ "]").
Fixpoint show_more (l : list (string * N)) : string :=
  match l with p :: l' => "," +:+ show_pair p +:+ show_more l' | [] => "]" end.
Definition show_list (l : list (string * N)) : string :=
  match l with p :: l' => "[" +:+ show_pair p +:+ show_more l' | [] => "[]" end.
