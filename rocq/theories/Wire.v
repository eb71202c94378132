(** Wire.v -- serde_json on the records, lists and options that the contracts send each other: the arguments of promises and the
    results of calls.

    The types are declared in /repo (cited where they are used, Post.v); how serde's derive, serde_json and near-sdk's json_types
    and AccountId treat them is modelled from the published libraries, whose source is not in /repo.  A value is the text that
    serde_json::to_vec gives; near-sdk reads it back with serde_json::from_slice.
    A record may also come as an array of its fields, a variant as an object, and members that a record does not have are ignored.
    The limit of 128 nested values does not apply to what is ignored, and is never reached by the types here. *)

From Verif Require Export Json.

(** [TNum]: u16, u32, u64; [TDec]: U64 and U128, a decimal number in a string; [TAcc]: AccountId; [TEnum]: variants without contents; [TTup]: tuples *)
Inductive ty :=
| TNum (limit : N)
| TDec (limit : N)
| TBool
| TStr
| TAcc
| TEnum (names : list string)
| TOpt (t : ty)
| TVec (t : ty)
| TTup (ts : list ty)
| TRec (fields : list (string * ty)).
Notation TBig := (TDec U128_SIZE).
Inductive val :=
| VNum (n : N)
| VBig (n : N)
| VBool (b : bool)
| VStr (s : string)
| VNone
| VSome (v : val)
| VList (l : list val)                       (* also tuples *)
| VRec (l : list (string * val)).

(** ** Writing, ser.rs CompactFormatter *)
Definition quote (s : string) : string := String QUOTE (esc s +:+ String QUOTE EmptyString).
Definition commas (l : list string) : string := String.concat "," l.
Fixpoint write (v : val) : string :=
  match v with
  | VNum n => pretty n
  | VBig n => quote (pretty n)
  | VBool b => if b then "true" else "false"
  | VStr s => quote s
  | VNone => "null"
  | VSome v => write v
  | VList l => "[" +:+ commas (map write l) +:+ "]"
  | VRec l => "{" +:+ commas (map (fun p => quote p.1 +:+ ":" +:+ write p.2) l) +:+ "}"
  end.

(** ** Reading *)
(** str::parse::<u64>, str::parse::<u128> *)
Definition parse_uint (limit : N) (s : string) : option N :=
  match s with
  | EmptyString => None
  | String a s' =>
      if N_of_ascii a =? 43 then match s' with EmptyString => None | _ => parse_digits limit 0 s' end   (* plus sign *)
      else parse_digits limit 0 s
  end.
(** near-sdk env::is_valid_account_id: two to 64 bytes; small letters and digits, with single separators between them *)
Definition is_alnum (a : ascii) : bool :=
  let n := N_of_ascii a in ((97 <=? n) && (n <=? 122)) || ((48 <=? n) && (n <=? 57)).
Definition is_separator (a : ascii) : bool := let n := N_of_ascii a in (n =? 45) || (n =? 95) || (n =? 46).   (* - _ . *)
Fixpoint id_chars (last_is_separator : bool) (s : string) : bool :=
  match s with
  | EmptyString => negb last_is_separator
  | String a r =>
      if is_alnum a then id_chars false r
      else if is_separator a then if last_is_separator then false else id_chars true r
      else false
  end.
Definition valid_id (s : string) : bool :=
  (2 <=? N.of_nat (String.length s)) && (N.of_nat (String.length s) <=? 64) && id_chars true s.

(** de.rs parse_ident *)
Fixpoint lit (l s : string) : option string :=
  match l with
  | EmptyString => Some s
  | String a l' => s ← eat a s; lit l' s
  end.
(** de.rs parse_str *)
Definition p_str (s : string) : option (string * string) := s ← eat QUOTE s; p_chars s.
(** de.rs SeqAccess, MapAccess: what follows an element, up to the closing bracket; [fuel]: every element takes a byte at least *)
Fixpoint p_items {A} (rd : string -> option (A * string)) (close : ascii) (fuel : nat) (s : string) : option (list A * string) :=
  match fuel with
  | O => None
  | S f =>
      match eat close (skip_ws s) with
      | Some r => Some ([], r)
      | None =>
          s ← eat "," (skip_ws s);
          '(x, s) ← rd s;
          '(l, s) ← p_items rd close f s;
          Some (x :: l, s)
      end
  end.
Definition p_seq {A} (rd : string -> option (A * string)) (open close : ascii) (s : string) : option (list A * string) :=
  s ← eat open s;
  match eat close (skip_ws s) with
  | Some r => Some ([], r)
  | None =>
      '(x, s) ← rd s;
      '(l, s) ← p_items rd close (S (String.length s)) s;
      Some (x :: l, s)
  end.
Fixpoint find_key {A} (k : string) (l : list (string * A)) : option A :=
  match l with [] => None | (k', x) :: l' => if String.eqb k k' then Some x else find_key k l' end.
(** read.rs ignore_str, ignore_escape: like [p_chars], but any four hex digits will do *)
Fixpoint skip_str (s : string) : option string :=
  match s with
  | EmptyString => None
  | String a r =>
      if Ascii.eqb a QUOTE then Some r
      else if Ascii.eqb a BACKSLASH then
        match r with
        | EmptyString => None
        | String e r1 =>
            if escape e then skip_str r1
            else if N_of_ascii e =? 117 then
              match r1 with
              | String h1 (String h2 (String h3 (String h4 r2))) => if hex4 h1 h2 h3 h4 then skip_str r2 else None
              | _ => None
              end
            else None
        end
      else if N_of_ascii a <? 32 then None
      else skip_str r
  end.
(** de.rs ignore_integer, ignore_decimal, ignore_exponent *)
Fixpoint skip_digits (s : string) : string :=
  match s with String a r => if is_digit a then skip_digits r else s | EmptyString => s end.
Definition some_digits (s : string) : option string :=
  match s with String a r => if is_digit a then Some (skip_digits r) else None | EmptyString => None end.
Definition skip_int (s : string) : option string :=
  match s with
  | String a r =>
      if N_of_ascii a =? 48 then match r with String b _ => if is_digit b then None else Some r | EmptyString => Some r end
      else some_digits s
  | EmptyString => None
  end.
Definition skip_exp (s : string) : option string :=
  match s with
  | String a r =>
      if (N_of_ascii a =? 101) || (N_of_ascii a =? 69) then       (* e, E *)
        some_digits match r with String b r' => if (N_of_ascii b =? 43) || (N_of_ascii b =? 45) then r' else r | EmptyString => r end
      else Some s
  | EmptyString => Some s
  end.
Definition skip_num (s : string) : option string :=
  s ← skip_int s;
  s ← match eat "." s with Some r => some_digits r | None => Some s end;
  skip_exp s.
(** de.rs ignore_value; [fuel]: every value takes a byte at least *)
Fixpoint skip_value (fuel : nat) (s : string) : option (unit * string) :=
  match fuel with
  | O => None
  | S f =>
      let s := skip_ws s in
      let member s := s ← eat QUOTE (skip_ws s); s ← skip_str s; s ← eat ":" (skip_ws s); skip_value f s in
      match s with
      | EmptyString => None
      | String a r =>
          if Ascii.eqb a QUOTE then r ← skip_str r; Some (tt, r)
          else if Ascii.eqb a "[" then '(_, s) ← p_seq (skip_value f) "[" "]" s; Some (tt, s)
          else if Ascii.eqb a "{" then '(_, s) ← p_seq member "{" "}" s; Some (tt, s)
          else if Ascii.eqb a "-" then r ← skip_num r; Some (tt, r)
          else if is_digit a then s ← skip_num s; Some (tt, s)
          else match lit "null" s, lit "true" s, lit "false" s with
               | Some r, _, _ | _, Some r, _ | _, _, Some r => Some (tt, r)
               | _, _, _ => None
               end
      end
  end.
(** MapAccess next_key, next_value: a member of the record; [None] if it has no such field *)
Definition p_member (rd : ty -> string -> option (val * string)) (fs : list (string * ty)) (s : string)
  : option (option (string * val) * string) :=
  '(k, s) ← p_str (skip_ws s);
  s ← eat ":" (skip_ws s);
  match find_key k fs with
  | Some t => '(v, s) ← rd t s; Some (Some (k, v), s)
  | None => '(_, s) ← skip_value (S (String.length s)) s; Some (None, s)
  end.
(** SeqAccess for a tuple, and for the fields of a record: one element each, then the bracket *)
Fixpoint p_fields (rd : ty -> string -> option (val * string)) (first : bool) (ts : list ty) (s : string) : option (list val * string) :=
  match ts with
  | [] => s ← eat "]" (skip_ws s); Some ([], s)
  | t :: ts =>
      s ← (if first then Some s else eat "," (skip_ws s));
      '(v, s) ← rd t s;
      '(l, s) ← p_fields rd false ts s;
      Some (v :: l, s)
  end.
Definition p_tuple (rd : ty -> string -> option (val * string)) (ts : list ty) (s : string) : option (list val * string) :=
  s ← eat "[" s; p_fields rd true ts s.
(** deserialize_enum, UnitVariantAccess; VariantAccess for an object *)
Definition p_variant (s : string) : option (string * string) :=
  match eat "{" s with
  | None => p_str s
  | Some s =>
      '(v, s) ← p_str (skip_ws s);
      s ← eat ":" (skip_ws s);
      s ← lit "null" (skip_ws s);
      s ← eat "}" (skip_ws s);
      Some (v, s)
  end.
(** serde derive: the fields as declared; no field twice; a missing one is allowed if it is an Option *)
Fixpoint fill (fs : list (string * ty)) (l : list (string * val)) : option (list (string * val)) :=
  match fs with
  | [] => Some []
  | (k, t) :: fs' =>
      v ← match find_key k l, t with Some v, _ => Some v | None, TOpt _ => Some VNone | None, _ => None end;
      r ← fill fs' l;
      Some ((k, v) :: r)
  end.
Definition record_of (fs : list (string * ty)) (l : list (string * val)) : option val :=
  if bool_decide (NoDup (map fst l)) then r ← fill fs l; Some (VRec r) else None.

(** the text of a value of type [t] at the start of [s], and what follows it; [d]: the depth of the type *)
Fixpoint read (d : nat) (t : ty) (s : string) : option (val * string) :=
  match d with
  | O => None
  | S d =>
      let s := skip_ws s in
      match t with
      | TNum limit => '(n, s) ← p_num limit s; Some (VNum n, s)
      | TDec limit => '(v, s) ← p_str s; n ← parse_uint limit v; Some (VBig n, s)
      | TBool => match lit "true" s with Some r => Some (VBool true, r) | None => s ← lit "false" s; Some (VBool false, s) end
      | TStr => '(v, s) ← p_str s; Some (VStr v, s)
      | TAcc => '(v, s) ← p_str s; if valid_id v then Some (VStr v, s) else None
      | TEnum names => '(v, s) ← p_variant s; if bool_decide (v ∈ names) then Some (VStr v, s) else None
      | TOpt t => match lit "null" s with Some r => Some (VNone, r) | None => '(v, s) ← read d t s; Some (VSome v, s) end
      | TVec t => '(l, s) ← p_seq (read d t) "[" "]" s; Some (VList l, s)
      | TTup ts => '(l, s) ← p_tuple (read d) ts s; Some (VList l, s)
      | TRec fs =>
          match eat "[" s with
          | Some _ => '(l, s) ← p_tuple (read d) (map snd fs) s; Some (VRec (combine (map fst fs) l), s)
          | None => '(l, s) ← p_seq (p_member (read d) fs) "{" "}" s; v ← record_of fs (omap Datatypes.id l); Some (v, s)
          end
      end
  end.
Fixpoint depth (t : ty) : nat :=
  match t with
  | TOpt t | TVec t => S (depth t)
  | TTup ts => S (fold_right (fun t m => Nat.max (depth t) m) O ts)
  | TRec fs => S (fold_right (fun f m => Nat.max (depth f.2) m) O fs)
  | _ => 1%nat
  end.
(** serde_json::from_slice *)
Definition json (t : ty) (s : string) : option val := at_end (read (depth t) t s).
