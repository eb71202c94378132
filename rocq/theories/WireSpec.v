(** WireSpec.v -- C93: which values a type has, and what an account id is. *)

From Verif Require Export Wire JsonSpec.

(** letters and digits with single separators between them: the pattern of the account ids of NEAR *)
Definition letter_or_digit (a : ascii) : Prop := 97 <= N_of_ascii a <= 122 \/ 48 <= N_of_ascii a <= 57.
Definition separator (a : ascii) : Prop := In (N_of_ascii a) [45; 95; 46].
Inductive parts : string -> Prop :=
| part_end a : letter_or_digit a -> parts (String a EmptyString)
| part_next a s : letter_or_digit a -> parts s -> parts (String a s)
| part_sep a b s : letter_or_digit a -> separator b -> parts s -> parts (String a (String b s)).
Definition account_id (s : string) : Prop := parts s /\ (2 <= String.length s <= 64)%nat.

(** the values of a type *)
Definition plain (t : ty) : Prop := match t with TOpt _ => False | _ => True end.
Inductive has : ty -> val -> Prop :=
| has_num L n : n < L -> has (TNum L) (VNum n)
| has_dec L n : n < L -> has (TDec L) (VBig n)
| has_bool b : has TBool (VBool b)
| has_str s : has TStr (VStr s)
| has_acc s : account_id s -> has TAcc (VStr s)
| has_enum names s : In s names -> has (TEnum names) (VStr s)
| has_none t : has (TOpt t) VNone
| has_some t v : plain t -> has t v -> has (TOpt t) (VSome v)
| has_vec t l : List.Forall (has t) l -> has (TVec t) (VList l)
| has_tup ts l : List.Forall2 has ts l -> has (TTup ts) (VList l)
| has_rec fs l : NoDup (map fst fs) -> List.Forall2 (fun f p => f.1 = p.1 /\ has f.2 p.2) fs l -> has (TRec fs) (VRec l).
(** no empty ranges, no option of an option, no field declared twice *)
Fixpoint proper (t : ty) : Prop :=
  match t with
  | TNum L | TDec L => 0 < L
  | TOpt t => plain t /\ proper t
  | TVec t => proper t
  | TTup ts => fold_right (fun t P => proper t /\ P) True ts
  | TRec fs => NoDup (map fst fs) /\ fold_right (fun f P => proper f.2 /\ P) True fs
  | _ => True
  end.
