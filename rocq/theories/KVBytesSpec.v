(** KVBytesSpec.v -- what the key-value store is, without storage and readers: an owner, an operator and a list of entries. *)

From Verif Require Export AskSpec KVBytes.

Record book := mkBook { bk_owner : string; bk_operator : string; bk_entries : list (string * string) }.

(** a new key goes to the end; a key that is there keeps its place *)
Definition put (l : list (string * string)) (k v : string) : list (string * string) :=
  if existsb (fun e => (e.1 =? k)%string) l then map (fun e => if decide (e.1 = k) then (k, v) else e) l else l ++ [(k, v)].
(** the last entry takes the place of a removed one *)
Fixpoint split_key (l : list (string * string)) (k : string) : option (list (string * string) * list (string * string)) :=
  match l with
  | [] => None
  | e :: l => if decide (e.1 = k) then Some ([], l) else match split_key l k with Some (l1, l2) => Some (e :: l1, l2) | None => None end
  end.
Definition take_out (l : list (string * string)) (k : string) : list (string * string) :=
  match split_key l k with
  | None => l
  | Some (l1, l2) => match rev l2 with [] => l1 | x :: r => l1 ++ x :: rev r end
  end.
Definition value_of (l : list (string * string)) (k : string) : option string := snd <$> find (fun e => (e.1 =? k)%string) l.

(** who may call what *)
Definition allowed (b : book) (c : ctx) (o : kvop) : Prop :=
  match o with
  | KNew _ _ => False
  | KSetOperator _ | KSetOwner _ => c_deposit c = 1 /\ c_pred c = bk_owner b
  | KSet _ _ | KSetAll _ | KRemove _ => c_deposit c = 0 /\ c_pred c = bk_operator b
  end.
Definition after (b : book) (o : kvop) : book :=
  match o with
  | KNew _ _ => b
  | KSetOperator a => mkBook (bk_owner b) a (bk_entries b)
  | KSetOwner a => mkBook a (bk_operator b) (bk_entries b)
  | KSet k v => mkBook (bk_owner b) (bk_operator b) (put (bk_entries b) k v)
  | KSetAll l => mkBook (bk_owner b) (bk_operator b) (fold_left (fun m e => put m e.1 e.2) l (bk_entries b))
  | KRemove k => mkBook (bk_owner b) (bk_operator b) (take_out (bk_entries b) k)
  end.
(** the text a call returns *)
Definition returned (b : book) (o : kvop) : string :=
  match o with KRemove k => or_null quote (value_of (bk_entries b) k) | _ => "" end.
(** the text a view returns *)
Definition shown (b : book) (q : kvq) : string :=
  match q with
  | KQGet k => or_null quote (value_of (bk_entries b) k)
  | KQPage i n => arr (both quote quote) (take (N.to_nat n) (drop (N.to_nat i) (bk_entries b)))
  | KQOwner => quote (bk_owner b)
  | KQOperator => quote (bk_operator b)
  | KQCount => big (N.of_nat (length (bk_entries b)))
  end.
Definition kvq_means (m a : string) (q : kvq) : Prop := kvq_typed q /\ m = (kv_asked q).1 /\ reads_as (kvq_params q) a (kv_asked q).2.
Definition new_means (m a owner operator : string) : Prop :=
  account_id owner /\ account_id operator /\ m = "new" /\
  reads_as [("owner_id", TAcc); ("operator_id", TAcc)] a (obj [("owner_id", quote owner); ("operator_id", quote operator)]).

(** the call [m] with the text [a] is accepted, makes [b'] out of [b] and returns [t] *)
Definition accepts (b : option book) (c : ctx) (m a : string) (b' : option book) (t : string) : Prop :=
  (exists owner operator, b = None /\ new_means m a owner operator /\ c_deposit c = 0 /\ b' = Some (mkBook owner operator []) /\ t = "") \/
  (exists k o, b = Some k /\ kv_means m a o /\ allowed k c o /\ b' = Some (after k o) /\ t = returned k o) \/
  (exists k q, b = Some k /\ kvq_means m a q /\ b' = b /\ t = shown k q).
(** [b]: what the calls of a history have made, [ts]: what they returned (None: refused) *)
Inductive history : list bcall -> option book -> list (option string) -> Prop :=
| hist_nil : history [] None []
| hist_yes tr b ts c m a b' t : history tr b ts -> accepts b c m a b' t -> history (tr ++ [(c, m, a)]) b' (ts ++ [Some t])
| hist_no tr b ts c m a : history tr b ts -> (forall b' t, ~ accepts b c m a b' t) -> history (tr ++ [(c, m, a)]) b (ts ++ [None]).

(** what the contract returned, call by call *)
Fixpoint returns (st : gmap string string) (tr : list bcall) : list (option string) :=
  match tr with
  | [] => []
  | x :: tr => match kb_call st x.1.1 x.1.2 x.2 with Ok (_, t) => Some t | Panic _ => None end :: returns (kb_step st x) tr
  end.

(** The strings stored are shorter than 2^32 bytes and the entries are fewer than 2^64, at all times. *)
Definition short (s : string) : Prop := N.of_nat (String.length s) < 2 ^ 32.
Definition writes (o : kvop) : list (string * string) := match o with KSet k v => [(k, v)] | KSetAll l => l | _ => [] end.
Definition within (tr : list bcall) : Prop :=
  (forall c m a o, In (c, m, a) tr -> kv_means m a o -> Forall (fun e => short e.1 /\ short e.2) (writes o)) /\
  (forall tr1 tr2 b ts, tr = tr1 ++ tr2 -> history tr1 (Some b) ts -> N.of_nat (length (bk_entries b)) < 2 ^ 64).
