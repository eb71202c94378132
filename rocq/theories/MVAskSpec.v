(** MVAskSpec.v -- for C102: the questions asked of the voting contract. *)

From Verif Require Export MVBytesSpec MVAsk AskSpec.
Import MetaVote.

(** the texts in a question *)
Definition asked (q : mvq) : list string :=
  match q with
  | QVoter a | QBalance a | QClaimMp a | QClaimSt a | QLocked a | QUnlocking a | QAvailable a | QUsed a | QPositions a | QPosition _ a
  | QByApp a | QByContract a | QByVoter a | QRegistered a | QAirdrop a | QPre a | QDelegating a | QDelegate a | QSignature a => [a]
  | QTotalVotes a o => [a; o]
  | QForObject v a o => [v; a; o]
  | _ => []
  end.
(** the voter whose records a view reads *)
Definition about (q : mvq) : list string :=
  match q with
  | QBalance v | QLocked v | QUnlocking v | QAvailable v | QUsed v | QPositions v | QPosition _ v | QByVoter v | QForObject v _ _ => [v]
  | _ => []
  end.
(** the texts are not longer than u32::MAX, and the hash of the voter is not the hash of another name used *)
Definition usual_question (H : string -> string) (tr : list call) (q : mvq) : Prop :=
  Forall MVBytesSpec.short (asked q) /\ forall v y, In v (about q) -> hashed_in tr y -> H y = H v -> y = v.
(** the same answer, or a panic in both *)
Definition same_answer {A} (a b : res A) : Prop :=
  match a, b with Ok x, Ok y => x = y | Panic _, Panic _ => True | _, _ => False end.
