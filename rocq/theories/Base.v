(** Base.v -- error monad, checked machine arithmetic, call context, string helpers.

    Shared by the models of all contracts in /repo. *)

From Coq Require Export NArith Lia String Ascii.
From stdpp Require Export base numbers list gmap strings pretty.
From RecordUpdate Require Export RecordUpdate.

Global Open Scope N_scope.
Global Open Scope list_scope.

(** ** Results: a Rust panic is an explicit value.
    NEAR discards every state change of a receipt that panics, so [Panic]
    carries no state. *)
Inductive res (A : Type) : Type :=
| Ok (a : A)
| Panic (msg : string).
Arguments Ok {A} a.
Arguments Panic {A} msg.

Global Instance res_ret : MRet res := fun _ a => Ok a.
Global Instance res_bind : MBind res := fun _ _ f m =>
  match m with Ok a => f a | Panic e => Panic e end.
Global Instance res_fmap : FMap res := fun _ _ f m =>
  match m with Ok a => Ok (f a) | Panic e => Panic e end.

(** [assert!] / [require!] of Rust. *)
Definition require (b : bool) (msg : string) : res unit :=
  if b then Ok tt else Panic msg.

(** [Option::expect] / [Option::unwrap] of Rust. *)
Definition expect {A} (o : option A) (msg : string) : res A :=
  match o with Some a => Ok a | None => Panic msg end.

(** Fold with early exit, models a Rust [for] loop whose body may panic. *)
Fixpoint foldM {A S} (f : S -> A -> res S) (l : list A) (s : S) : res S :=
  match l with
  | [] => Ok s
  | a :: l' => match f s a with Ok s' => foldM f l' s' | Panic e => Panic e end
  end.

(** ** Checked machine arithmetic.
    The workspace Cargo.toml release profile sets [overflow-checks = true]
    (/repo/Cargo.toml), hence an overflowing [+], [-], [*] panics. *)
Definition U128_SIZE : N := 340282366920938463463374607431768211456.
Definition U64_SIZE : N := 18446744073709551616.
Definition U32_SIZE : N := 4294967296.
Definition U16_SIZE : N := 65536.
Definition U8_SIZE : N := 256.

Definition add128 (a b : N) : res N :=
  if a + b <? U128_SIZE then Ok (a + b) else Panic "attempt to add with overflow".
Definition sub128 (a b : N) : res N :=
  if b <=? a then Ok (a - b) else Panic "attempt to subtract with overflow".
Definition mul128 (a b : N) : res N :=
  if a * b <? U128_SIZE then Ok (a * b) else Panic "attempt to multiply with overflow".
Definition add64 (a b : N) : res N :=
  if a + b <? U64_SIZE then Ok (a + b) else Panic "attempt to add with overflow".

(** [iter().sum::<u128>()]: checked left fold. *)
Definition sum128 (l : list N) : res N := foldM add128 l 0.

(** Plain sum, used by specifications. *)
Definition sumN (l : list N) : N := fold_right N.add 0 l.
Definition sum_by {A} (f : A -> N) (l : list A) : N := sumN (map f l).
Global Arguments sumN : simpl never.
Global Arguments sum_by : simpl never.

(** ** Call context (near_sdk::env).
    [c_json_pair] and [c_json_claims] stand for [serde_json::from_str] on the two
    message formats of ft_on_transfer; they are arbitrary functions. *)
Record ctx := mkCtx {
  c_pred : string;     (* env::predecessor_account_id() *)
  c_signer : string;   (* env::signer_account_id() *)
  c_deposit : N;       (* env::attached_deposit() *)
  c_ts : N;            (* env::block_timestamp(), nanoseconds *)
  c_json_pair : string -> option (string * N);
  c_json_claims : string -> option (list (string * N));
}.

(** get_current_epoch_millis: meta-vote-contract/src/utils.rs:4-7;
    env::block_timestamp_ms() is the same division. *)
Definition now_ms (c : ctx) : N := c_ts c / 1000000.

(** near_sdk::assert_one_yocto. *)
Definition assert_one_yocto (c : ctx) : res unit :=
  require (c_deposit c =? 1) "Requires attached deposit of exactly 1 yoctoNEAR".

(** near_bindgen wrapper of a [&mut self] method without #[payable]. *)
Definition non_payable (c : ctx) : res unit :=
  require (c_deposit c =? 0) "Method doesn't accept deposit".

(** near_bindgen wrapper of a #[private] method. *)
Definition assert_private (c : ctx) (self : string) : res unit :=
  require (bool_decide (c_pred c = self)) "Method is private".

(** ** Strings *)

(** str::contains *)
Definition str_contains (pat s : string) : bool :=
  match String.index 0 pat s with Some _ => true | None => false end.

Definition is_digit (a : ascii) : bool :=
  let n := N_of_ascii a in (48 <=? n) && (n <=? 57).

(** Decimal digits to number, [None] on a non-digit or on overflow of [limit].
    Rust reports overflow as soon as an intermediate value does not fit. *)
Fixpoint parse_digits (limit acc : N) (s : string) : option N :=
  match s with
  | EmptyString => Some acc
  | String a s' =>
      if is_digit a then
        let acc' := acc * 10 + (N_of_ascii a - 48) in
        if acc' <? limit then parse_digits limit acc' s' else None
      else None
  end.

(** str::parse::<u16>: optional leading '+', at least one digit. *)
Definition parse_u16 (s : string) : option N :=
  match s with
  | EmptyString => None
  | String a s' =>
      if (N_of_ascii a =? 43) then
        match s' with EmptyString => None | _ => parse_digits U16_SIZE 0 s' end
      else parse_digits U16_SIZE 0 s
  end.

(** str::is_char_boundary for 0 < i <= len: slicing elsewhere panics. *)
Definition char_boundary (i : nat) (s : string) : bool :=
  match String.get i s with
  | None => true
  | Some a => let n := N_of_ascii a in negb ((128 <=? n) && (n <? 192))
  end.

(** ** Proof support *)

Lemma bind_Ok {A B} (f : A -> res B) (m : res A) (r : B) :
  mbind f m = Ok r <-> exists a, m = Ok a /\ f a = Ok r.
Proof.
  split.
  - destruct m as [a|e]; simpl; intros H; [eauto|discriminate].
  - intros (a & -> & H); exact H.
Qed.

Lemma require_Ok b m u : require b m = Ok u <-> b = true.
Proof. unfold require; destruct b, u; split; congruence. Qed.

Lemma expect_Ok {A} (o : option A) m a : expect o m = Ok a <-> o = Some a.
Proof. unfold expect; destruct o; split; congruence. Qed.

Lemma add128_Ok a b r : add128 a b = Ok r <-> r = a + b /\ a + b < U128_SIZE.
Proof.
  unfold add128. destruct (N.ltb_spec (a + b) U128_SIZE); split; intros H';
    try discriminate.
  - injection H' as <-; auto.
  - destruct H' as [-> _]; reflexivity.
  - destruct H' as [_ H']; lia.
Qed.

Lemma sub128_Ok a b r : sub128 a b = Ok r <-> r = a - b /\ b <= a.
Proof.
  unfold sub128. destruct (N.leb_spec b a); split; intros H';
    try discriminate.
  - injection H' as <-; auto.
  - destruct H' as [-> _]; reflexivity.
  - destruct H' as [_ H']; lia.
Qed.

Lemma mul128_Ok a b r : mul128 a b = Ok r <-> r = a * b /\ a * b < U128_SIZE.
Proof.
  unfold mul128. destruct (N.ltb_spec (a * b) U128_SIZE); split; intros H';
    try discriminate.
  - injection H' as <-; auto.
  - destruct H' as [-> _]; reflexivity.
  - destruct H' as [_ H']; lia.
Qed.

Lemma foldM_app {A S} (f : S -> A -> res S) l1 l2 s :
  foldM f (l1 ++ l2) s = (s' ← foldM f l1 s; foldM f l2 s').
Proof.
  revert s; induction l1 as [|a l1 IH]; intros s; [reflexivity|].
  simpl. destruct (f s a); [apply IH|reflexivity].
Qed.

(** Invariant rule for loops. *)
Lemma foldM_inv {A S} (P : S -> Prop) (f : S -> A -> res S) l s s' :
  (forall s a s', In a l -> P s -> f s a = Ok s' -> P s') ->
  P s -> foldM f l s = Ok s' -> P s'.
Proof.
  intros Hf; revert s; induction l as [|a l IH]; intros s Hs H; simpl in H.
  - inversion H; subst; exact Hs.
  - destruct (f s a) as [s1|] eqn:E; [|discriminate].
    eapply IH; [ | | exact H].
    + intros; eapply Hf; eauto; right; assumption.
    + eapply Hf; [left; reflexivity| exact Hs | exact E].
Qed.

Lemma sumN_app l1 l2 : sumN (l1 ++ l2) = sumN l1 + sumN l2.
Proof. induction l1; simpl; [reflexivity|]. unfold sumN in *; simpl; lia. Qed.

Lemma sum_by_app {A} (f : A -> N) l1 l2 : sum_by f (l1 ++ l2) = sum_by f l1 + sum_by f l2.
Proof. unfold sum_by. rewrite map_app. apply sumN_app. Qed.

Lemma sum_by_cons {A} (f : A -> N) a l : sum_by f (a :: l) = f a + sum_by f l.
Proof. reflexivity. Qed.

Lemma sum_by_nil {A} (f : A -> N) : sum_by f [] = 0.
Proof. reflexivity. Qed.

Lemma sum_by_perm {A} (f : A -> N) l1 l2 : Permutation l1 l2 -> sum_by f l1 = sum_by f l2.
Proof.
  induction 1; rewrite ?sum_by_cons; lia.
Qed.

Lemma sum_by_ext {A} (f g : A -> N) l :
  (forall a, In a l -> f a = g a) -> sum_by f l = sum_by g l.
Proof.
  induction l as [|a l IH]; intros H; [reflexivity|]. rewrite !sum_by_cons.
  rewrite H by (left; reflexivity). rewrite IH; [reflexivity|].
  intros; apply H; right; assumption.
Qed.

Lemma sum_by_le {A} (f g : A -> N) l :
  (forall a, In a l -> f a <= g a) -> sum_by f l <= sum_by g l.
Proof.
  induction l as [|a l IH]; intros H; [rewrite !sum_by_nil; lia|]. rewrite !sum_by_cons.
  pose proof (H a (or_introl eq_refl)).
  enough (sum_by f l <= sum_by g l) by lia.
  apply IH; intros; apply H; right; assumption.
Qed.

Lemma sum_by_add {A} (f g : A -> N) l :
  sum_by (fun a => f a + g a) l = sum_by f l + sum_by g l.
Proof. induction l; rewrite ?sum_by_nil, ?sum_by_cons; lia. Qed.

Lemma sum_by_zero {A} (f : A -> N) l : (forall a, In a l -> f a = 0) -> sum_by f l = 0.
Proof.
  induction l as [|a l IH]; intros H; [reflexivity|]. rewrite sum_by_cons.
  rewrite H by (left; reflexivity). rewrite IH; [reflexivity|].
  intros; apply H; right; assumption.
Qed.

Lemma sum_by_ge_elem {A} (f : A -> N) l a : In a l -> f a <= sum_by f l.
Proof.
  induction l as [|b l IH]; [intros []|]. rewrite sum_by_cons.
  intros [->|H]; [lia|]. specialize (IH H); lia.
Qed.

Lemma sum_by_insert {A} (f : A -> N) (l : list A) i x y :
  l !! i = Some x -> sum_by f (<[i:=y]> l) + f x = sum_by f l + f y.
Proof.
  revert i; induction l as [|a l IH]; intros i; [rewrite lookup_nil; discriminate|].
  destruct i; simpl.
  - intros [= ->]. rewrite !sum_by_cons. lia.
  - intros H. rewrite !sum_by_cons. specialize (IH i H). lia.
Qed.

Lemma sum_by_delete {A} (f : A -> N) (l : list A) i x :
  l !! i = Some x -> sum_by f (delete i l) + f x = sum_by f l.
Proof.
  revert i; induction l as [|a l IH]; intros i; [rewrite lookup_nil; discriminate|].
  destruct i; simpl.
  - intros [= ->]. rewrite !sum_by_cons. lia.
  - intros H. rewrite !sum_by_cons. specialize (IH i H). lia.
Qed.

Lemma sum128_Ok l r : sum128 l = Ok r <-> r = sumN l /\ sumN l < U128_SIZE.
Proof.
  unfold sum128.
  enough (forall acc, acc < U128_SIZE ->
    (foldM add128 l acc = Ok r <-> r = acc + sumN l /\ acc + sumN l < U128_SIZE)) as H.
  { rewrite (H 0); [|reflexivity]. rewrite N.add_0_l. reflexivity. }
  induction l as [|a l IH]; intros acc Hacc; simpl.
  - unfold sumN; simpl. rewrite N.add_0_r. split; [intros [= ->]; auto|intros [-> _]; auto].
  - unfold add128 at 1. change (sumN (a :: l)) with (a + sumN l).
    destruct (N.ltb_spec (acc + a) U128_SIZE).
    + rewrite IH by assumption. rewrite N.add_assoc. reflexivity.
    + split; [discriminate|]. intros [_ H']. lia.
Qed.

(** Inversion of monadic computations that succeeded. *)
Ltac rinv1 :=
  match goal with
  | H : mbind _ _ = Ok _ |- _ =>
      let x := fresh "x" in let E := fresh "E" in
      apply bind_Ok in H; destruct H as (x & E & H); cbn beta in H
  | H : require _ _ = Ok ?u |- _ => apply require_Ok in H; try (clear u)
  | H : expect _ _ = Ok _ |- _ => apply expect_Ok in H
  | H : Ok _ = Ok _ |- _ => injection H as H; try subst
  | H : Panic _ = Ok _ |- _ => discriminate H
  | H : mret _ = Ok _ |- _ => injection H as H; try subst
  | H : add128 _ _ = Ok _ |- _ => apply add128_Ok in H; destruct H as [-> H]
  | H : sub128 _ _ = Ok _ |- _ => apply sub128_Ok in H; destruct H as [-> H]
  | H : mul128 _ _ = Ok _ |- _ => apply mul128_Ok in H; destruct H as [-> H]
  | H : context [let '_ := ?p in _] |- _ => is_var p; match type of p with prod _ _ => idtac end; destruct p
  | H : (_ && _)%bool = true |- _ => apply andb_prop in H; destruct H
  | H : bool_decide _ = true |- _ => apply bool_decide_eq_true in H
  end.
Ltac rinv := repeat rinv1.

Ltac nb :=
  repeat match goal with
  | H : (_ <? _) = true |- _ => apply N.ltb_lt in H
  | H : (_ <? _) = false |- _ => apply N.ltb_ge in H
  | H : (_ <=? _) = true |- _ => apply N.leb_le in H
  | H : (_ <=? _) = false |- _ => apply N.leb_gt in H
  | H : (_ =? _) = true |- _ => apply N.eqb_eq in H
  | H : (_ =? _) = false |- _ => apply N.eqb_neq in H
  | H : negb _ = true |- _ => apply negb_true_iff in H
  | H : negb _ = false |- _ => apply negb_false_iff in H
  end.
