(** Props_Sized.v -- C88: every number the contract stores, shows or sends fits its Rust type. *)

From Verif Require Import MVSized MVWitness MVRefuted.

(** Whatever is called, with parameters of their types: every stored number is in the range of the type that stores it, and the end
    of every unbonding is a u64 (so that adding the period to its start cannot overflow).  No assumption on hashes, votes or time. *)
Theorem C88_stored :
  forall a s0 tr, mv_new a = Ok s0 -> Forall sized_call tr -> sized (observe (run s0 tr)).
Proof. exact c88_stored. Qed.
Print Assumptions C88_stored.

(** and so is every amount sent *)
Theorem C88_sent :
  forall a s0 tr x s' e, mv_new a = Ok s0 -> Forall sized_call tr -> sized_call x ->
  exec x.1 (run s0 tr) x.2 = Ok (s', e) -> Forall sized_eff e.
Proof. exact c88_sent. Qed.
Print Assumptions C88_sent.

Definition szb (x : call) : bool :=
  let b128 n := n <? 2 ^ 128 in let b16 n := n <? 2 ^ 16 in let b64 n := n <? 2 ^ 64 in
  b64 (c_ts x.1) && b128 (c_deposit x.1) &&
  match x.2 with
  | UpdateRegCost n | ClaimStnear n | Vote n _ _ | Rebalance n _ _ | DelegatedClaim _ n | VoteDelegated _ n _ _ | Withdraw _ n
  | AfterMp _ n _ | AfterSt _ n _ | UnlockPartial _ n | FtOnTransfer _ n _ => b128 n
  | ClaimAndLock n d | RelockFromBalance d n => b128 n && b16 d
  | Relock _ d n => b16 d && b128 n
  | RelockPartial _ m d n => b128 m && b16 d && b128 n
  | ExtendDays _ d | UpdateMinUnbond d | UpdateMaxUnbond d => b16 d
  | SetLockIn t i _ => b64 t && b16 i
  | MigrationCreateLps _ l _ => forallb (fun p => b128 p.1 && b16 p.2) l
  | MirrorLps _ l => forallb (fun p => b16 p.1 && b128 p.2) l
  | _ => true
  end.
Lemma szb_sized x : szb x = true -> sized_call x.
Proof.
  destruct x as [c o]. unfold szb, sized_call. cbn [fst snd]. intros H. apply andb_prop in H as [H Ho]. apply andb_prop in H as [H1 H2].
  apply N.ltb_lt in H1. apply N.ltb_lt in H2. split; [exact H1|]. split; [exact H2|].
  destruct o; cbn [sized_op]; try exact I;
    repeat match goal with H : (_ && _)%bool = true |- _ => apply andb_prop in H as [? ?] end;
    repeat match goal with H : (_ <? _) = true |- _ => apply N.ltb_lt in H end; auto;
    apply List.Forall_forall; intros p Hp; rewrite forallb_forall in Ho; specialize (Ho p Hp); cbn beta in Ho;
    apply andb_prop in Ho as [? ?]; split; apply N.ltb_lt; assumption.
Qed.
Lemma szb_all l : forallb szb l = true -> Forall sized_call l.
Proof. intros H. apply List.Forall_forall. intros x Hx. rewrite forallb_forall in H. apply szb_sized, H, Hx. Qed.
Example C88_example : mv_new ia = Ok s0 /\ Forall sized_call tr_demo /\ along succeeds s0 tr_demo.
Proof. conj; [exact s0_ok|apply szb_all; vmr|apply all_ok_along; exact (proj1 tr_demo_ok)]. Qed.

(** The bounds are reached, and the call that would pass one is refused. *)
Definition big (n : N) : call := claims "stnear.near" (n * 100000000000000000000) [("a.near", n)] 5.
Definition tr_big : list call :=
  [ usr1 "own.near" 1 (UpdateMaxUnbond 65535); usr "own.near" 1 (UpdateRegCost (2 ^ 128 - 1));
    usr "opr.near" 2 (SetLockIn (2 ^ 64 - 1) 65535 None); big 3402823669209384634 ].
Example C88_example_bounds :
  Forall sized_call tr_big /\ along succeeds s0 tr_big /\
  let L := observe (run s0 tr_big) in
  l_max_days L = 2 ^ 16 - 1 /\ l_fee L = 2 ^ 128 - 1 /\ l_hold L = (2 ^ 64 - 1, None, 2 ^ 16 - 1) /\
  2 ^ 128 - l_st_total L < 100000000000000000000 /\ sized_call (big 1) /\
  exists m, exec (big 1).1 (run s0 tr_big) (big 1).2 = Panic m.
Proof. conj; [apply szb_all; vmr|apply all_ok_along; vmr|vmr|vmr|vmr|vmr|apply szb_sized; vmr|eexists; vmr]. Qed.
