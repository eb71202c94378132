(** MVMethods.v -- for C100: the other methods, and one receipt, on the bytes of the storage and on the state of MetaVote.v. *)

From Verif Require Export MVBallots.
From Verif Require Import FlatProofs MigrateProofs WireProofs EntryProofs AskProofs KVBytesProofs MpipSized.
Import MetaVote MVSized FlatProofs BoardBytes BoardStore BoardSim MVBytes MVCells MVStore MVRep MVSim MVPositions MVBallots KVBytesProofs.

Section Methods.
Variables (H : string -> string) (NM : string -> Prop).
Hypothesis H32 : hash32 H.
Hypothesis Hinj : forall x y, NM x -> NM y -> H x = H y -> x = y.
Notation Inv := (MVStore.Inv H NM). Notation bvo := (bvo H). Notation WV := (WV NM).
Notation RX := (RX H NM). Notation After := (After H NM). Notation Hold := (Hold H NM). Notation Pr := (Pr H NM). Notation KP := (KP NM).

Lemma after_mono n m s x : After n s x -> (n <= m)%nat -> After m s x.
Proof using. intros A L. exact (rx_mono H NM _ _ _ _ _ A L). Qed.
(** a change of the root struct only *)
Lemma root_sim n m s s' x f : After n s x -> (n <= m)%nat -> gof (posl s') s' = gof (posl s) s -> f (mroot s) = mroot s' -> sim (After m) (Ok s') (Ok (with_root x f)).
Proof using. intros [E I0] L G F. apply sim_ok. destruct x as [st r]. cbn [xst xr] in *. subst r. split; [exact F|]. cbn [with_root xst]. unfold MVSim.gof in *. rewrite G. exact (inv_mono H NM _ _ _ _ L I0). Qed.
Lemma put_data_sim n m s x a d : After n s x -> cap m -> (n + 1 <= m)%nat -> str_fits a -> str_fits d -> sim (After m) (Ok (s <| user_data := om_set (user_data s) a d |>)) (xb_put_data x a d).
Proof using H32 Hinj.
  intros A cm Le La Ld. destruct x as [st r], A as [Er I0]. cbn [xst xr] in *. subst r. unfold xb_put_data. cbn [xst xr mroot n_associated_user_data].
  destruct (rput_data H NM H32 Hinj _ _ _ a d I0 (cap_le (S n) m cm ltac:(lia)) (conj La Ld)) as (st' & E & I'). cbn [gof gData] in E. rewrite E. cbn [mbind res_bind]. apply sim_ok. apply (after_mono (S n)); [|lia]. split; [reflexivity|]. exact I'.
Qed.
Lemma multi_sim c n m s x l : After n s x -> cap m -> (n + length l <= m)%nat -> Forall (fun p => str_fits p.1 /\ str_fits p.2) l -> sim (After m) (operator_multi_set_airdrop_data c s l) (xb_multi_airdrop c x l).
Proof using H32 Hinj.
  intros A cm Le F. unfold operator_multi_set_airdrop_data, xb_multi_airdrop, assert_operator, xb_operator. rewrite (after_root H NM _ _ _ A). same_. same_.
  revert n s x A Le. induction F as [|[a d] l [La Ld] F IH]; intros n s x A Le; cbn [foldM fold_left length] in *.
  - apply sim_ok. assert (E : s <| user_data := user_data s |> = s) by (destruct s; reflexivity). rewrite E. (eapply after_mono; [exact A|lia]).
  - pose proof (put_data_sim n (n + 1) s x a d A (cap_le (n + 1) m cm ltac:(lia)) ltac:(lia) La Ld) as (x1 & E & A1). cbn [fst snd]. rewrite E. cbn [mbind res_bind].
    specialize (IH (n + 1)%nat _ x1 A1 ltac:(lia)). cbn [user_data set] in IH. exact IH.
Qed.
Lemma migration_sim c n m s x vid l d : After n s x -> cap m -> (n + 2 * length l + 1 <= m)%nat -> str_fits vid -> NM vid -> str_fits (c_pred c) -> match d with Some d => str_fits d | None => True end -> Forall (fun p => fits128 p.1) l ->
  sim (After m) (migration_create_lps c s vid l d) (xb_migration H c x vid l d).
Proof using H32 Hinj.
  intros A cm Le Lv Nv Lc Ld Fl. assert (c0 : cap n) by (eapply cap_le; [exact cm|lia]). unfold migration_create_lps, xb_migration. rewrite (after_root H NM _ _ _ A). same_. same_.
  destruct (h_get H NM H32 n s x vid A c0 Lv Nv) as [E Hh]. rewrite E. cbn [mbind res_bind].
  eapply (sim_bind (Dep H NM (n + 2 * length l)%nat vid)).
  - apply (sim_foldM (fun k a b => Dep H NM k vid a b) (fun sv lp => deposit_locking_position sv.1 (lp.1 / E18) lp.2 vid sv.2) (fun xw lp => xb_deposit xw.1 (lp.1 / E18) lp.2 vid xw.2) 2 (n + 2 * length l)%nat (fun p => fits128 p.1)).
    + intros k [sa va] [xa wa] [a dd] Lk Fa [[Ew Ha] _]. cbn [fst snd] in *. subst wa. replace (k + 2)%nat with (S (S k)) by lia. apply deposit_sim; [exact H32|exact Hinj|exact Ha|eapply cap_le; [exact cm|lia]|].
      unfold fits128 in *. eapply N.le_lt_trans; [|exact Fa]. apply N.div_le_upper_bound; [discriminate|]. unfold E18. lia.
    + exact Fl.
    + lia.
    + split; [split; [reflexivity|exact Hh]|exact A].
  - intros [s1 v1] [x1 w1] _ [_ A1]. cbn [fst snd] in *. destruct d as [d|]; [|apply sim_ok; (eapply after_mono; [exact A1|lia])].
    pose proof (rget_data H NM _ _ _ (c_pred c) (proj2 A1) Lc) as G. cbn [gof gData] in G. rewrite (after_root H NM _ _ _ A1). cbn [mroot n_associated_user_data]. rewrite G. cbn [mbind res_bind].
    destruct (om_get (user_data s1) (c_pred c)); [apply sim_ok; (eapply after_mono; [exact A1|lia])|]. apply (put_data_sim (n + 2 * length l)); [exact A1|exact cm|lia|exact Lc|exact Ld].
Qed.

(** *** evm_delegate.rs *)
Lemma pre_sim c n s x e g : After n s x -> str_fits (c_pred c) -> str_fits g -> sim (After n) (pre_delegate_evm_address c s e g) (xb_pre_delegate c x e g).
Proof using H32 Hinj.
  intros [Er I0] Lc Lg. unfold pre_delegate_evm_address, xb_pre_delegate. same_. same_. apply sim_ok. destruct x as [st r]. cbn [xst xr] in *. subst r. split; [reflexivity|]. exact (rput_pre H NM H32 Hinj n st _ e (c_pred c, g) I0 Lc Lg).
Qed.
Lemma pre_del n s x e : After n s x -> After n (s <| evm_pre := delete e (evm_pre s) |>) (mkX (k_del (xst x) (n_evm_pre_delegation (xr x)) e) (xr x)).
Proof using H32 Hinj. intros [Er I0]. destruct x as [st r]. cbn [xst xr] in *. subst r. split; [reflexivity|]. exact (rdel_pre H NM H32 Hinj n st _ e I0). Qed.
Lemma remove_pre_sim c n s x e : After n s x -> sim (After n) (operator_remove_pre_delegate c s e) (xb_remove_pre c x e).
Proof using H32 Hinj.
  intros A. unfold operator_remove_pre_delegate, xb_remove_pre, assert_operator, xb_operator. rewrite (after_root H NM _ _ _ A). same_. same_. apply sim_ok. rewrite <- (after_root H NM _ _ _ A). apply pre_del. exact A.
Qed.
Lemma del_get n s x a : After n s x -> cap n -> str_fits a -> xb_delegates x a = Ok (om_get (evm_delegates s) a) /\ match om_get (evm_delegates s) a with Some l => Forall str_fits l /\ (length l <= n)%nat | None => True end.
Proof using.
  intros [Er I0] cn La. split; [unfold xb_delegates; rewrite Er; exact (rget_del H NM n _ _ a I0 cn La)|]. destruct (om_get (evm_delegates s) a) as [l|] eqn:E; [|exact Logic.I].
  pose proof (t_all _ _ _ _ _ _ (proj1 (I0 LDel Logic.I))) as F. cbn [gof gDel] in F. exact (proj2 (all_get _ _ _ _ F E)).
Qed.
Lemma del_put n s x a l : After n s x -> cap (S n) -> str_fits a -> Forall str_fits l -> (length l <= S n)%nat -> exists x', xb_put_delegates x a l = Ok x' /\ After (S n) (s <| evm_delegates := om_set (evm_delegates s) a l |>) x'.
Proof using H32 Hinj.
  intros [Er I0] cn La Fl Ll. destruct x as [st r]. cbn [xst xr] in *. subst r. unfold xb_put_delegates. cbn [xst xr mroot n_evm_delegates].
  destruct (rput_del H NM H32 Hinj _ _ _ a l I0 cn (conj La (conj Fl Ll))) as (st' & E & I'). cbn [gof gDel] in E. rewrite E. cbn [mbind res_bind]. eexists. split; [reflexivity|]. split; [reflexivity|exact I'].
Qed.
Lemma del_del n s x a : After n s x -> cap n -> str_fits a -> exists x', xb_del_delegates x a = Ok x' /\ After n (s <| evm_delegates := om_remove (evm_delegates s) a |>) x'.
Proof using H32 Hinj.
  intros [Er I0] cn La. destruct x as [st r]. cbn [xst xr] in *. subst r. unfold xb_del_delegates. cbn [xst xr mroot n_evm_delegates].
  destruct (rdel_del H NM H32 Hinj _ _ _ a I0 cn La) as (st' & E & I'). cbn [gof gDel] in E. rewrite E. cbn [mbind res_bind]. eexists. split; [reflexivity|]. split; [reflexivity|exact I'].
Qed.
Lemma confirm_to_sim n s x e a g : After n s x -> cap (S n) -> str_fits e -> str_fits a -> str_fits g ->
  sim (After (S n)) (Ok (s <| evm_delegates := om_set (evm_delegates s) a (default [] (om_get (evm_delegates s) a) ++ [e]) |> <| evm_sigs := <[e := (a, g)]> (evm_sigs s) |>)) (xb_confirm_to x e a g).
Proof using H32 Hinj.
  intros A cn Le La Lg. unfold xb_confirm_to. destruct (del_get n s x a A (cap_le n (S n) cn ltac:(lia)) La) as [E F]. rewrite E. cbn [mbind res_bind].
  destruct (del_put n s x a (default [] (om_get (evm_delegates s) a) ++ [e]) A cn La) as (x1 & E1 & [Er I1]).
  - destruct (om_get (evm_delegates s) a); cbn [default]; [destruct F; apply Forall_app; auto|repeat constructor; exact Le].
  - rewrite app_length. destruct (om_get (evm_delegates s) a) as [l|]; [destruct F as [_ F]; cbn; lia|cbn; lia].
  - rewrite E1. cbn [mbind res_bind]. apply sim_ok. destruct x1 as [st r]. cbn [xst xr] in *. subst r. split; [reflexivity|]. exact (rput_sig H NM H32 Hinj (S n) st _ e (a, g) I1 La Lg).
Qed.
Lemma retain_fits e l n : Forall str_fits l -> (length l <= n)%nat -> Forall str_fits (retain_ne e l) /\ (length (retain_ne e l) <= n)%nat.
Proof using.
  unfold retain_ne. intros F. revert n. induction F as [|a l La F IH]; intros n L; cbn [List.filter length] in *; [split; [constructor|lia]|]. destruct n as [|n]; [lia|]. destruct (IH n) as [A B]; [lia|]. destruct (negb _); cbn [length]; (split; [try constructor; assumption|lia]).
Qed.
Lemma confirm_sim c n s x e : After n s x -> cap (S (S n)) -> str_fits e -> sim (After (S (S n))) (operator_confirm_delegated c s e) (xb_confirm c x e).
Proof using H32 Hinj.
  intros A cn Le. pose proof (cap_le n (S (S n)) cn ltac:(lia)) as c0. pose proof (cap_le (S n) (S (S n)) cn ltac:(lia)) as c1. unfold operator_confirm_delegated, xb_confirm, assert_operator, xb_operator. pose proof (after_root H NM _ _ _ A) as Er. rewrite Er. same_. same_.
  pose proof (proj2 A LPre Logic.I) as Rp. cbn [Q gof gPre] in Rp. cbn [mroot n_evm_pre_delegation]. rewrite (lrep_get _ _ _ e Rp). cbn [mbind res_bind]. destruct (evm_pre s !! e) as [[a g]|] eqn:Ep; [|apply sim_ok; (eapply after_mono; [exact A|lia])].
  pose proof (proj2 Rp _ _ Ep) as [La Lg]. cbn [fst snd] in La, Lg. cbv zeta. pose proof (pre_del n s x e A) as A1. rewrite Er in A1. cbn [mroot n_evm_pre_delegation] in A1. fold (mroot s) in A1.
  set (s1 := s <| evm_pre := delete e (evm_pre s) |>) in *. set (x1 := mkX (k_del (xst x) (sk0 11) e) (mroot s)) in *. change (n_evm_delegation_signatures (xr x1)) with (sk0 10).
  pose proof (proj2 A1 LSig Logic.I) as Rs. cbn [Q gof gSig] in Rs. rewrite (lrep_get _ _ _ e Rs). cbn [mbind res_bind]. destruct (evm_sigs s1 !! e) as [[old g']|] eqn:Es.
  - destruct (bool_decide (old = a)); [apply sim_ok; (eapply after_mono; [exact A1|lia])|]. pose proof (proj2 Rs _ _ Es) as [Lo _]. cbn [fst] in Lo. destruct (del_get n s1 x1 old A1 c0 Lo) as [E F]. rewrite E. cbn [mbind res_bind].
    destruct (om_get (evm_delegates s1) old) as [l|]; [|cbn; eauto]. cbn [expect mbind res_bind]. destruct (retain_fits e l n (proj1 F) (proj2 F)) as [F1 L1].
    destruct (retain_ne e l) as [|b l'].
    + destruct (del_del n s1 x1 old A1 c0 Lo) as (x2 & E2 & A2). rewrite E2. cbn [mbind res_bind]. exact (confirm_to_sim (S n) _ x2 e a g (after_mono _ _ _ _ A2 (Nat.le_succ_diag_r n)) cn Le La Lg).
    + destruct (del_put n s1 x1 old (b :: l') A1 c1 Lo F1 ltac:(lia)) as (x2 & E2 & A2). rewrite E2. cbn [mbind res_bind]. exact (confirm_to_sim (S n) _ x2 e a g A2 cn Le La Lg).
  - exact (confirm_to_sim (S n) _ x1 e a g (after_mono _ _ _ _ A1 (Nat.le_succ_diag_r n)) cn Le La Lg).
Qed.
Lemma verify_same c n s x e : After n s x -> cap n -> str_fits (c_pred c) -> xb_verify c x e = verify_delegate c s e.
Proof using. intros A cn L. unfold xb_verify, verify_delegate. rewrite (proj1 (del_get n s x _ A cn L)). reflexivity. Qed.
Lemma verify_is c s e y : verify_delegate c s e = Ok y -> y = pseudo_near_address e.
Proof using. unfold verify_delegate. destruct (require _ _); [|discriminate]. cbn. intros [= <-]. reflexivity. Qed.
Lemma delegated_claim_sim c n s x e amount : After n s x -> cap (S n) -> str_fits (c_pred c) -> str_fits (pseudo_near_address e) ->
  sim (fun a b => After (S n) a.1 b.1 /\ a.2 = b.2) (delegated_claim_stnear c s e amount) (xb_delegated_claim c x e amount).
Proof using H32 Hinj.
  intros A cn L Lp. unfold delegated_claim_stnear, xb_delegated_claim. rewrite (verify_same c n s x e A (cap_le n (S n) cn ltac:(lia)) L). same. apply verify_is in Eu. subst u. eapply sim_bind; [apply (sub_st_sim H NM H32 Hinj n); assumption|].
  intros s1 x1 _ A1. apply sim_ok. split; [exact A1|]. cbn [snd]. rewrite (after_root H NM _ _ _ A1). reflexivity.
Qed.
Lemma vote_delegated_sim c n s x e p a b : After n s x -> cap (S (S (S n))) -> str_fits (c_pred c) -> str_fits (pseudo_near_address e) -> KP (pseudo_near_address e) a -> str_fits b ->
  sim (After (S (S (S n)))) (vote_delegated c s e p a b) (_ ← non_payable c; v ← xb_verify c x e; xb_vote H x v p a b).
Proof using H32 Hinj.
  intros A cn L Lp K Lb. unfold vote_delegated. same_. rewrite (verify_same c n s x e A (cap_le n (S (S (S n))) cn ltac:(lia)) L). same. apply verify_is in Eu. subst u. apply vote_sim; assumption.
Qed.
Lemma unvote_delegated_sim c n s x e a b : After n s x -> cap (S n) -> str_fits (c_pred c) -> str_fits (pseudo_near_address e) -> KP (pseudo_near_address e) a -> str_fits b ->
  sim (After (S n)) (unvote_delegated c s e a b) (_ ← non_payable c; v ← xb_verify c x e; xb_unvote H c x v a b).
Proof using H32 Hinj.
  intros A cn L Lp K Lb. unfold unvote_delegated. same_. rewrite (verify_same c n s x e A (cap_le n (S n) cn ltac:(lia)) L). same. apply verify_is in Eu. subst u. apply unvote_sim; assumption.
Qed.
Lemma remove_delegated_sim c n s x e : After n s x -> cap (S n) -> str_fits (c_pred c) -> sim (After (S n)) (remove_delegated_evm_address c s e) (xb_remove_delegated c x e).
Proof using H32 Hinj.
  intros A cn L. unfold remove_delegated_evm_address, xb_remove_delegated. pose proof (after_root H NM _ _ _ A) as Er. rewrite Er. same_. pose proof (proj2 A LSig Logic.I) as Rs. cbn [Q gof gSig] in Rs. cbn [mroot n_evm_delegation_signatures]. rewrite (lrep_get _ _ _ e Rs). cbn [mbind res_bind].
  destruct (evm_sigs s !! e) as [[a g]|]; [|cbn; eauto]. destruct (bool_decide (a = c_pred c)); [|cbn; eauto]. cbv zeta.
  assert (A1 : After n (s <| evm_sigs := delete e (evm_sigs s) |>) (mkX (k_del (xst x) (sk0 10) e) (mroot s))). { split; [reflexivity|]. exact (rdel_sig H NM H32 Hinj n _ _ e (proj2 A)). }
  destruct (del_get n _ _ (c_pred c) A1 (cap_le n (S n) cn ltac:(lia)) L) as [E F]. fold (mroot s). rewrite E. cbn [mbind res_bind]. cbn [evm_delegates set] in *.
  destruct (om_get (evm_delegates s) (c_pred c)) as [l|]; [|cbn; eauto]. cbn [expect mbind res_bind]. destruct (retain_fits e l n (proj1 F) (proj2 F)) as [F1 L1].
  destruct (del_put n _ _ (c_pred c) (retain_ne e l) A1 cn L F1 ltac:(lia)) as (x2 & E2 & A2). cbn [sim]. exists x2. split; [exact E2|exact A2].
Qed.

(** *** deposit.rs *)
Lemma distribute_sim c n m s x total l : After n s x -> cap m -> (n + length l <= m)%nat -> Forall (fun p => str_fits p.1) l -> sim (After m) (distribute_for_claims c s total l) (xb_distribute c x total l).
Proof using H32 Hinj.
  intros A cm Le Fl. unfold distribute_for_claims, xb_distribute. rewrite (after_root H NM _ _ _ A). cbn [mroot n_mpdao_token_contract_address n_stnear_token_contract_address].
  eapply (sim_bind (fun a b => After m a.1 b.1 /\ a.2 = b.2)); [|intros [s2 d] [x2 d'] _ [A2 E]; cbn [fst snd] in *; subst d'; same_; apply sim_ok; exact A2].
  destruct (bool_decide (c_pred c = mpdao_addr s)); [|destruct (bool_decide (c_pred c = stnear_addr s)); [|cbn; eauto]].
  - eapply (sim_bind (fun a b => After (n + 1 * length l)%nat a.1 b.1 /\ a.2 = b.2)).
    + apply (sim_foldM (fun k a b => After k a.1 b.1 /\ a.2 = b.2) (fun sd item => a ← mul128 item.2 1000000; s' ← add_claimable_mpdao sd.1 item.1 a; d' ← add128 sd.2 a; Ok (s', d'))
        (fun xd item => a ← mul128 item.2 1000000; x' ← xb_add_mp xd.1 item.1 a; d' ← add128 xd.2 a; Ok (x', d')) 1 (n + 1 * length l)%nat (fun p => str_fits p.1)); [|exact Fl|lia|split; [exact A|reflexivity]].
      intros k [sa d] [xa d'] [w y] Lk Lw [Aa E]. cbn [fst snd] in *. subst d'. same. replace (k + 1)%nat with (S k) by lia. eapply sim_bind; [apply (add_mp_sim H NM H32 Hinj k); [exact Aa|eapply cap_le; [exact cm|lia]|exact Lw]|].
      intros s' x' _ A'. same. apply sim_ok. split; [exact A'|reflexivity].
    + intros [s1 d] [x1 d'] _ [A1 E]. cbn [fst snd] in *. subst d'. rewrite (after_root H NM _ _ _ A1). same. apply sim_ok. split; [|reflexivity]. cbn [fst]. apply (after_mono (n + 1 * length l)); [|lia]. destruct A1 as [E1 I1]. split; [cbn [with_root xr]; rewrite E1; reflexivity|exact I1].
  - eapply (sim_bind (fun a b => After (n + 1 * length l)%nat a.1 b.1 /\ a.2 = b.2)).
    + apply (sim_foldM (fun k a b => After k a.1 b.1 /\ a.2 = b.2) (fun sd item => a ← mul128 item.2 E20; s' ← add_claimable_stnear sd.1 item.1 a; d' ← add128 sd.2 a; Ok (s', d'))
        (fun xd item => a ← mul128 item.2 E20; x' ← xb_add_st xd.1 item.1 a; d' ← add128 xd.2 a; Ok (x', d')) 1 (n + 1 * length l)%nat (fun p => str_fits p.1)); [|exact Fl|lia|split; [exact A|reflexivity]].
      intros k [sa d] [xa d'] [w y] Lk Lw [Aa E]. cbn [fst snd] in *. subst d'. same. replace (k + 1)%nat with (S k) by lia. eapply sim_bind; [apply (add_st_sim H NM H32 Hinj k); [exact Aa|eapply cap_le; [exact cm|lia]|exact Lw]|].
      intros s' x' _ A'. same. apply sim_ok. split; [exact A'|reflexivity].
    + intros [s1 d] [x1 d'] _ [A1 E]. cbn [fst snd] in *. subst d'. rewrite (after_root H NM _ _ _ A1). same. apply sim_ok. split; [|reflexivity]. cbn [fst]. apply (after_mono (n + 1 * length l)); [|lia]. destruct A1 as [E1 I1]. split; [cbn [with_root xr]; rewrite E1; reflexivity|exact I1].
Qed.
Definition claims_of (c : ctx) (msg : string) : option (list (string * N)) := c_json_claims c (String.substring 11 (String.length msg - 11) msg).
Lemma on_transfer_sim c n m s x sd amount msg : After n s x -> cap m -> (n + 2 + match claims_of c msg with Some l => length l | None => 0 end <= m)%nat -> fits128 amount -> str_fits sd -> NM sd ->
  match claims_of c msg with Some l => Forall (fun p => str_fits p.1) l | None => True end -> match c_json_pair c msg with Some p => str_fits p.1 /\ NM p.1 | None => True end ->
  sim (After m) ('(s', _) ← ft_on_transfer c s sd amount msg; Ok s') (xb_on_transfer H c x sd amount msg).
Proof using H32 Hinj.
  intros A cm Le La Ls Ns Fc Fp. assert (c0 : cap n) by (eapply cap_le; [exact cm|lia]). unfold ft_on_transfer, xb_on_transfer, assert_min_deposit_amount, xb_min_deposit. rewrite (after_root H NM _ _ _ A). cbn [mroot n_mpdao_token_contract_address n_owner_id n_min_deposit_amount].
  destruct (non_payable c) as [[]|]; [|cbn; eauto]. cbn [mbind res_bind]. destruct (msg_is_for_claims msg) as [[|]|]; [| |cbn; eauto]; cbn [mbind res_bind].
  - unfold claims_of in *. destruct (c_json_claims c _) as [l|]; [|cbn; eauto]. cbn [expect mbind res_bind]. destruct (require _ _) as [[]|]; [|cbn; eauto]. cbn [mbind res_bind].
    pose proof (distribute_sim c n m s x amount l A cm ltac:(lia) Fc) as S0. destruct (distribute_for_claims c s amount l) as [s'|]; cbn [sim mbind res_bind] in *; exact S0.
  - destruct (require (bool_decide (c_pred c = mpdao_addr s)) _) as [[]|]; [|cbn; eauto]. cbn [mbind res_bind]. destruct (msg_is_pair msg) as [ip|]; [|cbn; eauto]. cbn [mbind res_bind].
    assert (T : forall v d, str_fits v -> NM v ->
      sim (After m) ('(s', _) ← (_ ← require (min_deposit s <=? amount)%N "Minimum deposit amount"; '(s', _) ← deposit_locking_position s amount d v (get_voter s v); Ok (s', 0%N)); Ok s')
        (_ ← require (min_deposit s <=? amount)%N "Minimum deposit amount"; w ← xb_get H x v; '(x', _) ← xb_deposit x amount d v w; Ok x')).
    { intros v d Lv Nv. destruct (require _ _) as [[]|]; [|cbn; eauto]. cbn [mbind res_bind]. destruct (h_get H NM H32 n s x v A c0 Lv Nv) as [E Hh]. rewrite E. cbn [mbind res_bind].
      pose proof (deposit_after H NM H32 Hinj n m v s (get_voter s v) x amount d Hh cm ltac:(lia) La) as S0. destruct (deposit_locking_position s amount d v (get_voter s v)) as [[s2 v2]|]; cbn [sim mbind res_bind] in *; exact S0. }
    destruct ip.
    + destruct (c_json_pair c msg) as [[v d]|]; [|cbn; eauto]. cbn [expect mbind res_bind fst snd]. destruct (require (d <? U16_SIZE)%N _) as [[]|]; [|cbn; eauto]. cbn [mbind res_bind]. destruct (require (bool_decide (sd = owner_id s)) _) as [[]|]; [|cbn; eauto]. cbn [mbind res_bind]. destruct Fp as [Lv Nv]. exact (T v d Lv Nv).
    + destruct (parse_u16 msg) as [d|]; [|cbn; eauto]. cbn [expect mbind res_bind]. exact (T sd d Ls Ns).
Qed.

(** ** One receipt *)
Definition good (c : ctx) (o : op) : Prop :=
  str_fits (c_pred c) /\ NM (c_pred c) /\
  match o with
  | SetStnear a | SetOperator a | SetOwner a | SetPrevGov a | UpdateAirdrop a => str_fits a
  | OpMultiSetAirdrop l => Forall (fun p => str_fits p.1 /\ str_fits p.2) l
  | Vote _ a b | Rebalance _ a b | Unvote a b => KP (c_pred c) a /\ str_fits b
  | SetLockIn _ _ (Some a) => str_fits a
  | MigrationCreateLps v _ d => str_fits v /\ NM v /\ match d with Some d => str_fits d | None => True end
  | MirrorLps e _ => str_fits (pseudo_near_address e) /\ NM (pseudo_near_address e)
  | PreDelegate _ g => str_fits g
  | OpConfirm e => str_fits e
  | DelegatedClaim e _ => str_fits (pseudo_near_address e)
  | VoteDelegated e _ a b | UnvoteDelegated e a b => str_fits (pseudo_near_address e) /\ KP (pseudo_near_address e) a /\ str_fits b
  | AfterMp v _ _ => str_fits v /\ NM v
  | AfterSt v _ _ => str_fits v
  | FtOnTransfer s _ m => str_fits s /\ NM s /\ match claims_of c m with Some l => Forall (fun p => str_fits p.1) l | None => True end /\
      match c_json_pair c m with Some p => str_fits p.1 /\ NM p.1 | None => True end
  | _ => True
  end.
Definition weight (c : ctx) (o : op) : nat :=
  3 + match o with
      | OpMultiSetAirdrop l => length l
      | MigrationCreateLps _ l _ => 2 * length l
      | MirrorLps _ l => length l
      | FtOnTransfer _ _ m => match claims_of c m with Some l => length l | None => 0 end
      | _ => 0
      end.
Definition Res (m : nat) (a : state * list eff) (b : bx * list eff) : Prop := After m a.1 b.1 /\ a.2 = b.2.
Lemma quiet_sim m r y : sim (After m) r y -> sim (Res m) (noeff r) (quiet y).
Proof using. unfold noeff, quiet. destruct r as [s|e]; cbn [sim mbind res_bind]; [|intros (e' & ->); cbn; eauto]. intros (x & -> & A). eexists. split; [reflexivity|]. split; [exact A|reflexivity]. Qed.
Lemma up k m r y : sim (After k) r y -> (k <= m)%nat -> sim (After m) r y.
Proof using. intros S0 L. eapply sim_imp; [exact S0|]. intros a b _ A. exact (after_mono _ _ _ _ A L). Qed.
Lemma up2 k m r y : sim (fun a b => After k a.1 b.1 /\ a.2 = b.2) r y -> (k <= m)%nat -> sim (Res m) r y.
Proof using. intros S0 L. eapply sim_imp; [exact S0|]. intros a b _ [A E]. split; [exact (after_mono _ _ _ _ A L)|exact E]. Qed.
Ltac fin := first [assumption|match goal with cm : cap ?m, Le : (_ <= ?m)%nat |- cap _ => apply (cap_le _ m cm); lia end|lia].
Ltac setter A := unfold xb_set, xb_owner, assert_only_owner; rewrite (after_root H NM _ _ _ A); same_; same_; eapply root_sim; [exact A|lia|reflexivity|reflexivity].
Lemma exec_sim self c n m s x o : After n s x -> cap m -> (n + weight c o <= m)%nat -> self = self_id s -> good c o -> sized_call (c, o) -> sim (Res m) (exec c s o) (xb_exec H self c x o).
Proof using H32 Hinj.
  intros A cm Le Es (Lc & Nc & G) (Ts & _ & Sz). assert (c0 : cap n) by (eapply cap_le; [exact cm|lia]). assert (Tn : fits64 (now_ms c)) by (apply now_okay; exact Ts). cbn [snd] in Sz.
  destruct o; unfold weight in Le; cbn [exec xb_exec sized_op] in *; unfold set_stnear_contract, set_operator_id, set_owner_id, update_min_unbond_period, update_max_unbond_period, set_prev_gov_contract.
  1,2,3: apply quiet_sim; setter A.
  - apply quiet_sim. unfold update_registration_cost, xb_owner, assert_only_owner. rewrite (after_root H NM _ _ _ A). same_. same_. eapply root_sim; [exact A|lia|reflexivity|reflexivity].
  - apply quiet_sim. unfold update_airdrop_user_data, xb_airdrop. rewrite (after_root H NM _ _ _ A). same_. apply (put_data_sim n); fin.
  - apply quiet_sim. apply (multi_sim c n); fin.
  - apply quiet_sim. apply (claim_and_lock_sim H NM H32 Hinj n); [fin..|exact (proj1 Sz)].
  - eapply up2; [eapply (claim_stnear_sim H NM H32 Hinj n); fin|lia].
  - apply quiet_sim. same_. eapply up; [eapply (unlock_sim H NM H32 Hinj n); fin|lia].
  - apply quiet_sim. same_. eapply up; [eapply (unlock_partial_sim H NM H32 Hinj n); fin|lia].
  - apply quiet_sim. eapply up; [eapply (extend_sim H NM H32 Hinj n); fin|lia].
  - apply quiet_sim. eapply up; [eapply (relock_sim H NM H32 Hinj n); fin|lia].
  - apply quiet_sim. eapply up; [eapply (relock_partial_sim H NM H32 Hinj n); fin|lia].
  - apply quiet_sim. eapply up; [eapply (relock_balance_sim H NM H32 Hinj n); [fin..|exact (proj1 Sz)]|lia].
  - apply quiet_sim. eapply up; [eapply (clear_positions_sim H NM H32 Hinj n); fin|lia].
  - apply quiet_sim. unfold vote. same_. eapply up; [destruct G; eapply (vote_sim H NM H32 Hinj n); fin|lia].
  - apply quiet_sim. eapply up; [destruct G; eapply (rebalance_sim H NM H32 Hinj n); fin|lia].
  - apply quiet_sim. unfold unvote. same_. eapply up; [destruct G; eapply (unvote_sim H NM H32 Hinj n); fin|lia].
  - apply quiet_sim. unfold set_lock_in_vote_filters, xb_lock_in, xb_operator, assert_operator. rewrite (after_root H NM _ _ _ A). same_. same_. eapply root_sim; [exact A|lia|reflexivity|reflexivity].
  - apply quiet_sim. setter A.
  - apply quiet_sim. setter A.
  - apply quiet_sim. setter A.
  - apply quiet_sim. destruct G as (G1 & G2 & G3). apply (migration_sim c n); [fin..|]. eapply Forall_impl; [exact Sz|]. intros p [P _]. exact P.
  - apply quiet_sim. destruct G as (G1 & G2). apply (mirror_sim H NM H32 Hinj n); [fin..|]. eapply Forall_impl; [exact Sz|]. intros p [_ P]. exact P.
  - apply quiet_sim. eapply up; [eapply (pre_sim c n); fin|lia].
  - apply quiet_sim. eapply up; [eapply (remove_pre_sim c n); fin|lia].
  - apply quiet_sim. eapply up; [eapply (confirm_sim c n); fin|lia].
  - eapply up2; [eapply (delegated_claim_sim c n); fin|lia].
  - apply quiet_sim. destruct G as (G1 & G2 & G3). eapply up; [eapply (vote_delegated_sim c n); fin|lia].
  - apply quiet_sim. destruct G as (G1 & G2 & G3). eapply up; [eapply (unvote_delegated_sim c n); fin|lia].
  - apply quiet_sim. eapply up; [eapply (remove_delegated_sim c n); fin|lia].
  - unfold withdraw. eapply up2; [eapply (withdraw_sim H NM H32 Hinj n); fin|lia].
  - eapply up2; [eapply (withdraw_all_sim H NM H32 Hinj n); fin|lia].
  - apply quiet_sim. destruct G as (G1 & G2). eapply up; [eapply (after_mp_sim H NM H32 Hinj n); fin|lia].
  - apply quiet_sim. eapply up; [eapply (after_st_sim H NM H32 Hinj n); fin|lia].
  - destruct G as (G1 & G2 & G3 & G4). pose proof (on_transfer_sim c n m s x sender amount msg A cm ltac:(lia) Sz G1 G2 G3 G4) as S0. unfold quiet. destruct (ft_on_transfer c s sender amount msg) as [[s' u]|]; cbn [sim mbind res_bind] in *; [destruct S0 as (x' & -> & A'); eexists; split; [reflexivity|]; split; [exact A'|reflexivity]|destruct S0 as (e' & ->); cbn; eauto].
Qed.
End Methods.
