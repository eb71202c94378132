(** WorldLog.v -- the lines written by meta-vote and by the two tokens, together (C82). *)

From Verif Require Export WorldProofs MVLog TokenLog.

(** ** What the contracts write in an event of World.v *)
Definition wlogs (w : world) (ev : wev) : list line :=
  let mv := self_id (w_mv w) in
  match ev with
  | EMv x => if is_contract w (c_pred x.1) then [] else logs_of (w_mv w) x
  | ETok _ _ => []
  | ERun i c fail ans =>
      match w_pend w !! i with
      | Some (PDeliver k sender receiver n msg) =>
          if bool_decide (receiver = mv) then
            if fail then [] else logs_of (w_mv w) (called_by c (t_self (tok_of w k)) 0, FtOnTransfer sender n msg)
          else []
      | Some (PBack cb source n ok) =>
          if fail then []
          else logs_of (w_mv w) (called_by c mv 0, match cb with Mp => AfterMp source n ok | St => AfterSt source n ok end)
      | _ => []
      end
  end.
Definition wtlogs (k : tk) (w : world) (ev : wev) : list tline :=
  match ev with
  | EMv _ => []
  | ETok j x => if decide (j = k) then if is_contract w (c_pred x.1) then [] else tlogs_of (tok_of w j) x else []
  | ERun i c fail ans =>
      match w_pend w !! i with
      | Some (PResolve j sender receiver n result) =>
          if fail then []
          else if decide (j = k) then tlogs_of (tok_of w j) (called_by c (t_self (tok_of w j)) 0, TResolve sender receiver n result) else []
      | Some (PPay cb token source receiver n) =>
          match (if bool_decide (token = t_self (w_mp w)) then Some Mp
                 else if bool_decide (token = t_self (w_st w)) then Some St else None) with
          | Some j =>
              if fail then []
              else if decide (j = k) then tlogs_of (tok_of w j) (called_by c (self_id (w_mv w)) 1, TTransfer receiver n) else []
          | None => []
          end
      | _ => []
      end
  end.
Fixpoint wlog (w : world) (evs : list wev) : list line :=
  match evs with [] => [] | ev :: r => wlogs w ev ++ wlog (wstep w ev) r end.
Fixpoint wtlog (k : tk) (w : world) (evs : list wev) : list tline :=
  match evs with [] => [] | ev :: r => wtlogs k w ev ++ wtlog k (wstep w ev) r end.

(** ** Specification: sums over lines; [sel] selects accounts *)
(** meta-vote says that tokens were sent *)
Definition says_sent (k : tk) (sel : string -> bool) (l : line) : N :=
  match k, l with Mp, LSent n v | St, LStSent v n => if sel v then n else 0 | _, _ => 0 end.
(** the token says that it moved tokens away from [mv] on its order *)
Definition says_moved (mv : string) (sel : string -> bool) (l : tline) : N :=
  match l with EMove x y n => if bool_decide (x = mv) && sel y then n else 0 | _ => 0 end.
(** a transfer was made, its report is still to come *)
Definition unreported (k : tk) (sel : string -> bool) (p : pend) : N :=
  match p with PBack j v n true => if bool_decide (j = k) && sel v then n else 0 | _ => 0 end.
(** its report failed, for instance for lack of gas *)
Definition lost_in (k : tk) (sel : string -> bool) (w : world) (ev : wev) : N :=
  match ev with
  | ERun i _ true _ => match w_pend w !! i with Some p => unreported k sel p | None => 0 end
  | _ => 0
  end.
Fixpoint lost (k : tk) (sel : string -> bool) (w : world) (evs : list wev) : N :=
  match evs with [] => 0 | ev :: r => lost_in k sel w ev + lost k sel (wstep w ev) r end.
(** meta-vote says that tokens were deposited *)
Definition says_deposit (l : line) : N := match l with LDeposit n _ => n | _ => 0 end.

(** ** Proofs *)
Lemma no_sent c s o k sel : (forall v n ok, o <> AfterMp v n ok /\ o <> AfterSt v n ok) -> sum_by (says_sent k sel) (logs c s o) = 0.
Proof.
  intros Ho. apply sum_by_zero. intros l Hl.
  assert (K : match l with LSent _ _ | LStSent _ _ => False | _ => True end).
  { destruct o; cbn [logs] in Hl; try contradiction Hl; try (destruct Hl as [<-|[]]; exact I).
    - unfold unlock_partial_log in Hl. destruct (_ !! _); [destruct (_ =? _)|]; try contradiction Hl; (destruct Hl as [<-|[]]; exact I).
    - unfold rebalance_log in Hl. destruct (_ =? _); [destruct Hl as [<-|[]]; exact I|]. destruct (mbind _ _) as [[x|]|]; [destruct (_ <? _)|..]; try contradiction Hl; (destruct Hl as [<-|[]]; exact I).
    - destruct (mirror_log s _ _) as [ls|] eqn:E; [|contradiction Hl]. unfold mirror_log in E. cbv zeta in E. repeat (apply bind_Ok in E as (? & _ & E)). injection E as <-.
      destruct Hl as [<-|Hl]; [exact I|]. apply in_map_iff in Hl as (? & <- & _). exact I.
    - unfold withdraw_log in Hl. destruct (match l0 with [] => _ | _ => _ end); [|contradiction Hl]. destruct (voter_is_empty _); [destruct Hl as [<-|[]]; exact I|contradiction Hl].
    - unfold withdraw_log in Hl. destruct (match unlocked_indexes _ _ with [] => _ | _ => _ end); [|contradiction Hl]. destruct (voter_is_empty _); [destruct Hl as [<-|[]]; exact I|contradiction Hl].
    - destruct (Ho vid amount ok) as [N1 _]. contradiction N1; reflexivity.
    - destruct (Ho source amount ok) as [_ N2]. contradiction N2; reflexivity.
    - unfold deposit_log in Hl. destruct (msg_is_for_claims msg) as [[]|]; [contradiction Hl|..];
        (destruct (msg_is_pair msg) as [[]|]; [destruct (c_json_pair c msg)|..]; try contradiction Hl; (destruct Hl as [<-|[]]; exact I)). }
  destruct k, l; cbn [says_sent]; try reflexivity; contradiction K.
Qed.

Lemma no_sent_out w x k sel : self_id (w_mv w) <> c_pred x.1 -> sum_by (says_sent k sel) (logs_of (w_mv w) x) = 0.
Proof.
  intros Hc. unfold logs_of. destruct (exec x.1 (w_mv w) x.2) as [[s' e]|] eqn:H; [|reflexivity].
  apply no_sent. intros v n ok. destruct x as [c o]. cbn [fst snd] in *. split; intros ->.
  - cbn [exec] in H. apply noeff_Ok in H as [H _]. unfold after_transfer_mpdao_callback in H. apply bind_Ok in H as (? & H & _).
    apply require_Ok, bool_decide_eq_true in H. congruence.
  - cbn [exec] in H. apply noeff_Ok in H as [H _]. unfold after_transfer_stnear_callback in H. apply bind_Ok in H as (? & H & _).
    apply require_Ok, bool_decide_eq_true in H. congruence.
Qed.
Lemma no_move t x mv sel : mv <> c_pred x.1 -> sum_by (says_moved mv sel) (tlogs_of t x) = 0.
Proof.
  intros Hc. unfold tlogs_of. destruct (t_exec x.1 t x.2) as [[t' e]|]; [|reflexivity].
  destruct x as [c o]. cbn [fst snd] in *. destruct o; cbn [tlogs]; try reflexivity.
  - rewrite sum_by_cons, sum_by_nil. cbn [says_moved]. rewrite bool_decide_false by congruence. reflexivity.
  - rewrite sum_by_cons, sum_by_nil. cbn [says_moved]. rewrite bool_decide_false by congruence. reflexivity.
  - unfold resolve_log. destruct (0 <? _); [|reflexivity]. destruct (0 <? _); [|reflexivity]. destruct (om_get _ _); reflexivity.
  - destruct (om_get _ _); reflexivity.
  - destruct (om_get _ _); reflexivity.
Qed.
Lemma after_ok c s cb v n : c_pred c = self_id s -> c_deposit c = 0 ->
  exec c s (match cb with Mp => AfterMp v n true | St => AfterSt v n true end) = Ok (s, []).
Proof.
  intros H1 H2. destruct cb; cbn [exec]; unfold noeff, after_transfer_mpdao_callback, after_transfer_stnear_callback, assert_private, non_payable;
    rewrite H1, H2, bool_decide_true by reflexivity; reflexivity.
Qed.
Lemma unreported_tok k sel j e : sum_by (unreported k sel) (map (tpend_of j) e) = 0.
Proof. apply sum_by_zero. intros p Hin. apply in_map_iff in Hin as ([] & <- & _). reflexivity. Qed.
Lemma unreported_eff k sel s e : sum_by (unreported k sel) (map (pend_of s) e) = 0.
Proof. apply sum_by_zero. intros p Hin. apply in_map_iff in Hin as ([] & <- & _); reflexivity. Qed.
Lemma pend_set_tok w k t : w_pend (set_tok w k t) = w_pend w.
Proof. destruct k; reflexivity. Qed.
Lemma pend_app w ps : w_pend (w <| w_pend := w_pend w ++ ps |>) = w_pend w ++ ps.
Proof. reflexivity. Qed.

Section Sent.
Context (k : tk) (sel : string -> bool).
Context (Hsel : k = Mp \/ forall v, sel v = true).

Lemma sent_step w ev : WI k w ->
  sum_by (says_sent k sel) (wlogs w ev) + sum_by (unreported k sel) (w_pend (wstep w ev)) + lost_in k sel w ev
  = sum_by (unreported k sel) (w_pend w) + sum_by (says_moved (self_id (w_mv w)) sel) (wtlogs k w ev).
Proof.
  intros HI. destruct ev as [x|j x|i c fail ans]; cbn [wstep wlogs wtlogs lost_in].
  - destruct (is_contract w (c_pred x.1)) eqn:Hc; [rewrite !sum_by_nil; lia|].
    pose proof (not_contract _ _ Hc) as (N1 & _). rewrite no_sent_out by congruence. rewrite sum_by_nil.
    destruct (exec x.1 (w_mv w) x.2) as [[s' e]|]; [|lia]. cbn [w_pend set].
    rewrite sum_by_app, unreported_eff. lia.
  - destruct (is_contract w (c_pred x.1)) eqn:Hc; [destruct (decide (j = k)); rewrite !sum_by_nil; lia|].
    pose proof (not_contract _ _ Hc) as (N1 & _).
    assert (E : sum_by (says_moved (self_id (w_mv w)) sel) (if decide (j = k) then tlogs_of (tok_of w j) x else []) = 0).
    { case_decide; [apply no_move; congruence|reflexivity]. }
    rewrite E, sum_by_nil. destruct (t_exec x.1 (tok_of w j) x.2) as [[t' e]|]; [|lia]. cbn [w_pend set].
    rewrite sum_by_app, unreported_tok. lia.
  - destruct (w_pend w !! i) as [p|] eqn:Hp; [|destruct fail; rewrite !sum_by_nil; lia].
    pose proof (sum_by_delete (unreported k sel) _ _ _ Hp) as Hd.
    set (w1 := w <| w_pend := delete i (w_pend w) |>).
    assert (E1 : w_pend w1 = delete i (w_pend w)) by reflexivity.
    assert (E2 : w_mv w1 = w_mv w) by reflexivity. assert (E3 : forall j, tok_of w1 j = tok_of w j) by (intros []; reflexivity).
    assert (E4 : t_self (w_mp w1) = t_self (w_mp w) /\ t_self (w_st w1) = t_self (w_st w)) by (split; reflexivity). destruct E4 as [E4 E5].
    rewrite <- E1 in Hd. clearbody w1.
    destruct p as [j sn r n m|j sn r n u|cb tok src rcv n|cb src n ok]; cbn [run_pend unreported] in *; rewrite ?E2, ?E3, ?E4, ?E5, ?sum_by_nil.
    + assert (Z : (if fail then 0 else 0) = 0) by (destruct fail; reflexivity). rewrite ?Z.
      assert (N1 : self_id (w_mv w) <> t_self (tok_of w j)) by (destruct (wi_ids _ _ HI) as (_ & I2 & I3 & _); destruct j; assumption).
      destruct (bool_decide (r = self_id (w_mv w))).
      * destruct fail; [cbn [w_pend set]; rewrite sum_by_app, sum_by_cons, !sum_by_nil; cbn [unreported]; lia|].
        rewrite no_sent_out by exact N1.
        rewrite ?E3. destruct (ft_on_transfer _ _ _ _ _) as [[s' un]|]; cbn [w_pend set]; rewrite sum_by_app, sum_by_cons, !sum_by_nil; cbn [unreported]; lia.
      * cbn [w_pend set]; rewrite sum_by_app, sum_by_cons, !sum_by_nil; cbn [unreported]; lia.
    + destruct fail; [rewrite ?sum_by_nil; lia|]. rewrite pend_set_tok.
      assert (E : sum_by (says_moved (self_id (w_mv w)) sel)
         (if decide (j = k) then tlogs_of (tok_of w j) (called_by c (t_self (tok_of w j)) 0, TResolve sn r n u) else []) = 0).
      { case_decide; [|reflexivity]. apply no_move. cbn [called_by c_pred fst]. destruct (wi_ids _ _ HI) as (_ & I2 & I3 & _). destruct j; assumption. }
      rewrite E. lia.
    + pose proof (pok_at _ _ _ _ HI Hp) as (P1 & P2 & P3).
      set (jo := if bool_decide (tok = t_self (w_mp w)) then Some Mp else if bool_decide (tok = t_self (w_st w)) then Some St else None).
      assert (Hj : match jo with Some j => tok = t_self (tok_of w j) | None => tok <> t_self (tok_of w k) end).
      { unfold jo. case_bool_decide as B1; [assumption|]. case_bool_decide as B2; [assumption|destruct k; assumption]. }
      assert (Z : (if fail then 0 else 0) = 0) by (destruct fail; reflexivity).
      destruct jo as [j|].
      * destruct fail; [cbn [w_pend set]; rewrite sum_by_app, sum_by_cons, !sum_by_nil; cbn [unreported]; lia|].
        unfold tlogs_of. cbn [fst snd]. rewrite ?E3.
        destruct (t_exec (called_by c (self_id (w_mv w)) 1) (tok_of w j) (TTransfer rcv n)) as [[t' e]|] eqn:H.
        -- change (w_pend (set_tok w1 j t' <| w_pend := w_pend w1 ++ [PBack cb src n true] |>)) with (w_pend w1 ++ [PBack cb src n true]).
           cbn [w_pend set]. rewrite sum_by_app, sum_by_cons, !sum_by_nil. cbn [unreported].
           destruct (decide (j = k)) as [->|Hjk].
           ++ apply P3 in Hj as ->. rewrite bool_decide_true by reflexivity. cbn [andb tlogs]. rewrite sum_by_cons, sum_by_nil.
              cbn [says_moved called_by c_pred]. rewrite bool_decide_true by reflexivity. cbn [andb].
              assert (sel src = sel rcv) as ->.
              { destruct Hsel as [->|Hs]; [destruct P2 as (_ & -> & _); [reflexivity|reflexivity]|rewrite !Hs; reflexivity]. }
              lia.
           ++ assert (cb <> k). { intros ->. apply Hjk. destruct P3 as [_ P3]. rewrite (P3 eq_refl) in Hj.
                destruct (wi_ids _ _ HI) as (_ & _ & _ & I4). destruct j, k; cbn [tok_of] in Hj; congruence. }
              rewrite bool_decide_false by assumption. cbn [andb]. rewrite sum_by_nil. lia.
        -- cbn [w_pend set]. rewrite sum_by_app, sum_by_cons, !sum_by_nil. cbn [unreported]. destruct (decide (j = k)); rewrite ?sum_by_nil; lia.
      * rewrite Z, sum_by_nil. cbn [w_pend set]. rewrite sum_by_app, sum_by_cons, sum_by_nil. cbn [unreported].
        assert (cb <> k) by (intros ->; apply Hj, P3; reflexivity). rewrite bool_decide_false by assumption. cbn [andb]. destruct (negb fail); lia.
    + destruct fail; rewrite ?sum_by_nil; [lia|]. cbn [w_pend set]. destruct ok.
      * unfold logs_of. cbn [fst snd].
        assert (Ea : exec (called_by c (self_id (w_mv w)) 0) (w_mv w) (match cb with Mp => AfterMp src n true | St => AfterSt src n true end) = Ok (w_mv w, []))
          by (apply after_ok; reflexivity).
        rewrite Ea. destruct cb; cbn [logs]; rewrite sum_by_cons, sum_by_nil; destruct k; cbn [says_sent];
          rewrite ?bool_decide_true by reflexivity; rewrite ?bool_decide_false by congruence; cbn [andb] in *; try lia.
        all: rewrite ?(bool_decide_true (Mp = Mp)) in * by reflexivity; rewrite ?(bool_decide_true (St = St)) in * by reflexivity;
          rewrite ?(bool_decide_false (Mp = St)) in * by congruence; rewrite ?(bool_decide_false (St = Mp)) in * by congruence; cbn [andb] in *; lia.
      * assert (E : sum_by (says_sent k sel) (logs_of (w_mv w) (called_by c (self_id (w_mv w)) 0, match cb with Mp => AfterMp src n false | St => AfterSt src n false end)) = 0).
        { unfold logs_of. destruct (exec _ _ _); [|reflexivity]. destruct cb, k; reflexivity. }
        rewrite E. lia.
Qed.
End Sent.

Lemma no_deposit_line c s o : (forall x n m, o <> FtOnTransfer x n m) -> sum_by says_deposit (logs c s o) = 0.
Proof.
  intros Ho. apply sum_by_zero. intros l Hl.
  assert (K : match l with LDeposit _ _ => False | _ => True end).
  { destruct o; cbn [logs] in Hl; try contradiction Hl; try (destruct Hl as [<-|[]]; exact I).
    - unfold unlock_partial_log in Hl. destruct (_ !! _); [destruct (_ =? _)|]; try contradiction Hl; (destruct Hl as [<-|[]]; exact I).
    - unfold rebalance_log in Hl. destruct (_ =? _); [destruct Hl as [<-|[]]; exact I|]. destruct (mbind _ _) as [[x|]|]; [destruct (_ <? _)|..]; try contradiction Hl; (destruct Hl as [<-|[]]; exact I).
    - destruct (mirror_log s _ _) as [ls|] eqn:E; [|contradiction Hl]. unfold mirror_log in E. cbv zeta in E. repeat (apply bind_Ok in E as (? & _ & E)). injection E as <-.
      destruct Hl as [<-|Hl]; [exact I|]. apply in_map_iff in Hl as (? & <- & _). exact I.
    - unfold withdraw_log in Hl. destruct (match l0 with [] => _ | _ => _ end); [|contradiction Hl]. destruct (voter_is_empty _); [destruct Hl as [<-|[]]; exact I|contradiction Hl].
    - unfold withdraw_log in Hl. destruct (match unlocked_indexes _ _ with [] => _ | _ => _ end); [|contradiction Hl]. destruct (voter_is_empty _); [destruct Hl as [<-|[]]; exact I|contradiction Hl].
    - destruct Hl as [<-|[]]. destruct ok; exact I.
    - destruct Hl as [<-|[]]. destruct ok; exact I.
    - contradiction (Ho sender amount msg eq_refl). }
  destruct l; try reflexivity; contradiction K.
Qed.
Lemma deposit_amount c s x n m : sum_by says_deposit (logs_of s (c, FtOnTransfer x n m)) <= n.
Proof.
  unfold logs_of. destruct (exec _ _ _); [|rewrite sum_by_nil; lia]. cbn [fst snd logs]. unfold deposit_log.
  destruct (msg_is_for_claims m) as [[]|]; [rewrite sum_by_nil; lia|..];
    (destruct (msg_is_pair m) as [[]|]; [destruct (c_json_pair c m)|..]; rewrite ?sum_by_cons, ?sum_by_nil; cbn [says_deposit]; lia).
Qed.
Lemma deposit_pred c s x n m : c_pred c <> mpdao_addr s -> sum_by says_deposit (logs_of s (c, FtOnTransfer x n m)) = 0.
Proof.
  intros Hc. unfold logs_of. cbn [fst snd]. destruct (exec c s (FtOnTransfer x n m)) as [[s' e]|] eqn:H; [|reflexivity].
  cbn [exec] in H. apply bind_Ok in H as ([s1 u] & H & _). unfold ft_on_transfer in H.
  apply bind_Ok in H as (? & _ & H). apply bind_Ok in H as (fc & Hfc & H). cbn [logs]. unfold deposit_log. rewrite Hfc.
  destruct fc; [reflexivity|]. apply bind_Ok in H as (? & H & _). apply require_Ok, bool_decide_eq_true in H. contradiction (Hc H).
Qed.
Lemma no_deposit_out w x : c_pred x.1 <> mpdao_addr (w_mv w) -> sum_by says_deposit (logs_of (w_mv w) x) = 0.
Proof.
  intros Hc. destruct x as [c o]. destruct o; try (unfold logs_of; destruct (exec _ _ _); [|reflexivity]; apply no_deposit_line; intros; discriminate).
  apply deposit_pred. exact Hc.
Qed.
Lemma no_deposit_back s c cb v n ok :
  sum_by says_deposit (logs_of s (c, match cb with Mp => AfterMp v n ok | St => AfterSt v n ok end)) = 0.
Proof. unfold logs_of. destruct (exec _ _ _); [|reflexivity]. destruct cb, ok; reflexivity. Qed.
Lemma in_effs mv k s e : sum_by (incoming mv k) (map (pend_of s) e) = 0.
Proof. apply sum_by_zero. intros p Hin. apply in_map_iff in Hin as ([] & <- & _); reflexivity. Qed.
Lemma self_same w ev : WI Mp w -> good Mp (t_self (w_mp w)) ev -> self_id (w_mv (wstep w ev)) = self_id (w_mv w).
Proof. intros HI Hg. destruct (wstep_move Mp w ev HI Hg) as (_ & H & _). unfold wconst in H. congruence. Qed.

Definition anyone : string -> bool := fun _ => true.
Lemma deposit_step w ev : WI Mp w -> good Mp (t_self (w_mp w)) ev ->
  sum_by says_deposit (wlogs w ev) + in_flight Mp (wstep w ev) + funds Mp w
  <= in_flight Mp w + funds Mp (wstep w ev) + sum_by (says_moved (self_id (w_mv w)) anyone) (wtlogs Mp w ev).
Proof.
  intros HI Hg. pose proof (self_same w ev HI Hg) as Hself. unfold in_flight, funds. rewrite Hself. clear Hself. set (mv := self_id (w_mv w)). cbn [tok_of].
  destruct (wi_ids _ _ HI) as (I1 & I2 & I3 & I4).
  destruct ev as [x|j x|i c fail ans]; cbn [wstep wlogs wtlogs].
  - destruct (is_contract w (c_pred x.1)) eqn:Hc; [rewrite !sum_by_nil; lia|].
    pose proof (not_contract _ _ Hc) as (N1 & N2 & _). rewrite no_deposit_out by congruence. rewrite sum_by_nil.
    destruct (exec x.1 (w_mv w) x.2) as [[s' e]|]; [|lia]. cbn [w_pend w_mp set]. rewrite sum_by_app, in_effs. lia.
  - destruct (is_contract w (c_pred x.1)) eqn:Hc; [destruct (decide (j = Mp)); rewrite !sum_by_nil; lia|].
    rewrite sum_by_nil. destruct (t_exec x.1 (tok_of w j) x.2) as [[t' e]|] eqn:H; [|lia]. cbn [w_pend set].
    rewrite sum_by_app. pose proof (not_tok _ j _ Hc) as Ht. apply not_contract in Hc as (Hc & _).
    destruct (t_exec_spec _ _ _ _ (TI_of Mp j w HI) H) as (HT & Hp & _ & Hb & Hs & _). specialize (Hb mv). destruct x as [c o]. cbn [fst snd] in *.
    destruct j; cbn [tok_of set_tok w_mp set] in *.
    + enough (sum_by (incoming mv Mp) (map (tpend_of Mp) e) + debit (w_mp w) (c, o) mv <= credit (w_mp w) (c, o) mv) by lia.
      unfold debit, credit, t_permitted in *. cbn [fst snd] in *.
      destruct o; cbn [t_exec] in H; try (apply bind_Ok in H as (t1 & H & E); injection E as <- <-);
        try (rewrite ?decide_False by exact Hc); cbn [map]; rewrite ?sum_by_nil; try lia.
      * rewrite sum_by_cons, sum_by_nil. cbn [tpend_of]. unfold incoming. repeat case_decide; try lia; exfalso; tauto.
      * destruct Hp as [Hp _]. contradiction (Ht Hp).
    + enough (sum_by (incoming mv Mp) (map (tpend_of St) e) = 0) by lia.
      apply sum_by_zero. intros p Hin. apply in_map_iff in Hin as ([] & <- & _). cbn [tpend_of]. unfold incoming.
      rewrite decide_False by (intros [? _]; discriminate). lia.
  - destruct (w_pend w !! i) as [p|] eqn:Hp; [|rewrite !sum_by_nil; lia].
    pose proof (sum_by_delete (incoming mv Mp) _ _ _ Hp) as Hd.
    set (w1 := w <| w_pend := delete i (w_pend w) |>).
    assert (E1 : w_pend w1 = delete i (w_pend w)) by reflexivity.
    assert (E2 : w_mv w1 = w_mv w) by reflexivity. assert (E3 : forall j, tok_of w1 j = tok_of w j) by (intros []; reflexivity).
    assert (E4 : w_mp w1 = w_mp w /\ w_st w1 = w_st w) by (split; reflexivity). destruct E4 as [E4 E5].
    rewrite <- E1 in Hd. clearbody w1.
    destruct p as [j sn r n m|j sn r n u|cb tok src rcv n|cb src n ok]; cbn [run_pend]; rewrite ?E2, ?E3; fold mv; rewrite ?sum_by_nil.
    + assert (Hany : forall a, in_flight Mp (w1 <| w_pend := w_pend w1 ++ [PResolve j sn r n a] |>) <= sum_by (incoming mv Mp) (w_pend w)).
      { intros a. unfold in_flight. cbn [w_mv w_pend set]. rewrite E2. fold mv. rewrite sum_by_app, sum_by_cons, sum_by_nil. cbn [incoming] in *.
        case_decide; destruct a; lia. }
      unfold in_flight in Hany. cbn [w_mv w_pend set] in Hany. rewrite E2 in Hany. fold mv in Hany.
      case_bool_decide as Hr.
      * destruct fail; [specialize (Hany None); rewrite sum_by_nil; cbn [w_pend w_mp set]; rewrite E4; lia|].
        destruct (ft_on_transfer _ _ _ _ _) as [[s' un]|] eqn:Hf.
        -- pose proof (c37_consumed _ _ _ _ _ _ _ Hf) as ->. cbn [w_pend w_mp set]. rewrite E4, sum_by_app, sum_by_cons, sum_by_nil.
           destruct j; cbn [tok_of] in *.
           ++ pose proof (deposit_amount (called_by c (t_self (w_mp w)) 0) (w_mv w) sn n m) as Hn. cbn [incoming] in *.
              rewrite decide_True in * by auto. lia.
           ++ rewrite deposit_pred by (cbn [called_by c_pred]; congruence). cbn [incoming] in *.
              rewrite decide_False in * by (intros [? _]; discriminate). lia.
        -- specialize (Hany None). cbn [w_pend w_mp set]. rewrite E4.
           assert (Z : sum_by says_deposit (logs_of (w_mv w) (called_by c (t_self (tok_of w j)) 0, FtOnTransfer sn n m)) = 0).
           { unfold logs_of. cbn [fst snd exec]. rewrite Hf. reflexivity. }
           rewrite Z. lia.
      * specialize (Hany ans). rewrite sum_by_nil. cbn [w_pend w_mp set]. rewrite E4. lia.
    + destruct fail; [rewrite ?sum_by_nil, E4; lia|]. rewrite pend_set_tok. unfold t_step. cbn [fst snd]. rewrite ?E3.
      set (c0 := called_by c (t_self (tok_of w j)) 0). destruct (t_exec c0 (tok_of w j) (TResolve sn r n u)) as [[t' e]|] eqn:H.
      2:{ assert (w_mp (set_tok w1 j (tok_of w j)) = w_mp w) as -> by (destruct j; cbn; auto). lia. }
      destruct (t_exec_spec (c0, TResolve sn r n u) _ _ _ (TI_of Mp j w HI) H) as (_ & _ & _ & Hb & _ & _).
      specialize (Hb mv). unfold debit, credit in Hb. cbn [fst snd] in Hb. unfold refunded in Hb.
      destruct j; cbn [set_tok tok_of w_mp set] in *; [|rewrite E4; lia]. cbn [incoming] in Hd.
      destruct (decide (r = mv)) as [Hr|Hr]; [rewrite decide_True in Hd by auto; lia|]. lia.
    + pose proof (pok_at _ _ _ _ HI Hp) as (P1 & P2 & P3). cbn [incoming] in Hd. rewrite ?E4, ?E5.
      set (jo := if bool_decide (tok = t_self (w_mp w)) then Some Mp else if bool_decide (tok = t_self (w_st w)) then Some St else None).
      destruct jo as [j|].
      * destruct fail; [cbn [w_pend w_mp set]; rewrite E4, sum_by_app, sum_by_cons, !sum_by_nil; cbn [incoming]; lia|].
        unfold tlogs_of. cbn [fst snd]. rewrite ?E3.
        destruct (t_exec (called_by c mv 1) (tok_of w j) (TTransfer rcv n)) as [[t' e]|] eqn:H.
        -- cbn [w_pend set]. rewrite sum_by_app, sum_by_cons, !sum_by_nil. cbn [incoming].
           destruct (t_exec_spec (called_by c mv 1, TTransfer rcv n) _ _ _ (TI_of Mp j w HI) H) as (_ & _ & _ & Hb & _ & _).
           specialize (Hb mv). unfold debit, credit in Hb. cbn [fst snd called_by c_pred] in Hb. rewrite decide_True in Hb by reflexivity.
           rewrite decide_False in Hb by exact P1.
           destruct j; cbn [set_tok tok_of w_mp set] in *.
           ++ rewrite decide_True by reflexivity. cbn [tlogs]. rewrite sum_by_cons, sum_by_nil. cbn [says_moved called_by c_pred].
              rewrite bool_decide_true by reflexivity. cbn [andb anyone]. lia.
           ++ rewrite E4. lia.
        -- cbn [w_pend w_mp set]. rewrite E4, sum_by_app, sum_by_cons, !sum_by_nil. cbn [incoming]. lia.
      * cbn [w_pend w_mp set]. rewrite E4, sum_by_app, sum_by_cons, !sum_by_nil. cbn [incoming]. lia.
    + cbn [incoming] in Hd. destruct fail; [rewrite ?sum_by_nil, E4; lia|]. cbn [w_pend w_mp set]. rewrite no_deposit_back, E4. lia.
Qed.

Lemma wconst_self w w' : wconst w' = wconst w -> self_id (w_mv w') = self_id (w_mv w).
Proof. unfold wconst. congruence. Qed.
Lemma sent_run k sel (Hsel : k = Mp \/ forall v, sel v = true) evs : forall w, WI k w -> Forall (good k (t_self (tok_of w k))) evs ->
  sum_by (says_sent k sel) (wlog w evs) + sum_by (unreported k sel) (w_pend (wrun w evs)) + lost k sel w evs
  = sum_by (unreported k sel) (w_pend w) + sum_by (says_moved (self_id (w_mv w)) sel) (wtlog k w evs).
Proof.
  induction evs as [|ev evs IH]; intros w HI Hg; cbn [wlog wtlog lost wrun fold_left]; [rewrite !sum_by_nil; lia|].
  inversion Hg as [|? ? G1 G2]; subst. fold (wrun (wstep w ev) evs).
  destruct (wstep_move k w ev HI G1) as (H1 & H2 & _). rewrite <- (wconst_tok _ _ k H2) in G2.
  specialize (IH _ H1 G2). rewrite (wconst_self _ _ H2) in IH. pose proof (sent_step k sel Hsel w ev HI) as S. rewrite !sum_by_app. lia.
Qed.
Lemma deposit_run evs : forall w, WI Mp w -> Forall (good Mp (t_self (w_mp w))) evs ->
  sum_by says_deposit (wlog w evs) + in_flight Mp (wrun w evs) + funds Mp w
  <= in_flight Mp w + funds Mp (wrun w evs) + sum_by (says_moved (self_id (w_mv w)) anyone) (wtlog Mp w evs).
Proof.
  induction evs as [|ev evs IH]; intros w HI Hg; cbn [wlog wtlog wrun fold_left]; [rewrite !sum_by_nil; lia|].
  inversion Hg as [|? ? G1 G2]; subst. fold (wrun (wstep w ev) evs).
  destruct (wstep_move Mp w ev HI G1) as (H1 & H2 & _). pose proof (wconst_tok _ _ Mp H2) as H3. cbn [tok_of] in H3. rewrite <- H3 in G2.
  specialize (IH _ H1 G2). rewrite (wconst_self _ _ H2) in IH. pose proof (deposit_step w ev HI G1) as S. rewrite !sum_by_app. lia.
Qed.

(** the two tokens, whatever happens around them *)
Definition heard_ok (f : string -> Z) (s : Z) (t : tstate) : Prop :=
  TI t /\ (forall a, f a = Z.of_N (ft_balance_of t a)) /\ s = Z.of_N (ft_total_supply t).
Lemma heard_call f s t x : heard_ok f s t -> heard_ok (fold_left heard_bal (tlogs_of t x) f) (fold_left heard_sup (tlogs_of t x) s) (t_step t x).
Proof.
  intros (HI & H1 & H2). split; [apply TI_step; exact HI|]. unfold tlogs_of, t_step. destruct (t_exec x.1 t x.2) as [[t' e]|] eqn:E.
  - exact (tlogs_told x _ _ _ _ _ HI E H1 H2).
  - split; assumption.
Qed.
Lemma tok_of_set w k j t : tok_of (set_tok w j t) k = if decide (j = k) then t else tok_of w k.
Proof. destruct k, j; reflexivity. Qed.
Lemma tok_pend w k ps : tok_of (w <| w_pend := ps |>) k = tok_of w k.
Proof. destruct k; reflexivity. Qed.
Lemma tok_mv w k s : tok_of (w <| w_mv := s |>) k = tok_of w k.
Proof. destruct k; reflexivity. Qed.
Lemma heard_event k w ev f s : heard_ok f s (tok_of w k) ->
  heard_ok (fold_left heard_bal (wtlogs k w ev) f) (fold_left heard_sup (wtlogs k w ev) s) (tok_of (wstep w ev) k).
Proof.
  intros HO. assert (Q : forall w', tok_of w' k = tok_of w k -> heard_ok f s (tok_of w' k)) by (intros w' ->; exact HO).
  assert (C : forall j x, heard_ok (fold_left heard_bal (if decide (j = k) then tlogs_of (tok_of w j) x else []) f)
     (fold_left heard_sup (if decide (j = k) then tlogs_of (tok_of w j) x else []) s)
     (if decide (j = k) then t_step (tok_of w j) x else tok_of w k)).
  { intros j x. case_decide as E; [subst j; apply heard_call; exact HO|exact HO]. }
  destruct ev as [x|j x|i c fail ans]; cbn [wtlogs wstep].
  - destruct (is_contract _ _); [exact HO|]. destruct (exec _ _ _) as [[s' e]|]; [|exact HO]. apply Q. rewrite tok_pend, tok_mv. reflexivity.
  - destruct (is_contract _ _); [destruct (decide (j = k)); exact HO|]. specialize (C j x). unfold t_step in C.
    destruct (t_exec x.1 (tok_of w j) x.2) as [[t' e]|] eqn:E; [rewrite tok_pend, tok_of_set; exact C|].
    case_decide as Ej; [subst j; exact C|exact C].
  - destruct (w_pend w !! i) as [p|]; [|exact HO]. set (w1 := w <| w_pend := delete i (w_pend w) |>).
    assert (E2 : w_mv w1 = w_mv w) by reflexivity. assert (E3 : forall j, tok_of w1 j = tok_of w j) by (intros []; reflexivity).
    assert (E4 : w_mp w1 = w_mp w /\ w_st w1 = w_st w) by (split; reflexivity). destruct E4 as [E4 E5]. clearbody w1.
    destruct p as [j sn r n m|j sn r n u|cb tok src rcv n|cb src n ok]; cbn [run_pend].
    + cbn [fold_left]. apply Q. destruct (bool_decide _); [destruct fail; [|destruct (ft_on_transfer _ _ _ _ _) as [[]|]]|]; rewrite ?tok_pend, ?tok_mv; apply E3.
    + destruct fail; [cbn [fold_left]; apply Q, E3|]. rewrite tok_of_set, !E3. apply C.
    + rewrite E4, E5. destruct (if bool_decide _ then _ else _) as [j|].
      * destruct fail; [cbn [fold_left]; apply Q; rewrite tok_pend; apply E3|]. rewrite E2, !E3.
        specialize (C j (called_by c (self_id (w_mv w)) 1, TTransfer rcv n)). unfold t_step in C. cbn [fst snd] in C.
        destruct (t_exec _ _ _) as [[t' e]|]; [rewrite tok_pend, tok_of_set, E3; exact C|rewrite tok_pend, E3].
        case_decide as Ej; [subst j; exact C|exact C].
      * cbn [fold_left]. apply Q. rewrite tok_pend. apply E3.
    + cbn [fold_left]. apply Q. destruct fail; [apply E3|]. rewrite tok_mv. apply E3.
Qed.
Lemma heard_events k evs : forall w f s, heard_ok f s (tok_of w k) ->
  heard_ok (fold_left heard_bal (wtlog k w evs) f) (fold_left heard_sup (wtlog k w evs) s) (tok_of (wrun w evs) k).
Proof.
  induction evs as [|ev evs IH]; intros w f s HO; [exact HO|]. cbn [wtlog wrun fold_left]. rewrite !fold_left_app.
  apply (IH (wstep w ev)), heard_event, HO.
Qed.

(** ** C82 *)
Definition only (v : string) : string -> bool := fun x => bool_decide (x = v).
Lemma not_mpdao_good w0 evs : Forall (not_mpdao w0) evs -> Forall (good Mp (t_self (w_mp w0))) evs.
Proof.
  intros Hg. eapply List.Forall_impl; [|exact Hg]. intros [[c o]| |] He; try exact I. destruct o; try exact I. cbn in *. split; [contradiction|discriminate].
Qed.
Lemma keeps_good w0 evs : Forall (keeps_stnear w0) evs -> Forall (good St (t_self (w_st w0))) evs.
Proof. intros Hg. eapply List.Forall_impl; [|exact Hg]. exact (calm_good St w0). Qed.
Lemma start_pend w : wstart w -> w_pend w = [].
Proof. intros (a & o1 & n1 & m1 & o2 & n2 & m2 & _ & H & _). exact H. Qed.
Lemma c82_sent w0 evs v : wstart w0 -> Forall (not_mpdao w0) evs ->
  sum_by (says_sent Mp (only v)) (wlog w0 evs) + sum_by (unreported Mp (only v)) (w_pend (wrun w0 evs)) + lost Mp (only v) w0 evs
  = sum_by (says_moved (self_id (w_mv w0)) (only v)) (wtlog Mp w0 evs).
Proof.
  intros Hs Hg. destruct (wstart_WI Mp _ Hs) as [HI _].
  pose proof (sent_run Mp (only v) (or_introl eq_refl) evs w0 HI (not_mpdao_good _ _ Hg)) as H.
  rewrite (start_pend _ Hs), sum_by_nil in H. exact H.
Qed.
Lemma c82_sent_st w0 evs : wstart w0 -> Forall (keeps_stnear w0) evs ->
  sum_by (says_sent St anyone) (wlog w0 evs) + sum_by (unreported St anyone) (w_pend (wrun w0 evs)) + lost St anyone w0 evs
  = sum_by (says_moved (self_id (w_mv w0)) anyone) (wtlog St w0 evs).
Proof.
  intros Hs Hg. destruct (wstart_WI St _ Hs) as [HI _].
  pose proof (sent_run St anyone (or_intror (fun v => eq_refl)) evs w0 HI (keeps_good _ _ Hg)) as H.
  rewrite (start_pend _ Hs), sum_by_nil in H. exact H.
Qed.
Lemma c82_held w0 evs : wstart w0 -> Forall (not_mpdao w0) evs ->
  let w := wrun w0 evs in
  sum_by says_deposit (wlog w0 evs) + in_flight Mp w
  <= funds Mp w + sum_by (says_sent Mp anyone) (wlog w0 evs) + sum_by (unreported Mp anyone) (w_pend w) + lost Mp anyone w0 evs.
Proof.
  intros Hs Hg w. destruct (wstart_WI Mp _ Hs) as [HI _]. pose proof (not_mpdao_good _ _ Hg) as Hgg.
  pose proof (sent_run Mp anyone (or_introl eq_refl) evs w0 HI Hgg) as H. pose proof (deposit_run evs w0 HI Hgg) as D.
  fold w in H, D. unfold in_flight in D at 2. rewrite (start_pend _ Hs), sum_by_nil in H, D. cbn [tok_of] in *. lia.
Qed.
Lemma c82_tokens w0 evs k : wstart w0 -> exists owner n,
  let ls := tlog_new owner n ++ wtlog k w0 evs in let t := tok_of (wrun w0 evs) k in
  (forall a, ft_balance_of (tok_of w0 k) a = if decide (owner = a) then n else 0) /\
  (forall a, balances_heard ls a = Z.of_N (ft_balance_of t a)) /\ supply_heard ls = Z.of_N (ft_total_supply t).
Proof.
  intros (a & o1 & n1 & m1 & o2 & n2 & m2 & H & Hp & H1 & H2 & _).
  assert (T : exists self o n m, t_new self o n m = Ok (tok_of w0 k)) by (destruct k; eauto 10). destruct T as (self & o & n & m & T).
  exists o, n. pose proof (t_new_spec _ _ _ _ _ T) as (HI & Hsup & Hb & _). split; [exact Hb|].
  destruct (c81_replay _ _ _ _ _ [] T) as [R1 R2]. cbn [tlog_of t_run fold_left] in R1, R2. rewrite app_nil_r in R1, R2.
  destruct (heard_events k evs w0 _ _ (conj HI (conj R1 R2))) as (_ & A & B).
  unfold balances_heard, supply_heard. rewrite !fold_left_app. split; [exact A|exact B].
Qed.
