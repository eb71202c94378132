(** VoteTextProofs.v -- for C101. *)

From Verif Require Export VoteTextSpec.
From Verif Require Import WireProofs EntryProofs ReadLen MVBytesProofs.
From RecordUpdate Require Import RecordUpdate.
Import MetaVote MVBytes MVBytesSpec VoteTextSpec.

(** ** What the texts mean *)
Lemma vinit_iff self m a x : enter (vote_init self) m a = Some x <-> vinit_means m a x /\ i_self x = self.
Proof.
  split.
  - unfold enter, vote_init, VINIT. intros H. entries H; try discriminate H. parsed2 H. injection H as <-. backed.
    split; [|reflexivity]. unfold vinit_means. cbn [i_owner i_operator i_mpdao i_stnear i_min_unbond i_max_unbond i_min_deposit i_max_lps i_max_vps i_reg_cost i_prev_gov].
    repeat (split; [assumption|]). split; [repeat (split; [assumption|]); assumption|]. split; [reflexivity|]. reads.
  - destruct x as [sf o p mn mx d l v t s c g]. intros [(H1 & H2 & H3 & H4 & (H5 & H6 & H7 & H8 & H9 & H10) & -> & Hr) Es].
    cbn [i_self i_owner i_operator i_mpdao i_stnear i_min_unbond i_max_unbond i_min_deposit i_max_lps i_max_vps i_reg_cost i_prev_gov] in *. subst sf.
    assert (E : enter (vote_init self) "new" (obj [("owner_id", quote o); ("operator_id", quote p); ("min_unbond_period", pretty mn);
          ("max_unbond_period", pretty mx); ("min_deposit_amount", big d); ("max_locking_positions", pretty l); ("max_voting_positions", pretty v);
          ("mpdao_token_contract_address", quote t); ("stnear_token_contract_address", quote s);
          ("registration_cost", big c); ("prev_governance_contract", quote g)]) = Some (mkInit self o p mn mx d l v t s c g)) by (unfold VINIT in *; given).
    rewrite <- E. eapply enter_says; [reflexivity|exact Hr].
Qed.
Lemma vback_iff m a ok o : enter (vote_back ok) m a = Some o <-> vback_means m a ok o.
Proof.
  split.
  - unfold enter, vote_back. intros H. entries H; try discriminate H; parsed2 H; injection H as <-; backed; (split; [split; [assumption|reflexivity]|]);
    (split; [reflexivity|]); cbn [mv_params mv_text fst snd]; reads.
  - intros (Ht & -> & Hr). transitivity (enter (vote_back ok) (mv_text o).1 (mv_text o).2).
    { destruct o; try contradiction; (eapply enter_says; [reflexivity|exact Hr]). }
    clear Hr. destruct o; try contradiction; destruct Ht as [Hn ->]; cbn [mv_text fst snd]; given.
Qed.
Lemma vback_name m a ok o : vback_means m a ok o -> is_vote_back m = true /\ m <> "new".
Proof. intros (Ht & -> & _). destruct o; try contradiction; split; first [discriminate|reflexivity]. Qed.
Lemma mv_name m a o : mv_means m a o -> is_vote_back m = false /\ m <> "new".
Proof. intros ((_ & Ht) & -> & _). destruct o; try contradiction; split; first [discriminate|reflexivity]. Qed.
Definition vt_read (x : vcall) : option op :=
  if bool_decide (vc_method x = "new") then None
  else if is_vote_back (vc_method x) then ok ← vc_result x; enter (vote_back ok) (vc_method x) (vc_args x) else mv_entry (vc_method x) (vc_args x).
Lemma new_means_nothing a o : mv_entry "new" a = Some o -> False.
Proof. intros E. apply mv_iff in E. destruct (mv_name _ _ _ E) as [_ N]. exact (N eq_refl). Qed.
Lemma vt_read_iff x o : vt_read x = Some o <-> means x o.
Proof.
  unfold vt_read, means. split.
  - destruct (bool_decide_reflect (vc_method x = "new")); [discriminate|]. destruct (is_vote_back (vc_method x)).
    + destruct (vc_result x) as [ok|]; [|discriminate]. cbn [mbind option_bind]. intros E. right. exists ok. split; [reflexivity|]. apply vback_iff. exact E.
    + intros E. left. apply mv_iff. exact E.
  - intros [E|(ok & Er & E)].
    + destruct (mv_name _ _ _ E) as [B N]. rewrite B, bool_decide_false by exact N. apply mv_iff. exact E.
    + destruct (vback_name _ _ _ _ E) as [B N]. rewrite B, Er, bool_decide_false by exact N. cbn [mbind option_bind]. apply vback_iff. exact E.
Qed.
Lemma means_once x o o' : means x o -> means x o' -> o = o'.
Proof. intros E E'. apply vt_read_iff in E, E'. congruence. Qed.
Lemma init_once m a x x' : vinit_means m a x -> vinit_means m a x' -> i_self x = i_self x' -> x = x'.
Proof. intros E E' Es. pose proof (proj2 (vinit_iff (i_self x) m a x) (conj E eq_refl)) as A. pose proof (proj2 (vinit_iff (i_self x) m a x') (conj E' (eq_sym Es))) as B. congruence. Qed.
Lemma means_not_new x o : means x o -> vc_method x <> "new".
Proof. intros [E|(ok & _ & E)]; [exact (proj2 (mv_name _ _ _ E))|exact (proj2 (vback_name _ _ _ _ E))]. Qed.

(** the account, call by call *)
Lemma vt_call_new H self st x : vc_method x = "new" ->
  (exists a st', vinit_means (vc_method x) (vc_args x) a /\ i_self a = self /\ vc_deposit x = 0 /\ xb_new st a = Ok st' /\ vt_call H self st x = Ok (st', [])) \/
  ((forall a, vinit_means (vc_method x) (vc_args x) a -> i_self a = self -> vc_deposit x = 0 -> exists e, xb_new st a = Panic e) /\ exists e, vt_call H self st x = Panic e).
Proof.
  intros E. unfold vt_call. rewrite bool_decide_true by exact E. cbv zeta. unfold non_payable, require. change (c_deposit (vc_ctx x)) with (vc_deposit x).
  destruct (vc_deposit x =? 0) eqn:Ed; cbn [mbind res_bind]; [|right; split; [|eauto]; intros a _ _ D; rewrite D in Ed; discriminate Ed]. apply N.eqb_eq in Ed.
  destruct (enter (vote_init self) (vc_method x) (vc_args x)) as [a|] eqn:Ea; cbn [expect mbind res_bind].
  - pose proof (proj1 (vinit_iff _ _ _ _) Ea) as [M S]. destruct (xb_new st a) as [st'|e] eqn:En; cbn [mbind res_bind].
    + left. exists a, st'. auto.
    + right. split; [|eauto]. intros a' M' S' _. assert (Q : a' = a) by (apply (init_once _ _ _ _ M' M); congruence). rewrite Q. eauto.
  - right. split; [|eauto]. intros a M S _. rewrite (proj2 (vinit_iff self _ _ a) (conj M S)) in Ea. discriminate Ea.
Qed.
Lemma vt_call_other H self st x : vc_method x <> "new" ->
  match vt_read x with Some o => vt_call H self st x = xb_call H self st (vctx x) o | None => exists e, vt_call H self st x = Panic e end.
Proof.
  intros N. unfold vt_call, vt_read. rewrite bool_decide_false by exact N. cbv zeta. change (vc_ctx x) with (vctx x).
  destruct (is_vote_back (vc_method x)).
  - destruct (vc_result x) as [ok|]; cbn [expect mbind option_bind res_bind]; [|eauto]. destruct (enter (vote_back ok) (vc_method x) (vc_args x)); cbn [expect mbind option_bind res_bind]; eauto.
  - destruct (mv_entry (vc_method x) (vc_args x)); cbn [expect mbind option_bind res_bind]; eauto.
Qed.

(** ** The typed calls among the texts *)
Definition offs (tr : list vcall) : list call := omap (fun x => (fun o => (vctx x, o)) <$> vt_read x) tr.
Lemma read_offs tr : read_off tr (offs tr).
Proof.
  induction tr as [|x tr IH]; [constructor|]. unfold offs. cbn [omap list_omap]. fold (offs tr). destruct (vt_read x) as [o|] eqn:E; cbn [fmap option_fmap option_map].
  - apply ro_call; [apply vt_read_iff; exact E|exact IH].
  - apply ro_none; [|exact IH]. intros o M. apply vt_read_iff in M. congruence.
Qed.
Lemma offs_app tr tr' : offs (tr ++ tr') = offs tr ++ offs tr'.
Proof. unfold offs. apply omap_app. Qed.
Lemma usual_suffix H tr more : usual_calls H (tr ++ more) -> usual_calls H more.
Proof.
  intros (A & B & C & D & E). apply Forall_app in A as [_ A]. apply Forall_app in B as [_ B]. split; [exact A|]. split; [exact B|]. rewrite adds_app in C. split; [|split; [exact D|]].
  - apply (cap_le (adds more) (adds tr + adds more)%nat C). lia.
  - intros x y (u & Hu & Hx) (v & Hv & Hy). apply E; [exists u|exists v]; (split; [apply in_or_app; right|]; assumption).
Qed.

Definition usual_off (H : string -> string) (tr : list vcall) : Prop :=
  (forall l, read_off tr l -> usual_calls H l) /\ forall x a, In x tr -> vinit_means (vc_method x) (vc_args x) a -> usual_init a.
Section Fixed.
Context (H : string -> string) (self : string).
(** what the bytes stand for *)
Definition VRep (tr : list vcall) (st : gmap string string) (s : option state) : Prop :=
  match s with
  | None => st = ∅
  | Some s => exists before after a s0 st0, offs tr = before ++ after /\ i_self a = self /\ usual_init a /\ mv_new a = Ok s0 /\ xb_new ∅ a = Ok st0 /\
      st = xb_run H self st0 after /\ s = run s0 after
  end.
Lemma vt_gives_app st tr more : vt_gives H self st (tr ++ more) = vt_gives H self st tr ++ vt_gives H self (fold_left (vt_step H self) tr st) more.
Proof. revert st. induction tr as [|x tr IH]; intros st; [reflexivity|]. cbn [List.app vt_gives fold_left]. rewrite IH. reflexivity. Qed.
Lemma run_snoc s0 l y : run s0 (l ++ [y]) = step (run s0 l) y.
Proof. unfold run. apply fold_left_app. Qed.
Lemma xb_run_snoc st l y : xb_run H self st (l ++ [y]) = xb_step H self (xb_run H self st l) y.
Proof. unfold xb_run. apply fold_left_app. Qed.

Lemma c101_step tr x s outs : usual_off H (tr ++ [x]) -> vote_history self tr s outs -> outs = vt_gives H self ∅ tr -> VRep tr (vt_run H self tr) s ->
  exists s', vote_history self (tr ++ [x]) s' (vt_gives H self ∅ (tr ++ [x])) /\ VRep (tr ++ [x]) (vt_run H self (tr ++ [x])) s'.
Proof.
  intros [U UI] Hh Eo R. specialize (U _ (read_offs _)). rewrite offs_app in U.
  rewrite vt_gives_app, <- Eo. change (fold_left (vt_step H self) tr ∅) with (vt_run H self tr).
  assert (Er : vt_run H self (tr ++ [x]) = vt_step H self (vt_run H self tr) x) by (unfold vt_run; apply fold_left_app). rewrite Er. clear Er.
  cbn [vt_gives]. unfold vt_step. set (st := vt_run H self tr) in *.
  destruct (decide (vc_method x = "new")) as [Em|Em].
  - assert (Nm : vt_read x = None) by (unfold vt_read; rewrite bool_decide_true by exact Em; reflexivity).
    assert (Eoff : offs (tr ++ [x]) = offs tr) by (rewrite offs_app; unfold offs at 2; cbn [omap list_omap]; rewrite Nm; apply app_nil_r).
    destruct (vt_call_new H self st x Em) as [(a & st' & M & S & D & En & Ec)|[Q (e & Ec)]]; rewrite Ec.
    + destruct s as [s|]; cbn [VRep] in R.
      * destruct R as (before & after & a0 & s0 & st0 & El & S0 & U0 & E0 & X0 & -> & ->). rewrite El, <- app_assoc in U. apply usual_suffix, usual_prefix in U. rewrite <- S0 in En.
        destruct (c100_once H a0 after s0 st0 a U0 U E0 X0) as (e & Ee). congruence.
      * rewrite R in En. assert (Ua : usual_init a) by (eapply UI; [apply in_or_app; right; left; reflexivity|exact M]).
        destruct (proj1 (c100_new a Ua) (ex_intro _ _ En)) as (s0 & E0). exists (Some s0). split.
        -- eapply vh_yes; [exact Hh|]. eapply va_new; eassumption.
        -- cbn [VRep]. exists (offs tr), [], a, s0, st'. rewrite Eoff, app_nil_r. auto 10.
    + exists s. split.
      * apply vh_no; [exact Hh|]. intros s' out A. inversion A as [y a s1 M S D En|s1 y o s1' out1 M Ex]; subst.
        -- destruct (Q a M S D) as (e1 & Ee). cbn [VRep] in R. rewrite R in Ee. assert (Ua : usual_init a) by (eapply UI; [apply in_or_app; right; left; reflexivity|exact M]).
           destruct (proj2 (c100_new a Ua) (ex_intro _ _ En)) as (st0 & X0). congruence.
        -- exact (means_not_new _ _ M Em).
      * destruct s as [s|]; cbn [VRep] in *; [rewrite Eoff; exact R|exact R].
  - pose proof (vt_call_other H self st x Em) as Ec. destruct (vt_read x) as [o|] eqn:Eo'.
    + assert (Mo : means x o) by (apply vt_read_iff; exact Eo'). rewrite Ec.
      assert (Eoff : offs [x] = [(vctx x, o)]) by (unfold offs; cbn [omap list_omap]; rewrite Eo'; reflexivity). rewrite Eoff in U.
      destruct s as [s|]; cbn [VRep] in R.
      * destruct R as (before & after & a & s0 & st0 & El & S0 & U0 & E0 & X0 & Es & Ess). rewrite El, <- app_assoc in U. apply usual_suffix in U.
        pose proof (c100_calls H a (after ++ [(vctx x, o)]) s0 st0 U0 U E0 X0) as G. rewrite xb_gives_app, mv_gives_app in G.
        rewrite (c100_calls H a after s0 st0 U0 (usual_prefix _ _ _ U) E0 X0) in G. apply app_inv_head in G. rewrite S0 in G. cbn [xb_gives mv_gives fst snd] in G.
        rewrite <- Es, <- Ess in G. injection G as G.
        assert (RR : VRep (tr ++ [x]) (xb_step H self st (vctx x, o)) (Some (step s (vctx x, o)))).
        { cbn [VRep]. exists before, (after ++ [(vctx x, o)]), a, s0, st0. rewrite offs_app, El, Eoff, <- app_assoc. repeat (split; [first [reflexivity|assumption]|]).
          rewrite xb_run_snoc, run_snoc, <- Es, <- Ess. split; reflexivity. }
        unfold xb_step, step in RR. cbn [fst snd] in RR.
        destruct (xb_call H self st (vctx x) o) as [[st' out]|e] eqn:Ex; destruct (exec (vctx x) s o) as [[s' out']|e'] eqn:Ex2; try discriminate G.
        -- injection G as <-. exists (Some s'). split; [|exact RR]. eapply vh_yes; [exact Hh|]. eapply va_call; eassumption.
        -- exists (Some s). split; [|exact RR]. apply vh_no; [exact Hh|]. intros s' out A. inversion A as [|s1 y o1 s1' out1 M Ex1]; subst. rewrite (means_once _ _ _ M Mo) in Ex1. congruence.
      * destruct (c100_before H self (vctx x) o) as (e & Ee). rewrite R, Ee. exists None. split; [|reflexivity]. apply vh_no; [exact Hh|].
        intros s' out A. inversion A as [y a s1 M S D En|]; subst. destruct M as (_ & _ & _ & _ & _ & M & _). contradiction.
    + destruct Ec as (e & Ec). rewrite Ec. assert (Eoff : offs (tr ++ [x]) = offs tr) by (rewrite offs_app; unfold offs at 2; cbn [omap list_omap]; rewrite Eo'; apply app_nil_r).
      exists s. split; [|destruct s as [s|]; cbn [VRep] in *; [rewrite Eoff; exact R|exact R]].
      apply vh_no; [exact Hh|]. intros s' out A. inversion A as [y a s1 M S D En|s1 y o1 s1' out1 M Ex]; subst.
      * destruct M as (_ & _ & _ & _ & _ & M & _). contradiction.
      * apply vt_read_iff in M. congruence.
Qed.
Lemma texts_prefix tr more : usual_off H (tr ++ more) -> usual_off H tr.
Proof.
  intros [U UI]. split.
  - intros l Hl. assert (E : read_off (tr ++ more) (l ++ offs more)).
    { clear U UI. induction Hl as [|x tr o l M _ IH|x tr l M _ IH]; cbn [List.app]; [apply read_offs|apply ro_call; assumption|apply ro_none; assumption]. }
    exact (usual_prefix _ _ _ (U _ E)).
  - intros x a Hx. apply UI. apply in_or_app. left. exact Hx.
Qed.
Lemma c101_both tr : usual_off H tr -> exists s, vote_history self tr s (vt_gives H self ∅ tr) /\ VRep tr (vt_run H self tr) s.
Proof.
  induction tr as [|x tr IH] using rev_ind; intros U.
  - exists None. split; [constructor|reflexivity].
  - destruct (IH (texts_prefix _ _ U)) as (s & Hh & R). exact (c101_step tr x s _ U Hh eq_refl R).
Qed.
End Fixed.

(** ** Short texts mean usual calls *)
Lemma strs_size d : forall l, mapM val_strs d = Some l ->
  List.Forall (fun p => (len p.1 <= ReadLen.size (VList d) /\ len p.2 <= ReadLen.size (VList d))%nat) l /\ (length l <= ReadLen.size (VList d))%nat.
Proof.
  induction d as [|v d IH]; intros l E; [injection E as <-; split; [constructor|cbn; lia]|]. cbn [mapM] in E.
  destruct (val_strs v) as [p|] eqn:Ev; [|discriminate E]. cbn [mbind option_bind] in E. destruct (mapM val_strs d) as [k|]; [|discriminate E]. injection E as <-.
  destruct (IH k eq_refl) as [F L]. cbn [ReadLen.size fold_right] in *.
  assert (Ep : (len p.1 <= ReadLen.size v /\ len p.2 <= ReadLen.size v)%nat).
  { unfold val_strs in Ev. destruct v as [| | | | | |l|]; try discriminate Ev. destruct l as [|[] l]; try discriminate Ev. destruct l as [|[] l]; try discriminate Ev. destruct l; [|discriminate Ev].
    injection Ev as <-. cbn [ReadLen.size fold_right fst snd]. lia. }
  split; [|cbn [length]; lia]. constructor; [lia|]. revert F. apply List.Forall_impl. intros q. lia.
Qed.
Lemma mapM_size {A} (f : val -> option A) d : forall l, mapM f d = Some l -> (length l <= ReadLen.size (VList d))%nat.
Proof.
  induction d as [|v d IH]; intros l E; [injection E as <-; cbn; lia|]. cbn [mapM] in E. destruct (f v); [|discriminate E]. cbn [mbind option_bind] in E.
  destruct (mapM f d) as [k|]; [|discriminate E]. injection E as <-. specialize (IH k eq_refl). cbn [ReadLen.size fold_right length] in *. lia.
Qed.
Lemma pair_size L s p r : p_pair L s = Some (p, r) -> (S (len p.1) + len r <= len s)%nat.
Proof.
  unfold p_pair. destruct (eat "[" (skip_ws s)) as [s1|] eqn:E1; [|discriminate]. cbn [mbind option_bind]. apply eatw_len in E1.
  destruct (eat QUOTE (skip_ws s1)) as [s2|] eqn:E2; [|discriminate]. cbn [mbind option_bind]. apply eatw_len in E2.
  destruct (p_chars s2) as [[v s3]|] eqn:E3; [|discriminate]. cbn [mbind option_bind]. apply chars_len in E3.
  destruct (eat "," (skip_ws s3)) as [s4|] eqn:E4; [|discriminate]. cbn [mbind option_bind]. apply eatw_len in E4.
  destruct (p_num L (skip_ws s4)) as [[n s5]|] eqn:E5; [|discriminate]. cbn [mbind option_bind]. apply num_len in E5. pose proof (ws_len s4).
  destruct (eat "]" (skip_ws s5)) as [s6|] eqn:E6; [|discriminate]. cbn [mbind option_bind]. apply eatw_len in E6. intros [= <- <-]. cbn [fst]. lia.
Qed.
Notation total := (fold_right (fun (p : string * N) n => (S (len p.1) + n)%nat) O).
Lemma more_size L : forall f s l r, p_more f L s = Some (l, r) -> (total l + len r <= len s)%nat.
Proof.
  induction f as [|f IH]; intros s l r E; [discriminate E|]. cbn [p_more] in E. destruct (eat "]" (skip_ws s)) as [s0|] eqn:E0; [injection E as <- <-; apply eatw_len in E0; cbn [fold_right]; lia|].
  destruct (eat "," (skip_ws s)) as [s1|] eqn:E1; [|discriminate E]. cbn [mbind option_bind] in E. apply eatw_len in E1.
  destruct (p_pair L s1) as [[p s2]|] eqn:E2; [|discriminate E]. cbn [mbind option_bind] in E. apply pair_size in E2.
  destruct (p_more f L s2) as [[k s3]|] eqn:E3; [|discriminate E]. cbn [mbind option_bind] in E. apply IH in E3. injection E as <- <-. cbn [fold_right]. lia.
Qed.
Lemma total_all l n : (total l <= n)%nat -> List.Forall (fun p => (len p.1 <= n)%nat) l /\ (length l <= n)%nat.
Proof.
  revert n. induction l as [|p l IH]; intros n E; [split; [constructor|cbn; lia]|]. cbn [fold_right] in E. destruct (IH (n - 1)%nat) as [F L]; [lia|].
  split; [|cbn [length]; lia]. constructor; [lia|]. revert F. apply List.Forall_impl. intros q. lia.
Qed.
Lemma claims_size t l : json_claims t = Some l -> List.Forall (fun p => (len p.1 <= len t)%nat) l /\ (length l <= len t)%nat.
Proof.
  unfold json_claims, at_end, p_list. intros E. apply total_all. destruct (eat "[" (skip_ws t)) as [s1|] eqn:E1; [|discriminate E]. cbn [mbind option_bind] in E. apply eatw_len in E1.
  destruct (eat "]" (skip_ws s1)) as [s2|]; [destruct (skip_ws s2); [injection E as <-; cbn [fold_right]; lia|discriminate E]|].
  destruct (p_pair U64_SIZE s1) as [[p s3]|] eqn:E3; [|discriminate E]. cbn [mbind option_bind] in E. apply pair_size in E3.
  destruct (p_more (S (String.length s3)) U64_SIZE s3) as [[k s4]|] eqn:E4; [|discriminate E]. cbn [mbind option_bind] in E. apply more_size in E4.
  destruct (skip_ws s4); [|discriminate E]. injection E as <-. cbn [fold_right]. lia.
Qed.
Lemma jpair_size t p : json_pair t = Some p -> (len p.1 <= len t)%nat.
Proof.
  unfold json_pair, at_end. destruct (p_pair U16_SIZE t) as [[q r]|] eqn:E; [|discriminate]. apply pair_size in E. destruct (skip_ws r); [|discriminate]. intros [= <-]. lia.
Qed.
Lemma substring_size s : forall n m, (len (String.substring n m s) <= len s)%nat.
Proof.
  induction s as [|a s IH]; intros n m; [destruct n, m; cbn; lia|]. destruct n as [|n]; [destruct m as [|m]; cbn [String.substring len]; [lia|specialize (IH 0%nat m); lia]|].
  cbn [String.substring len]. specialize (IH n m). lia.
Qed.
Lemma evm_size e : len (evm_name e) = (len e + 10)%nat.
Proof. unfold evm_name. rewrite len_app. reflexivity. Qed.
Definition within (n : nat) (y : call) : Prop := List.Forall (fun s => (len s <= n + 74)%nat) (MVBytesSpec.texts y) /\ (weight_of y <= 3 + 2 * n)%nat.
Ltac open Ef vs := repeat (destruct vs as [|[] vs]; try discriminate Ef).
Ltac small B BS := repeat first
  [ apply List.Forall_nil
  | apply List.Forall_cons;
    [first [assumption
           | match goal with |- (len (evm_name ?e) <= _)%nat => rewrite evm_size; pose proof (B e ltac:(cbn [In]; tauto)); lia
                           | |- (len ?e <= _)%nat => first [pose proof (B e ltac:(cbn [In]; tauto))|pose proof (BS e ltac:(cbn [In]; tauto))]; lia end]|] ].
Lemma op_within x o : account_id (vc_from x) -> means x o -> within (len (vc_args x)) (vctx x, o).
Proof.
  intros [_ [_ A]] M. unfold within. set (n := len (vc_args x)).
  assert (P : (len (c_pred (vctx x)) <= n + 74)%nat) by (change (c_pred (vctx x)) with (vc_from x); lia).
  destruct M as [M|(ok & _ & M)].
  - pose proof M as (_ & Em & _). apply mv_iff in M. rewrite Em in M. unfold mv_entry in M.
    destruct o; cbn [mv_text fst] in M; try discriminate M; try (cbn [MVBytesSpec.texts weight_of]; split; [repeat constructor; assumption|lia]);
      (eapply enter_at in M as (vs & E & Ef); [|reflexivity|discriminate]); cbv beta in Ef;
      assert (B : forall s, In (VStr s) vs -> (len s <= n)%nat) by (intros s Hs; pose proof (args_len _ _ _ _ E Hs) as K; cbn [ReadLen.size] in K; lia);
      assert (BS : forall s, In (VSome (VStr s)) vs -> (len s <= n)%nat) by (intros s Hs; pose proof (args_len _ _ _ _ E Hs) as K; cbn [ReadLen.size] in K; lia);
      assert (BL : forall d, In (VList d) vs -> (ReadLen.size (VList d) <= n)%nat) by (intros s Hs; pose proof (args_len _ _ _ _ E Hs) as K; lia);
      clear E; open Ef vs.
    all: try match type of Ef with context [mapM ?f ?d] =>
           destruct (mapM f d) as [k|] eqn:Ek; [|discriminate Ef]; cbn [mbind option_bind] in Ef; pose proof (mapM_size _ _ _ Ek); pose proof (BL d ltac:(cbn [In]; tauto)) end.
    all: try discriminate Ef.
    all: try match type of Ef with context [val_str (VSome ?v)] => destruct v; try discriminate Ef; cbn [val_str mbind option_bind] in Ef end.
    all: try (injection Ef; intros; subst; cbn [MVBytesSpec.texts weight_of MVBytesSpec.listed]; split; [|lia]; small B BS).
    + destruct (strs_size _ _ Ek) as [F _]. apply Forall_app. split; apply List.Forall_map; revert F; apply List.Forall_impl; intros q; lia.
    + injection Ef as -> -> ->. pose proof (B sender ltac:(cbn [In]; tauto)) as B1. pose proof (B msg ltac:(cbn [In]; tauto)) as B2.
      cbn [MVBytesSpec.texts weight_of]. unfold claims_in. change (c_json_claims (vctx x)) with json_claims. change (c_json_pair (vctx x)) with json_pair.
      pose proof (substring_size msg 11 (String.length msg - 11)) as T. set (t := String.substring 11 (String.length msg - 11) msg) in *. clearbody t.
      destruct (json_claims t) as [l|] eqn:El; cbn [MVBytesSpec.listed concat map List.app].
      * destruct (claims_size _ _ El) as [F L]. rewrite app_nil_r. split; [|lia]. constructor; [exact P|]. constructor; [lia|]. apply Forall_app. split.
        -- apply List.Forall_map. revert F. apply List.Forall_impl. intros q. lia.
        -- destruct (json_pair msg) as [q|] eqn:Eq; cbn [MVBytesSpec.listed map]; [apply jpair_size in Eq; constructor; [lia|constructor]|constructor].
      * split; [|cbn [length]; lia]. constructor; [exact P|]. constructor; [lia|].
        destruct (json_pair msg) as [q|] eqn:Eq; cbn [MVBytesSpec.listed map]; [apply jpair_size in Eq; constructor; [lia|constructor]|constructor].
  - pose proof M as (Ht & Em & _). apply vback_iff in M. rewrite Em in M. destruct o; try contradiction; cbn [mv_text fst] in M;
      (eapply enter_at in M as (vs & E & Ef); [|reflexivity|discriminate]); cbv beta in Ef;
      assert (B : forall s, In (VStr s) vs -> (len s <= n)%nat) by (intros s Hs; pose proof (args_len _ _ _ _ E Hs) as K; cbn [ReadLen.size] in K; lia);
      clear E; open Ef vs; injection Ef; intros; subst; cbn [MVBytesSpec.texts weight_of]; (split; [|lia]); small B B.
Qed.
Lemma means_sized x o : usual_vcall x -> means x o -> sized_call (vctx x, o).
Proof.
  intros (_ & T & D) M. split; [exact T|]. split; [exact D|]. cbn [snd]. destruct M as [((S & _) & _)|(ok & _ & Ht & _)]; [exact S|].
  destruct o; try contradiction; exact (proj1 Ht).
Qed.
Lemma short_if (s : string) n : (len s <= n + 74)%nat -> N.of_nat (3 + 2 * n) < 2 ^ 31 -> MVBytesSpec.short s.
Proof. unfold MVBytesSpec.short. change (2 ^ 31) with 2147483648. change (2 ^ 32) with 4294967296. lia. Qed.
Lemma off_usual tr l : read_off tr l -> Forall usual_vcall tr -> N.of_nat (sent tr) < 2 ^ 31 ->
  Forall sized_call l /\ Forall (fun y => Forall MVBytesSpec.short (MVBytesSpec.texts y)) l /\ (adds l <= sent tr)%nat /\ forall h, hashed_in l h -> hashed_text tr h.
Proof.
  induction 1 as [|x tr o l M Ho IH|x tr l M Ho IH]; intros F S.
  - split; [constructor|]. split; [constructor|]. split; [cbn; lia|]. intros h (y & [] & _).
  - apply Forall_cons in F as [Fx F]. cbn [sent fold_right] in S. fold (sent tr) in S. destruct (IH F) as (I1 & I2 & I3 & I4); [lia|].
    destruct (op_within x o (proj1 Fx) M) as [W1 W2]. split; [constructor; [exact (means_sized x o Fx M)|exact I1]|].
    split; [constructor; [|exact I2]|]. { revert W1. apply List.Forall_impl. intros s Hs. apply (short_if _ _ Hs). lia. }
    split; [cbn [adds sent fold_right] in *; fold (adds l) (sent tr); lia|].
    intros h (y & [<-|Hy] & Hh); [exists x, o; split; [left; reflexivity|auto]|]. destruct (I4 h) as (x' & o' & Hx & Hr); [exists y; auto|]. exists x', o'. split; [right; exact Hx|exact Hr].
  - apply Forall_cons in F as [Fx F]. cbn [sent fold_right] in S. fold (sent tr) in S. destruct (IH F) as (I1 & I2 & I3 & I4); [lia|].
    split; [exact I1|]. split; [exact I2|]. split; [cbn [sent fold_right]; fold (sent tr); lia|].
    intros h Hh. destruct (I4 h Hh) as (x' & o' & Hx & Hr). exists x', o'. split; [right; exact Hx|exact Hr].
Qed.
Lemma sent_in tr x : In x tr -> (3 + 2 * len (vc_args x) <= sent tr)%nat.
Proof. induction tr as [|y tr IH]; [intros []|]; intros [->|Hx]; cbn [sent fold_right]; fold (sent tr); [lia|specialize (IH Hx); lia]. Qed.
Lemma init_usual x a : N.of_nat (3 + 2 * len (vc_args x)) < 2 ^ 31 -> vinit_means (vc_method x) (vc_args x) a -> usual_init a.
Proof.
  intros S M. assert (Q : forall s, account_id s -> MVBytesSpec.short s) by (intros s [_ [_ L]]; apply (short_if s (len (vc_args x))); [lia|exact S]).
  pose proof M as (A1 & A2 & A3 & A4 & _ & Em & _). pose proof (proj2 (vinit_iff (i_self a) _ _ _) (conj M eq_refl)) as E. rewrite Em in E.
  eapply enter_at in E as (vs & E & Ef); [|reflexivity|discriminate]. cbv beta in Ef.
  assert (B : forall s, In (VStr s) vs -> (len s <= len (vc_args x))%nat) by (intros s Hs; pose proof (args_len _ _ _ _ E Hs) as K; cbn [ReadLen.size] in K; lia).
  clear E. open Ef vs. injection Ef as Ef. repeat constructor; auto. apply (short_if _ (len (vc_args x))); [|exact S].
  assert (K : In (VStr (i_prev_gov a)) [VStr (i_prev_gov a)]) by (left; reflexivity). rewrite <- Ef. cbn [i_prev_gov].
  etransitivity; [apply B; cbn [In]; tauto|lia].
Qed.
Lemma texts_off H tr : usual_texts H tr -> usual_off H tr.
Proof.
  intros (F & S & H32 & Hinj). split.
  - intros l Hl. destruct (off_usual _ _ Hl F S) as (I1 & I2 & I3 & I4). split; [exact I1|]. split; [exact I2|]. split; [revert S; change (2 ^ 31) with 2147483648; change (2 ^ 32) with 4294967296; lia|].
    split; [exact H32|]. intros x y Hx Hy. apply Hinj; apply I4; assumption.
  - intros x a Hx. apply init_usual. pose proof (sent_in _ _ Hx). lia.
Qed.

Lemma accepts_once self s x s1 o1 s2 o2 : vote_accepts self s x s1 o1 -> vote_accepts self s x s2 o2 -> s1 = s2 /\ o1 = o2.
Proof.
  intros A B. destruct A as [x a s0 M S D En|s x o s' out M Ex]; inversion B as [y a' s0' M' S' D' En'|s1' y o' s1'' out' M' Ex']; subst.
  - rewrite (init_once _ _ _ _ M' M S') in En'. split; congruence.
  - rewrite (means_once _ _ _ M' M) in Ex'. split; congruence.
Qed.
Lemma snoc_inj {A} (l l' : list A) x x' : l ++ [x] = l' ++ [x'] -> l = l' /\ x = x'.
Proof. apply app_inj_tail. Qed.
Lemma c101_once self tr : forall s outs s' outs', vote_history self tr s outs -> vote_history self tr s' outs' -> s = s' /\ outs = outs'.
Proof.
  induction tr as [|y tr IH] using rev_ind; intros s outs s' outs' A B.
  - inversion A as [|? ? ? ? ? ? ? ? E|? ? ? ? ? ? E]; [|destruct tr; discriminate|destruct tr; discriminate].
    inversion B as [|? ? ? ? ? ? ? ? E|? ? ? ? ? ? E]; [auto|destruct tr; discriminate|destruct tr; discriminate].
  - inversion A as [E|tr1 s1 o1 x1 s1' out1 A1 Ac E|tr1 s1 o1 x1 A1 Ac E]; [destruct tr; discriminate| |]; apply snoc_inj in E as [-> ->];
    (inversion B as [E|tr2 s2 o2 x2 s2' out2 B1 Bc E|tr2 s2 o2 x2 B1 Bc E]; [destruct tr; discriminate| |]; apply snoc_inj in E as [-> ->]);
    destruct (IH _ _ _ _ A1 B1) as [<- <-].
    + subst. destruct (accepts_once _ _ _ _ _ _ _ Ac Bc) as [-> ->]. auto.
    + subst. destruct (Bc _ _ Ac).
    + subst. destruct (Ac _ _ Bc).
    + auto.
Qed.
Lemma c101_calls H self tr : usual_texts H tr -> exists s, vote_history self tr s (vt_gives H self ∅ tr).
Proof. intros U. destruct (c101_both H self tr (texts_off _ _ U)) as (s & Hh & _). eauto. Qed.
Lemma c101_before H self tr outs : usual_texts H tr -> vote_history self tr None outs -> vt_run H self tr = ∅.
Proof. intros U Hh. destruct (c101_both H self tr (texts_off _ _ U)) as (s & Hh' & R). destruct (c101_once _ _ _ _ _ _ Hh Hh') as [<- _]. exact R. Qed.
Lemma c101_meaning H self tr s outs : usual_texts H tr -> vote_history self tr (Some s) outs ->
  exists all before l a s0 st0, read_off tr all /\ all = before ++ l /\ i_self a = self /\ usual_init a /\ usual_calls H l /\ mv_new a = Ok s0 /\ xb_new ∅ a = Ok st0 /\
    s = run s0 l /\ vt_run H self tr = xb_run H self st0 l.
Proof.
  intros U Hh. destruct (c101_both H self tr (texts_off _ _ U)) as (s' & Hh' & R). destruct (c101_once _ _ _ _ _ _ Hh Hh') as [<- _]. cbn [VRep] in R.
  destruct R as (before & l & a & s0 & st0 & El & S0 & U0 & E0 & X0 & Es & Ess). exists (offs tr), before, l, a, s0, st0. split; [apply read_offs|]. split; [exact El|].
  split; [exact S0|]. split; [exact U0|]. split; [|auto 10]. apply texts_off in U. destruct U as [U _]. specialize (U _ (read_offs tr)). rewrite El in U. exact (usual_suffix _ _ _ U).
Qed.

(** ** A sign that texts are [usual_texts] *)
Definition plain_vcall (x : vcall) : bool := valid_id (vc_from x) && (vc_ts x <? 2 ^ 64) && (vc_deposit x <? 2 ^ 128).
Lemma usual_texts_if H tr : (forall x, String.length (H x) = 32%nat) -> forallb plain_vcall tr = true -> (N.of_nat (sent tr) <? 2 ^ 31) = true ->
  apart_names H (flat_map named (offs tr)) = true -> usual_texts H tr.
Proof.
  intros H32 Hp Hs N. split; [|split; [apply N.ltb_lt; exact Hs|split; [exact H32|]]].
  - rewrite forallb_forall in Hp. apply Forall_forall. intros x Hin. apply elem_of_list_In in Hin. specialize (Hp _ Hin). unfold plain_vcall in Hp.
    apply andb_prop in Hp as [Hp A3]. apply andb_prop in Hp as [A1 A2]. apply valid_id_spec in A1. apply N.ltb_lt in A2, A3. exact (conj A1 (conj A2 A3)).
  - assert (K : forall h, hashed_text tr h -> In h (flat_map named (offs tr))).
    { intros h (x & o & Hx & M & Hh). apply in_flat_map. exists (vctx x, o). split; [|exact Hh]. apply elem_of_list_In. unfold offs. apply elem_of_list_omap. exists x.
      split; [apply elem_of_list_In; exact Hx|]. apply vt_read_iff in M. rewrite M. reflexivity. }
    intros x y Hx Hy E. unfold apart_names in N. rewrite forallb_forall in N. specialize (N _ (K _ Hx)). rewrite forallb_forall in N. specialize (N _ (K _ Hy)).
    rewrite E, String.eqb_refl in N. cbn [negb orb] in N. apply String.eqb_eq. exact N.
Qed.
Lemma c101_records H self tr s outs : usual_texts H tr -> vote_history self tr (Some s) outs ->
  let st := vt_run H self tr in
  st !! "STATE" = Some (vote_bytes s) /\
  stored st (enc_uint 1 2) (map (fun e => (enc_str e.1, voter_bytes H e.1 e.2)) (voters s)) /\
  stored st (enc_uint 1 3) (map (fun e => (enc_str e.1, map_bytes (tally_of H e.1) (length e.2))) (votes s)) /\
  stored st (enc_uint 1 6) (map (fun e => (enc_str e.1, enc_uint 16 e.2)) (claim_mp s)) /\
  stored st (enc_uint 1 7) (map (fun e => (enc_str e.1, enc_uint 16 e.2)) (claim_st s)) /\
  (forall who v i p, In (who, v) (voters s) -> v_lps v !! i = Some p -> st !! (positions_of H who +:+ enc_uint 8 (N.of_nat i)) = Some (position_bytes p)) /\
  (forall addr m, In (addr, m) (votes s) -> stored st (tally_of H addr) (map (fun e => (enc_str e.1, enc_uint 16 e.2)) m)).
Proof.
  intros U Hh. destruct (c101_meaning H self tr s outs U Hh) as (all & before & l & a & s0 & st0 & _ & _ & S & Ui & Uc & E0 & X0 & -> & Er).
  rewrite <- S in Er. pose proof (c100_records H a l s0 st0 Ui Uc E0 X0) as R. cbv zeta in *. rewrite <- Er, S in R. tauto.
Qed.
