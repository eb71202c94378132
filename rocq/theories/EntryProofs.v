(** EntryProofs.v -- C94: every text is refused or is a typed call, every typed call has a text, and the system of texts behaves as
    the system of values. *)

From Verif Require Export EntrySpec.
From Verif Require Import WireProofs WorldSmall WorldHeard MpipSized GovProofs SysProofs PostProofs MVSized MVSpecSized MVSpecMsg.
From RecordUpdate Require Import RecordUpdate.
Import World.

(** ** Reading arguments *)
Lemma read_args_has fs a vs : proper (TRec fs) -> read_args fs a = Some vs -> List.Forall2 has (map snd fs) vs.
Proof.
  intros Hp H. unfold read_args in H. destruct (json (TRec fs) a) as [v|] eqn:E; [|discriminate]. apply json_has in E; [|exact Hp].
  inversion E as [| | | | | | | | | |? l Hn F]; subst. injection H as <-. clear -F. induction F as [|f p fs l [_ H] _ IH]; [constructor|]. constructor; assumption.
Qed.
Lemma Forall2_cons_l {A B} (R : A -> B -> Prop) a l k : List.Forall2 R (a :: l) k -> exists b k', k = b :: k' /\ R a b /\ List.Forall2 R l k'.
Proof. inversion 1; subst. eauto. Qed.
Lemma Forall2_nil_l {A B} (R : A -> B -> Prop) k : List.Forall2 R [] k -> k = [].
Proof. inversion 1. reflexivity. Qed.
Lemma hv_num L v : has (TNum L) v -> exists n, v = VNum n /\ n < L. Proof. inversion 1; subst; eauto. Qed.
Lemma hv_dec L v : has (TDec L) v -> exists n, v = VBig n /\ n < L. Proof. inversion 1; subst; eauto. Qed.
Lemma hv_bool v : has TBool v -> exists b, v = VBool b. Proof. inversion 1; subst; eauto. Qed.
Lemma hv_str v : has TStr v -> exists s, v = VStr s. Proof. inversion 1; subst; eauto. Qed.
Lemma hv_acc v : has TAcc v -> exists s, v = VStr s /\ account_id s. Proof. inversion 1; subst; eauto. Qed.
Lemma hv_enum l v : has (TEnum l) v -> exists s, v = VStr s /\ In s l. Proof. inversion 1; subst; eauto. Qed.
Lemma hv_opt t v : has (TOpt t) v -> v = VNone \/ exists w, v = VSome w /\ has t w. Proof. inversion 1; subst; eauto. Qed.
Lemma hv_vec t v : has (TVec t) v -> exists l, v = VList l /\ List.Forall (has t) l. Proof. inversion 1; subst; eauto. Qed.
Lemma hv_tup ts v : has (TTup ts) v -> exists l, v = VList l /\ List.Forall2 has ts l. Proof. inversion 1; subst; eauto. Qed.
Ltac shape := repeat match goal with
  | H : List.Forall2 has (map snd _) _ |- _ => cbn [map snd] in H
  | H : List.Forall2 has (_ :: _) _ |- _ => apply Forall2_cons_l in H as (? & ? & -> & ? & H)
  | H : List.Forall2 has [] _ |- _ => apply Forall2_nil_l in H as ->
  | H : has (TNum _) _ |- _ => apply hv_num in H as (? & -> & H)
  | H : has (TDec _) _ |- _ => apply hv_dec in H as (? & -> & H)
  | H : has TBool _ |- _ => apply hv_bool in H as (? & ->)
  | H : has TStr _ |- _ => apply hv_str in H as (? & ->)
  | H : has TAcc _ |- _ => apply hv_acc in H as (? & -> & H)
  | H : has (TEnum _) _ |- _ => apply hv_enum in H as (? & -> & H)
  | H : has (TOpt _) _ |- _ => apply hv_opt in H as [->|(? & -> & H)]
  | H : has (TVec _) _ |- _ => apply hv_vec in H as (? & -> & H)
  | H : has (TTup _) _ |- _ => apply hv_tup in H as (? & -> & H)
  end.
Lemma mapM_all {A B} (f : A -> option B) (P : A -> Prop) (Q : B -> Prop) l k : (forall x y, P x -> f x = Some y -> Q y) ->
  List.Forall P l -> mapM f l = Some k -> List.Forall Q k.
Proof.
  intros H F. revert k. induction F as [|x l Hx _ IH]; intros k E; [injection E as <-; constructor|].
  cbn in E. destruct (f x) as [y|] eqn:Ef; [|discriminate]. cbn [mbind option_bind] in E. destruct (mapM f l) as [k'|]; [|discriminate].
  injection E as <-. constructor; [exact (H x y Hx Ef)|apply IH; reflexivity].
Qed.
Lemma all_idx l k : List.Forall (has U64) l -> mapM val_idx l = Some k -> List.Forall (fun i => N.of_nat i < 2 ^ 64) k.
Proof. apply mapM_all. intros v i H E. shape. injection E as <-. rewrite N2Nat.id. exact H. Qed.
Lemma all_big_num l k : List.Forall (has (TTup [U128; U16])) l -> mapM val_big_num l = Some k -> Forall (fun p => fits128 p.1 /\ fits16 p.2) k.
Proof. apply mapM_all. intros v [i j] H E. shape. injection E as <- <-. split; assumption. Qed.
Lemma all_num_big l k : List.Forall (has (TTup [U16; U128])) l -> mapM val_num_big l = Some k -> Forall (fun p => fits16 p.1 /\ fits128 p.2) k.
Proof. apply mapM_all. intros v [i j] H E. shape. injection E as <- <-. split; assumption. Qed.

Ltac is_proper := split; [refine (bool_decide_unpack _ _); exact I|]; cbn [fold_right proper snd plain]; repeat split; reflexivity.
Ltac entries H := cbn [find_key] in H;
  repeat match type of H with context [if (?m =? ?k)%string then _ else _] =>
    let E := fresh in destruct (String.eqb_spec m k) as [E|E]; [subst m|clear E] end.
Ltac parsed H := cbn [mbind option_bind] in H;
  match type of H with context [read_args ?fs ?a] =>
    let E := fresh in let vs := fresh in destruct (read_args fs a) as [vs|] eqn:E; [|discriminate H]; apply read_args_has in E; [|is_proper]; shape
  | _ => idtac end; cbn [mbind option_bind val_str] in H;
  repeat match type of H with context [mapM ?f ?l] => let E := fresh in let k := fresh in destruct (mapM f l) as [k|] eqn:E; [|discriminate H]; cbn [mbind option_bind] in H end.
Ltac parts := repeat match goal with |- _ /\ _ => split end; try assumption; try exact I.
(** ** Texts of values *)
Definition shows (l : list (string * string)) (k : list (string * val)) : Prop :=
  List.Forall2 (fun p q => p.1 = q.1 /\ esc p.1 = p.1 /\ p.2 = write q.2) l k.
Lemma shows_nil : shows [] []. Proof. constructor. Qed.
Lemma shows_cons n t v l k : esc n = n -> t = write v -> shows l k -> shows ((n, t) :: l) ((n, v) :: k).
Proof. intros H1 H2 H3. constructor; [|exact H3]. split; [reflexivity|]. split; assumption. Qed.
Lemma obj_args l k : shows l k -> obj l = args k.
Proof.
  intros H. unfold obj, args. cbn [write]. unfold commas. f_equal. f_equal. f_equal. induction H as [|[n t] [n' v] l k (E1 & E2 & E3) _ IH]; [reflexivity|].
  cbn [fst snd map] in *. subst n' t. rewrite IH. f_equal. rewrite esc_all, E2. rewrite ?append_assoc. reflexivity.
Qed.
Lemma enter_ok {A} (tbl : list (string * method A)) m fs f l k o : find_key m tbl = Some (fs, f) -> shows l k -> fs <> [] ->
  has (TRec fs) (VRec k) -> f (map snd k) = Some o -> enter tbl m (obj l) = Some o.
Proof.
  intros H1 H2 H3 H4 H5. unfold enter. rewrite H1. cbn [mbind option_bind]. rewrite (read_args_ok fs k _ (obj_args l k H2) H4). destruct fs; [contradiction|exact H5].
Qed.
Lemma w_big n : big n = write (VBig n). Proof. symmetry. apply big_is. Qed.
Lemma w_num n : pretty n = write (VNum n). Proof. reflexivity. Qed.
Lemma w_str s : quote s = write (VStr s). Proof. reflexivity. Qed.
Lemma w_idx i : idx i = write (VNum (N.of_nat i)). Proof. reflexivity. Qed.
Lemma w_bool b : yes_no b = write (VBool b). Proof. reflexivity. Qed.
Definition opt_val {A} (f : A -> val) (o : option A) : val := match o with Some x => VSome (f x) | None => VNone end.
Lemma w_opt {A} (f : A -> string) (g : A -> val) o : (forall x, f x = write (g x)) -> or_null f o = write (opt_val g o).
Proof. intros H. destruct o; [apply H|reflexivity]. Qed.
Lemma w_arr {A} (f : A -> string) (g : A -> val) l : (forall x, f x = write (g x)) -> arr f l = write (VList (map g l)).
Proof. intros H. unfold arr. cbn [write]. unfold commas. do 3 f_equal. rewrite map_map. apply map_ext. exact H. Qed.
Lemma w_two a b u v : a = write u -> b = write v -> two a b = write (VList [u; v]).
Proof. intros -> ->. unfold two. cbn [write map]. unfold commas. cbn [String.concat]. rewrite ?append_assoc. reflexivity. Qed.
Ltac wrote := first
  [ apply w_big | apply w_idx | apply w_bool | apply w_opt; intros ?; wrote
  | apply w_arr; intros ?; wrote | apply (w_arr _ (fun p => VList [_ p; _ p])); intros ?; wrote
  | apply w_two; wrote | apply w_str | apply w_num ].
Lemma h_opt {A} t (g : A -> val) o : plain t -> match o with Some x => has t (g x) | None => True end -> has (TOpt t) (opt_val g o).
Proof. intros Hp. destruct o; intros H; constructor; assumption. Qed.
Lemma h_map {A} t (g : A -> val) (P : A -> Prop) l : (forall x, P x -> has t (g x)) -> List.Forall P l -> has (TVec t) (VList (map g l)).
Proof. intros H F. constructor. induction F; constructor; auto. Qed.
Lemma mapM_map {A B} (f : B -> option A) (g : A -> B) l : (forall x, f (g x) = Some x) -> mapM f (map g l) = Some l.
Proof. intros H. induction l as [|x l IH]; [reflexivity|]. cbn. rewrite H. cbn [mbind option_bind]. rewrite IH. reflexivity. Qed.
Lemma b_strs l : mapM val_strs (map (fun p => VList [VStr p.1; VStr p.2]) l) = Some l. Proof. apply mapM_map. intros []; reflexivity. Qed.
Lemma b_idx l : mapM val_idx (map (fun i => VNum (N.of_nat i)) l) = Some l. Proof. apply mapM_map. intros i. cbn. rewrite Nat2N.id. reflexivity. Qed.
Lemma b_big_num l : mapM val_big_num (map (fun p => VList [VBig p.1; VNum p.2]) l) = Some l. Proof. apply mapM_map. intros []; reflexivity. Qed.
Lemma b_num_big l : mapM val_num_big (map (fun p => VList [VNum p.1; VBig p.2]) l) = Some l. Proof. apply mapM_map. intros []; reflexivity. Qed.
Lemma t_strs (l : list (string * string)) : has (TVec (TTup [TStr; TStr])) (VList (map (fun p => VList [VStr p.1; VStr p.2]) l)).
Proof. apply (h_map _ _ (fun _ => True)); [intros x _; repeat constructor|apply List.Forall_forall; intros; exact I]. Qed.
Lemma t_idx l : List.Forall (fun i => N.of_nat i < 2 ^ 64) l -> has (TVec U64) (VList (map (fun i => VNum (N.of_nat i)) l)).
Proof. apply h_map. intros x H. constructor. exact H. Qed.
Lemma t_big_num l : List.Forall (fun p : N * N => fits128 p.1 /\ fits16 p.2) l -> has (TVec (TTup [U128; U16])) (VList (map (fun p => VList [VBig p.1; VNum p.2]) l)).
Proof. apply h_map. intros x [H1 H2]. repeat constructor; assumption. Qed.
Lemma t_num_big l : List.Forall (fun p : N * N => fits16 p.1 /\ fits128 p.2) l -> has (TVec (TTup [U16; U128])) (VList (map (fun p => VList [VNum p.1; VBig p.2]) l)).
Proof. apply h_map. intros x [H1 H2]. repeat constructor; assumption. Qed.
Lemma t_opt_str (o : option string) : has (TOpt TStr) (opt_val VStr o). Proof. destruct o; repeat constructor. Qed.
Lemma t_opt_bool (o : option bool) : has (TOpt TBool) (opt_val VBool o). Proof. destruct o; repeat constructor. Qed.
Lemma b_opt (o : option string) : val_str (opt_val VStr o) = Some o. Proof. destruct o; reflexivity. Qed.
Ltac typed_fields := apply has_rec; [refine (bool_decide_unpack _ _); exact I|];
  repeat (apply List.Forall2_cons; [split; [reflexivity|]; cbn [fst snd]|]); try apply List.Forall2_nil;
  first [ apply t_strs | apply t_idx; assumption | apply t_big_num; assumption | apply t_num_big; assumption | apply t_opt_str | apply t_opt_bool
        | constructor; assumption | constructor ].
Ltac given := eapply enter_ok;
  [ reflexivity
  | repeat (apply shows_cons; [reflexivity|wrote|]); apply shows_nil
  | discriminate | typed_fields
  | cbn [map snd]; rewrite ?b_strs, ?b_idx, ?b_big_num, ?b_num_big, ?b_opt, ?Nat2N.id; try reflexivity ].
Ltac split_all := repeat match goal with H : _ /\ _ |- _ => destruct H end.
Lemma read_args_says fs a vs : proper (TRec fs) -> read_args fs a = Some vs ->
  List.Forall2 has (map snd fs) vs /\ json (TRec fs) a = Some (VRec (combine (map fst fs) vs)).
Proof.
  intros Hp H. split; [exact (read_args_has _ _ _ Hp H)|]. unfold read_args in H. destruct (json (TRec fs) a) as [v|] eqn:E; [|discriminate].
  apply json_has in E; [|exact Hp]. inversion E as [| | | | | | | | | |? l Hn F]; subst. injection H as <-. do 2 f_equal. clear -F.
  induction F as [|f [n v] fs l [Hn _] _ IH]; [reflexivity|]. cbn [map combine fst snd] in *. congruence.
Qed.
Lemma json_obj fs l k : shows l k -> has (TRec fs) (VRec k) -> json (TRec fs) (obj l) = Some (VRec k).
Proof. intros H1 H2. rewrite (obj_args l k H1). exact (json_ok _ _ H2). Qed.
Ltac parsed2 H := cbn [mbind option_bind] in H;
  match type of H with context [read_args ?fs ?a] =>
    let E := fresh in let J := fresh "J" in let vs := fresh in
    destruct (read_args fs a) as [vs|] eqn:E; [|discriminate H]; apply read_args_says in E as [E J]; [|is_proper]; shape; cbn [map fst combine] in J
  | _ => idtac end; cbn [mbind option_bind] in H.
Ltac reads := first [left; reflexivity
  |right; match goal with J : json _ _ = _ |- _ => etransitivity; [exact J|symmetry] end; etransitivity;
   [ eapply json_obj; [repeat (apply shows_cons; [reflexivity|wrote|]); apply shows_nil|rewrite ?N2Nat.id; typed_fields]
   | rewrite ?N2Nat.id; reflexivity ] ].
Lemma mapM_back {A} (f : val -> option A) (g : A -> val) t l k : (forall v x, has t v -> f v = Some x -> v = g x) -> List.Forall (has t) l -> mapM f l = Some k -> l = map g k.
Proof.
  intros H F. revert k. induction F as [|v l Hv _ IH]; intros k E; [injection E as <-; reflexivity|].
  cbn in E. destruct (f v) as [x|] eqn:Ef; [|discriminate]. cbn [mbind option_bind] in E. destruct (mapM f l) as [k'|]; [|discriminate].
  injection E as <-. cbn [map]. f_equal; [exact (H v x Hv Ef)|apply IH; reflexivity].
Qed.
Lemma back_strs l k : List.Forall (has (TTup [TStr; TStr])) l -> mapM val_strs l = Some k -> l = map (fun p => VList [VStr p.1; VStr p.2]) k.
Proof. apply mapM_back. intros v [a b] H E. shape. injection E as <- <-. reflexivity. Qed.
Lemma back_idx l k : List.Forall (has U64) l -> mapM val_idx l = Some k -> l = map (fun i => VNum (N.of_nat i)) k.
Proof. apply mapM_back. intros v i H E. shape. injection E as <-. rewrite N2Nat.id. reflexivity. Qed.
Lemma back_big_num l k : List.Forall (has (TTup [U128; U16])) l -> mapM val_big_num l = Some k -> l = map (fun p => VList [VBig p.1; VNum p.2]) k.
Proof. apply mapM_back. intros v [a b] H E. shape. injection E as <- <-. reflexivity. Qed.
Lemma back_num_big l k : List.Forall (has (TTup [U16; U128])) l -> mapM val_num_big l = Some k -> l = map (fun p => VList [VNum p.1; VBig p.2]) k.
Proof. apply mapM_back. intros v [a b] H E. shape. injection E as <- <-. reflexivity. Qed.
(** ** Every text is refused or a typed call *)
Ltac listed H := cbn [val_str mbind option_bind] in H;
  repeat match type of H with context [mapM ?f ?l] => let E := fresh in let k := fresh in destruct (mapM f l) as [k|] eqn:E; [|discriminate H]; cbn [mbind option_bind] in H end.
Ltac backed := repeat match goal with
  | F : List.Forall _ ?l, E : mapM val_strs ?l = Some ?k |- _ => pose proof (back_strs l k F E); clear E; subst l
  | F : List.Forall _ ?l, E : mapM val_idx ?l = Some ?k |- _ => pose proof (all_idx l k F E); pose proof (back_idx l k F E); clear E; subst l
  | F : List.Forall _ ?l, E : mapM val_big_num ?l = Some ?k |- _ => pose proof (all_big_num l k F E); pose proof (back_big_num l k F E); clear E; subst l
  | F : List.Forall _ ?l, E : mapM val_num_big ?l = Some ?k |- _ => pose proof (all_num_big l k F E); pose proof (back_num_big l k F E); clear E; subst l
  end.
Lemma mv_sound m a o : mv_entry m a = Some o -> mv_means m a o.
Proof.
  unfold mv_entry, enter, mv_methods. intros H. entries H; try discriminate H; parsed2 H; listed H; injection H as <-; backed;
    (split; [unfold mv_typed; cbn [sized_op]; rewrite ?N2Nat.id; parts|]); (split; [reflexivity|]); cbn [mv_params mv_text fst snd]; reads.
Qed.
Ltac typed_each := apply has_rec; [refine (bool_decide_unpack _ _); exact I|];
  repeat (apply List.Forall2_cons; [split; [reflexivity|]; cbn [fst snd]|]); try apply List.Forall2_nil;
  first [constructor; assumption | constructor; [exact I|constructor; assumption] | constructor; [exact I|constructor] | constructor; cbn; tauto | constructor].
Ltac reads_known := right; match goal with J : json _ _ = _ |- _ => rewrite J end; symmetry; apply json_obj;
  [repeat (apply shows_cons; [reflexivity|first [reflexivity|apply w_big]|]); apply shows_nil|typed_each].
Ltac unused J :=
  match type of J with context [("memo", VSome (VStr ?s))] => exists (Some s) | _ => exists None end;
  match type of J with context [VSome (VBool ?b)] => exists (Some b) | _ => exists None end.
Lemma tok_sound m a o : tok_entry m a = Some o -> tok_means m a o.
Proof.
  unfold tok_entry, enter, tok_methods. intros H. entries H; try discriminate H; parsed2 H; injection H as <-; (split; [cbn [tok_typed]; parts|]);
    match goal with J : json _ _ = _ |- _ => unused J end; (split; [reflexivity|]); cbn [tok_params tok_text fst snd or_null];
    try match goal with b : bool |- _ => destruct b end; reads_known.
Qed.
Definition vote_name (v : vote_type) : string := match v with VAgainst => "Against" | VFor => "For" | VAbstain => "Abstain" end.
Lemma read_vote_name s v : read_vote s = Some v -> s = vote_name v.
Proof. unfold read_vote. repeat case_bool_decide; intros [= <-]; assumption. Qed.
Lemma board_sound m a o : board_entry m a = Some o -> board_means m a o.
Proof.
  unfold board_entry, enter, board_methods, CONTENT, VOTE_TYPE. intros H. entries H; try discriminate H; parsed2 H; cbn [mbind option_bind] in H;
    try match type of H with context [read_vote ?s] => destruct (read_vote s) as [v|] eqn:Ev; [|discriminate H]; apply read_vote_name in Ev; subst s; cbn [mbind option_bind] in H end;
    injection H as <-; (split; [unfold board_typed; cbn [MpipSpecSized.sized_mop]; parts|]); (split; [reflexivity|]); cbn [board_params board_text content_text ct_title ct_short ct_body ct_data ct_extra fst snd];
    first [reads|destruct v; cbn [vote_name] in *; reads_known].
Qed.
Lemma kv_sound m a o : kv_entry m a = Some o -> kv_means m a o.
Proof.
  unfold kv_entry, enter, kv_methods. intros H. entries H; try discriminate H; parsed2 H; listed H; injection H as <-; backed;
    (split; [cbn [kv_typed]; parts|]); (split; [reflexivity|]); cbn [kv_params kv_text fst snd]; reads.
Qed.

(** ** Every typed call has a text, and what says the same stands for the same call *)
Lemma enter_says {A} (tbl : list (string * method A)) m fs f a b : find_key m tbl = Some (fs, f) -> reads_as fs a b -> enter tbl m a = enter tbl m b.
Proof.
  intros E H. unfold enter. rewrite E. cbn [mbind option_bind]. destruct fs as [|x fs]; [reflexivity|]. destruct H as [H|H]; [discriminate|]. unfold read_args. rewrite H. reflexivity.
Qed.
Lemma mv_plain o : mv_typed o -> mv_entry (mv_text o).1 (mv_text o).2 = Some o.
Proof. intros [Hs Ht]. destruct o; cbn [mv_text fst snd sized_op] in *; unfold mv_entry; split_all; try contradiction; try reflexivity; given. Qed.
Lemma tok_plain memo only o : tok_typed o -> tok_entry (tok_text memo only o).1 (tok_text memo only o).2 = Some o.
Proof.
  intros Ht. destruct o as [| | | | | | | |[a|]|[n|]|b]; cbn [tok_text tok_typed fst snd or_null] in *; unfold tok_entry; split_all; try contradiction.
  1-7: given.
  - eapply enter_ok; [reflexivity|apply (shows_cons _ _ (VSome (VStr a))); [reflexivity|reflexivity|]; apply shows_cons; [reflexivity|wrote|apply shows_nil]|discriminate| |reflexivity].
    apply has_rec; [refine (bool_decide_unpack _ _); exact I|]. constructor; [split; [reflexivity|]; constructor; [exact I|constructor; exact Ht]|].
    constructor; [split; [reflexivity|apply t_opt_bool]|constructor].
  - eapply enter_ok; [reflexivity|apply (shows_cons _ _ VNone); [reflexivity|reflexivity|]; apply shows_cons; [reflexivity|wrote|apply shows_nil]|discriminate| |reflexivity].
    apply has_rec; [refine (bool_decide_unpack _ _); exact I|]. constructor; [split; [reflexivity|constructor]|].
    constructor; [split; [reflexivity|apply t_opt_bool]|constructor].
  - eapply enter_ok; [reflexivity|apply (shows_cons _ _ (VSome (VBig n))); [reflexivity|apply w_big|apply shows_nil]|discriminate| |reflexivity].
    apply has_rec; [refine (bool_decide_unpack _ _); exact I|]. constructor; [split; [reflexivity|]; constructor; [exact I|constructor; exact Ht]|constructor].
  - reflexivity.
  - destruct b, only as [[]|]; reflexivity.
Qed.
Lemma board_plain o : board_typed o -> board_entry (board_text o).1 (board_text o).2 = Some o.
Proof.
  intros [Hs Ht]. destruct o as [| | | | | | | | | | |[t1 t2 t3 t4 t5]| |? [t1 t2 t3 t4 t5]|? v| |]; cbn [board_text content_text ct_title ct_short ct_body ct_data ct_extra fst snd MpipSpecSized.sized_mop] in *;
    unfold board_entry; split_all.
  15: { destruct v; (eapply enter_ok; [reflexivity|apply shows_cons; [reflexivity|wrote|]; eapply shows_cons; [reflexivity| |apply shows_cons; [reflexivity|wrote|apply shows_nil]]| | |]);
    [exact (w_str "Against")|discriminate| |reflexivity|exact (w_str "For")|discriminate| |reflexivity|exact (w_str "Abstain")|discriminate| |reflexivity];
    (apply has_rec; [refine (bool_decide_unpack _ _); exact I|]; constructor; [split; [reflexivity|constructor; exact Ht]|];
     constructor; [split; [reflexivity|constructor; cbn; tauto]|]; constructor; [split; [reflexivity|constructor]|constructor]). }
  all: given.
Qed.
Lemma kv_plain o : kv_typed o -> kv_entry (kv_text o).1 (kv_text o).2 = Some o.
Proof. intros Ht. destruct o; cbn [kv_text kv_typed fst snd] in *; unfold kv_entry; try contradiction; given. Qed.

Lemma mv_iff m a o : mv_entry m a = Some o <-> mv_means m a o.
Proof.
  split; [apply mv_sound|]. intros (Ht & -> & Hr). rewrite <- (mv_plain o Ht). unfold mv_entry.
  destruct Ht as [_ Ht]. destruct o; try contradiction; (eapply enter_says; [reflexivity|exact Hr]).
Qed.
Lemma tok_iff m a o : tok_entry m a = Some o <-> tok_means m a o.
Proof.
  split; [apply tok_sound|]. intros (Ht & memo & only & -> & Hr). rewrite <- (tok_plain memo only o Ht). unfold tok_entry.
  destruct o; try contradiction; (eapply enter_says; [reflexivity|exact Hr]).
Qed.
Lemma board_iff m a o : board_entry m a = Some o <-> board_means m a o.
Proof.
  split; [apply board_sound|]. intros (Ht & -> & Hr). rewrite <- (board_plain o Ht). unfold board_entry.
  destruct o; (eapply enter_says; [reflexivity|exact Hr]).
Qed.
Lemma kv_iff m a o : kv_entry m a = Some o <-> kv_means m a o.
Proof.
  split; [apply kv_sound|]. intros (Ht & -> & Hr). rewrite <- (kv_plain o Ht). unfold kv_entry.
  destruct o; try contradiction; (eapply enter_says; [reflexivity|exact Hr]).
Qed.

(** ** The system *)
Lemma zread_names x0 x e : names x = names x0 -> zread x e = zread x0 e.
Proof. unfold names. intros [= E1 E2 E3 E4]. unfold zread. rewrite E1, E2, E3, E4. reflexivity. Qed.
Lemma zread_typed x0 e e' : natural x0 e -> zread x0 e = Some e' -> typed x0 e' /\ xev_ts e' = tev_ts e /\ match e' with XMv z => reads_json z.1 | XRun _ c _ _ => reads_json c | _ => True end.
Proof.
  destruct e as [f g to m a d ts|i ts fail alt]; cbn [zread natural tev_ts]; intros H E.
  - destruct H as (Ho & Hd & Ht). repeat match type of E with context [if ?b then _ else _] => destruct b end; try discriminate E.
    + destruct (mv_entry m a) as [o|] eqn:Eo; [|discriminate]. injection E as <-. apply mv_sound in Eo as [[Eo _] _]. split; [|split; [reflexivity|split; reflexivity]].
      split; [exact Ho|]. split; [exact Ht|]. split; [exact Hd|exact Eo].
    + destruct (tok_entry m a) as [o|] eqn:Eo; [|discriminate]. injection E as <-. apply tok_sound in Eo as [Eo _]. split; [|split; [reflexivity|exact I]].
      split; [exact Ho|]. destruct o; cbn [tok_typed snd] in *; auto.
    + destruct (tok_entry m a) as [o|] eqn:Eo; [|discriminate]. injection E as <-. apply tok_sound in Eo as [Eo _]. split; [|split; [reflexivity|exact I]].
      split; [exact Ho|]. destruct o; cbn [tok_typed snd] in *; auto.
    + destruct (board_entry m a) as [o|] eqn:Eo; [|discriminate]. injection E as <-. apply board_sound in Eo as [[_ Eo] _]. split; [|split; [reflexivity|exact I]].
      split; [exact (proj1 Ho)|]. destruct o; auto.
  - injection E as <-. split; [exact H|]. split; [reflexivity|]. split; reflexivity.
Qed.
Lemma stands_read x0 e e' : differ x0 -> (stands x0 e e' <-> zread x0 e = Some e').
Proof.
  intros (D1 & D2 & D3 & D4 & D5 & D6). destruct e as [f g to m a d ts|i ts fail alt]; cbn [stands zread]; [|split; [intros ->; reflexivity|intros [= <-]; reflexivity]].
  cbv zeta. fold (at_time f g d ts). destruct (bool_decide_reflect (to = self_id (n_mv x0))) as [E1|E1].
  { destruct e' as [[c o]|k [c o]|c o|]; split; try (intros H; destruct (mv_entry m a); discriminate H); try (intros []; fail).
    - intros (_ & H & ->). apply mv_iff in H as ->. reflexivity.
    - destruct (mv_entry m a) as [o'|] eqn:Eo; [|discriminate]. intros [= <- <-]. apply mv_iff in Eo. auto.
    - destruct k; cbn [ntok]; intros (H & _); congruence.
    - intros (H & _); congruence. }
  destruct (bool_decide_reflect (to = t_self (n_mp x0))) as [E2|E2].
  { destruct e' as [[c o]|k [c o]|c o|]; split; try (intros H; destruct (tok_entry m a); discriminate H); try (intros []; fail).
    - intros (H & _); congruence.
    - destruct k; cbn [ntok]; [|intros (H & _); congruence]. intros (_ & H & ->). apply tok_iff in H as ->. reflexivity.
    - destruct (tok_entry m a) as [o'|] eqn:Eo; [|discriminate]. intros [= <- <- <-]. apply tok_iff in Eo. auto.
    - intros (H & _); congruence. }
  destruct (bool_decide_reflect (to = t_self (n_st x0))) as [E3|E3].
  { destruct e' as [[c o]|k [c o]|c o|]; split; try (intros H; destruct (tok_entry m a); discriminate H); try (intros []; fail).
    - intros (H & _); congruence.
    - destruct k; cbn [ntok]; [intros (H & _); congruence|]. intros (_ & H & ->). apply tok_iff in H as ->. reflexivity.
    - destruct (tok_entry m a) as [o'|] eqn:Eo; [|discriminate]. intros [= <- <- <-]. apply tok_iff in Eo. auto.
    - intros (H & _); congruence. }
  destruct (bool_decide_reflect (to = m_self (n_board x0))) as [E4|E4].
  { destruct e' as [[c o]|k [c o]|c o|]; split; try (intros H; destruct (board_entry m a); discriminate H); try (intros []; fail).
    - intros (H & _); congruence.
    - destruct k; cbn [ntok]; intros (H & _); congruence.
    - intros (_ & H & ->). apply board_iff in H as ->. reflexivity.
    - destruct (board_entry m a) as [o'|] eqn:Eo; [|discriminate]. intros [= <- <-]. apply board_iff in Eo. auto. }
  split; [|discriminate]. destruct e' as [[c o]|k [c o]|c o|]; try (intros []; fail); [| |]; try destruct k; cbn [ntok]; intros (H & _); congruence.
Qed.
(** what the contracts are called with at one step *)
Definition mv_case (x0 : net) (P : call -> Prop) (z : call) : Prop :=
  P z \/
  (exists k s n m, z.2 = FtOnTransfer s n m /\ c_pred z.1 = t_self (ntok x0 k) /\ c_deposit z.1 = 0) \/
  (exists v n ok, (z.2 = AfterMp v n ok \/ z.2 = AfterSt v n ok) /\ c_pred z.1 = self_id (n_mv x0) /\ c_deposit z.1 = 0).
Lemma heard_case x0 x y lost e l : SIM x y lost -> names x = names x0 -> typed x0 e -> match e with XMv z => reads_json z.1 | XRun _ c _ _ => reads_json c | _ => True end ->
  like e l -> forall z, In z (heard (y_world y) (wevs l)) ->
  sized_call z /\ reads_json z.1 /\ c_ts z.1 = xev_ts e /\ mv_case x0 (fun z => e = XMv z) z.
Proof.
  intros S HN Ht Hj Hl z Hz. unfold names in HN. injection HN as N1 N2 N3 N4. destruct (sim_c _ _ _ S) as (C1 & C2 & C3 & C4).
  assert (K : forall k, t_self (tok_of (y_world y) k) = t_self (ntok x0 k)) by (intros []; cbn [tok_of ntok]; congruence).
  destruct e as [q|k q|c o|i c fail alt]; cbn [like] in Hl.
  - subst l. cbn [wevs flat_map wev_of app heard heard_at] in Hz. rewrite app_nil_r in Hz. destruct (is_contract _ _); [destruct Hz|]. destruct Hz as [<-|[]].
    destruct Ht as [_ Ht]. split; [exact Ht|]. split; [exact Hj|]. split; [reflexivity|]. left. reflexivity.
  - subst l. destruct Hz.
  - subst l. destruct Hz.
  - destruct Hl as [[_ ->]|(e' & -> & Hl)]; [destruct Hz|]. destruct e' as [[q|k q|j c' f a]|c' o|j ts f a|j ts]; try (destruct Hz; fail); try (destruct Hl; fail).
    cbn [wevs flat_map wev_of app heard heard_at] in Hz. rewrite app_nil_r in Hz. destruct Hl as (L1 & L2 & L3 & _). cbn [typed] in Ht.
    destruct Hj as [J1 J2]. destruct (w_pend (y_world y) !! j) as [p|] eqn:Ep; [|destruct Hz].
    assert (Hp : pend_ok p) by (pose proof (sim_p _ _ _ S) as F; rewrite List.Forall_forall in F; apply F; apply elem_of_list_In, elem_of_list_lookup; eauto).
    assert (Hc : forall a n, reads_json (called_by c' a n)) by (intros u n; split; intros t; cbn; congruence).
    destruct p as [k s v n m|k s v n un|cb tok src v n|cb src n ok]; try (destruct Hz; fail).
    + destruct (bool_decide _ && negb f); [|destruct Hz]. destruct Hz as [<-|[]]. cbn [fst snd]. split; [|split; [apply Hc|split; [exact L1|]]].
      * split; [cbn; rewrite L1; exact Ht|]. split; [reflexivity|]. apply Hp.
      * right. left. exists k, s, n, m. split; [reflexivity|]. split; [apply K|reflexivity].
    + destruct f; [destruct Hz|]. destruct Hz as [<-|[]]. cbn [fst snd]. split; [|split; [apply Hc|split; [exact L1|]]].
      * split; [cbn; rewrite L1; exact Ht|]. split; [reflexivity|]. destruct cb; exact Hp.
      * right. right. exists src, n, ok. split; [destruct cb; auto|]. split; [cbn; congruence|reflexivity].
Qed.
Lemma SIM0 x0 y0 : started x0 y0 -> SIM x0 y0 [].
Proof.
  intros ((C1 & C2 & C3 & C4) & Hm & Hw & Ha & Hb). pose proof Hw as (a & o1 & n1 & m1 & o2 & n2 & m2 & W1 & W2 & W3 & W4 & W5 & W6 & W7).
  destruct (t_new_spec _ _ _ _ _ W3) as (T1 & _ & _ & _ & _ & I1). destruct (t_new_spec _ _ _ _ _ W4) as (T2 & _ & _ & _ & _ & I2).
  assert (I0 : self_id (w_mv (y_world y0)) = i_self a) by (unfold mv_new in W1; rinv; rewrite <- W1; reflexivity).
  constructor.
  - repeat split; assumption.
  - exists [], []. rewrite Hm, W2, Ha. split; [constructor|]. split; constructor.
  - constructor.
  - rewrite W2. constructor.
  - rewrite Ha. constructor.
  - exists a, (n_mv x0), []. split; [congruence|]. split; [constructor|reflexivity].
  - split; congruence.
  - unfold differ. rewrite C1, C2, C3, C4, I0, I1, I2. split; [congruence|]. split; [congruence|]. split; [congruence|].
    rewrite I0, I1, I2 in Hb. cbn [In] in Hb. split; [|split]; intros E; apply Hb; auto.
Qed.
Lemma zsim x0 : differ x0 -> forall tr x y lost, SIM x y lost -> names x = names x0 -> Forall (natural x0) tr ->
  exists trs more h, List.Forall2 (zlike x0) tr trs /\ SIM (zrun x tr) (yrun y (concat trs)) (more ++ lost) /\ names (zrun x tr) = names x0 /\
    n_mv (zrun x tr) = run (n_mv x) h /\ Forall (fun z => sized_call z /\ reads_json z.1 /\ justified x0 tr z) h /\
    sublist (map (fun z => c_ts z.1) h) (map tev_ts tr).
Proof.
  intros DF. induction tr as [|e tr IH]; intros x y lost S HN Ht.
  - exists [], [], []. split; [constructor|]. split; [exact S|]. split; [exact HN|]. split; [reflexivity|]. split; constructor.
  - inversion Ht as [|? ? He Ht']; subst. cbn [zrun fold_left]. unfold zstep at 2 4 6. rewrite (zread_names x0 x e HN).
    assert (W : forall z, justified x0 tr z -> justified x0 (e :: tr) z).
    { intros z [(e1 & H1 & H2)|H]; [left; exists e1; split; [right; exact H1|exact H2]|right; exact H]. }
    destruct (zread x0 e) as [e'|] eqn:E.
    + destruct (zread_typed x0 e e' He E) as (T1 & T2 & T3). destruct (sim_step x y lost e' S (typed_names _ _ _ HN T1)) as (l & more & Hl & S1).
      destruct (sim_t _ _ _ S) as [I1 I2]. destruct (IH _ _ _ S1) as (trs & more' & h & H1 & H2 & H3 & H4 & H5 & H6); [rewrite xstep_names by assumption; exact HN|exact Ht'|].
      exists (l :: trs), (more' ++ more), (heard (y_world y) (wevs l) ++ h). split; [constructor; [left; exists e'; split; [apply stands_read; assumption|exact Hl]|exact H1]|].
      split; [cbn [concat]; unfold yrun; rewrite fold_left_app, <- app_assoc; exact H2|]. split; [exact H3|].
      assert (R : n_mv (xstep x e') = run (n_mv x) (heard (y_world y) (wevs l))).
      { destruct (sim_c _ _ _ S1) as (C1 & _). destruct (sim_c _ _ _ S) as (C0 & _). rewrite C1, C0, yrun_world. apply heard_run. }
      pose proof (heard_case x0 x y lost e' l S HN T1 T3 Hl) as HC.
      split; [rewrite run_app, <- R; exact H4|]. split.
      * apply Forall_app. split; [|eapply Forall_impl; [exact H5|]; cbn; intros z (A & B & C); auto].
        apply List.Forall_forall. intros z Hz. destruct (HC z Hz) as (A & B & _ & D). split; [exact A|]. split; [exact B|]. destruct D as [->|D]; [|right; exact D].
        left. exists e. split; [left; reflexivity|apply stands_read; assumption].
      * rewrite map_app. cbn [map]. assert (L : (length (heard (y_world y) (wevs l)) <= 1)%nat).
        { pose proof (heard_len (wevs l) (y_world y)). pose proof (wevs_len l). pose proof (like_len _ _ Hl). lia. }
        destruct (heard (y_world y) (wevs l)) as [|z [|? ?]]; [apply sublist_cons; exact H6| |cbn in L; lia].
        destruct (HC z (or_introl eq_refl)) as (_ & _ & C & _). cbn [map app]. rewrite C, T2. apply sublist_skip. exact H6.
    + destruct (IH _ _ _ S HN Ht') as (trs & more & h & H1 & H2 & H3 & H4 & H5 & H6).
      exists ([] :: trs), more, h. split; [constructor; [right; split; [intros q Hq; apply stands_read in Hq; [congruence|exact DF]|reflexivity]|exact H1]|]. split; [exact H2|]. split; [exact H3|]. split; [exact H4|].
      split; [eapply Forall_impl; [exact H5|]; cbn; intros z (A & B & C); auto|]. apply sublist_cons. exact H6.
Qed.
Lemma c94_system x0 y0 tr : started x0 y0 -> Forall (natural x0) tr ->
  exists trs lost, List.Forall2 (zlike x0) tr trs /\ same_contracts (zrun x0 tr) (yrun y0 (concat trs)) /\
    same_mail (zrun x0 tr) (yrun y0 (concat trs)) lost /\ Forall (lost_callback (m_self (y_board y0))) lost.
Proof.
  intros H0 Ht. destruct (zsim x0 (sim_n _ _ _ (SIM0 _ _ H0)) tr x0 y0 [] (SIM0 _ _ H0) eq_refl Ht) as (trs & lost & h & H1 & H2 & H3 & _). rewrite app_nil_r in H2. exists trs, lost. split; [exact H1|].
  destruct H2 as [K1 K2 K3 _ _ _ _ _]. split; [exact K1|]. split; [exact K2|].
  destruct H0 as ((_ & _ & _ & C4) & _). injection H3 as _ _ _ E. destruct K1 as (_ & _ & _ & K1). rewrite <- C4, <- E, K1. exact K3.
Qed.
Lemma c94_history x0 y0 tr : started x0 y0 -> Forall (natural x0) tr ->
  exists h, n_mv (zrun x0 tr) = run (n_mv x0) h /\ Forall (fun z => sized_call z /\ reads_json z.1 /\ justified x0 tr z) h /\
    sublist (map (fun z => c_ts z.1) h) (map tev_ts tr).
Proof. intros H0 Ht. destruct (zsim x0 (sim_n _ _ _ (SIM0 _ _ H0)) tr x0 y0 [] (SIM0 _ _ H0) eq_refl Ht) as (trs & lost & h & _ & _ & _ & H). exists h. exact H. Qed.
Lemma started_new x0 y0 : started x0 y0 -> exists a, mv_new a = Ok (n_mv x0).
Proof. intros ((C1 & _) & _ & (a & o1 & n1 & m1 & o2 & n2 & m2 & W1 & _) & _). exists a. congruence. Qed.
Lemma c94_sized x0 y0 tr : started x0 y0 -> Forall (natural x0) tr -> sized (MVSpecStep.observe (n_mv (zrun x0 tr))).
Proof.
  intros H0 Ht. destruct (started_new _ _ H0) as [a Ha]. destruct (c94_history x0 y0 tr H0 Ht) as (h & -> & H & _).
  apply (c88_stored a); [exact Ha|]. eapply Forall_impl; [exact H|]. cbn. tauto.
Qed.
(** the proposal contract *)
Lemma gevs_calls x0 : differ x0 -> forall tr trs, List.Forall2 (zlike x0) tr trs -> Forall (natural x0) tr -> forall e', In e' (concat trs) ->
  match e' with
  | YCall c o => exists e, In e tr /\ stands x0 e (XBoard c o) /\ tev_ts e = c_ts c
  | YBack _ ts => ts < 2 ^ 64
  | _ => True
  end.
Proof.
  intros DF. induction 1 as [|e l tr trs Hl _ IH]; intros Hn e' Hi; [destruct Hi|]. inversion Hn as [|? ? He Hn']; subst. cbn [concat] in Hi. apply in_app_iff in Hi as [Hi|Hi].
  - destruct Hl as [(x & E & Hl)|[_ ->]]; [|destruct Hi]. pose proof E as E0. apply stands_read in E; [|exact DF]. destruct (zread_typed x0 e x He E) as (T1 & T2 & _).
    destruct x as [q|k q|c o|i c fail alt]; cbn [like] in Hl.
    + subst l. destruct Hi as [<-|[]]. exact I.
    + subst l. destruct Hi as [<-|[]]. exact I.
    + subst l. destruct Hi as [<-|[]]. exists e. split; [left; reflexivity|]. split; [exact E0|symmetry; exact T2].
    + destruct Hl as [[_ ->]|(q & -> & Hl)]; [destruct Hi|]. destruct Hi as [<-|[]]. destruct q as [[q|k q|j c' f a]|c' o|j ts f a|j ts]; try exact I; try destruct Hl.
      subst ts. exact T1.
  - specialize (IH Hn' e' Hi). destruct e'; try exact I; [|exact IH]. destruct IH as (e1 & H1 & H2). exists e1. split; [right; exact H1|exact H2].
Qed.
Lemma mevs_in tr : forall g x, In x (mevs g tr) -> match x with MCall c o => In (GCall c o) tr | MAnswer i ts _ => In (GBack i ts) tr end.
Proof.
  induction tr as [|e tr IH]; intros g x Hx; [destruct Hx|]. cbn [mevs] in Hx.
  assert (R : In x (mevs (gstep g e) tr) -> match x with MCall c o => In (GCall c o) (e :: tr) | MAnswer i ts _ => In (GBack i ts) (e :: tr) end).
  { intros H. apply IH in H. destruct x; right; exact H. }
  destruct (mev_of g e) as [m|] eqn:E; [|exact (R Hx)]. destruct Hx as [<-|Hx]; [|exact (R Hx)]. destruct e as [z|c o|i ts f alt|i ts]; cbn [mev_of] in E; try discriminate E.
  - injection E as <-. left. reflexivity.
  - destruct (g_pend g !! i) as [[p [a|]]|]; try discriminate E. injection E as <-. left. reflexivity.
Qed.
Lemma gevs_back tr y x : In x (gevs y tr) -> match x with GCall c o => In (YCall c o) tr | GBack i ts => In (YBack i ts) tr | _ => True end.
Proof.
  intros Hx. apply gevs_in in Hx as (t1 & e & t2 & -> & Hx). destruct e as [e|c o|i ts f alt|i ts]; cbn [gev_of] in Hx.
  - apply in_map_iff in Hx as (z & <- & _). exact I.
  - destruct Hx as [<-|[]]. apply in_app_iff. right. left. reflexivity.
  - destruct Hx as [<-|[]]. exact I.
  - destruct Hx as [<-|[]]. apply in_app_iff. right. left. reflexivity.
Qed.
Lemma c94_board x0 y0 tr : started x0 y0 -> Forall (natural x0) tr ->
  exists h, n_board (zrun x0 tr) = w_m (Mpip.wrun (winit (n_board x0)) h) /\ Forall (fun z => MpipSpecSized.sized_event z /\ board_justified x0 tr z) h.
Proof.
  intros H0 Ht. pose proof (sim_n _ _ _ (SIM0 _ _ H0)) as DF. destruct (c94_system x0 y0 tr H0 Ht) as (trs & lost & L & (_ & _ & _ & C4) & _). destruct H0 as ((_ & _ & _ & B4) & _ & _ & Ha & _).
  exists (mevs (gov_of y0) (gevs y0 (concat trs))). split.
  - rewrite C4. change (y_board (yrun y0 (concat trs))) with (w_m (proj (gov_of (yrun y0 (concat trs))))). rewrite yrun_gov, grun_proj. f_equal. f_equal.
    unfold proj, gov_of, winit. cbn [g_m g_pend]. rewrite Ha, B4. reflexivity.
  - apply List.Forall_forall. intros z Hz. apply mevs_in in Hz. destruct z as [c o|i ts a]; apply gevs_back in Hz; apply (gevs_calls x0 DF tr trs L Ht) in Hz.
    + destruct Hz as (e & He & E & Et). split; [|exists e; split; assumption]. rewrite List.Forall_forall in Ht. pose proof (Ht e He) as Hn. clear - Hn E Et.
      destruct e as [f g to m a d ts|i ts fail alt]; cbn [stands] in E; [|discriminate]. cbn [natural tev_ts] in *. split; [rewrite <- Et; apply Hn|].
      destruct E as (_ & Eo & _). destruct Eo as [[Eo _] _]. exact Eo.
    + split; [exact Hz|exact I].
Qed.
Lemma c94_board_sized b x0 y0 tr : started x0 y0 -> mpip_new b = Ok (n_board x0) -> MpipSpecSized.sized_args b -> Forall (natural x0) tr ->
  exists h, n_board (zrun x0 tr) = w_m (Mpip.wrun (winit (n_board x0)) h) /\ MpipSpecSized.sized_board (MpipSpecStep.observe (Mpip.wrun (winit (n_board x0)) h)).
Proof.
  intros H0 Hb Ha Ht. destruct (c94_board x0 y0 tr H0 Ht) as (h & E & H). exists h. split; [exact E|]. apply (c89_stored b); [exact Hb|exact Ha|].
  eapply Forall_impl; [exact H|]. cbn. tauto.
Qed.
(** votes cost tokens *)
Lemma zrun_xrun x0 y0 : forall tr, started x0 y0 -> Forall (natural x0) tr ->
  zrun x0 tr = xrun x0 (omap (zread x0) tr) /\ Forall (typed x0) (omap (zread x0) tr).
Proof.
  intros tr H0 Ht. split; [|clear H0; induction Ht as [|e tr He _ IH]; [constructor|]; cbn; destruct (zread x0 e) as [e'|] eqn:E; [|exact IH];
    constructor; [exact (proj1 (zread_typed x0 e e' He E))|exact IH]].
  revert Ht. pattern tr. apply rev_ind; clear tr; [reflexivity|]. intros e tr IH Ht. apply Forall_app in Ht as [Ht _].
  unfold zrun in *. rewrite fold_left_app, omap_app. unfold xrun in *. rewrite fold_left_app. cbn [fold_left]. rewrite <- (IH Ht).
  destruct (zsim x0 (sim_n _ _ _ (SIM0 _ _ H0)) tr x0 y0 [] (SIM0 _ _ H0) eq_refl Ht) as (trs & lost & h & _ & _ & H3 & _). unfold zrun in H3.
  unfold zstep at 1. rewrite (zread_names x0 _ e H3). cbn. destruct (zread x0 e); reflexivity.
Qed.
Lemma c94_tokens b x0 y0 tr id T D vs :
  started x0 y0 -> mpip_new b = Ok (n_board x0) -> mi_vote b = self_id (n_mv x0) -> Forall (natural x0) tr -> Sorted N.le (map tev_ts tr) ->
  Forall (zeach x0 (tame D y0)) tr -> D <= min_unbond (n_mv x0) ->
  Forall (fun e => tev_ts e / 1000000 <= T) tr ->
  (forall e c vt memo, In e tr -> stands x0 e (XBoard c (VoteProposal id vt memo)) -> T < now_ms c + D * 86400000) ->
  N.of_nat (length tr) < 2 ^ 64 ->
  let x := zrun x0 tr in
  sum_by (fun v => match get_my_vote (n_board x) v id with Ok (Some (_, u)) => vt_power u | _ => 0 end) vs <=
    60 * 10 ^ 18 * sum_by (positions_amount (n_mv x)) vs.
Proof.
  intros H0 Hb Hv Ht Hs Hd HD HT Hr Hn. cbv zeta. pose proof (sim_n _ _ _ (SIM0 _ _ H0)) as DF. destruct (zrun_xrun x0 y0 tr H0 Ht) as [-> Hty].
  apply (c93_tokens b x0 y0 _ id T D vs H0 Hb Hv Hty).
  - assert (L : sublist (map xev_ts (omap (zread x0) tr)) (map tev_ts tr)).
    { clear - Ht. induction Ht as [|e tr He _ IH]; [constructor|]. cbn. destruct (zread x0 e) as [e'|] eqn:E; [|apply sublist_cons; exact IH].
      destruct (zread_typed x0 e e' He E) as (_ & T2 & _). cbn [map]. rewrite T2. apply sublist_skip. exact IH. }
    apply StronglySorted_Sorted. apply Sorted_StronglySorted in Hs; [|intros u v w; apply N.le_trans]. clear - L Hs. revert Hs. induction L as [|t l k L IH|t l k L IH]; intros Hs.
    + constructor.
    + apply StronglySorted_inv in Hs as [Hs Hf]. constructor; [apply IH; exact Hs|]. rewrite List.Forall_forall in *. intros q Hq. apply Hf.
      apply elem_of_list_In. eapply elem_of_submseteq; [apply elem_of_list_In; exact Hq|apply sublist_submseteq; exact L].
    + apply StronglySorted_inv in Hs as [Hs _]. apply IH. exact Hs.
  - clear - Hd DF. induction Hd as [|e tr He _ IH]; [constructor|]. cbn. unfold zeach in He. destruct (zread x0 e) as [e'|] eqn:E; [|exact IH].
    constructor; [apply He, stands_read; assumption|exact IH].
  - exact HD.
  - clear - Ht HT. induction Ht as [|e tr He _ IH]; [constructor|]. inversion HT; subst. cbn. destruct (zread x0 e) as [e'|] eqn:E; [|apply IH; assumption].
    destruct (zread_typed x0 e e' He E) as (_ & T2 & _). constructor; [rewrite T2; assumption|apply IH; assumption].
  - intros c vt memo Hi. apply elem_of_list_In, elem_of_list_omap in Hi as (e & He & E). apply elem_of_list_In in He. apply (Hr e c vt memo He), stands_read; assumption.
  - assert (L : (length (omap (zread x0) tr) <= length tr)%nat) by (clear; induction tr as [|e tr IH]; cbn; [lia|]; destruct (zread x0 e); cbn; lia). lia.
Qed.
