(** Props_Storage.v -- C68: records of different collections never overlap in the contract's flat
    storage. *)

From Verif Require Import FlatProofs.
Local Open Scope string_scope.

(** Two records of meta-vote-contract have the same storage key only if they are the same record,
    or if two different hashed ids have the same hash.  [H] stands for keccak256. *)
Theorem C68_metavote_keys_distinct :
  forall H x y, hash32 H -> mv_fits x -> mv_fits y -> mv_key H x = mv_key H y ->
  mv_same x y \/ collide H (mv_id x) (mv_id y).
Proof. exact c68_mv. Qed.
Print Assumptions C68_metavote_keys_distinct.

(** "The same" up to "voter-address": with any hash, the votes of the account al for the address
    ice.near-app and those of al-ice.near for app are in the same records. *)
Theorem C68_voter_address_keys_refuted :
  forall H, exists v a v' a', (v, a) <> (v', a') /\
    forall r, mv_key H (MVoterVotes v a r) = mv_key H (MVoterVotes v' a' r).
Proof. intros H. exists "al", "ice.near-app", "al-ice.near", "app". split; [discriminate|]. intros r. reflexivity. Qed.
Print Assumptions C68_voter_address_keys_refuted.

(** mpip-contract, kv-store-contract, test-meta-token *)
Theorem C68_mpip_keys_distinct :
  forall H x y, hash32 H -> mp_fits x -> mp_fits y -> mp_key H x = mp_key H y -> x = y \/ collide H (mp_id x) (mp_id y).
Proof. exact c68_mp. Qed.
Print Assumptions C68_mpip_keys_distinct.
Theorem C68_kv_keys_distinct :
  forall x y, (match x with KData r => urec_fits r | _ => True end) -> (match y with KData r => urec_fits r | _ => True end) ->
  kv_key x = kv_key y -> x = y.
Proof. exact c68_kv. Qed.
Print Assumptions C68_kv_keys_distinct.
Theorem C68_token_keys_distinct :
  forall x y, (match x with TAccount a => str_fits a | _ => True end) -> (match y with TAccount a => str_fits a | _ => True end) ->
  tok_key x = tok_key y -> x = y.
Proof. exact c68_tok. Qed.
Print Assumptions C68_token_keys_distinct.

(** Any sequence of operations on unordered maps, vectors and lookup maps in one flat store, with
    the prefixes of meta-vote-contract: no operation panics, every collection holds exactly its own
    values, and the root record is not touched. *)
Theorem C68_metavote_collections_separate :
  forall H kd st0 tr,
  hash32 H -> (forall p x, mv_prefix H p -> st0 !! (p +:+ x) = None) ->
  fdisciplined (mv_prefix H) kd tr -> N.of_nat (length tr) < U64_SIZE ->
  exists s, frun (mkF st0 ∅) tr = Ok s /\ (forall p, mv_prefix H p -> coll_ok kd s tr p) /\
    fs_st s !! "STATE" = st0 !! "STATE".
Proof. exact c68_mv_store. Qed.
Print Assumptions C68_metavote_collections_separate.

(** the same for any prefixes of which none goes on as another *)
Theorem C68_collections_separate :
  forall P kd st0 tr,
  prefix_free P -> (forall p x, P p -> st0 !! (p +:+ x) = None) ->
  fdisciplined P kd tr -> N.of_nat (length tr) < U64_SIZE ->
  exists s, frun (mkF st0 ∅) tr = Ok s /\ (forall p, P p -> coll_ok kd s tr p) /\
    (forall key, (forall p x, P p -> key <> p +:+ x) -> fs_st s !! key = st0 !! key).
Proof. exact c68_store. Qed.
Print Assumptions C68_collections_separate.

(** Without that the collections overlap: with the prefixes "A" and "Ai" a write to the one appears
    as an entry of the other. *)
Theorem C68_prefixes_must_be_free_refuted :
  ~ (forall P kd tr, fdisciplined P kd tr -> N.of_nat (length tr) < U64_SIZE ->
       exists s, frun fempty tr = Ok s /\ forall p, P p -> coll_ok kd s tr p).
Proof.
  intros F. set (kd := fun p => if String.eqb p "A" then KMap else KLook).
  destruct (F (fun p => p = "A" \/ p = "Ai") kd [LSet "Ai" "x" (enc_uint 8 0)]) as (s & Hs & Hc).
  - intros [|o tr1] o' tr2 E; [injection E as <- _|destruct tr1; discriminate E].
    split; [right; reflexivity|]. split; [reflexivity|exact I].
  - reflexivity.
  - destruct (Hc "A" (or_introl eq_refl)) as [Hg _]. specialize (Hg "x"). vm_compute in Hs. injection Hs as <-.
    vm_compute in Hg. discriminate Hg.
Qed.
Print Assumptions C68_prefixes_must_be_free_refuted.

(** ** Examples *)
(** a 32-byte function in place of the hash: the string, cut or filled up *)
Fixpoint pad (n : nat) (s : string) : string :=
  match n with
  | O => ""
  | S n' => match s with EmptyString => String "0" (pad n' "") | String c s' => String c (pad n' s') end
  end.
Lemma pad32 : hash32 (pad 32).
Proof.
  intros s. assert (G : forall n s, String.length (pad n s) = n).
  { induction n as [|n IH]; intros t; [reflexivity|]. destruct t; cbn [pad String.length]; rewrite IH; reflexivity. }
  apply G.
Qed.
Example C68_keys_example :
  let H := pad 32 in
  let x := MVotePosition "a.near" (UVal 0) in let y := MVotePosition "b.near" (UVal 0) in
  hash32 H /\ mv_fits x /\ mv_fits y /\ ~ mv_same x y /\ ~ collide H (mv_id x) (mv_id y) /\ mv_key H x <> mv_key H y.
Proof.
  cbn zeta. split; [apply pad32|]. split; [reflexivity|]. split; [reflexivity|]. split; [discriminate|]. split.
  - intros (s & t & [= <-] & [= <-] & _ & E). vm_compute in E. discriminate E.
  - intros E. vm_compute in E. discriminate E.
Qed.

Definition kd_mv (p : string) : kind :=
  match p with
  | String c _ => if N.eqb (N_of_ascii c) 0 then KVec else if N.leb 10 (N_of_ascii c) then KLook else KMap
  | EmptyString => KMap
  end.
(** two voters, their positions and votes, a delegation *)
Definition tr_store : list fop :=
  let H := pad 32 in
  [ FNew (sk0 2); FNew (sk1 H 1 "a"); VNew (sk1 H 0 "a"); FIns (sk0 2) (enc_str "a") "voter a";
    VPush (sk1 H 0 "a") "p0"; VPush (sk1 H 0 "a") "p1"; VPush (sk1 H 0 "b") "q0"; VPush (sk1 H 0 "a") "p2";
    FIns (sk0 2) (enc_str "b") "voter b"; FIns (sk1 H 1 "a") (enc_str "app") "votes"; VSwapRemove (sk1 H 0 "a") 0;
    VReplace (sk1 H 0 "a") 1 "p1'"; LSet (sk0 10) (enc_str "0xe") "sig"; LSet (sk0 11) (enc_str "0xe") "pre";
    LRemove (sk0 11) (enc_str "0xe"); FRem (sk0 2) (enc_str "a"); FIns (sk0 2) (enc_str "b") "voter b2" ].
Definition fread (tr : list fop) : res (list (string * string) * list string * option string * option string) :=
  let H := pad 32 in
  s ← frun fempty tr; l ← fentries (fs_st s) (fhandle s (sk0 2));
  v ← fvec_elems (fs_st s) (sk1 H 0 "a") (flen s (sk1 H 0 "a"));
  Ok (l, v, fs_st s !! (sk0 10 +:+ enc_str "0xe"), fs_st s !! (sk0 11 +:+ enc_str "0xe")).
Example C68_store_example :
  hash32 (pad 32) /\ fdisciplined (mv_prefix (pad 32)) kd_mv tr_store /\ N.of_nat (length tr_store) < U64_SIZE /\
  fread tr_store = Ok ([(enc_str "b", "voter b2")], ["p2"; "p1'"], Some "sig", None).
Proof.
  split; [apply pad32|]. split; [|split; [reflexivity|vm_compute; reflexivity]].
  intros tr1 o tr2 E. unfold tr_store in E.
  repeat (destruct tr1 as [|? tr1]; [injection E as <- _; split;
      [first [apply pre_plain; cbn; tauto | apply pre_hashed; cbn; tauto]|split; [reflexivity|
       first [exact I | intros k; unfold fvalue; cbn; repeat case_decide; reflexivity | vm_compute; lia]]]|injection E as <- E]).
  destruct tr1; discriminate E.
Qed.
