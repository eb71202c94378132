(** Props_MpipView.v -- C62-C64: what the proposal contract reports. *)

From Verif Require Import MpipView MpipRefuted.

(** C62. Whatever happened, the state reported for a proposal is the one its flags, window, quorum and
    tallies call for, and only that one. *)
Theorem C62_state_reported :
  forall a s0 tr now id p,
    mpip_new a = Ok s0 -> mtimed tr -> Forall (fun x => event_ts x / 1000000 <= now) tr ->
    let s := w_m (wrun (winit s0) tr) in
    get_proposal s id = Ok p -> tally s id VFor + tally s id VAbstain < 2 ^ 128 ->
    exists st, get_proposal_state now s id = Ok st /\ reported now s id p st.
Proof. exact c62. Qed.
Print Assumptions C62_state_reported.
Theorem C62_state_unique :
  forall now s id p st st', reported now s id p st -> reported now s id p st' -> st = st'.
Proof. exact reported_unique. Qed.
Print Assumptions C62_state_unique.

(** quorum 500: with 600 for and 500 against the proposal is accepted after its end; with 700 against rejected *)
Definition tr_close (n : N) : list mevent :=
  tr_open ++ [ mc "bob" 30 (VoteProposal 0 VFor "a"); ans_pos 0 31 [pos 600 true];
               mc "carol" 40 (VoteProposal 0 VAgainst "b"); ans_pos 0 41 [pos n true] ].
Example C62_example :
  mtimed (tr_close 500) /\ mall_ok mw0 (tr_close 500) = true /\ mall_ok mw0 (tr_close 700) = true /\
  get_proposal_state 1020 (w_m (wrun mw0 (tr_close 500))) 0 = Ok StVotingProcess /\
  get_proposal_state 1021 (w_m (wrun mw0 (tr_close 500))) 0 = Ok StAccepted /\
  get_proposal_state 1021 (w_m (wrun mw0 (tr_close 700))) 0 = Ok StRejected /\
  get_proposal_state 1021 (w_m (wrun mw0 (tr_close 600))) 0 = Ok StRejected /\
  tally (w_m (wrun mw0 (tr_close 500))) 0 VFor = 600 /\ tally (w_m (wrun mw0 (tr_close 500))) 0 VAgainst = 500.
Proof. mconj; [mtimed_tac|mvmr..]. Qed.

(** C63. A page of proposals lists exactly the proposals with these ids, and all pages together all of them. *)
Theorem C63_page :
  forall w tr from limit, mreach w tr -> few_proposals (w_m w) -> let s := w_m w in
    let n := n_proposals s in
    exists l, proposals_of s (seq from (Nat.min limit (n - from))) = Ok l /\
      get_proposals s from limit = Ok (if decide (from < n)%nat then Some l else None).
Proof. exact c63_page. Qed.
Print Assumptions C63_page.
Theorem C63_all_pages :
  forall w tr k m, mreach w tr -> few_proposals (w_m w) ->
    exists l, proposals_of (w_m w) (seq 0 (Nat.min (m * k) (n_proposals (w_m w)))) = Ok l /\ walk_proposals (w_m w) k m = Ok l.
Proof. exact c63_walk. Qed.
Print Assumptions C63_all_pages.
Example C63_example :
  let tr := [ mcreate "alice" 10 "P0"; mcreate "bob" 10 "P1"; mcreate "alice" 10 "P2";
              ans_pos 1 11 [pos 100 true]; ans_pos 0 11 [pos 100 true]; ans_pos 0 12 [pos 100 true] ] in
  let s := w_m (wrun mw0 tr) in
  let t (p : mpip) := ct_title (pr_content p) in
  let r o := match o with Ok (Some l) => Some (map t l) | _ => None end in
  r (get_proposals s 0 2) = Some ["P1"; "P0"] /\ r (get_proposals s 2 2) = Some ["P2"] /\
  get_proposals s 3 2 = Ok None /\
  match walk_proposals s 2 2 with Ok l => map t l = ["P1"; "P0"; "P2"] | Panic _ => False end.
Proof. mconj; mvmr. Qed.

(** C64. A proposal leaves the draft state and gets its window only when the total voting power arrives,
    and the window is the configured period from then on. *)
Theorem C64_window :
  forall w tr x id p p', mreach w tr -> few_proposals (w_m w) -> let s := w_m w in
    get_proposal s id = Ok p -> get_proposal (w_m (wstep w x)) id = Ok p' ->
    (pr_start p', pr_end p', pr_draft p') <> (pr_start p, pr_end p, pr_draft p) ->
    exists i ts n t q, x = MAnswer i ts (ABytes (Some n) t) /\ w_pend w !! i = Some q /\ pd_kind q = KStart id /\
      pr_start p' = Some (ts / 1000000) /\ pr_end p' = Some (ts / 1000000 + m_period s) /\ pr_draft p' = false /\
      ts / 1000000 + m_period s < 2 ^ 64.
Proof. exact c64. Qed.
Print Assumptions C64_window.
(** the period counts when the answer arrives, not when the start was asked for *)
Example C64_example :
  let w := wrun mw0 (firstn 3 tr_open ++ [mc "op.near" 16 (UpdateVotingPeriod 7)]) in
  match get_proposal (w_m w) 0, get_proposal (w_m (wstep w (ans_total 0 20 5000))) 0 with
  | Ok p, Ok p' => (pr_start p, pr_end p, pr_draft p) = (None, None, true) /\
                   (pr_start p', pr_end p', pr_draft p') = (Some 20, Some 27, false)
  | _, _ => False
  end.
Proof. vm_compute. mconj; reflexivity. Qed.
