(** Concrete histories of a single-choice module, used to show that the
    hypotheses of the theorems are met by non-trivial cases. *)
From Verif Require Import Base BaseProofs Exec ExecProofs VotingModel VotingSpec
  HooksModel SingleModel SingleSpec.

(** DAO 9: members 1, 2, 3 with powers 40, 35, 25; from height 40 on member 4
    has 50 more. *)
Definition ex_vp (d a : addr) (h : Z) : Z :=
  if (a =? 1)%N then 40 else if (a =? 2)%N then 35 else if (a =? 3)%N then 25
  else if (a =? 4)%N then (if 40 <=? h then 50 else 0) else 0.
Definition ex_O : oracle := Oracle ex_vp (fun _ h => if 40 <=? h then 150 else 100).

Lemma lsum_single (x : addr) (w : Z) l :
  0 <= w -> NoDup l -> lsum (fun a => if (a =? x)%N then w else 0) l <= w.
Proof.
  intros Hw. induction 1 as [|y l Hy Hn IH]; simpl; [done|].
  destruct (y =? x)%N eqn:E; [|lia]. apply N.eqb_eq in E as ->.
  assert (lsum (fun a => if (a =? x)%N then w else 0) l = 0) as ->; [|lia].
  clear IH Hn. induction l as [|z l IH]; simpl; [done|].
  rewrite IH by set_solver. destruct (z =? x)%N eqn:E; [|lia].
  apply N.eqb_eq in E as ->. set_solver.
Qed.
Lemma ex_sane d : sane ex_O d.
Proof.
  split; [|split].
  - intros a h. simpl. unfold ex_vp. repeat case_match; lia.
  - intros h. simpl. unfold U128_MAX. case_match; lia.
  - intros h l Hl. set (w := if 40 <=? h then 50 else 0).
    pose proof (lsum_single 1%N 40 l ltac:(lia) Hl).
    pose proof (lsum_single 2%N 35 l ltac:(lia) Hl).
    pose proof (lsum_single 3%N 25 l ltac:(lia) Hl).
    assert (0 <= w) as Hw by (subst w; case_match; lia).
    pose proof (lsum_single 4%N w l Hw Hl).
    assert (lsum (fun a => vp ex_O d a h) l =
      lsum (fun a => if (a =? 1)%N then 40 else 0) l + lsum (fun a => if (a =? 2)%N then 35 else 0) l +
      lsum (fun a => if (a =? 3)%N then 25 else 0) l + lsum (fun a => if (a =? 4)%N then w else 0) l) as ->.
    { clear. induction l as [|x l IH]; simpl; [done|]. simpl in IH. rewrite IH. unfold ex_vp.
      destruct (x =? 1)%N eqn:E1; [apply N.eqb_eq in E1 as ->; simpl; lia|].
      destruct (x =? 2)%N eqn:E2; [apply N.eqb_eq in E2 as ->; simpl; lia|].
      destruct (x =? 3)%N eqn:E3; [apply N.eqb_eq in E3 as ->; simpl; lia|].
      destruct (x =? 4)%N; lia. }
    simpl. subst w. case_match; lia.
Qed.

Definition at_ (h : Z) : block := Block h (h * 5 * NANOS).
Definition ex_state (c : config) : state := State c 0 ∅ ∅ Anyone [] [].
Definition ex_run (c : config) (h : list (block * call msg)) :=
  run_hist (handle ex_O) on_fail on_ok (ex_state c) h.
Definition ex_s c h : state := fst (ex_run c h).
Definition ex_l c h : log state msg sub := snd (ex_run c h).

Lemma ex_reached_for c h b :
  validate_config c = Ok tt -> attached 9 (ex_state c) -> hist_ok (at_ 0) h ->
  hist_all (keeps_dao 9) h -> block_le (hist_end (at_ 0) h) b ->
  reached_for ex_O 9 b (ex_s c h) (ex_l c h).
Proof.
  intros Hc Ha Hh Hk Hb. exists (at_ 0), (ex_state c), h.
  split; [done|]. split; [done|]. split; [done|]. split; [done|].
  split; [|done]. apply surjective_pairing.
Qed.
Lemma ex_reached c h b :
  validate_config c = Ok tt -> hist_ok (at_ 0) h -> block_le (hist_end (at_ 0) h) b ->
  reached ex_O b (ex_s c h) (ex_l c h).
Proof.
  intros Hc Hh Hb. exists (at_ 0), (ex_state c), h.
  split; [done|]. split; [done|]. split; [|done]. apply surjective_pairing.
Qed.
Lemma ex_later c h h' b b' :
  hist_ok b h' -> block_le (hist_end b h') b' ->
  later ex_O b (ex_s c h) b' (fst (run_hist (handle ex_O) on_fail on_ok (ex_s c h) h'))
    (snd (run_hist (handle ex_O) on_fail on_ok (ex_s c h) h')).
Proof.
  intros Hh Hb. exists h'. split; [done|]. split; [|done]. apply surjective_pairing.
Qed.
Lemma ex_later_for c h h' b b' :
  hist_ok b h' -> hist_all (keeps_dao 9) h' -> block_le (hist_end b h') b' ->
  later_for ex_O 9 b (ex_s c h) b' (fst (run_hist (handle ex_O) on_fail on_ok (ex_s c h) h'))
    (snd (run_hist (handle ex_O) on_fail on_ok (ex_s c h) h')).
Proof.
  intros Hh Ha Hb. exists h'. split; [done|]. split; [done|]. split; [|done].
  apply surjective_pairing.
Qed.
(** Discharges the closed side conditions of the four lemmas above. *)
Ltac ex_side :=
  repeat match goal with
  | |- _ /\ _ => split
  | |- Forall _ (_ ++ _) => apply Forall_app_2
  | |- Forall _ ?h => is_const h; unfold h
  | |- Forall _ [] => apply Forall_nil_2
  | |- Forall _ (_ :: _) => apply Forall_cons_2
  | _ => progress (simpl; unfold attached, keeps_dao, thr_typed, pct_typed, any_msg, block_le, hist_all)
  | |- True => exact I
  | _ => reflexivity
  | _ => vm_compute; discriminate
  end.
Ltac ex_reach := first
  [apply ex_reached_for|apply ex_reached|apply ex_later_for|apply ex_later]; ex_side.

(** ** Configurations *)
(** Quorum 20%, majority, at least 10 and at most 100 blocks, only members
    execute, failures are caught, no re-voting, no veto. *)
Definition ex_cfg : config :=
  Config (ThresholdQuorum Majority (Percent (2 * 10 ^ 17))) (DHeight 100) (Some (DHeight 10))
    true false 9 true None.
(** The same with re-voting. *)
Definition ex_cfg_revote : config :=
  Config (ThresholdQuorum Majority (Percent (2 * 10 ^ 17))) (DHeight 100) None
    true true 9 true None.
(** 60% of the total power, a vetoer (8) with 30 blocks of timelock who may
    execute early, and failures that are not caught. *)
Definition ex_cfg_veto : config :=
  Config (AbsolutePercentage (Percent (6 * 10 ^ 17))) (DHeight 100) None false false 9 false
    (Some (VetoConfig (DHeight 30) 8 true true)).

Definition ex_pm (ms : list Z) (v : option (vote * option string)) : propose_msg :=
  ProposeMsg ms None v true true.
Definition quiet (a : addr) (m : msg) : call msg := Call a m [].

(** ** Histories *)
(** The DAO registers hooks; member 1 proposes and votes yes, a stranger is
    refused, member 2 votes no. *)
Definition h_open : list (block * call msg) :=
  [ (at_ 5, quiet 9 (AddProposalHook 50));
    (at_ 5, quiet 9 (AddProposalHook 51));
    (at_ 6, quiet 9 (AddVoteHook 52));
    (at_ 10, quiet 1 (Propose (ex_pm [7; 8] (Some (Yes, None)))));
    (at_ 11, quiet 4 (CastVote 1 No None));
    (at_ 12, quiet 2 (CastVote 1 No (Some "too dear"%string))) ].
(** Member 3 then votes yes: decided, but only after the minimum period; the
    DAO switches re-voting on for later proposals. *)
Definition h_decided := h_open ++
  [ (at_ 15, quiet 3 (CastVote 1 Yes None));
    (at_ 16, quiet 9 (UpdateConfig ex_cfg_revote)) ].
(** Executed; the DAO's messages call back: a second execution (refused) and a
    new proposal. *)
Definition h_exec := h_decided ++
  [ (at_ 30, Call 1 (Execute 1)
       [Some (0%N, [quiet 2 (Execute 1); quiet 2 (Propose (ex_pm [] None))])]) ].
(** Executed, and the DAO's messages fail. *)
Definition h_failed := h_decided ++
  [ (at_ 30, Call 1 (Execute 1) [None]) ].
(** Turned down: members 2 and 3 vote no. *)
Definition h_rejected := h_open ++ [ (at_ 15, quiet 3 (CastVote 1 No None)) ].
(** Re-voting: member 1 changes from yes to no. *)
Definition h_revote : list (block * call msg) :=
  [ (at_ 10, quiet 1 (Propose (ex_pm [7] (Some (Yes, None)))));
    (at_ 12, quiet 2 (CastVote 1 Yes None));
    (at_ 13, quiet 3 (CastVote 1 Abstain None)) ].
(** Veto: proposal 1 passes into the timelock, proposal 2 is open, proposal 3 is
    executed early by the vetoer. *)
Definition h_lock : list (block * call msg) :=
  [ (at_ 10, quiet 1 (Propose (ex_pm [7] (Some (Yes, None)))));
    (at_ 11, quiet 2 (Propose (ex_pm [8] None)));
    (at_ 11, quiet 2 (Propose (ex_pm [9] (Some (Yes, None)))));
    (at_ 12, quiet 2 (CastVote 1 Yes None));
    (at_ 12, quiet 1 (CastVote 3 Yes None)) ].
Definition h_veto := h_lock ++
  [ (at_ 20, quiet 8 (Veto 1)); (at_ 21, quiet 8 (Veto 2)); (at_ 22, quiet 8 (Execute 3)) ].
