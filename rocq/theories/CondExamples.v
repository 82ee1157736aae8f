(** Concrete histories of a Condorcet module, used to show that the hypotheses of
    the theorems are met by non-trivial cases. *)
From Verif Require Import Base BaseProofs Exec ExecProofs VotingModel VotingSpec
  CondModel CondSpec.

(** DAO 9: members 1, 2, 3 with powers 40, 35, 25. *)
Definition ex_vp (d a : addr) (h : Z) : Z :=
  if (a =? 1)%N then 40 else if (a =? 2)%N then 35 else if (a =? 3)%N then 25 else 0.
Definition ex_O : oracle := Oracle ex_vp (fun d a b _ => ex_vp d a (height b)) (fun _ _ _ => 100).

Lemma lsum_single (x : addr) (w : Z) l :
  0 <= w -> NoDup l -> lsum (fun a => if (a =? x)%N then w else 0) l <= w.
Proof.
  intros Hw. induction 1 as [|y l Hy Hn IH]; simpl; [done|].
  destruct (y =? x)%N eqn:E; [|lia]. apply N.eqb_eq in E as ->.
  assert (lsum (fun a => if (a =? x)%N then w else 0) l = 0) as ->; [|lia].
  clear IH Hn. induction l as [|z l IH]; simpl; [done|].
  rewrite IH by set_solver. destruct (z =? x)%N eqn:E; [|lia].
  apply N.eqb_eq in E as ->. set_solver.
Qed.
Lemma ex_typed : typed ex_O.
Proof.
  split.
  - intros d a h. simpl. unfold ex_vp. repeat case_match; lia.
  - intros d b id. simpl. unfold U128_MAX. lia.
Qed.
Lemma ex_covers : covers ex_O.
Proof.
  intros d b id l Hl. set (h := height b).
  pose proof (lsum_single 1%N 40 l ltac:(lia) Hl).
  pose proof (lsum_single 2%N 35 l ltac:(lia) Hl).
  pose proof (lsum_single 3%N 25 l ltac:(lia) Hl).
  assert (lsum (fun a => vp ex_O d a h) l =
    lsum (fun a => if (a =? 1)%N then 40 else 0) l + lsum (fun a => if (a =? 2)%N then 35 else 0) l +
    lsum (fun a => if (a =? 3)%N then 25 else 0) l) as ->; [|simpl; lia].
  clear. induction l as [|x l IH]; simpl; [done|]. simpl in IH. rewrite IH. unfold ex_vp.
  destruct (x =? 1)%N eqn:E1; [apply N.eqb_eq in E1 as ->; simpl; lia|].
  destruct (x =? 2)%N eqn:E2; [apply N.eqb_eq in E2 as ->; simpl; lia|].
  destruct (x =? 3)%N; lia.
Qed.

Definition at_ (h : Z) : block := Block h (h * 5 * NANOS).
Definition ex_state (c : config) : state := State 9 c ∅ ∅ ∅.
Definition run (O : oracle) (c : config) (h : list (block * call msg)) :=
  run_hist (handle O) on_fail on_ok (ex_state c) h.
Definition st (O : oracle) c h : state := fst (run O c h).
Definition lg (O : oracle) c h : log state msg sub := snd (run O c h).
Lemma ex_reached O c h b :
  validate_config c = Ok c -> hist_ok (at_ 0) h -> block_le (hist_end (at_ 0) h) b ->
  reached O b (st O c h) (lg O c h).
Proof.
  intros Hc Hh Hb. exists (at_ 0), (ex_state c), h.
  split; [done|]. split; [done|]. split; [|done]. apply surjective_pairing.
Qed.
Lemma ex_later O c h h' b b' :
  hist_ok b h' -> block_le (hist_end b h') b' ->
  later O b (st O c h) b' (fst (run_hist (handle O) on_fail on_ok (st O c h) h'))
    (snd (run_hist (handle O) on_fail on_ok (st O c h) h')).
Proof.
  intros Hh Hb. exists h'. split; [done|]. split; [|done]. apply surjective_pairing.
Qed.
Ltac ex_side :=
  repeat match goal with
  | |- _ /\ _ => split
  | _ => progress (simpl; unfold block_le)
  | |- True => exact I
  | _ => reflexivity
  | _ => vm_compute; discriminate
  end.
Ltac ex_reach := first [apply ex_reached|apply ex_later]; ex_side.

(** Quorum 50%, 100 blocks of voting, no minimum; failures are caught. *)
Definition ex_cfg : config := Config (Percent (5 * 10 ^ 17)) (DHeight 100) None true.
(** The same with at least 20 blocks. *)
Definition ex_cfg_min : config := Config (Percent (5 * 10 ^ 17)) (DHeight 100) (Some (DHeight 20)) true.
Definition quiet (a : addr) (m : msg) : call msg := Call a m [].

(** Options [7], [8; 9] and "none of the above" (2).  A stranger is refused, an
    incomplete ranking is refused, member 1 ranks 1 > 0 > 2 and cannot vote again. *)
Definition h_one : list (block * call msg) :=
  [(at_ 5, quiet 7 (Propose [[7]])); (at_ 10, quiet 1 (Propose [[7]; [8; 9]]));
   (at_ 11, quiet 7 (CastVote 1 [0; 1; 2])); (at_ 11, quiet 1 (CastVote 1 [1; 0]));
   (at_ 11, quiet 1 (CastVote 1 [1; 1; 0])); (at_ 12, quiet 1 (CastVote 1 [1; 0; 2]));
   (at_ 13, quiet 1 (CastVote 1 [2; 0; 1]))].
(** Member 2 ranks 0 > 2 > 1: nobody can be sure. *)
Definition h_split := h_one ++ [(at_ 14, quiet 2 (CastVote 1 [0; 2; 1]))].
(** A cycle: 1 > 0 > 2, 0 > 2 > 1, 2 > 1 > 0. *)
Definition h_cycle := h_split ++ [(at_ 15, quiet 3 (CastVote 1 [2; 1; 0]))].
(** Members 1 and 2 agree on option 1. *)
Definition h_agree := h_one ++ [(at_ 14, quiet 2 (CastVote 1 [1; 2; 0]))].
(** Executed; the messages fail; executing again is refused. *)
Definition h_failed := h_agree ++
  [(at_ 16, Call 2 (Execute 1) [None]);
   (at_ 17, quiet 2 (Execute 1))].
(** Executed with success (the messages try to execute it again), after a second proposal. *)
Definition h_done := h_agree ++
  [(at_ 15, quiet 2 (Propose [[3]])); (at_ 16, quiet 9 (SetConfig ex_cfg_min));
   (at_ 16, Call 3 (Execute 1) [Some (0%N, [Call 1 (Execute 1) []])]); (at_ 17, quiet 3 (Propose [[4]]))].

(** An oracle whose total does not cover the powers. *)
Definition bad_vp (d a : addr) (h : Z) : Z := if (a =? 1)%N then 60 else if (a =? 2)%N then 60 else 0.
Definition bad_O : oracle := Oracle bad_vp (fun d a b _ => bad_vp d a (height b)) (fun _ _ _ => 100).
Lemma bad_typed : typed bad_O.
Proof.
  split.
  - intros d a h. simpl. unfold bad_vp. repeat case_match; lia.
  - intros d b id. simpl. unfold U128_MAX. lia.
Qed.
(** If the total reported at creation is smaller than the members' powers, a
    member's complete ranking cast in time is refused. *)
Lemma c69_vote_iff_refuted :
  exists O b s l a id v p t, typed O /\ reached O b s l /\
    s_props s !! id = Some p /\ s_tallies s !! id = Some t /\
    ranking (Z.of_nat (length (p_choices p))) v /\ is_expired (t_exp t) b = false /\
    s_votes s !! (id, a) = None /\ vp O (s_dao s) a (t_start t) <> 0 /\
    ~ exists r, handle O s b a (CastVote id v) = Ok r.
Proof.
  exists bad_O, (at_ 14), (st bad_O ex_cfg h_one), (lg bad_O ex_cfg h_one), 2%N, 1, [1; 2; 0].
  eexists _, _. split; [apply bad_typed|]. split; [ex_reach|].
  split; [vm_compute; reflexivity|]. split; [vm_compute; reflexivity|].
  split.
  { split.
    - repeat constructor; rewrite ?elem_of_cons, elem_of_nil; lia.
    - intros x. rewrite !elem_of_cons, elem_of_nil. simpl. lia. }
  split; [reflexivity|]. split; [vm_compute; reflexivity|]. split; [vm_compute; discriminate|].
  intros [r H]. vm_compute in H. discriminate.
Qed.
