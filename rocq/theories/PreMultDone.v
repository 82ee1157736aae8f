(** Completion hooks of dao-proposal-multiple: one per proposal, when it finishes. *)
From Verif Require Import Base BaseProofs Exec ExecProofs VotingModel VotingSpec
  VotingProofs HooksModel MultModel MultSpec MultProofs MultLife.

Definition sub_completed (id : Z) (x : sub) : Z :=
  match x with SCompleted _ i _ => if i =? id then 1 else 0 | _ => 0 end.
(** 1 once the proposal has a terminal status. *)
Definition terminalb (st : status) : bool :=
  match st with Executed | Closed | Vetoed | ExecutionFailed => true | _ => false end.
Definition finished (s : state) (id : Z) : Z :=
  match s_props s !! id with
  | Some p => if terminalb (p_status p) then 1 else 0
  | None => 0
  end.
(** What the completion hook reports, against the recorded status. *)
Definition completes (st cur : status) : Prop :=
  (st = Executed /\ (cur = Executed \/ cur = ExecutionFailed)) \/
  (st = Closed /\ cur = Closed) \/ (st = Vetoed /\ cur = Vetoed).
Definition completed_at (s : state) (id : Z) (st : status) : Prop :=
  exists p, s_props s !! id = Some p /\ completes st (p_status p).

Lemma terminalb_spec st : terminalb st = true <-> terminal st.
Proof. unfold terminal. destruct st; simpl; naive_solver. Qed.
Lemma finished_range s id : 0 <= finished s id <= 1.
Proof. unfold finished. destruct (_ !! _); [|lia]. destruct (terminalb _); lia. Qed.
Lemma finished_1 s id : finished s id = 1 <-> exists p, s_props s !! id = Some p /\ terminal (p_status p).
Proof.
  unfold finished. destruct (_ !! _) as [p|]; [|naive_solver lia].
  destruct (terminalb (p_status p)) eqn:E.
  - apply terminalb_spec in E. naive_solver.
  - split; [lia|]. intros (p' & [= <-] & H). apply terminalb_spec in H. congruence.
Qed.

Lemma finished_prims O b s s' id :
  winv b s -> rtc (prim O b) s s' -> finished s id <= finished s' id.
Proof.
  intros HI Hr. pose proof (finished_range s id). pose proof (finished_range s' id).
  destruct (Z.eq_dec (finished s id) 1) as [E|E]; [|lia].
  apply finished_1 in E as (p & Hp & Ht).
  destruct (prims_terminal O b s s' id p HI Hr Hp Ht) as (p' & Hp' & Es).
  enough (finished s' id = 1) by lia. apply finished_1. exists p'. by rewrite Es.
Qed.
Lemma finished_fail b s x s' id :
  pend b s x -> on_fail s b x = Ok s' -> finished s' id = finished s id.
Proof.
  intros HP H.
  destruct (on_fail_shape s b x s' H) as [(d & i & ms & p & -> & Hp & ->)|(_ & E1 & _)].
  - unfold finished. simpl. destruct (decide (id = i)) as [->|Hne].
    + rewrite lookup_insert, Hp. simpl.
      destruct (HP d i ms true eq_refl) as (p' & Hp' & Hd). rewrite Hp in Hp'.
      injection Hp' as <-. by destruct Hd as [->| ->].
    + by rewrite lookup_insert_ne.
  - unfold finished. by rewrite E1.
Qed.
Lemma finished_ok s b x d s' id : on_ok s b x d = Ok s' -> finished s' id = finished s id.
Proof. destruct x; simpl; intros [= <-]; done. Qed.

(** Which sub-messages carry a completion hook. *)
Lemma lsum_imap_zero {A} (f : sub -> Z) (g : nat -> A -> sub) l :
  (forall i a, f (g i a) = 0) -> lsum f (imap g l) = 0.
Proof.
  intros H. revert g H. induction l as [|a l IH]; intros g H; simpl; [done|].
  rewrite H, IH; [done|]. intros i x. apply H.
Qed.
Lemma completed_new id h i a : lsum (sub_completed id) (new_proposal_hooks h i a) = 0.
Proof. by apply lsum_imap_zero. Qed.
Lemma completed_votes id h i a v : lsum (sub_completed id) (new_vote_hooks h i a v) = 0.
Proof. by apply lsum_imap_zero. Qed.
Lemma completed_changed id h i o n :
  lsum (sub_completed id) (proposal_status_changed_hooks h i o n) = 0.
Proof.
  unfold proposal_status_changed_hooks. destruct (decide _); [done|]. by apply lsum_imap_zero.
Qed.
Lemma completed_hook id pol i st :
  lsum (sub_completed id) (proposal_completed_hooks pol i st) <= if i =? id then 1 else 0.
Proof. destruct pol; simpl; destruct (i =? id); lia. Qed.

Lemma admin_completed O s b a m s' subs id :
  is_admin m -> handle O s b a m = Ok (s', subs) -> lsum (sub_completed id) subs = 0.
Proof.
  destruct m; simpl; try done; intros _ H;
    unfold execute_update_config, execute_update_policy, execute_add_proposal_hook,
      execute_remove_proposal_hook, execute_add_vote_hook, execute_remove_vote_hook in H;
    res_inv H; try done.
  - destruct i; simpl in *; naive_solver.
Qed.

Lemma finished_save s i p st id :
  finished (save_prop s i (set_status p st)) id =
  if i =? id then (if terminalb st then 1 else 0) else finished s id.
Proof.
  unfold finished. simpl. destruct (i =? id) eqn:E.
  - apply Z.eqb_eq in E as ->. by rewrite lookup_insert.
  - apply Z.eqb_neq in E. by rewrite lookup_insert_ne.
Qed.
Lemma not_finished s i p b st :
  s_props s !! i = Some p -> current_status p b = Ok st -> ~ terminal st -> finished s i = 0.
Proof.
  intros Hp Hst Hn. unfold finished. rewrite Hp. destruct (terminalb (p_status p)) eqn:E; [|done].
  apply terminalb_spec in E. apply (terminal_current p b st E) in Hst. subst st. done.
Qed.
Ltac not_term := unfold terminal; intros [|[|[|]]]; discriminate.

(** A call sends the completion hook of a proposal only while finishing it. *)
Lemma handle_completed O b s a m s' subs id :
  winv b s -> handle O s b a m = Ok (s', subs) ->
  lsum (sub_completed id) subs <= finished s' id - finished s id.
Proof.
  intros HI H.
  assert (finished s id <= finished s' id) as Hmono.
  { eapply finished_prims; [done|by eapply handle_prims]. }
  enough (lsum (sub_completed id) subs = 0 \/
          lsum (sub_completed id) subs <= finished s' id - finished s id) as [?|?] by lia.
  destruct m; try (left; eapply admin_completed; [|exact H]; exact I); simpl in H.
  - left. apply execute_propose_shape in H
      as (proposer & st & s1 & subs2 & cs & _ & _ & _ & _ & _ & Hst & -> & -> & Hv).
    rewrite lsum_app, completed_new.
    destruct (pm_vote pm) as [[v r]|]; [|by destruct Hv as [_ ->]].
    apply execute_vote_shape in Hv as (p & votes1 & st2 & H1 & H0 & H2 & H3 & H4 & H5 & -> & ->).
    by rewrite lsum_app, completed_changed, completed_votes.
  - left. apply execute_vote_shape in H as (p & votes1 & st2 & H1 & H0 & H2 & H3 & H4 & H5 & -> & ->).
    by rewrite lsum_app, completed_changed, completed_votes.
  - left. unfold execute_update_rationale in H. res_inv H. done.
  - right. apply execute_execute_shape in H as (p & st & c & Hp & Hst & _ & Hal & -> & ->).
    rewrite !lsum_app, completed_changed, finished_save. simpl.
    pose proof (completed_hook id (s_policy s) id0 Executed).
    set (ex := match ch_msgs c with [] => [] | _ => _ end).
    assert (lsum (sub_completed id) ex = 0) as -> by (unfold ex; destruct (ch_msgs c); done).
    destruct (id0 =? id) eqn:E; [|lia]. apply Z.eqb_eq in E as ->.
    rewrite (not_finished s id p b st); [lia|done..|].
    destruct Hal as [[-> _]|(e & vc & -> & _)]; not_term.
  - right. apply execute_veto_shape in H as (p & st & vc & Hp & Hst & _ & _ & Hal & -> & ->).
    rewrite !lsum_app, completed_changed, finished_save. simpl.
    pose proof (completed_hook id (s_policy s) id0 Vetoed).
    destruct (id0 =? id) eqn:E; [|lia]. apply Z.eqb_eq in E as ->.
    rewrite (not_finished s id p b st); [lia|done..|].
    destruct Hal as [[-> _]|(e & -> & _)]; not_term.
  - right. apply execute_close_shape in H as (p & Hp & Hst & -> & ->).
    rewrite !lsum_app, completed_changed, finished_save. simpl.
    pose proof (completed_hook id (s_policy s) id0 Closed).
    destruct (id0 =? id) eqn:E; [|lia]. apply Z.eqb_eq in E as ->.
    rewrite (not_finished s id p b Rejected); [lia|done..|]. not_term.
Qed.

(** The hook reports the status just recorded. *)
Lemma no_completed_in subs x : (forall id, lsum (sub_completed id) subs = 0) -> x ∈ subs ->
  forall r id st, x = SCompleted r id st -> False.
Proof.
  intros H Hx r id st ->. specialize (H id).
  assert (1 <= lsum (sub_completed id) subs); [|lia].
  clear H. induction subs as [|y subs IH]; [by apply elem_of_nil in Hx|].
  assert (0 <= lsum (sub_completed id) subs).
  { apply lsum_nonneg. intros z _. destruct z; simpl; try lia. destruct (_ =? _); lia. }
  simpl. apply elem_of_cons in Hx as [<-|Hx].
  - simpl. rewrite Z.eqb_refl. lia.
  - specialize (IH Hx). destruct y; simpl; try lia. destruct (_ =? _); lia.
Qed.
Lemma completed_hook_in pol i st r id st' :
  SCompleted r id st' ∈ (proposal_completed_hooks pol i st : list sub) ->
  pol = Module r /\ id = i /\ st' = st.
Proof.
  destruct pol; simpl; [by intros H%elem_of_nil|].
  intros H%elem_of_list_singleton. naive_solver.
Qed.
Lemma handle_completed_at O b s a m s' subs r id st :
  handle O s b a m = Ok (s', subs) -> SCompleted r id st ∈ subs ->
  completed_at s' id st /\ s_policy s = Module r.
Proof.
  intros H Hx.
  destruct m; try (exfalso; refine (no_completed_in subs _ _ Hx r id st eq_refl); intros ?;
                  eapply admin_completed; [|exact H]; exact I); simpl in H.
  - exfalso. refine (no_completed_in subs _ _ Hx r id st eq_refl). intros i.
    apply execute_propose_shape in H
      as (proposer & st0 & s1 & subs2 & cs & _ & _ & _ & _ & _ & Hst & -> & -> & Hv).
    rewrite lsum_app, completed_new.
    destruct (pm_vote pm) as [[v r']|]; [|by destruct Hv as [_ ->]].
    apply execute_vote_shape in Hv as (p & votes1 & st2 & H1 & H0 & H2 & H3 & H4 & H5 & -> & ->).
    by rewrite lsum_app, completed_changed, completed_votes.
  - exfalso. refine (no_completed_in subs _ _ Hx r id st eq_refl). intros i.
    apply execute_vote_shape in H as (p & votes1 & st2 & H1 & H0 & H2 & H3 & H4 & H5 & -> & ->).
    by rewrite lsum_app, completed_changed, completed_votes.
  - unfold execute_update_rationale in H. res_inv H. by apply elem_of_nil in Hx.
  - apply execute_execute_shape in H as (p & st0 & c & Hp & Hst & _ & Hal & -> & ->).
    rewrite !elem_of_app in Hx. destruct Hx as [Hx|[Hx|Hx]].
    + destruct (ch_msgs c); [by apply elem_of_nil in Hx|].
      by apply elem_of_list_singleton in Hx.
    + exfalso. refine (no_completed_in _ _ _ Hx r id st eq_refl).
      intros i. apply completed_changed.
    + apply completed_hook_in in Hx as (Hpol & -> & ->). split; [|done].
      exists (set_status p Executed). simpl. rewrite lookup_insert.
      split; [done|]. left. eauto.
  - apply execute_veto_shape in H as (p & st0 & vc & Hp & Hst & _ & _ & Hal & -> & ->).
    rewrite !elem_of_app in Hx. destruct Hx as [Hx|Hx].
    + exfalso. refine (no_completed_in _ _ _ Hx r id st eq_refl).
      intros i. apply completed_changed.
    + apply completed_hook_in in Hx as (Hpol & -> & ->). split; [|done].
      exists (set_status p Vetoed). simpl. rewrite lookup_insert.
      split; [done|]. right; right. eauto.
  - apply execute_close_shape in H as (p & Hp & Hst & -> & ->).
    rewrite !elem_of_app in Hx. destruct Hx as [Hx|Hx].
    + exfalso. refine (no_completed_in _ _ _ Hx r id st eq_refl).
      intros i. apply completed_changed.
    + apply completed_hook_in in Hx as (Hpol & -> & ->). split; [|done].
      exists (set_status p Closed). simpl. rewrite lookup_insert.
      split; [done|]. right; left. eauto.
Qed.

(** ... and that stays so. *)
Lemma completes_terminal st cur : completes st cur -> terminal cur.
Proof. unfold completes, terminal. naive_solver. Qed.
Lemma completed_at_prims O b s s' id st :
  winv b s -> rtc (prim O b) s s' -> completed_at s id st -> completed_at s' id st.
Proof.
  intros HI Hr (p & Hp & Hc).
  destruct (prims_terminal O b s s' id p HI Hr Hp (completes_terminal _ _ Hc)) as (p' & Hp' & E).
  exists p'. by rewrite E.
Qed.
Lemma completed_at_fail b s x s' id st :
  pend b s x -> on_fail s b x = Ok s' -> completed_at s id st -> completed_at s' id st.
Proof.
  intros HP H (p & Hp & Hc).
  destruct (on_fail_shape s b x s' H) as [(d & i & ms & p0 & -> & Hp0 & ->)|(_ & E1 & _)].
  - destruct (decide (id = i)) as [->|Hne].
    + exists (set_status p0 ExecutionFailed). simpl. rewrite lookup_insert. split; [done|].
      destruct (HP d i ms true eq_refl) as (p' & Hp' & Hd). rewrite Hp in Hp', Hp0.
      injection Hp' as <-. injection Hp0 as <-.
      destruct Hc as [[-> Hc]|[[-> Hc]|[-> Hc]]]; [left; eauto|..];
        rewrite Hc in Hd; destruct Hd; discriminate.
    + exists p. simpl. by rewrite lookup_insert_ne.
  - exists p. by rewrite E1.
Qed.
