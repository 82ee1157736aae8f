(** Completion hooks of dao-proposal-single, exactly: with a pre-propose module installed, one for
    every proposal that ends. *)
From Verif Require Import Base BaseProofs Exec ExecProofs VotingModel VotingSpec
  VotingProofs HooksModel SingleModel SingleSpec SingleProofs SingleLife PreSingle.

Lemma current_finished p b st :
  current_status p b = Ok st -> terminalb st = terminalb (p_status p).
Proof.
  intros H. destruct (terminalb (p_status p)) eqn:E.
  - apply terminalb_spec in E. rewrite (terminal_current p b st E H). by apply terminalb_spec.
  - destruct (terminalb st) eqn:E2; [|done]. exfalso. unfold current_status in H.
    destruct (p_status p); try discriminate E.
    + destruct (is_passed p b) as [x|]; [|discriminate]. destruct x.
      * destruct (p_veto p) as [vc|]; [|injection H as <-; discriminate].
        destruct (exp_add _ _) as [e|]; [|discriminate].
        destruct (is_expired e b); injection H as <-; discriminate.
      * destruct (is_expired (p_exp p) b); [injection H as <-; discriminate|].
        destruct (is_rejected p b) as [y|]; [|discriminate].
        destruct y; injection H as <-; discriminate.
    + injection H as <-. discriminate.
    + injection H as <-. discriminate.
    + match type of H with (if is_expired ?e b then _ else _) = _ => destruct (is_expired e b) end;
        injection H as <-; discriminate.
Qed.

Lemma vote_finished O s b a id v r s' subs i :
  execute_vote O s b a id v r = Ok (s', subs) -> finished s' i = finished s i.
Proof.
  intros H. apply execute_vote_shape in H as (p & votes1 & st & Hp & _ & _ & _ & Hst & -> & _).
  unfold finished. cbn [s_props with_ballots save_prop with_props].
  destruct (decide (id = i)) as [->|Hne].
  - rewrite lookup_insert, Hp. cbn [p_status set_status].
    by rewrite (current_finished _ _ _ Hst).
  - by rewrite lookup_insert_ne.
Qed.
Lemma propose_finished O s b a pm s' subs i :
  winv b s -> execute_propose O s b a pm = Ok (s', subs) -> finished s' i = finished s i.
Proof.
  intros HI H. apply execute_propose_shape in H
    as (proposer & st & s1 & subs2 & _ & _ & _ & _ & Hst & -> & _ & Hv).
  match type of Hv with match _ with Some _ => _ | None => s' = ?x /\ _ end => set (s1 := x) in * end.
  assert (finished s1 i = finished s i) as <-.
  { unfold finished, s1. cbn [s_props]. destruct (decide (s_count s + 1 = i)) as [<-|Hne].
    - rewrite lookup_insert. cbn [p_status new_prop].
      destruct (s_props s !! (s_count s + 1)) as [p|] eqn:Ep.
      { pose proof (proj1 (wi_ids _ _ HI _) (mk_is_Some _ _ Ep)). lia. }
      rewrite (current_finished _ _ _ Hst). done.
    - by rewrite lookup_insert_ne. }
  destruct (pm_vote pm) as [[v r]|].
  - by eapply vote_finished.
  - by destruct Hv as [-> _].
Qed.

Lemma handle_completed_exact O b s a m s' subs r id :
  winv b s -> s_policy s = Module r -> handle O s b a m = Ok (s', subs) ->
  lsum (sub_completed id) subs = finished s' id - finished s id.
Proof.
  intros HI Hpol H.
  assert (is_admin m -> lsum (sub_completed id) subs = finished s' id - finished s id) as Hadm.
  { intros Ha. rewrite (admin_completed O s b a m s' subs id Ha H).
    destruct (admin_shape O s b a m s' subs Ha H) as (_ & _ & E & _). unfold finished. rewrite E. lia. }
  destruct m; try (apply Hadm; exact I); clear Hadm; cbn [handle] in H.
  - rewrite (propose_finished O s b a pm s' subs id HI H).
    apply execute_propose_shape in H
      as (proposer & st & s1 & subs2 & _ & _ & _ & _ & Hst & -> & -> & Hv).
    rewrite lsum_app, completed_new.
    destruct (pm_vote pm) as [[v r']|]; [|destruct Hv as [_ ->]; cbn [lsum]; lia].
    apply execute_vote_shape in Hv as (p & votes1 & st2 & H1 & H2 & H3 & H4 & H5 & _ & ->).
    rewrite lsum_app, completed_changed, completed_votes. lia.
  - rewrite (vote_finished O s b a _ _ _ s' subs id H).
    apply execute_vote_shape in H as (p & votes1 & st2 & H1 & H2 & H3 & H4 & H5 & _ & ->).
    rewrite lsum_app, completed_changed, completed_votes. lia.
  - unfold execute_update_rationale in H. res_inv H. cbn [lsum]. unfold finished.
    cbn [s_props with_ballots]. lia.
  - apply execute_execute_shape in H as (p & st & Hp & Hst & Hal & -> & ->).
    rewrite !lsum_app, completed_changed, finished_save, Hpol. cbn [proposal_completed_hooks lsum sub_completed].
    set (ex := match p_msgs p with [] => [] | _ => _ end).
    assert (lsum (sub_completed id) ex = 0) as -> by (unfold ex; destruct (p_msgs p); done).
    destruct (id0 =? id) eqn:E; [|lia]. apply Z.eqb_eq in E as ->.
    rewrite (not_finished s id p b st); [cbn; lia|done..|].
    destruct Hal as [[-> _]|(e & vc & -> & _)]; not_term.
  - apply execute_veto_shape in H as (p & st & vc & Hp & Hst & _ & _ & Hal & -> & ->).
    rewrite !lsum_app, completed_changed, finished_save, Hpol. cbn [proposal_completed_hooks lsum sub_completed].
    destruct (id0 =? id) eqn:E; [|lia]. apply Z.eqb_eq in E as ->.
    rewrite (not_finished s id p b st); [cbn; lia|done..|].
    destruct Hal as [[-> _]|(e & -> & _)]; not_term.
  - apply execute_close_shape in H as (p & Hp & Hst & -> & ->).
    rewrite !lsum_app, completed_changed, finished_save, Hpol. cbn [proposal_completed_hooks lsum sub_completed].
    destruct (id0 =? id) eqn:E; [|lia]. apply Z.eqb_eq in E as ->.
    rewrite (not_finished s id p b Rejected); [cbn; lia|done..|]. not_term.
Qed.

(** Only the DAO's message changes who may propose. *)
Definition no_inst (x : psub vote) : Prop := match x with SInstantiate _ => False | _ => True end.
Lemma imap_all {A} (P : psub vote -> Prop) (g : nat -> A -> psub vote) l :
  (forall i a, P (g i a)) -> Forall P (imap g l).
Proof.
  intros H. revert g H. induction l as [|a l IH]; intros g H; cbn [imap]; [done|].
  constructor; [done|]. apply (IH (fun i => g (S i))). intros i x. apply H.
Qed.
Lemma changed_no_inst h i o n : Forall no_inst (proposal_status_changed_hooks h i o n).
Proof. unfold proposal_status_changed_hooks. destruct (decide _); [done|]. by apply imap_all. Qed.
Lemma completed_no_inst pol i st : Forall no_inst (proposal_completed_hooks pol i st).
Proof. destruct pol; repeat constructor. Qed.
Lemma vote_policy O s b a id v r s' subs :
  execute_vote O s b a id v r = Ok (s', subs) -> s_policy s' = s_policy s /\ Forall no_inst subs.
Proof.
  intros H. apply execute_vote_shape in H as (p & votes1 & st & _ & _ & _ & _ & _ & -> & ->).
  split; [done|]. apply Forall_app. split; [apply changed_no_inst|by apply imap_all].
Qed.
Lemma handle_policy O s b a m s' subs :
  handle O s b a m = Ok (s', subs) -> (forall i, m <> UpdatePreProposeInfo i) ->
  s_policy s' = s_policy s /\ Forall no_inst subs.
Proof.
  intros H Hm. destruct m; cbn [handle] in H.
  - apply execute_propose_shape in H
      as (proposer & st & s1 & subs2 & _ & _ & _ & _ & Hst & -> & -> & Hv).
    destruct (pm_vote pm) as [[v r]|].
    + apply vote_policy in Hv as [E1 E2]. split; [done|]. apply Forall_app.
      split; [by apply imap_all|done].
    + destruct Hv as [-> ->]. split; [done|]. rewrite app_nil_r. by apply imap_all.
  - by apply vote_policy in H.
  - unfold execute_update_rationale in H. res_inv H. done.
  - apply execute_execute_shape in H as (p & st & _ & _ & _ & -> & ->). split; [done|].
    apply Forall_app. split; [destruct (p_msgs p); repeat constructor|].
    apply Forall_app. split; [apply changed_no_inst|apply completed_no_inst].
  - apply execute_veto_shape in H as (p & st & vc & _ & _ & _ & _ & _ & -> & ->). split; [done|].
    apply Forall_app. split; [apply changed_no_inst|apply completed_no_inst].
  - apply execute_close_shape in H as (p & _ & _ & -> & ->). split; [done|].
    apply Forall_app. split; [apply changed_no_inst|apply completed_no_inst].
  - unfold execute_update_config in H. res_inv H. done.
  - by destruct (Hm i).
  - unfold execute_add_proposal_hook in H. res_inv H. done.
  - unfold execute_remove_proposal_hook in H. res_inv H. done.
  - unfold execute_add_vote_hook in H. res_inv H. done.
  - unfold execute_remove_vote_hook in H. res_inv H. done.
Qed.
(** Nothing but a failed completion hook takes the module away, nothing but an instantiation
    replaces it. *)
Lemma fail_policy s b x s' :
  on_fail s b x = Ok s' -> (forall r id st, x <> SCompleted r id st) -> s_policy s' = s_policy s.
Proof.
  intros H Hx. destruct x; cbn [on_fail reply] in H.
  - destruct caught; [|discriminate]. cbn [reply] in H. destruct (_ !! _); [|discriminate]. by injection H as <-.
  - destruct (remove_hook_by_index _ _); [|discriminate]. by injection H as <-.
  - destruct (remove_hook_by_index _ _); [|discriminate]. by injection H as <-.
  - by destruct (Hx receiver id st).
  - discriminate.
Qed.
Lemma ok_policy s b x d s' : on_ok s b x d = Ok s' -> no_inst x -> s' = s.
Proof. destruct x; cbn [on_ok no_inst]; try done; by intros [= <-]. Qed.
