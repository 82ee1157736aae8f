(** Lemmas about dao-proposal-single: shapes of the handlers and the invariants
    that need no assumption on the voting module. *)
From Verif Require Import Base BaseProofs Exec ExecProofs VotingModel VotingSpec
  VotingProofs HooksModel SingleModel SingleSpec.

(** ** Elementary facts *)
Lemma set_status_set_status p a c : set_status (set_status p a) c = set_status p c.
Proof. reflexivity. Qed.

Lemma update_status_ok p b p' :
  update_status p b = Ok p' -> exists st, current_status p b = Ok st /\ p' = set_status p st.
Proof. unfold update_status. intros H. res_inv H. eauto. Qed.

Lemma exp_add_unit e d : 
  match e, d with AtHeight _, DHeight _ | AtTime _, DTime _ | Never, _ => True | _, _ => False end ->
  exists e', exp_add e d = Ok e'.
Proof. destruct e, d; simpl; try done; eauto. Qed.

Definition no_exec (subs : list sub) : Prop :=
  forall d id ms c, SExec d id ms c ∉ subs.

Lemma elem_imap {A B} (f : nat -> A -> B) l x :
  x ∈ imap f l -> exists i a, x = f i a /\ l !! i = Some a.
Proof.
  rewrite elem_of_list_lookup. intros [i Hi].
  rewrite list_lookup_imap in Hi. destruct (l !! i) eqn:E; [|done].
  simpl in Hi. injection Hi as <-. eauto.
Qed.
Lemma no_exec_app l l' : no_exec l -> no_exec l' -> no_exec (l ++ l').
Proof. intros A B d id ms c. rewrite elem_of_app. intros [H|H]; [eapply A|eapply B]; eauto. Qed.
Lemma no_exec_nil : no_exec [].
Proof. intros ? ? ? ?. apply not_elem_of_nil. Qed.
Lemma no_exec_changed h id o n : no_exec (proposal_status_changed_hooks h id o n).
Proof.
  unfold proposal_status_changed_hooks. destruct (decide _); [apply no_exec_nil|].
  intros d i ms c H. apply elem_imap in H as (? & ? & ? & _). done.
Qed.
Lemma no_exec_votehooks h id a v : no_exec (new_vote_hooks h id a v).
Proof. intros d i ms c H. apply elem_imap in H as (? & ? & ? & _). done. Qed.
Lemma no_exec_new h id a : no_exec (new_proposal_hooks h id a).
Proof. intros d i ms c H. apply elem_imap in H as (? & ? & ? & _). done. Qed.
Lemma no_exec_completed pol id st : no_exec (proposal_completed_hooks pol id st).
Proof.
  destruct pol; simpl; intros d i ms c; [apply not_elem_of_nil|].
  rewrite elem_of_list_singleton. done.
Qed.
Lemma no_exec_init i pol subs :
  into_initial_policy_and_messages i = (pol, subs) -> no_exec subs.
Proof.
  destruct i; simpl; intros [= <- <-]; [apply no_exec_nil|].
  intros d j ms c. rewrite elem_of_list_singleton. done.
Qed.
Global Hint Resolve no_exec_app no_exec_nil no_exec_changed no_exec_votehooks no_exec_new
  no_exec_completed : no_exec.

(** ** Primitive state changes *)
Definition new_prop (O : oracle) (s : state) (b : block) (proposer : addr) (ms : list Z)
    (st : status) : proposal :=
  let c := s_cfg s in
  Proposal proposer (height b) (option_map (fun d => after d b) (c_min c))
    (after (c_max c) b) (c_thr c) (tp O (c_dao c) (height b)) ms st votes_zero
    (c_revote c) (c_veto c).

Definition allowed (st fin : status) : Prop :=
  (fin = Executed /\ (st = Passed \/ exists e, st = VetoTimelock e)) \/
  (fin = Vetoed /\ (st = Open \/ exists e, st = VetoTimelock e)) \/
  (fin = Closed /\ st = Rejected).

Definition vote_result (s : state) (id : Z) (a : addr) (p : proposal) (v : vote) (power : Z)
    (votes1 : votes) : Prop :=
  match s_ballots s !! (id, a) with
  | None => add_vote (p_votes p) v power = Ok votes1
  | Some cur =>
      p_revote p = true /\ bl_vote cur <> v /\
      exists votes0, remove_vote (p_votes p) (bl_vote cur) (bl_power cur) = Ok votes0 /\
                     add_vote votes0 v power = Ok votes1
  end.

Inductive prim (O : oracle) (b : block) : state -> state -> Prop :=
| prim_new s proposer ms st :
    current_status (new_prop O s b proposer ms Open) b = Ok st ->
    prim O b s (State (s_cfg s) (s_count s + 1)
                  (<[s_count s + 1 := new_prop O s b proposer ms st]> (s_props s))
                  (s_ballots s) (s_policy s) (s_phooks s) (s_vhooks s))
| prim_vote s id a p v r votes1 st :
    s_props s !! id = Some p ->
    is_expired (p_exp p) b = false ->
    vp O (c_dao (s_cfg s)) a (p_start p) <> 0 ->
    vote_result s id a p v (vp O (c_dao (s_cfg s)) a (p_start p)) votes1 ->
    current_status (set_votes p votes1) b = Ok st ->
    prim O b s (with_ballots (save_prop s id (set_status (set_votes p votes1) st))
                 (<[(id, a) := Ballot (vp O (c_dao (s_cfg s)) a (p_start p)) v r]> (s_ballots s)))
| prim_fin s id p st fin :
    s_props s !! id = Some p ->
    current_status p b = Ok st ->
    allowed st fin ->
    prim O b s (save_prop s id (set_status p fin))
| prim_rationale s id a cur r :
    s_ballots s !! (id, a) = Some cur ->
    prim O b s (with_ballots s (<[(id, a) := Ballot (bl_power cur) (bl_vote cur) r]> (s_ballots s)))
| prim_admin s s' :
    s_props s' = s_props s -> s_ballots s' = s_ballots s -> s_count s' = s_count s ->
    (s_cfg s' = s_cfg s \/ validate_config (s_cfg s') = Ok tt) ->
    prim O b s s'.

Lemma execute_vote_shape O s b a id v r s' subs :
  execute_vote O s b a id v r = Ok (s', subs) ->
  exists p votes1 st,
    s_props s !! id = Some p /\
    is_expired (p_exp p) b = false /\
    vp O (c_dao (s_cfg s)) a (p_start p) <> 0 /\
    vote_result s id a p v (vp O (c_dao (s_cfg s)) a (p_start p)) votes1 /\
    current_status (set_votes p votes1) b = Ok st /\
    s' = with_ballots (save_prop s id (set_status (set_votes p votes1) st))
           (<[(id, a) := Ballot (vp O (c_dao (s_cfg s)) a (p_start p)) v r]> (s_ballots s)) /\
    subs = proposal_status_changed_hooks (s_phooks s) id (p_status p) st
           ++ new_vote_hooks (s_vhooks s) id a v.
Proof.
  unfold execute_vote. intros H.
  destruct (s_props s !! id) as [p|] eqn:Ep; [|discriminate].
  destruct (negb (is_expired (p_exp p) b)) eqn:Ee; [|discriminate].
  destruct (negb (_ =? 0)) eqn:Ev; [|discriminate].
  match type of H with (do! votes0 <- ?e; _) = _ => destruct e as [votes0|] eqn:E0 end;
    [|discriminate].
  destruct (add_vote votes0 v _) as [votes1|] eqn:E1; [|discriminate].
  destruct (update_status _ b) as [p'|] eqn:E2; [|discriminate].
  apply update_status_ok in E2 as (st & Est & ->).
  injection H as <- <-.
  exists p, votes1, st. split; [done|]. split; [by apply negb_true_iff|].
  split; [lia|]. split; [|split; [done|split; reflexivity]].
  unfold vote_result. destruct (s_ballots s !! (id, a)) as [cur|].
  - destruct (p_revote p); [|discriminate].
    destruct (decide (bl_vote cur = v)); [discriminate|]. eauto 10.
  - injection E0 as <-. done.
Qed.

Lemma execute_propose_shape O s b a pm s' subs :
  execute_propose O s b a pm = Ok (s', subs) ->
  exists proposer st s1 subs2,
    is_permitted (s_policy s) a = true /\
    decide_proposer (s_policy s) a (pm_proposer pm) = Ok proposer /\
    pm_active pm = true /\ pm_fits pm = true /\
    current_status (new_prop O s b proposer (pm_msgs pm) Open) b = Ok st /\
    s1 = State (s_cfg s) (s_count s + 1)
           (<[s_count s + 1 := new_prop O s b proposer (pm_msgs pm) st]> (s_props s))
           (s_ballots s) (s_policy s) (s_phooks s) (s_vhooks s) /\
    subs = new_proposal_hooks (s_phooks s) (s_count s + 1) proposer ++ subs2 /\
    match pm_vote pm with
    | None => s' = s1 /\ subs2 = []
    | Some (v, r) => execute_vote O s1 b proposer (s_count s + 1) v r = Ok (s', subs2)
    end.
Proof.
  unfold execute_propose. intros H.
  destruct (is_permitted _ _) eqn:E1; [|discriminate].
  destruct (decide_proposer _ _ _) as [proposer|] eqn:E2; [|discriminate].
  destruct (pm_active pm) eqn:E3; [|discriminate].
  destruct (update_status _ _) as [p|] eqn:E4; [|discriminate].
  apply update_status_ok in E4 as (st & Est & ->).
  destruct (pm_fits pm) eqn:E5; [|discriminate].
  destruct (pm_vote pm) as [[v r]|] eqn:E6.
  - destruct (execute_vote _ _ _ _ _ _ _) as [[s2 subs2]|] eqn:E7; [|discriminate].
    injection H as <- <-. eexists proposer, st, _, subs2. eauto 10.
  - injection H as <- <-. eexists proposer, st, _, []. rewrite app_nil_r. eauto 10.
Qed.

Lemma execute_veto_shape s b a id s' subs :
  execute_veto s b a id = Ok (s', subs) ->
  exists p st vc,
    s_props s !! id = Some p /\ current_status p b = Ok st /\
    p_veto p = Some vc /\ vc_vetoer vc = a /\
    ((st = Open /\ vc_veto_before_passed vc = true) \/
     (exists e, st = VetoTimelock e /\ is_expired e b = false)) /\
    s' = save_prop s id (set_status p Vetoed) /\
    subs = proposal_status_changed_hooks (s_phooks s) id st Vetoed
           ++ proposal_completed_hooks (s_policy s) id Vetoed.
Proof.
  unfold execute_veto. intros H.
  destruct (s_props s !! id) as [p|] eqn:Ep; [|discriminate].
  destruct (update_status p b) as [p'|] eqn:E; [|discriminate].
  apply update_status_ok in E as (st & Est & ->). simpl in H.
  destruct (p_veto p) as [vc|] eqn:Ev; [|discriminate].
  unfold check_is_vetoer, check_veto_before_passed_enabled, finish in H.
  destruct (vc_vetoer vc =? a)%N eqn:Ea; [|discriminate].
  exists p, st, vc. apply N.eqb_eq in Ea.
  destruct st; simpl in H; try discriminate.
  - destruct (vc_veto_before_passed vc) eqn:?; [|discriminate].
    injection H as <- <-. repeat split; eauto.
  - destruct (is_expired e b) eqn:Ee; [discriminate|].
    injection H as <- <-. repeat split; eauto.
Qed.

Lemma execute_execute_shape O s b a id s' subs :
  execute_execute O s b a id = Ok (s', subs) ->
  exists p st,
    s_props s !! id = Some p /\ current_status p b = Ok st /\
    ((st = Passed /\ sender_can_execute O s a p = true) \/
     (exists e vc, st = VetoTimelock e /\ p_veto p = Some vc /\ vc_vetoer vc = a /\
                   vc_early_execute vc = true)) /\
    s' = save_prop s id (set_status p Executed) /\
    subs = (match p_msgs p with
            | [] => []
            | ms => [SExec (c_dao (s_cfg s)) id ms (c_close_on_fail (s_cfg s))]
            end) ++
           proposal_status_changed_hooks (s_phooks s) id st Executed
           ++ proposal_completed_hooks (s_policy s) id Executed.
Proof.
  unfold execute_execute. intros H.
  destruct (s_props s !! id) as [p|] eqn:Ep; [|discriminate].
  destruct (update_status p b) as [p'|] eqn:E; [|discriminate].
  apply update_status_ok in E as (st & Est & ->). simpl in H.
  unfold finish, check_early_execute_enabled in H. exists p, st.
  destruct st; simpl in H; try discriminate.
  - destruct (sender_can_execute O s a p) eqn:?; [|discriminate].
    injection H as <- <-. repeat split; eauto.
  - destruct (p_veto p) as [vc|] eqn:Ev; [|discriminate].
    destruct (vc_vetoer vc =? a)%N eqn:Ea.
    + destruct (vc_early_execute vc) eqn:?; [|discriminate].
      apply N.eqb_eq in Ea. injection H as <- <-. repeat split; eauto 10.
    + destruct (sender_can_execute O s a p); discriminate.
Qed.

Lemma execute_close_shape s b id s' subs :
  execute_close s b id = Ok (s', subs) ->
  exists p,
    s_props s !! id = Some p /\ current_status p b = Ok Rejected /\
    s' = save_prop s id (set_status p Closed) /\
    subs = proposal_status_changed_hooks (s_phooks s) id Rejected Closed
           ++ proposal_completed_hooks (s_policy s) id Closed.
Proof.
  unfold execute_close. intros H.
  destruct (s_props s !! id) as [p|] eqn:Ep; [|discriminate].
  destruct (update_status p b) as [p'|] eqn:E; [|discriminate].
  apply update_status_ok in E as (st & Est & ->). simpl in H.
  destruct (bool_decide (st = Rejected)) eqn:Eb; [|discriminate].
  apply bool_decide_eq_true in Eb as ->.
  injection H as <- <-. exists p. repeat split; eauto.
Qed.

(** Messages that only administer the module. *)
Definition is_admin (m : msg) : Prop :=
  match m with
  | UpdateConfig _ | UpdatePreProposeInfo _ | AddProposalHook _ | RemoveProposalHook _
  | AddVoteHook _ | RemoveVoteHook _ => True
  | _ => False
  end.
Lemma admin_shape O s b a m s' subs :
  is_admin m -> handle O s b a m = Ok (s', subs) ->
  a = c_dao (s_cfg s) /\ no_exec subs /\
  s_props s' = s_props s /\ s_ballots s' = s_ballots s /\ s_count s' = s_count s /\
  match m with
  | UpdateConfig c => validate_config c = Ok tt /\ s_cfg s' = c
  | _ => s_cfg s' = s_cfg s
  end.
Proof.
  destruct m; simpl; try done; intros _ H;
    unfold execute_update_config, execute_update_policy, execute_add_proposal_hook,
      execute_remove_proposal_hook, execute_add_vote_hook, execute_remove_vote_hook in H.
  - destruct (_ =? _)%N eqn:Ea; [|discriminate]. apply N.eqb_eq in Ea.
    destruct (validate_config c) as [[]|] eqn:Ev; [|discriminate].
    injection H as <- <-. simpl. eauto 10 with no_exec.
  - destruct (_ =? _)%N eqn:Ea; [|discriminate]. apply N.eqb_eq in Ea.
    destruct (into_initial_policy_and_messages i) as [pol subs0] eqn:Ei.
    injection H as <- <-. simpl. eauto 10 using no_exec_init.
  - destruct (_ =? _)%N eqn:Ea; [|discriminate]. apply N.eqb_eq in Ea.
    destruct (add_hook _ _); [|discriminate]. injection H as <- <-. simpl. eauto 10 with no_exec.
  - destruct (_ =? _)%N eqn:Ea; [|discriminate]. apply N.eqb_eq in Ea.
    destruct (remove_hook _ _); [|discriminate]. injection H as <- <-. simpl. eauto 10 with no_exec.
  - destruct (_ =? _)%N eqn:Ea; [|discriminate]. apply N.eqb_eq in Ea.
    destruct (add_hook _ _); [|discriminate]. injection H as <- <-. simpl. eauto 10 with no_exec.
  - destruct (_ =? _)%N eqn:Ea; [|discriminate]. apply N.eqb_eq in Ea.
    destruct (remove_hook _ _); [|discriminate]. injection H as <- <-. simpl. eauto 10 with no_exec.
Qed.

(** Every successful call is at most two primitive changes. *)
Lemma handle_prims O s b a m s' subs :
  handle O s b a m = Ok (s', subs) -> rtc (prim O b) s s'.
Proof.
  intros H. destruct m; try (apply (admin_shape O s b a) in H; [|exact I];
    destruct H as (_ & _ & Hp & Hb & Hc & Hcfg); apply rtc_once, prim_admin; [done..|];
    first [ by left | destruct Hcfg as [Hv ->]; by right ]).
  - simpl in H. apply execute_propose_shape in H
      as (proposer & st & s1 & subs2 & _ & _ & _ & _ & Hst & -> & _ & Hv).
    destruct (pm_vote pm) as [[v r]|].
    + apply execute_vote_shape in Hv as (p & votes1 & st2 & H1 & H2 & H3 & H4 & H5 & -> & _).
      eapply rtc_l; [by apply prim_new|]. apply rtc_once. by eapply prim_vote.
    + destruct Hv as [-> _]. apply rtc_once. by apply prim_new.
  - simpl in H. apply execute_vote_shape in H as (p & votes1 & st2 & H1 & H2 & H3 & H4 & H5 & -> & _).
    apply rtc_once. by eapply prim_vote.
  - simpl in H. unfold execute_update_rationale in H.
    destruct (s_ballots s !! (id, a)) as [cur|] eqn:E; [|discriminate].
    injection H as <- <-. apply rtc_once. by apply prim_rationale.
  - simpl in H. apply execute_execute_shape in H as (p & st & Hp & Hst & Hal & -> & _).
    apply rtc_once. eapply prim_fin; [done..|]. left. split; [done|].
    destruct Hal as [[-> _]|(e & vc & -> & _)]; eauto.
  - simpl in H. apply execute_veto_shape in H as (p & st & vc & Hp & Hst & _ & _ & Hal & -> & _).
    apply rtc_once. eapply prim_fin; [done..|]. right; left. split; [done|].
    destruct Hal as [[-> _]|(e & -> & _)]; eauto.
  - simpl in H. apply execute_close_shape in H as (p & Hp & Hst & -> & _).
    apply rtc_once. eapply prim_fin; [done..|]. right; right. done.
Qed.

(** ** Invariant without assumptions *)
Definition min_ok (p : proposal) (b : block) : Prop :=
  match p_min p with Some m => is_expired m b = true | None => True end.
Definition decided (st : status) : Prop :=
  match st with Open | Vetoed => False | _ => True end.

Record wprop (b : block) (p : proposal) : Prop := {
  w_start : p_start p <= height b;
  w_min : forall b', is_expired (p_exp p) b' = true -> min_ok p b';
  w_veto : forall vc, p_veto p = Some vc -> exists e, exp_add (p_exp p) (vc_timelock vc) = Ok e;
  w_lock : forall e, p_status p = VetoTimelock e ->
           exists vc, p_veto p = Some vc /\ exp_add (p_exp p) (vc_timelock vc) = Ok e;
  w_passed : forall vc e, p_status p = Passed -> p_veto p = Some vc ->
             exp_add (p_exp p) (vc_timelock vc) = Ok e -> is_expired e b = true;
  w_passed_min : passed_like (p_status p) -> min_ok p b;
  w_revote : p_revote p = true -> decided (p_status p) -> is_expired (p_exp p) b = true;
  w_thr : validate_threshold (p_thr p) = Ok tt }.

Record winv (b : block) (s : state) : Prop := {
  wi_cfg : validate_config (s_cfg s) = Ok tt;
  wi_count : 0 <= s_count s;
  wi_ids : forall id, is_Some (s_props s !! id) <-> 1 <= id <= s_count s;
  wi_props : forall id p, s_props s !! id = Some p -> wprop b p;
  wi_ballots : forall id a bl, s_ballots s !! (id, a) = Some bl -> is_Some (s_props s !! id) }.

Lemma min_ok_mono p b b' : block_le b b' -> min_ok p b -> min_ok p b'.
Proof. unfold min_ok. destruct (p_min p); [|done]. apply is_expired_mono. Qed.
Lemma wprop_time b b' p : block_le b b' -> wprop b p -> wprop b' p.
Proof.
  intros Hb [A B C D E F G H]. constructor; eauto using is_expired_mono, min_ok_mono.
  unfold block_le in Hb. lia.
Qed.
Lemma winv_time b b' s : block_le b b' -> winv b s -> winv b' s.
Proof. intros Hb [A B C D E]. constructor; eauto using wprop_time. Qed.

Lemma is_passed_min p b : is_passed p b = Ok true -> min_ok p b.
Proof.
  unfold is_passed, min_ok. intros H.
  destruct (p_revote p && _); [discriminate|].
  destruct (p_min p); [|done]. destruct (is_expired e b) eqn:E; [done|discriminate].
Qed.
Lemma is_passed_revote p b :
  is_passed p b = Ok true -> p_revote p = true -> is_expired (p_exp p) b = true.
Proof.
  unfold is_passed. intros H Hr. rewrite Hr in H.
  destruct (is_expired (p_exp p) b); [done|discriminate].
Qed.
Lemma is_rejected_revote p b :
  is_rejected p b = Ok true -> p_revote p = true -> is_expired (p_exp p) b = true.
Proof.
  unfold is_rejected. intros H Hr. rewrite Hr in H.
  destruct (is_expired (p_exp p) b); [done|discriminate].
Qed.

(** What [current_status] can return. *)
Lemma current_status_cases p b st :
  current_status p b = Ok st ->
  match p_status p with
  | Open =>
      (st = Passed /\ is_passed p b = Ok true /\
         forall vc e, p_veto p = Some vc -> exp_add (p_exp p) (vc_timelock vc) = Ok e ->
                 is_expired e b = true) \/
      (exists vc e, st = VetoTimelock e /\ is_passed p b = Ok true /\ p_veto p = Some vc /\
         exp_add (p_exp p) (vc_timelock vc) = Ok e /\ is_expired e b = false) \/
      (st = Rejected /\ is_passed p b = Ok false /\
         (is_expired (p_exp p) b = true \/ is_rejected p b = Ok true)) \/
      (st = Open /\ is_passed p b = Ok false /\ is_expired (p_exp p) b = false /\
         is_rejected p b = Ok false)
  | VetoTimelock e =>
      (is_expired e b = true /\ st = Passed) \/ (is_expired e b = false /\ st = VetoTimelock e)
  | st0 => st = st0
  end.
Proof.
  unfold current_status. intros H. destruct (p_status p); try (by injection H).
  - destruct (is_passed p b) as [[|]|]; [..|discriminate].
    + destruct (p_veto p) as [vc|].
      * destruct (exp_add _ _) as [e|] eqn:Ee; [|discriminate].
        destruct (is_expired e b) eqn:Ex; injection H as <-.
        -- left. split; [done|]. split; [done|]. intros vc' e' [= <-] He'. congruence.
        -- right; left. eauto 10.
      * injection H as <-. left. split; [done|]. split; [done|]. done.
    + destruct (is_expired (p_exp p) b) eqn:Ex.
      * injection H as <-. right; right; left. eauto.
      * destruct (is_rejected p b) as [[|]|]; [..|discriminate]; injection H as <-; eauto 10.
  - destruct (is_expired e b); injection H as <-; eauto.
Qed.

(** Changing the status to the current one keeps [wprop]. *)
Lemma wprop_current b p st :
  wprop b p -> current_status p b = Ok st -> wprop b (set_status p st).
Proof.
  intros [A B C D E F G H] Hst. apply current_status_cases in Hst.
  destruct (p_status p) eqn:Es.
  - destruct Hst as [(-> & Hp & Hv)|[(vc & e & -> & Hp & Hv & He & Hx)|[(-> & Hp & Hr)|(-> & Hp & Hx & Hr)]]];
      constructor; simpl; try done; eauto using is_passed_min, is_passed_revote.
    + intros e' [= <-]. eauto.
    + intros Hrev _. destruct Hr; eauto using is_rejected_revote.
  - subst st. constructor; simpl; rewrite ?Es in *; done.
  - subst st. constructor; simpl; rewrite ?Es in *; done.
  - subst st. constructor; simpl; rewrite ?Es in *; done.
  - subst st. constructor; simpl; rewrite ?Es in *; done.
  - subst st. constructor; simpl; rewrite ?Es in *; done.
  - destruct Hst as [[Hx ->]|[Hx ->]]; constructor; simpl; rewrite ?Es in *; eauto; try done.
    intros vc e' _ Hv He. destruct (D e eq_refl) as (vc' & Hv' & He'). congruence.
  - subst st. constructor; simpl; rewrite ?Es in *; done.
Qed.
Lemma wprop_votes b p v : wprop b p -> wprop b (set_votes p v).
Proof. intros [A B C D E F G H]. constructor; eauto. Qed.
Lemma wprop_fin b p st fin :
  wprop b p -> current_status p b = Ok st -> allowed st fin -> wprop b (set_status p fin).
Proof.
  intros Hw Hst Hal. pose proof (wprop_current b p st Hw Hst) as [A B C D E F G H].
  simpl in *.
  destruct Hal as [[-> Hal]|[[-> Hal]|[-> ->]]]; constructor; simpl; try done; eauto.
  - intros _. apply F. destruct Hal as [->|[e ->]]; done.
  - intros Hr _. apply G; [done|]. destruct Hal as [->|[e ->]]; done.
Qed.

Lemma validate_config_ok c :
  validate_config c = Ok tt ->
  validate_threshold (c_thr c) = Ok tt /\
  (forall d, c_min c = Some d ->
     match d, c_max c with DTime x, DTime y | DHeight x, DHeight y => x <= y | _, _ => False end) /\
  (forall vc, c_veto c = Some vc ->
     match vc_timelock vc, c_max c with DTime _, DTime _ | DHeight _, DHeight _ => True | _, _ => False end).
Proof.
  unfold validate_config. intros H.
  destruct (validate_threshold _) as [[]|]; [|discriminate].
  destruct (validate_voting_period _ _) as [pq|] eqn:E; [|discriminate].
  split; [done|]. split.
  - intros d Hd. rewrite Hd in E. simpl in E.
    destruct d, (c_max c); try discriminate; destruct (_ <=? _) eqn:?; try discriminate; lia.
  - intros vc Hv. rewrite Hv in H. simpl in H. unfold validate_veto in H.
    destruct (vc_timelock vc), (c_max c); done.
Qed.

Lemma wprop_new O s b proposer ms st :
  validate_config (s_cfg s) = Ok tt ->
  current_status (new_prop O s b proposer ms Open) b = Ok st ->
  wprop b (new_prop O s b proposer ms st).
Proof.
  intros Hc Hst. apply validate_config_ok in Hc as (Ht & Hm & Hv).
  apply (wprop_current b (new_prop O s b proposer ms Open) st); [|done].
  constructor; simpl; try done.
  - intros b' He. unfold min_ok. simpl. destruct (c_min (s_cfg s)) as [d|]; [|done]. simpl.
    specialize (Hm d eq_refl).
    destruct d, (c_max (s_cfg s)); try done; cbn [is_expired after] in *;
      apply Z.leb_le; apply Z.leb_le in He; unfold NANOS in *; lia.
  - intros vc Hvc. specialize (Hv vc Hvc). apply exp_add_unit.
    destruct (vc_timelock vc), (c_max (s_cfg s)); done.
Qed.

Lemma prim_winv O b s s' : prim O b s s' -> winv b s -> winv b s'.
Proof.
  intros Hp [A B C D E]. destruct Hp.
  - constructor; simpl; [done|lia|..].
    + intros id. destruct (decide (id = s_count s + 1)) as [->|Hne].
      * rewrite lookup_insert. split; [lia|eauto].
      * rewrite lookup_insert_ne by done. rewrite C. lia.
    + intros id p. destruct (decide (id = s_count s + 1)) as [->|Hne].
      * rewrite lookup_insert. intros [= <-]. by apply wprop_new.
      * rewrite lookup_insert_ne by done. eauto.
    + intros id a bl Hb. apply E in Hb as [p Hp].
      destruct (decide (id = s_count s + 1)) as [->|Hne].
      * rewrite lookup_insert; eauto.
      * rewrite lookup_insert_ne by done. eauto.
  - assert (forall id' : Z, is_Some ((<[id:=set_status (set_votes p votes1) st]> (s_props s)) !! id') <->
      is_Some (s_props s !! id')) as Hdom.
    { intros id'. destruct (decide (id' = id)) as [->|Hne];
        [rewrite lookup_insert|rewrite lookup_insert_ne by done]; [|done].
      rewrite H. split; eauto. }
    constructor; simpl; [done|lia|..].
    + intros id'. by rewrite Hdom, C.
    + intros id' p'. destruct (decide (id' = id)) as [->|Hne];
        [rewrite lookup_insert|rewrite lookup_insert_ne by done]; [|eauto].
      intros [= <-]. apply wprop_current; [|done]. apply wprop_votes. eauto.
    + intros id' a' bl Hb. apply Hdom. destruct (decide ((id', a') = (id, a))) as [[= -> ->]|Hne].
      * eauto.
      * rewrite lookup_insert_ne in Hb by congruence. eauto.
  - assert (forall id' : Z, is_Some ((<[id:=set_status p fin]> (s_props s)) !! id') <->
      is_Some (s_props s !! id')) as Hdom.
    { intros id'. destruct (decide (id' = id)) as [->|Hne];
        [rewrite lookup_insert|rewrite lookup_insert_ne by done]; [|done].
      rewrite H. split; eauto. }
    constructor; simpl; [done|lia|..].
    + intros id'. by rewrite Hdom, C.
    + intros id' p'. destruct (decide (id' = id)) as [->|Hne];
        [rewrite lookup_insert|rewrite lookup_insert_ne by done]; [|eauto].
      intros [= <-]. eapply wprop_fin; eauto.
    + intros id' a' bl Hb. apply Hdom. eauto.
  - constructor; simpl; eauto.
    intros id' a' bl Hb. destruct (decide ((id', a') = (id, a))) as [[= -> ->]|Hne].
    + eauto.
    + rewrite lookup_insert_ne in Hb by congruence. eauto.
  - rewrite <- H in C, D, E. rewrite <- H0 in E. rewrite <- H1 in B, C.
    constructor; eauto. destruct H2 as [->|?]; done.
Qed.

Lemma handle_winv O b s a m s' subs :
  winv b s -> handle O s b a m = Ok (s', subs) -> winv b s'.
Proof.
  intros HI H. apply handle_prims in H.
  induction H as [|s1 s2 s3 Hp Hr IH]; [done|]. apply IH. by eapply prim_winv.
Qed.

(** ** Terms, finished proposals *)
Definition same_terms (s s' : state) : Prop :=
  s_count s <= s_count s' /\
  forall id p, s_props s !! id = Some p ->
    exists p', s_props s' !! id = Some p' /\ terms p' = terms p.

Lemma same_terms_refl s : same_terms s s.
Proof. split; [lia|eauto]. Qed.
Lemma same_terms_trans a b c : same_terms a b -> same_terms b c -> same_terms a c.
Proof.
  intros [H1 A] [H2 B]. split; [lia|]. intros id p Hp.
  destruct (A id p Hp) as (p1 & Hp1 & E1). destruct (B id p1 Hp1) as (p2 & Hp2 & E2).
  exists p2. split; [done|congruence].
Qed.
Lemma same_terms_save s id p p' :
  s_props s !! id = Some p -> terms p' = terms p -> same_terms s (save_prop s id p').
Proof.
  intros Hp Ht. split; [simpl; lia|]. intros id' q Hq. simpl.
  destruct (decide (id' = id)) as [->|Hne];
    [rewrite lookup_insert|rewrite lookup_insert_ne by done]; [|eauto].
  exists p'. split; [done|]. congruence.
Qed.
Lemma prim_terms O b s s' : winv b s -> prim O b s s' -> same_terms s s'.
Proof.
  intros HI Hp. destruct Hp.
  - split; [simpl; lia|]. simpl. intros id p Hp.
    rewrite lookup_insert_ne; [eauto|]. intros <-.
    assert (1 <= s_count s + 1 <= s_count s); [|lia].
    apply (wi_ids _ _ HI). eauto.
  - apply (same_terms_save s id p (set_status (set_votes p votes1) st)); done.
  - by eapply same_terms_save.
  - split; [simpl; lia|eauto].
  - split; [lia|]. rewrite H. eauto.
Qed.

(** A proposal whose messages have been dispatched. *)
Definition done_st (st : status) : Prop := st = Executed \/ st = ExecutionFailed.
Definition done_at (s : state) (id : Z) : Prop :=
  exists p, s_props s !! id = Some p /\ done_st (p_status p).

Lemma done_terminal st : done_st st -> terminal st.
Proof. unfold done_st, terminal. tauto. Qed.
Lemma terminal_current p b st :
  terminal (p_status p) -> current_status p b = Ok st -> st = p_status p.
Proof.
  intros Ht H. apply current_status_cases in H.
  destruct Ht as [E|[E|[E|E]]]; rewrite E in *; done.
Qed.
Lemma terminal_current_ok p b :
  terminal (p_status p) -> current_status p b = Ok (p_status p).
Proof. unfold current_status. intros [E|[E|[E|E]]]; rewrite E; done. Qed.
Lemma terminal_not_allowed st fin : terminal st -> ~ allowed st fin.
Proof.
  intros [->|[->|[->| ->]]] [[-> [?|[? ?]]]|[[-> [?|[? ?]]]|[-> ?]]]; discriminate.
Qed.

(** A terminal status survives every primitive change. *)
Lemma prim_terminal O b s s' id p :
  winv b s -> prim O b s s' ->
  s_props s !! id = Some p -> terminal (p_status p) ->
  exists p', s_props s' !! id = Some p' /\ p_status p' = p_status p.
Proof.
  intros HI Hp Hid Ht. destruct Hp; simpl.
  - rewrite lookup_insert_ne; [eauto|]. intros <-.
    assert (1 <= s_count s + 1 <= s_count s); [|lia].
    apply (wi_ids _ _ HI). eauto.
  - destruct (decide (id = id0)) as [->|Hne];
      [rewrite lookup_insert|rewrite lookup_insert_ne by done]; [|eauto].
    rewrite Hid in H. injection H as <-. eexists. split; [done|]. simpl.
    by apply (terminal_current (set_votes p votes1) b st).
  - destruct (decide (id = id0)) as [->|Hne];
      [rewrite lookup_insert|rewrite lookup_insert_ne by done]; [|eauto].
    rewrite Hid in H. injection H as <-.
    apply (terminal_current p b st Ht) in H0. subst st.
    exfalso. by eapply terminal_not_allowed.
  - eauto.
  - rewrite H. eauto.
Qed.
Lemma prims_terminal O b s s' id p :
  winv b s -> rtc (prim O b) s s' ->
  s_props s !! id = Some p -> terminal (p_status p) ->
  exists p', s_props s' !! id = Some p' /\ p_status p' = p_status p.
Proof.
  intros HI H. revert p. induction H as [|s1 s2 s3 Hp Hr IH]; intros p Hid Ht; [eauto|].
  destruct (prim_terminal O b s1 s2 id p HI Hp Hid Ht) as (p' & Hp' & Es).
  destruct (IH (prim_winv _ _ _ _ Hp HI) p' Hp') as (p2 & Hp2 & Es2); [by rewrite Es|].
  exists p2. split; [done|congruence].
Qed.

(** Pending dispatches belong to finished proposals. *)
Definition pend (b : block) (s : state) (x : sub) : Prop :=
  forall d id ms c, x = SExec d id ms c -> done_at s id.

Lemma done_at_prims O b s s' id :
  winv b s -> rtc (prim O b) s s' -> done_at s id -> done_at s' id.
Proof.
  intros HI Hr (p & Hp & Hd).
  destruct (prims_terminal O b s s' id p HI Hr Hp (done_terminal _ Hd)) as (p' & Hp' & E).
  exists p'. split; [done|]. by rewrite E.
Qed.

Lemma no_exec_pend b s subs x : no_exec subs -> x ∈ subs -> pend b s x.
Proof. intros H Hx d id ms c ->. exfalso. by eapply H. Qed.

Lemma handle_no_exec O s b a m s' subs :
  handle O s b a m = Ok (s', subs) -> (forall id, m <> Execute id) -> no_exec subs.
Proof.
  intros H Hm. destruct m;
    try (apply (admin_shape O s b a) in H; [|exact I]; by destruct H as (_ & H & _)); simpl in H.
  - apply execute_propose_shape in H
      as (proposer & st & s1 & subs2 & _ & _ & _ & _ & Hst & -> & -> & Hv).
    destruct (pm_vote pm) as [[v r]|].
    + apply execute_vote_shape in Hv as (p & votes1 & st2 & H1 & H2 & H3 & H4 & H5 & -> & ->).
      eauto 10 with no_exec.
    + destruct Hv as [-> ->]. eauto with no_exec.
  - apply execute_vote_shape in H as (p & votes1 & st2 & H1 & H2 & H3 & H4 & H5 & -> & ->).
    eauto with no_exec.
  - unfold execute_update_rationale in H. destruct (s_ballots s !! _); [|discriminate].
    injection H as <- <-. eauto with no_exec.
  - by destruct (Hm id).
  - apply execute_veto_shape in H as (p & st & vc & Hp & Hst & _ & _ & Hal & -> & ->).
    eauto with no_exec.
  - apply execute_close_shape in H as (p & Hp & Hst & -> & ->). eauto with no_exec.
Qed.

Lemma handle_pend O s b a m s' subs x :
  handle O s b a m = Ok (s', subs) -> x ∈ subs -> pend b s' x.
Proof.
  intros H Hx. assert ((exists id, m = Execute id) \/ (forall id, m <> Execute id)) as [[id ->]|Hne].
  { destruct m; try (by right); eauto. }
  - simpl in H. apply execute_execute_shape in H as (p & st & Hp & Hst & Hal & -> & ->).
    intros d id' ms c ->. rename Hx into Hin. rewrite !elem_of_app in Hin.
    destruct Hin as [Hin|[Hin|Hin]];
      [|by apply no_exec_changed in Hin|by apply no_exec_completed in Hin].
    destruct (p_msgs p); [by apply elem_of_nil in Hin|].
    apply elem_of_list_singleton in Hin. injection Hin as -> -> -> ->.
    exists (set_status p Executed). simpl. rewrite lookup_insert. split; [done|by left].
  - eapply no_exec_pend; [|done]. by eapply handle_no_exec.
Qed.

Lemma on_ok_prims O s b x d s' : on_ok s b x d = Ok s' -> prim O b s s'.
Proof.
  destruct x; simpl; intros H; injection H as <-; apply prim_admin; eauto.
Qed.

(** A failing sub-message either removes a hook / the pre-propose module, or
    marks an executed proposal as failed. *)
Lemma on_fail_shape s b x s' :
  on_fail s b x = Ok s' ->
  (exists d id ms p, x = SExec d id ms true /\ s_props s !! id = Some p /\
     s' = save_prop s id (set_status p ExecutionFailed)) \/
  ((forall d id ms c, x <> SExec d id ms c) /\
   s_props s' = s_props s /\ s_ballots s' = s_ballots s /\ s_count s' = s_count s /\
   s_cfg s' = s_cfg s).
Proof.
  destruct x; simpl; intros H.
  - destruct caught; [|discriminate]. destruct (s_props s !! id) eqn:E; [|discriminate].
    injection H as <-. left. eauto 10.
  - destruct (remove_hook_by_index _ _); [|discriminate]. injection H as <-. right. done.
  - destruct (remove_hook_by_index _ _); [|discriminate]. injection H as <-. right. done.
  - destruct (s_policy s); [discriminate|]. injection H as <-. right. done.
  - discriminate.
Qed.

Lemma wprop_failed b p : wprop b p -> done_st (p_status p) -> wprop b (set_status p ExecutionFailed).
Proof.
  intros [A B C D E F G H] Hd. constructor; simpl; try done; eauto.
  - intros _. apply F. destruct Hd as [->| ->]; done.
  - intros Hr _. apply G; [done|]. destruct Hd as [->| ->]; done.
Qed.
Lemma on_fail_winv b s x s' :
  winv b s -> pend b s x -> on_fail s b x = Ok s' -> winv b s'.
Proof.
  intros HI HP H.
  destruct (on_fail_shape s b x s' H) as [(d & id & ms & p & -> & Hp & ->)|(Hx & E1 & E2 & E3 & E4)].
  - destruct (HP d id ms true eq_refl) as (p' & Hp' & Hd).
    rewrite Hp in Hp'. injection Hp' as <-.
    destruct HI as [A B C D E].
    assert (forall id' : Z, is_Some ((<[id:=set_status p ExecutionFailed]> (s_props s)) !! id') <->
      is_Some (s_props s !! id')) as Hdom.
    { intros id'. destruct (decide (id' = id)) as [->|Hne];
        [rewrite lookup_insert|rewrite lookup_insert_ne by done]; [|done].
      rewrite Hp. split; eauto. }
    constructor; simpl; [done|lia|..].
    + intros id'. by rewrite Hdom, C.
    + intros id' p'. destruct (decide (id' = id)) as [->|Hne];
        [rewrite lookup_insert|rewrite lookup_insert_ne by done]; [|eauto].
      intros [= <-]. apply wprop_failed; eauto.
    + intros id' a' bl Hb. apply Hdom. eauto.
  - destruct HI as [A B C D E].
    constructor; rewrite ?E1, ?E2, ?E3, ?E4; eauto.
Qed.
Lemma on_fail_done s b x s' id : on_fail s b x = Ok s' -> done_at s id -> done_at s' id.
Proof.
  intros H (p & Hp & Hd).
  destruct (on_fail_shape s b x s' H) as [(d & id0 & ms & p0 & -> & Hp0 & ->)|(Hx & E1 & _)].
  - destruct (decide (id = id0)) as [->|Hne].
    + exists (set_status p0 ExecutionFailed). simpl. rewrite lookup_insert.
      split; [done|by right].
    + exists p. simpl. by rewrite lookup_insert_ne.
  - exists p. by rewrite E1.
Qed.

Lemma fresh_winv b s : fresh s -> winv b s.
Proof.
  intros (A & B & C & D & _). constructor; [done|lia|..]; rewrite ?A, ?B, ?C.
  - intros id. rewrite lookup_empty. split; [intros [? ?]; done|lia].
  - intros id p. rewrite lookup_empty. done.
  - intros id a bl. rewrite lookup_empty. done.
Qed.

(** The committed log is a trace of legal steps, each starting and ending in
    the invariant. *)
Notation strace O := (trace (handle O) on_fail on_ok any_msg winv pend).
Lemma single_trace O b0 s h s' l :
  winv b0 s -> hist_ok b0 h -> run_hist (handle O) on_fail on_ok s h = (s', l) ->
  winv (hist_end b0 h) s' /\ strace O b0 s l (hist_end b0 h) s'.
Proof.
  intros HI Hh Hr.
  eapply run_hist_trace; try done; [..|apply hist_all_any].
  - intros b s1 a m s2 subs HI1 _ H. split; [by eapply handle_winv|].
    intros x Hx. by eapply handle_pend.
  - intros b s1 x s2 HI1 HP H. by eapply on_fail_winv.
  - intros b s1 x d s2 HI1 HP H. eapply prim_winv; [by eapply (on_ok_prims O)|done].
  - intros b s1 a m s2 subs x HI1 _ H HP d id ms c ->.
    eapply done_at_prims; [done|by eapply handle_prims|]. by eapply HP.
  - intros b s1 x s2 y HI1 _ H HP d id ms c ->. eapply on_fail_done; [done|]. by eapply HP.
  - intros b s1 x d s2 y HI1 _ H HP d' id ms c ->.
    eapply (done_at_prims O b s1); [done|apply rtc_once; by eapply on_ok_prims|]. by eapply HP.
  - intros. by eapply winv_time.
Qed.
