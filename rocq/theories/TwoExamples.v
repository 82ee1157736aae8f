(** Concrete histories of two DAOs of which one approves the proposals of the other. *)
From stdpp Require Import gmap strings.
From Verif Require Import Base BaseProofs Exec ExecProofs VotingModel VotingSpec HooksModel SingleModel
  SingleSpec PreModel PreSpec ApproverModel TwoModel TwoSpec.
From Verif Require SingleExamples.

Definition ex_O := SingleExamples.ex_O.
Definition at_ := SingleExamples.at_.
(** DAO 9 with proposal module 30 and approval contract 20; DAO 19 with the approver 50.  Half of
    the total power decides. *)
Definition cfg1 : config :=
  Config (AbsolutePercentage (Percent (5 * 10 ^ 17))) (DHeight 100) None true false 9 true None.
Definition cfg2 (veto : option veto_config) : config :=
  Config (AbsolutePercentage (Percent (5 * 10 ^ 17))) (DHeight 100) None true false 19 true veto.
Definition vetoer : option veto_config := Some (VetoConfig (DHeight 30) 8 true true).

Definition pol : submission := SSpecific true [] [].
Definition q_new : pstate := PState Approval 30 9 None pol ∅ [] 6 ∅ ∅ ∅ 0.
Definition env (p : Z) : penv := PEnv [] p 0 0.
(** Before: 6 approves the first submission; then the DAO turns to the approver. *)
Definition h_first : list (block * call jmsg) :=
  [(at_ 1, Call 9 (JSingle (UpdatePreProposeInfo (ModuleMayPropose 1))) [Some (20%N, [])]);
   (at_ 2, Call 1 (JPre (env 40) (PPropose (ProposeMsg [3] None None true true))) []);
   (at_ 2, Call 6 (JPre (env 0) (PApprove 1)) []);
   (at_ 3, Call 9 (JPre (env 0) (PAddHook 50)) []);
   (at_ 3, Call 6 (JPre (env 0) (PUpdateApprover 50)) [])].
Definition h_second : list (block * call msg) :=
  [(at_ 3, Call 19 (UpdatePreProposeInfo (ModuleMayPropose 1)) [Some (50%N, [])])].
Definition j_run := jrun ex_O (JState 20 (State cfg1 0 ∅ ∅ Anyone [] []) q_new [] []) h_first.
Definition s_run (v : option veto_config) :=
  run_hist (handle ex_O) on_fail on_ok (State (cfg2 v) 0 ∅ ∅ Anyone [] []) h_second.
Definition start (v : option veto_config) : two :=
  Two (fst j_run)
    (AJState 50 (fst (s_run v))
       (VState (PState Plain 60 19 None (SSpecific true [] []) ∅ [] 0 ∅ ∅ ∅ 0) 20 ∅ ∅)) [].

Lemma first_reached : jreached ex_O (at_ 5) (fst j_run) (snd j_run).
Proof.
  exists (at_ 0), (State cfg1 0 ∅ ∅ Anyone [] []), [], 20%N, Approval, 30%N, None, pol, 6%N, q_new, h_first.
  split.
  { exists (at_ 0), (State cfg1 0 ∅ ∅ Anyone [] []), []. split; [done|]. split; [done|]. split; [done|].
    apply block_le_refl. }
  split; [done|]. split; [vm_compute; repeat split; discriminate|].
  split; [apply surjective_pairing|]. vm_compute; split; discriminate.
Qed.
Lemma any_reached c h b : validate_config c = Ok tt -> attached 19 (State c 0 ∅ ∅ Anyone [] []) ->
  hist_ok (at_ 0) h -> hist_all (keeps_dao 19) h -> block_le (hist_end (at_ 0) h) b ->
  reached_for ex_O 19 b (fst (run_hist (handle ex_O) on_fail on_ok (State c 0 ∅ ∅ Anyone [] []) h))
    (snd (run_hist (handle ex_O) on_fail on_ok (State c 0 ∅ ∅ Anyone [] []) h)).
Proof.
  intros Hc Ha Hh Hk Hb. exists (at_ 0), (State c 0 ∅ ∅ Anyone [] []), h.
  split; [done|]. split; [done|]. split; [done|]. split; [done|].
  split; [|done]. apply surjective_pairing.
Qed.
Lemma second_reached v : validate_config (cfg2 v) = Ok tt ->
  reached_for ex_O 19 (at_ 5) (fst (s_run v)) (snd (s_run v)).
Proof.
  intros Hv. apply any_reached; [exact Hv|vm_compute; split; [reflexivity|done]|..].
  - vm_compute; repeat split; discriminate.
  - repeat constructor.
  - vm_compute; split; discriminate.
Qed.
Lemma start_ok v : validate_config (cfg2 v) = Ok tt -> s_policy (fst (s_run v)) = Module 50 ->
  tstart ex_O ex_O 19 (at_ 5) (start v).
Proof.
  intros Hv Hp. split.
  - eexists. apply first_reached.
  - vm_compute; reflexivity.
  - vm_compute; reflexivity.
  - vm_compute. left.
  - vm_compute. apply NoDup_singleton.
  - vm_compute; reflexivity.
  - eexists. by apply second_reached.
  - exists 60%N. vm_compute; reflexivity.
  - exact Hp.
  - vm_compute; discriminate.
  - reflexivity.
Qed.

(** Histories, computed. *)
Definition block_leb (b b' : block) : bool := (height b <=? height b') && (time b <=? time b').
Definition same_block (b b' : block) : bool := (height b =? height b') && (time b =? time b').
Definition keeps_ev (e : tevent) : bool :=
  match e with TAppr _ (AJSingle (UpdateConfig _)) => false | _ => true end.
Fixpoint go (b : block) (s : two) (l : list tentry) (h : list (block * tevent))
  : option (block * two * list tentry) :=
  match h with
  | [] => Some (b, s, l)
  | (b', e) :: h =>
      if block_leb b b' && (match t_todo s with [] => true | _ => same_block b b' end) && keeps_ev e then
        match t_event ex_O ex_O s b' e with
        | Ok s' => go b' s' (l ++ [TEntry s b' e s']) h
        | Err _ => None
        end
      else None
  end.
Lemma go_leads b0 s0 b s l h r : tleads ex_O ex_O 19 b0 s0 b s l -> go b s l h = Some r ->
  tleads ex_O ex_O 19 b0 s0 r.1.1 r.1.2 r.2.
Proof.
  revert b s l. induction h as [|[b' e] h IH]; cbn [go]; intros b s l Hl H.
  { by injection H as <-. }
  destruct (block_leb b b' && _ && keeps_ev e) eqn:E; [|done].
  apply andb_true_iff in E as [[E1 E2]%andb_true_iff E3].
  destruct (t_event ex_O ex_O s b' e) as [s'|] eqn:Ee; [|done].
  eapply IH; [|exact H]. apply tl_step with (b := b); [done|..|done].
  - unfold block_leb in E1. unfold block_le. lia.
  - destruct (t_todo s); [by left|]. right. destruct b, b'. unfold same_block in E2. cbn in E2. f_equal; lia.
  - intros a m ->. by destruct m.
Qed.
Definition result_of (v : option veto_config) (h : list (block * tevent)) : block * two * list tentry :=
  match go (at_ 5) (start v) [] h with Some r => r | None => (at_ 5, start v, []) end.
Lemma ex_leads v h : tleads ex_O ex_O 19 (at_ 5) (start v)
  (result_of v h).1.1 (result_of v h).1.2 (result_of v h).2.
Proof.
  unfold result_of. destruct (go _ _ _ _) as [r|] eqn:E; [|apply tl_nil].
  eapply go_leads; [apply tl_nil|exact E].
Qed.
Definition end_ v h : two := (result_of v h).1.2.

Definition calm_ev (e : tentry) : bool :=
  match te_ev e with
  | TAppr _ (AJAppr _ VReset) => false
  | TJoint _ (JPre _ (PRemoveHook _)) => false
  | _ => true
  end.
Lemma calm_ok l : forallb calm_ev l = true -> unreset l /\ unremoved l.
Proof.
  intros H. rewrite forallb_forall in H. split; intros e a env0 He; apply elem_of_list_In in He;
    specialize (H e He); unfold calm_ev in H; intros E; by rewrite E in H.
Qed.

Definition submits (a : addr) (p : Z) (ms : list Z) : tevent :=
  TJoint a (JPre (env p) (PPropose (ProposeMsg ms None None true true))).
Definition votes (a : addr) (id : Z) (v : vote) : tevent := TAppr a (AJSingle (CastVote id v None)).
Definition step_ : tevent := TRun true true.
(** Submissions 2, 3 and 4; DAO 19 approves 2, rejects 3 and has not decided on 4. *)
Definition h_both : list (block * tevent) :=
  [(at_ 10, submits 1 40 [7; 8]); (at_ 10, step_); (at_ 11, submits 2 35 [9]); (at_ 11, step_);
   (at_ 12, votes 1 1 Yes); (at_ 12, votes 2 1 Yes); (at_ 13, votes 1 2 No); (at_ 13, votes 2 2 No);
   (at_ 20, TAppr 1 (AJSingle (Execute 1))); (at_ 20, step_); (at_ 20, step_); (at_ 20, TOver 99);
   (at_ 21, submits 3 25 [5]); (at_ 21, step_);
   (at_ 22, TAppr 4 (AJSingle (Close 2))); (at_ 22, step_); (at_ 22, step_); (at_ 22, TOver 99)].
(** 8 vetoes what was made of submission 2: the approver cannot handle it, and is dropped. *)
Definition h_veto : list (block * tevent) :=
  [(at_ 10, submits 1 40 [7; 8]); (at_ 10, step_); (at_ 12, votes 1 1 Yes);
   (at_ 14, TAppr 8 (AJSingle (Veto 1))); (at_ 14, TFail)].
(** Submission 2 is larger than a proposal may be: DAO 19 passes it, and the approval fails. *)
Definition h_void : list (block * tevent) :=
  [(at_ 10, TJoint 1 (JPre (env 40) (PPropose (ProposeMsg [7] None None true false)))); (at_ 10, step_);
   (at_ 12, votes 1 1 Yes); (at_ 12, votes 2 1 Yes);
   (at_ 20, TAppr 1 (AJSingle (Execute 1))); (at_ 20, TFail)].
Definition seen (s : two) :=
  (map_to_list (v_by_prop (aj_v (t_v s))), map (fun x => (x.1, p_status x.2)) (map_to_list (s_props (aj_s (t_v s)))),
   map (fun x => (x.1, a_status x.2)) (map_to_list (q_completed (j_q (t_j s)))),
   map fst (map_to_list (q_pending (j_q (t_j s)))),
   map (fun x => (x.1, p_msgs x.2)) (map_to_list (s_props (j_s (t_j s)))), t_todo s,
   s_policy (aj_s (t_v s)), s_policy (j_s (t_j s))).

(** ** The approver dropped *)
Definition errs {A} (r : result A) : bool := match r with Ok _ => false | Err _ => true end.
Definition both (f : bool -> bool) : bool := f true && f false.
Definition doomed (e : tentry) : bool :=
  match te_ev e with
  | TFail =>
      both (fun a => both (fun f =>
        match t_event ex_O ex_O (te_pre e) (te_block e) (TRun a f) with
        | Err _ => true
        | Ok s => both (fun a' => both (fun f' => errs (t_event ex_O ex_O s (te_block e) (TRun a' f'))))
        end))
  | _ => true
  end.
Lemma both_ok f : both f = true -> forall x, f x = true.
Proof. intros [H1 H2]%andb_true_iff [|]; done. Qed.
Lemma doomed_ok l : forallb doomed l = true -> forced ex_O ex_O l.
Proof.
  intros H e He Hev a f s Hs a' f'. rewrite forallb_forall in H. apply elem_of_list_In in He.
  specialize (H e He). unfold doomed in H. rewrite Hev in H.
  apply both_ok with (x := a) in H. apply both_ok with (x := f) in H. rewrite Hs in H.
  apply both_ok with (x := a') in H. apply both_ok with (x := f') in H.
  destruct (t_event ex_O ex_O s (te_block e) (TRun a' f')) as [|m]; [done|eauto].
Qed.
Lemma blocked_any O1 O2 s :
  q_kind (j_q (t_j s)) = Approval -> q_deposit (j_q (t_j s)) = None ->
  q_hooks (j_q (t_j s)) = [t_boss s] -> s_policy (aj_s (t_v s)) = Anyone -> t_todo s = [] ->
  blocked O1 O2 s.
Proof.
  intros Hk Hd Hh Hp Ht b a env pm s' H. cbn [t_event] in H. destruct (t_outside s a); [|done].
  unfold to_j in H. cbn [jhandle] in H. destruct (a =? _)%N; [done|]. cbn [negb] in H.
  cbn [pre_handle] in H. rewrite Hk in H. unfold appr_propose in H.
  destruct (check_can_submit _ _ _) as [u|]; [|done]. unfold deposit_part in H. rewrite Hd in H.
  cbn [app map] in H. rewrite Hh, Ht in H. cbn [map app] in H. injection H as <-.
  split; [done|]. split; [by eexists|]. intros act fits.
  unfold t_event, t_run. cbn [t_todo]. unfold t_boss at 1. cbn [t_v]. fold (t_boss s).
  rewrite N.eqb_refl. unfold to_v. cbn [t_v ajhandle].
  destruct (negb _); [|by eexists]. cbn [v_handle]. unfold v_propose.
  destruct (_ =? v_approval _)%N; [|by eexists]. cbn [handle]. unfold execute_propose.
  rewrite Hp. cbn. by eexists.
Qed.
Lemma veto_blocked : blocked ex_O ex_O (end_ vetoer h_veto).
Proof. apply blocked_any; vm_compute; reflexivity. Qed.
Lemma void_blocked : blocked ex_O ex_O (end_ None h_void).
Proof. apply blocked_any; vm_compute; reflexivity. Qed.
Lemma paired_one s i sid : map_to_list (v_by_prop (aj_v (t_v s))) = [(sid, i)] ->
  v_by_pre (aj_v (t_v s)) !! i = Some sid -> paired s i sid.
Proof.
  intros H1 H2. split; [done|]. intros sid'. split.
  - intros H. apply elem_of_map_to_list in H. rewrite H1 in H.
    apply elem_of_list_singleton in H. by injection H.
  - intros ->. apply elem_of_map_to_list. rewrite H1. left.
Qed.
Definition has_status (s : state) (id : Z) (st : status) : bool :=
  match s_props s !! id with Some p => if decide (p_status p = st) then true else false | None => false end.
Lemma has_status_ok s id st : has_status s id st = true -> status_is s id st.
Proof.
  unfold has_status, status_is. destruct (s_props s !! id) as [p|]; [|done].
  destruct (decide _); [|done]. by exists p.
Qed.
Definition is_someb {A} (o : option A) : bool := match o with Some _ => true | None => false end.
Lemma is_someb_ok {A} (o : option A) : is_someb o = true -> is_Some o.
Proof. destruct o; [eauto|done]. Qed.

Lemma c133_veto_refuted : exists O1 O2 d b0 s0 b s l i sid,
  sane O2 d /\ tstart O1 O2 d b0 s0 /\ tleads O1 O2 d b0 s0 b s l /\ unreset l /\ unremoved l /\
  forced O1 O2 l /\ t_todo s = [] /\ paired s i sid /\
  status_is (aj_s (t_v s)) sid Vetoed /\ is_Some (q_pending (j_q (t_j s)) !! i) /\ blocked O1 O2 s.
Proof.
  exists ex_O, ex_O, 19%N, (at_ 5), (start vetoer), (result_of vetoer h_veto).1.1, (end_ vetoer h_veto),
    (result_of vetoer h_veto).2, 2, 1.
  split; [apply SingleExamples.ex_sane|]. split; [apply start_ok; vm_compute; reflexivity|].
  split; [apply ex_leads|].
  destruct (calm_ok (result_of vetoer h_veto).2) as [H1 H2]; [vm_compute; reflexivity|].
  split; [exact H1|]. split; [exact H2|]. split; [apply doomed_ok; vm_compute; reflexivity|].
  split; [vm_compute; reflexivity|]. split; [apply paired_one; vm_compute; reflexivity|].
  split; [apply has_status_ok; vm_compute; reflexivity|].
  split; [apply is_someb_ok; vm_compute; reflexivity|]. exact veto_blocked.
Qed.
Lemma c133_void_refuted : exists O1 O2 d b0 s0 b s l i sid,
  sane O2 d /\ tstart O1 O2 d b0 s0 /\ tleads O1 O2 d b0 s0 b s l /\ unreset l /\ unremoved l /\
  forced O1 O2 l /\ t_todo s = [] /\ paired s i sid /\
  status_is (aj_s (t_v s)) sid Executed /\ is_Some (q_pending (j_q (t_j s)) !! i) /\ blocked O1 O2 s.
Proof.
  exists ex_O, ex_O, 19%N, (at_ 5), (start None), (result_of None h_void).1.1, (end_ None h_void),
    (result_of None h_void).2, 2, 1.
  split; [apply SingleExamples.ex_sane|]. split; [apply start_ok; vm_compute; reflexivity|].
  split; [apply ex_leads|].
  destruct (calm_ok (result_of None h_void).2) as [H1 H2]; [vm_compute; reflexivity|].
  split; [exact H1|]. split; [exact H2|]. split; [apply doomed_ok; vm_compute; reflexivity|].
  split; [vm_compute; reflexivity|]. split; [apply paired_one; vm_compute; reflexivity|].
  split; [apply has_status_ok; vm_compute; reflexivity|].
  split; [apply is_someb_ok; vm_compute; reflexivity|]. exact void_blocked.
Qed.
