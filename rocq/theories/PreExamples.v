(** Concrete joint histories of a proposal module and its pre-propose module. *)
From Verif Require Import Base BaseProofs Exec ExecProofs VotingModel VotingSpec
  HooksModel SingleModel SingleSpec PreModel PreSpec ApproverModel ApproverClaims.
From Verif Require SingleExamples.

Definition ex_O := SingleExamples.ex_O.
Definition at_ := SingleExamples.at_.
(** 50% of the total power, no minimum period; failures are caught. *)
Definition ex_cfg : config :=
  Config (AbsolutePercentage (Percent (5 * 10 ^ 17))) (DHeight 100) None true false 9 true None.
(** The same with a vetoer (8) who may veto before the proposal passes. *)
Definition ex_cfg_veto : config :=
  Config (AbsolutePercentage (Percent (5 * 10 ^ 17))) (DHeight 100) None true false 9 true
    (Some (VetoConfig (DHeight 30) 8 true true)).
Definition s_start (c : config) : state := State c 0 ∅ ∅ Anyone [] [].

(** The proposal module is 30, the pre-propose module 20, the DAO 9. *)
Definition pol : submission := SSpecific true [5%N] [3%N].
Definition dep_cw20 (r : refund) : deposit := Deposit (Cw20 70) 100 r.
Definition dep_native : deposit := Deposit (Native 4) 25 Always.
Definition start (c : config) (k : kind) (d : deposit) : jstate :=
  JState 20 (s_start c)
    (PState k 30 9 (Some d) pol ∅ [] 6 ∅ ∅ ∅ 0) [] [].
Definition run (c : config) (k : kind) (d : deposit) (h : list (block * call jmsg)) :=
  jrun ex_O (start c k d) h.
Definition st c k d h : jstate := fst (run c k d h).
Definition lg c k d h : jlog := snd (run c k d h).

Lemma ex_jreached c k d h b :
  validate_config c = Ok tt -> c_dao c = 9%N ->
  pre_instantiate k 30 9 (Some d) pol 6 = Ok (j_q (start c k d)) ->
  hist_ok (at_ 0) h -> block_le (hist_end (at_ 0) h) b ->
  jreached ex_O b (st c k d h) (lg c k d h).
Proof.
  intros Hc Hd Hq Hh Hb.
  exists (at_ 0), (s_start c), [], 20%N, k, 30%N, (Some d), pol, 6%N, (j_q (start c k d)), h.
  split; [exists (at_ 0), (s_start c), []; split; [done|]; split; [done|]; split; [done|];
          apply block_le_refl|].
  split; [simpl; by rewrite Hd|]. split; [done|]. split; [|done]. apply surjective_pairing.
Qed.
Lemma ex_jlater c k d h h' b b' :
  hist_ok b h' -> block_le (hist_end b h') b' ->
  jlater ex_O b (st c k d h) b' (fst (jrun ex_O (st c k d h) h')) (snd (jrun ex_O (st c k d h) h')).
Proof.
  intros Hh Hb. exists h'. split; [done|]. split; [|done]. apply surjective_pairing.
Qed.
Ltac ex_side :=
  repeat match goal with
  | |- _ /\ _ => split
  | _ => progress (simpl; unfold block_le)
  | |- True => exact I
  | _ => reflexivity
  | _ => vm_compute; discriminate
  end.
Ltac ex_reach := first [apply ex_jreached|apply ex_jlater]; ex_side.

Definition ex_pm (ms : list Z) : propose_msg := ProposeMsg ms None None true true.
Definition env (f : list (N * Z)) (p : Z) : penv := PEnv f p 0 0.
Definition qs (a : addr) (m : msg) : call jmsg := Call a (JSingle m) [].
Definition qp (a : addr) (e : penv) (m : pmsg) : call jmsg := Call a (JPre e m) [].

(** The DAO installs the module. *)
Definition install : block * call jmsg :=
  (at_ 5, Call 9 (JSingle (UpdatePreProposeInfo (ModuleMayPropose 1))) [Some (20%N, [])]).
(** Member 1 and the allowlisted 5 submit; a transfer that fails; member 3 is
    denied; 7 has no power; proposing directly is refused. *)
Definition h_two : list (block * call jmsg) :=
  [install; (at_ 10, qp 1 (env [] 40) (PPropose (ex_pm [7; 8])));
   (at_ 11, qp 5 (env [] 0) (PPropose (ex_pm [])));
   (at_ 11, Call 2 (JPre (env [] 35) (PPropose (ex_pm [1]))) [None]);
   (at_ 11, qp 3 (env [] 25) (PPropose (ex_pm [2])));
   (at_ 11, qp 7 (env [] 0) (PPropose (ex_pm [3])));
   (at_ 11, qs 1 (Propose (ex_pm [4])))].
(** Proposal 1 passes and is executed; proposal 2 fails and is closed. *)
Definition h_done := h_two ++
  [(at_ 12, qs 1 (CastVote 1 Yes None)); (at_ 12, qs 2 (CastVote 1 Yes None));
   (at_ 13, qs 1 (CastVote 2 No None)); (at_ 13, qs 2 (CastVote 2 No None));
   (at_ 20, qs 1 (Execute 1)); (at_ 21, qs 4 (Close 2))].
(** Meanwhile the DAO changes the deposit and the policy. *)
Definition h_changed := h_two ++
  [(at_ 15, qp 9 (env [] 0) (PUpdateConfig (Some dep_native) None));
   (at_ 16, qp 9 (env [] 0) (PUpdatePolicy (Some [7%N]) (Some [3%N]) None (Some [2%N; 5%N]) None));
   (at_ 17, qp 3 (env [(4%N, 25)] 25) (PPropose (ex_pm [2])));
   (at_ 17, qp 3 (env [(4%N, 24)] 25) (PPropose (ex_pm [2])))].
(** Approval: 1 submits twice, 2 once; 6 approves the first and rejects the
    second, the third stays; nobody else can, and nothing moves twice. *)
Definition h_appr : list (block * call jmsg) :=
  [install; (at_ 10, qp 1 (env [(4%N, 25)] 40) (PPropose (ex_pm [7; 8])));
   (at_ 10, qp 1 (env [(4%N, 25)] 40) (PPropose (ex_pm [9])));
   (at_ 11, qp 2 (env [(4%N, 25)] 35) (PPropose (ex_pm [5])));
   (at_ 12, qp 1 (env [] 0) (PApprove 1)); (at_ 13, qp 6 (env [] 0) (PApprove 1));
   (at_ 13, qp 6 (env [] 0) (PReject 1)); (at_ 14, qp 6 (env [] 0) (PReject 2));
   (at_ 14, qp 6 (env [] 0) (PApprove 2))].

(** ** The approver module: 20 serves the approval contract 40 *)
Definition astart (c : config) : ajstate :=
  AJState 20 (s_start c)
    (VState (PState Plain 30 9 None (SSpecific true [] []) ∅ [] 0 ∅ ∅ ∅ 0) 40 ∅ ∅).
Definition arun (c : config) (h : list (block * call ajmsg)) := ajrun ex_O (astart c) h.
Definition ast c h : ajstate := fst (arun c h).
Definition alg c h : ajlog := snd (arun c h).
Lemma ex_ajreached c h b :
  validate_config c = Ok tt -> c_dao c = 9%N ->
  hist_ok (at_ 0) h -> block_le (hist_end (at_ 0) h) b ->
  ajreached ex_O b (ast c h) (alg c h).
Proof.
  intros Hc Hd Hh Hb.
  exists (at_ 0), (s_start c), [], 20%N, 30%N, 40%N, (aj_v (astart c)), h.
  split; [exists (at_ 0), (s_start c), []; split; [done|]; split; [done|]; split; [done|];
          apply block_le_refl|].
  split; [simpl; by rewrite Hd|]. split; [done|]. split; [|done]. apply surjective_pairing.
Qed.
(** The approval contract passes on submissions 11 and 12. *)
Definition h_fwd : list (block * call ajmsg) :=
  [(at_ 5, Call 9 (AJSingle (UpdatePreProposeInfo (ModuleMayPropose 1))) [Some (20%N, [])]);
   (at_ 10, Call 40 (AJAppr (env [] 0) (VPropose 11 true true)) []);
   (at_ 10, Call 1 (AJAppr (env [] 0) (VPropose 13 true true)) []);
   (at_ 11, Call 40 (AJAppr (env [] 0) (VPropose 12 true true)) [])].

Lemma self_call O b s c s' l : ajcall O b s c = Ok (s', l) -> aj_self s' = aj_self s.
Proof.
  intros Hr.
  eapply (run_call_rule (ajhandle O) ajon_fail ajon_ok any_msg (fun _ _ => True)
    (fun s _ s' => aj_self s' = aj_self s) (fun _ _ _ => True)); [..|exact I|apply call_all_any|exact Hr].
  - done.
  - intros; congruence.
  - intros b0 s0 a m s0' sb _ _ Hh. split; [done|]. split; [|done].
    destruct m as [m|e m]; cbn [ajhandle] in Hh.
    + destruct (handle _ _ _ _ _) as [[? ?]|]; [|discriminate]. by injection Hh as <- <-.
    + destruct (negb _); [|discriminate].
      destruct (v_handle _ _ _ _ _) as [[v' [|y ys]]|]; try discriminate.
      * by injection Hh as <- <-.
      * destruct y; try (by injection Hh as <- <-).
        destruct (handle _ _ _ _ _) as [[? ?]|]; [|discriminate]. by injection Hh as <- <-.
  - intros b0 s0 sb sbs s0' _ _ Hh. split; [done|]. split; [|done].
    destruct sb; simpl in Hh; [|discriminate].
    destruct (on_fail _ _ _); [|discriminate]. by injection Hh as <-.
  - intros b0 s0 sb sbs l0 s1 d s0' _ _ _ _ Hh. split; [done|]. split; [|done].
    destruct sb as [y|y]; cbn [ajon_ok] in Hh; [|by injection Hh as <-].
    destruct (on_ok _ _ _ _); [|discriminate].
    destruct y; try (by injection Hh as <-).
    destruct (_ =? _)%N; [|by injection Hh as <-].
    destruct (v_handle _ _ _ _ _) as [[? ?]|]; [|discriminate]. by injection Hh as <-.
Qed.
Lemma self_calls O b cs : forall s s' l,
  run_calls (ajhandle O) ajon_fail ajon_ok b s cs = (s', l) -> aj_self s' = aj_self s.
Proof.
  induction cs as [|c cs IH]; simpl; intros s s' l H; [by injection H as <- <-|].
  destruct (ajcall O b s c) as [[s1 l1]|] eqn:E; [|by eapply IH].
  destruct (run_calls (ajhandle O) ajon_fail ajon_ok b s1 cs) as [s2 l2] eqn:E2.
  injection H as <- <-. rewrite (IH _ _ _ E2). by eapply self_call.
Qed.
(** The vetoer vetoes the open proposal 1: the module refuses the completion hook,
    whatever happens meanwhile, and is removed; then anyone may propose. *)
Lemma ex_veto_removes :
  let j := ast ex_cfg_veto h_fwd in
  ajreached ex_O (at_ 20) j (alg ex_cfg_veto h_fwd) /\
  s_policy (aj_s j) = Module 20 /\ aj_self j = 20%N /\ v_by_prop (aj_v j) !! 1 = Some 11 /\
  is_ok (ajcall ex_O (at_ 20) j (Call 8 (AJSingle (Veto 1)) [None])) = true /\
  forall outs j' l', ajcall ex_O (at_ 20) j (Call 8 (AJSingle (Veto 1)) outs) = Ok (j', l') ->
    s_policy (aj_s j') = Anyone /\ is_permitted (s_policy (aj_s j')) 777 = true.
Proof.
  intros j. split; [apply ex_ajreached; ex_side|].
  split; [vm_compute; reflexivity|]. split; [vm_compute; reflexivity|].
  split; [vm_compute; reflexivity|]. split; [vm_compute; reflexivity|].
  intros outs j' l' H. rewrite run_call_unfold in H.
  destruct (ajhandle ex_O j (at_ 20) 8 (AJSingle (Veto 1))) as [[j1 subs]|] eqn:E; [|discriminate].
  vm_compute in E. injection E as E1 E2.
  set (x := AFromSingle (SCompleted 20 1 Vetoed)).
  assert (subs = [x]) as -> by (symmetry; exact E2).
  assert (forall j2 d j3, aj_self j2 = 20%N -> ajon_ok j2 (at_ 20) x d <> Ok j3) as Hbad.
  { intros j2 d j3 Hs Hk. unfold x in Hk. simpl in Hk. rewrite Hs in Hk. simpl in Hk.
    unfold v_completed in Hk. destruct (_ =? _)%N; [|discriminate].
    by destruct (v_by_prop (aj_v j2) !! 1). }
  assert (aj_self j1 = 20%N) as Hs1 by (by rewrite <- E1).
  destruct outs as [|[[d inner]|] outs].
  - cbn [run_subs run_quiet] in H. destruct (ajon_ok j1 (at_ 20) x 0) eqn:Ek; [|discriminate].
    by apply Hbad in Ek.
  - cbn [run_subs] in H. destruct (run_calls _ _ _ _ _ inner) as [j2 l2] eqn:Ec.
    assert (aj_self j2 = 20%N) as Hs2
      by (by rewrite (self_calls _ _ _ _ _ _ Ec)).
    destruct (ajon_ok j2 (at_ 20) x d) eqn:Ek; [|discriminate]. by apply Hbad in Ek.
  - cbn [run_subs] in H. destruct (ajon_fail j1 (at_ 20) x) as [j2|] eqn:Ef; [|discriminate].
    assert (run_subs (ajhandle ex_O) ajon_fail ajon_ok (at_ 20) j2 [] outs = Ok (j2, [])) as Hn
      by (by destruct outs as [|[[]|]]).
    rewrite Hn in H. injection H as <- _. rewrite <- E1 in Ef. vm_compute in Ef.
    injection Ef as <-. split; reflexivity.
Qed.
Lemma c35_refuted :
  exists O b j l id aid vetoer,
    ajreached O b j l /\ s_policy (aj_s j) = Module (aj_self j) /\
    v_by_prop (aj_v j) !! id = Some aid /\
    is_ok (ajcall O b j (Call vetoer (AJSingle (Veto id)) [None])) = true /\
    forall outs j' l', ajcall O b j (Call vetoer (AJSingle (Veto id)) outs) = Ok (j', l') ->
      s_policy (aj_s j') = Anyone /\ is_permitted (s_policy (aj_s j')) 777 = true.
Proof.
  destruct ex_veto_removes as (A & B & C & D & E & F).
  eexists _, _, _, _, 1, 11, 8%N. split; [exact A|]. split; [by rewrite C, B|].
  split; [exact D|]. split; [exact E|exact F].
Qed.
