(** Concrete joint histories of a multiple-choice module and its pre-propose module. *)
From Verif Require Import Base BaseProofs Exec ExecProofs VotingModel VotingSpec
  HooksModel PreModel PreSpec.
From Verif Require MultExamples.
From Verif Require Import MultModel MultSpec PreMultModel PreMultSpec.

Definition ex_O := MultExamples.ex_O.
Definition at_ := MultExamples.at_.
(** Quorum 20%, no minimum period; failures are caught. *)
Definition ex_cfg : config :=
  Config (Percent (2 * 10 ^ 17)) (DHeight 100) None true false 9 true None.
Definition s_start : state := State ex_cfg 0 ∅ ∅ Anyone [] [].

(** The proposal module is 30, the pre-propose module 20, the DAO 9. *)
Definition pol : submission := SSpecific true [5%N] [3%N].
Definition dep_cw20 (r : refund) : deposit := Deposit (Cw20 70) 100 r.
Definition dep_native : deposit := Deposit (Native 4) 25 Always.
Definition start (d : deposit) : mjstate :=
  MJState 20 s_start (PState Plain 30 9 (Some d) pol ∅ [] 6 ∅ ∅ ∅ 0) [] [].
Definition run (d : deposit) (h : list (block * call mjmsg)) := mjrun ex_O (start d) h.
Definition st d h : mjstate := fst (run d h).
Definition lg d h : mjlog := snd (run d h).

Lemma ex_mjreached d h b :
  pre_instantiate Plain 30 9 (Some d) pol 6 = Ok (mj_q (start d)) ->
  hist_ok (at_ 0) h -> block_le (hist_end (at_ 0) h) b ->
  mjreached ex_O b (st d h) (lg d h).
Proof.
  intros Hq Hh Hb.
  exists (at_ 0), s_start, [], 20%N, 30%N, (Some d), pol, 6%N, (mj_q (start d)), h.
  split; [exists (at_ 0), s_start, []; split; [done|]; split; [done|]; split; [done|];
          apply block_le_refl|].
  split; [done|]. split; [done|]. split; [|done]. apply surjective_pairing.
Qed.
Lemma ex_mjlater d h h' b b' :
  hist_ok b h' -> block_le (hist_end b h') b' ->
  mjlater ex_O b (st d h) b' (fst (mjrun ex_O (st d h) h')) (snd (mjrun ex_O (st d h) h')).
Proof.
  intros Hh Hb. exists h'. split; [done|]. split; [|done]. apply surjective_pairing.
Qed.
Ltac ex_side :=
  repeat match goal with
  | |- _ /\ _ => split
  | _ => progress (simpl; unfold block_le)
  | |- True => exact I
  | _ => reflexivity
  | _ => vm_compute; discriminate
  end.
Ltac ex_reach := first [apply ex_mjreached|apply ex_mjlater]; ex_side.

Definition ex_pm (os : list (list Z)) : propose_msg := ProposeMsg os None None true true.
Definition env (f : list (N * Z)) (p : Z) : penv := PEnv f p 0 0.
Definition qm (a : addr) (m : msg) : call mjmsg := Call a (MMult m) [].
Definition qp (a : addr) (e : penv) (m : pmsg) : call mjmsg := Call a (MPre e (MOther m)) [].
Definition qc (a : addr) (e : penv) (os : list (list Z)) : call mjmsg :=
  Call a (MPre e (MPropose (ex_pm os))) [].

(** The DAO installs the module. *)
Definition install : block * call mjmsg :=
  (at_ 5, Call 9 (MMult (UpdatePreProposeInfo (ModuleMayPropose 1))) [Some (20%N, [])]).
(** Member 1 and the allowlisted 5 submit; a transfer that fails; member 3 is
    denied; 7 has no power; one option is too few; proposing directly is refused. *)
Definition h_two : list (block * call mjmsg) :=
  [install; (at_ 10, qc 1 (env [] 40) [[7; 8]; []; [9]]);
   (at_ 11, qc 5 (env [] 0) [[]; [6]]);
   (at_ 11, Call 2 (MPre (env [] 35) (MPropose (ex_pm [[1]; [2]]))) [None]);
   (at_ 11, qc 3 (env [] 25) [[2]; [3]]);
   (at_ 11, qc 7 (env [] 0) [[3]; [4]]);
   (at_ 11, qc 1 (env [] 40) [[3]]);
   (at_ 11, qm 1 (Propose (ex_pm [[4]; [5]])))].
(** Option 0 of proposal 1 wins and is executed; "none of the above" wins
    proposal 2, which is closed; the DAO takes out what it is left with. *)
Definition h_done := h_two ++
  [(at_ 12, qm 1 (CastVote 1 0 None)); (at_ 12, qm 2 (CastVote 1 0 None));
   (at_ 13, qm 1 (CastVote 2 2 None)); (at_ 13, qm 2 (CastVote 2 2 None));
   (at_ 20, qm 1 (Execute 1)); (at_ 21, qm 4 (Close 2));
   (at_ 22, Call 9 (MPre (PEnv [] 0 7 0) (MOther (PWithdraw None))) [])].
(** Meanwhile the DAO changes the deposit and the policy. *)
Definition h_changed := h_two ++
  [(at_ 15, qp 9 (env [] 0) (PUpdateConfig (Some dep_native) None));
   (at_ 16, qp 9 (env [] 0) (PUpdatePolicy (Some [7%N]) (Some [3%N]) None (Some [2%N; 5%N]) None));
   (at_ 17, qc 3 (env [(4%N, 25)] 25) [[2]; [3]]);
   (at_ 17, qc 3 (env [(4%N, 24)] 25) [[2]; [3]])].
