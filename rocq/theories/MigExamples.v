(** Migrations of the single-choice module: concrete cases. *)
From Verif Require Import Base BaseProofs Exec ExecProofs VotingModel VotingSpec HooksModel
  SingleModel SingleSpec MigModel MigSpec.

(** Two members hold 60 and 40. *)
Definition xorc : oracle :=
  Oracle (fun _ a _ => if (a =? 1)%N then 60 else if (a =? 2)%N then 40 else 0) (fun _ _ => 100).
Definition xvcfg : vconfig :=
  VConfig (VThresholdQuorum VMajority (VPercent 200000000000000000)) (VHeight 50) None true false 10%N.
Definition xvprop (st : vstatus) (v : vvotes) (dep : option Z) : vproposal :=
  VProposal 1 5 None (VAtHeight 55) (VThresholdQuorum VMajority (VPercent 200000000000000000)) 100
    [7] st v false dep.
(** Proposal 1 has passed, 2 is executed, 3 is closed, 4 is open. *)
Definition xvprops : gmap Z vproposal :=
  list_to_map [(1, xvprop VOpen (VVotes 60 0 0) None); (2, xvprop VExecuted (VVotes 60 40 0) (Some 5));
    (3, xvprop VClosed (VVotes 0 60 0) (Some 5)); (4, xvprop VOpen (VVotes 0 40 0) (Some 0))].
Definition xballots : gmap (Z * addr) ballot :=
  list_to_map [((1, 1%N), Ballot 60 Yes None); ((2, 1%N), Ballot 60 Yes None);
    ((2, 2%N), Ballot 40 No None); ((3, 1%N), Ballot 60 No None); ((4, 2%N), Ballot 40 No None)].
Definition xold : store :=
  Store 10 1 (Some xvcfg) xvprops None None 4 ∅ xballots [] [].

Lemma same_config_v2 c c' : same_config c c' ->
  c' = cfg_to_v2 c (c_close_on_fail c') (c_veto c').
Proof.
  assert (forall v p, pct_same v p -> p = pct_to_v2 v) as Hp.
  { intros [|] [|]; simpl; intros E; try done; by rewrite E. }
  assert (forall v p, dur_same v p -> p = dur_to_v2 v) as Hd.
  { intros [|] [|]; simpl; intros E; try done; by rewrite E. }
  assert (forall v p, thr_same v p -> p = thr_to_v2 v) as Ht.
  { intros [] []; simpl; try done; [|intros [E1 E2]|by intros ->].
    - intros E. by rewrite (Hp _ _ E).
    - by rewrite (Hp _ _ E1), (Hp _ _ E2). }
  intros [A B C D E F]. destruct c'; simpl in *. unfold cfg_to_v2.
  rewrite <- (Ht _ _ A), <- (Hd _ _ B), <- D, <- E, <- F. f_equal.
  destruct (vg_min c), c_min; simpl in *; try done. by rewrite (Hd _ _ C).
Qed.
Example xold_left : v1_left (Block 20 0) xold.
Proof.
  assert (forall t, thr_same (VThresholdQuorum VMajority (VPercent 200000000000000000)) t ->
    validate_threshold t = Ok tt) as Hthr.
  { intros [|[|] [|]|]; simpl; try tauto. by intros [_ <-]. }
  constructor.
  - exists xvcfg. split; [done|]. intros c' Hs Hv.
    rewrite (same_config_v2 _ _ Hs), Hv. by vm_compute.
  - done.
  - intros id. change (t_count xold) with 4. split.
    + intros [v Hv]. apply elem_of_list_to_map_2 in Hv.
      repeat (apply elem_of_cons in Hv as [Hv|Hv]; [injection Hv as -> _; lia|]).
      by apply elem_of_nil in Hv.
    + intros H. assert (id = 1 \/ id = 2 \/ id = 3 \/ id = 4) as [->|[->|[->| ->]]] by lia;
        eexists; vm_compute; reflexivity.
  - intros id v Hv. apply elem_of_list_to_map_2 in Hv.
    repeat (apply elem_of_cons in Hv as [Hv|Hv];
      [injection Hv as _ ->; constructor; [done|done|done|done|exact Hthr]|]).
    by apply elem_of_nil in Hv.
  - intros id a bl Hb. apply elem_of_list_to_map_2 in Hb.
    repeat (apply elem_of_cons in Hb as [Hb|Hb];
      [injection Hb as -> _ _; eexists; vm_compute; reflexivity|]).
    by apply elem_of_nil in Hb.
  - done.
Qed.

(** The DAO migrates to version 2; proposal 1 is executed; the other member votes yes on
    proposal 4; the DAO changes the configuration. *)
Definition xcfg : config :=
  Config (AbsolutePercentage (Percent 700000000000000000)) (DHeight 50) None true false 10 true None.
Definition xhist : list (block * call tmsg) :=
  [(Block 20 0, Call 10 (TMigrate 2 (FromV1 true AnyoneMayPropose None)) []);
   (Block 21 0, Call 1 (TCall (Execute 1)) []);
   (Block 22 0, Call 1 (TCall (CastVote 4 Yes None)) []);
   (Block 23 0, Call 10 (TCall (UpdateConfig xcfg)) [])].
Definition xnow : store := (trun xorc xold xhist).1.
(** A compatible upgrade, an attempt to execute proposal 1 again, an execution of 4. *)
Definition xhist2 : list (block * call tmsg) :=
  [(Block 24 0, Call 10 (TMigrate 3 FromCompatible) []);
   (Block 25 0, Call 1 (TCall (Execute 1)) []);
   (Block 26 0, Call 1 (TCall (Execute 4)) [])].
(** An upgrade that reads version one's data again, and proposal 1 once more. *)
Definition xhist3 : list (block * call tmsg) :=
  [(Block 24 0, Call 10 (TMigrate 3 (FromV1 true AnyoneMayPropose None)) []);
   (Block 25 0, Call 1 (TCall (Execute 1)) [])].

Example xnow_case :
  map (t_status xnow) [1; 2; 3; 4] = [Some Executed; Some Executed; Some Closed; Some Passed] /\
  t_cfg xnow = Some xcfg /\ t_version xnow = 2%N /\
  map (fun id => t_dispatches id (trun xorc xold xhist).2) [1; 2; 3; 4] = [1; 0; 0; 0].
Proof. vm_compute. tauto. Qed.
Example xnow_upgraded : upgraded xorc (Block 23 0) xnow (trun xorc xold xhist).2.
Proof.
  exists (Block 20 0), xold, (Block 20 0), 10%N, 2%N, true, AnyoneMayPropose, None, [], (tail xhist).
  split; [exact xold_left|]. split; [vm_compute; repeat split; discriminate|].
  split; [exact I|]. split; [by repeat constructor|].
  split; [|vm_compute; split; discriminate]. unfold xnow. change
    ((Block 20 0, Call 10%N (TMigrate 2 (FromV1 true AnyoneMayPropose None)) []) :: tail xhist) with xhist.
  by destruct (trun xorc xold xhist).
Qed.
Example xnow_later :
  t_later xorc no_v1 (Block 23 0) xnow (Block 26 0) (trun xorc xnow xhist2).1 (trun xorc xnow xhist2).2.
Proof.
  exists xhist2. split; [vm_compute; repeat split; discriminate|]. split; [by repeat constructor|].
  split; [apply surjective_pairing|vm_compute; split; discriminate].
Qed.
Example xlater_case :
  map (t_status (trun xorc xnow xhist2).1) [1; 2; 3; 4] =
    [Some Executed; Some Executed; Some Closed; Some Executed] /\
  t_version (trun xorc xnow xhist2).1 = 3%N /\
  map (fun id => t_dispatches id (trun xorc xnow xhist2).2) [1; 2; 3; 4] = [0; 0; 0; 1].
Proof. vm_compute. tauto. Qed.

(** ** A second reading *)
Definition xall : list (block * call tmsg) := xhist ++ xhist3.
Example xall_grown : grown xorc (Block 25 0) (trun xorc xold xall).1 (trun xorc xold xall).2.
Proof.
  exists (Block 20 0), xold, xall. split; [exact xold_left|].
  split; [vm_compute; repeat split; discriminate|].
  split; [apply surjective_pairing|vm_compute; split; discriminate].
Qed.
Lemma twice_refuted : exists O b t l id,
  grown O b t l /\ t_dispatches id l = 2.
Proof.
  exists xorc, (Block 25 0), (trun xorc xold xall).1, (trun xorc xold xall).2, 1.
  split; [exact xall_grown|]. by vm_compute.
Qed.
Lemma undone_refuted : exists O b t l b' a v m t' subs id,
  grown O b t l /\ block_le b b' /\ t_handle O t b' a (TMigrate v m) = Ok (t', subs) /\
  t_status t id = Some Executed /\ t_status t' id = Some Open /\
  (forall c c', t_cfg t = Some c -> t_cfg t' = Some c' -> c_thr c' <> c_thr c).
Proof.
  exists xorc, (Block 23 0), xnow, (trun xorc xold xhist).2, (Block 24 0), 10%N, 3%N,
    (FromV1 true AnyoneMayPropose None).
  destruct (t_handle xorc xnow (Block 24 0) 10 (TMigrate 3 (FromV1 true AnyoneMayPropose None)))
    as [[t' subs]|] eqn:E.
  - exists t', subs, 1. split.
    { exists (Block 20 0), xold, xhist. split; [exact xold_left|].
      split; [vm_compute; repeat split; discriminate|].
      split; [apply surjective_pairing|vm_compute; split; discriminate]. }
    split; [vm_compute; split; discriminate|]. split; [reflexivity|].
    assert (t_status t' 1 = Some Open /\ option_map c_thr (t_cfg t') =
      Some (ThresholdQuorum Majority (Percent 200000000000000000))) as [E1 E2].
    { revert E. vm_compute. intros [= <- <-]. split; reflexivity. }
    split; [by vm_compute|]. split; [exact E1|].
    intros c c' Hc Hc'. rewrite Hc' in E2. injection E2 as E2.
    assert (option_map c_thr (t_cfg xnow) = Some (AbsolutePercentage (Percent 700000000000000000))) as E3
      by (vm_compute; reflexivity).
    rewrite Hc in E3. injection E3 as E3. rewrite E2, E3. discriminate.
  - exfalso. revert E. vm_compute. discriminate.
Qed.
