(** C96: a proposal module together with the voting modules on cw4 groups, role tokens and
    ONFTs. *)
From Verif Require Import Base BaseProofs Exec ExecProofs Plain HooksModel VotingModel StoreModel
  ActiveModel Compose JointModel JointSpec JointClaims JointExamples ElectSpec ElectProofs ElectClaims
  ElectExamples.
From Verif Require SingleModel SingleSpec MultModel MultSpec CondModel CondSpec
  GrpModel GrpSpec GrpExamples RolesModel RolesSpec RolesExamples OnftModel OnftSpec OnftExamples.

(** * C96 *)
Theorem C96_grp_single_tally d b s t l id p :
  single_on_grp d b s t l -> SingleModel.s_props s !! id = Some p ->
  (forall v, SingleSpec.tally_of p v = SingleSpec.ballot_total s id v) /\
  (forall a bl, SingleModel.s_ballots s !! (id, a) = Some bl ->
     SingleModel.bl_power bl = gpow t a (SingleModel.p_start p) /\ 0 < SingleModel.bl_power bl) /\
  SingleModel.p_total p = gtot t (SingleModel.p_start p) /\
  SingleSpec.tally_of p Yes + SingleSpec.tally_of p No + SingleSpec.tally_of p Abstain
    <= SingleModel.p_total p.
Proof. exact (c96_grp_single_tally d b s t l id p). Qed.
Print Assumptions C96_grp_single_tally.
Theorem C96_grp_single_electorate d b1 s1 t1 l1 b' b2 s2 t2 l2 id p :
  single_on_grp d b1 s1 t1 l1 -> block_le b1 b' -> single_on_grp_later d b' s1 t1 b2 s2 t2 l2 ->
  SingleModel.s_props s2 !! id = Some p ->
  height b1 < SingleModel.p_start p <= height b' ->
  SingleModel.p_total p = gheld_all t1 /\
  (forall a, gpow t2 a (SingleModel.p_start p) = gheld t1 a) /\
  forall a bl, SingleModel.s_ballots s2 !! (id, a) = Some bl ->
    SingleModel.bl_power bl = gheld t1 a.
Proof. exact (c96_grp_single_electorate d b1 s1 t1 l1 b' b2 s2 t2 l2 id p). Qed.
Print Assumptions C96_grp_single_electorate.
Theorem C96_grp_single_same d b s t l b' t' l' bx a m :
  single_on_grp d b s t l -> leads GrpModel.g_handle b t b' t' l' -> not_propose m ->
  SingleModel.handle (single_ask gpow gtot t') s bx a m = SingleModel.handle (single_ask gpow gtot t) s bx a m.
Proof. exact (c96_grp_single_same d b s t l b' t' l' bx a m). Qed.
Print Assumptions C96_grp_single_same.
Theorem C96_grp_single_rejected d b s t l id st b' s' t' l' :
  single_on_grp d b s t l -> single_on_grp_later d b s t b' s' t' l' ->
  SingleModel.query_status s b id = Ok st -> SingleSpec.rejected_like st ->
  exists st', SingleModel.query_status s' b' id = Ok st' /\ SingleSpec.rejected_like st'.
Proof. exact (c96_grp_single_rejected d b s t l id st b' s' t' l'). Qed.
Print Assumptions C96_grp_single_rejected.
(** At the end of block 9: 4, 3 and 3; in block 10 power is added before and taken from
    member 1 after the proposal is created. *)
Example C96_grp_single_case :
  single_on_grp 9 (GrpExamples.gb 9) sg_1.1.1 sg_1.1.2 sg_1.2 /\
  single_on_grp_later 9 (GrpExamples.gb 10) sg_1.1.1 sg_1.1.2 (GrpExamples.gb 20) sg_2.1.1 sg_2.1.2 sg_2.2 /\
  gheld_all sg_1.1.2 = 10 /\ gheld sg_1.1.2 1 = 4 /\ gheld sg_2.1.2 1 = 0 /\
  gheld_all sg_2.1.2 = 7 /\
  single_on_grp 9 (GrpExamples.gb 20) sg_all.1.1 sg_all.1.2 sg_all.2 /\
  single_on_grp_later 9 (GrpExamples.gb 20) sg_all.1.1 sg_all.1.2 (GrpExamples.gb 30) sg_3.1.1 sg_3.1.2 sg_3.2 /\
  sg_all.1 = sg_2.1 /\
  (exists p, SingleModel.s_props sg_2.1.1 !! 1 = Some p /\ SingleModel.p_start p = 10 /\
     SingleModel.p_total p = 10) /\
  (exists bl, SingleModel.s_ballots sg_2.1.1 !! (1, 1%N) = Some bl /\ SingleModel.bl_power bl = 4) /\
  SingleModel.s_ballots sg_2.1.1 !! (1, 4%N) = None /\
  SingleModel.query_status sg_all.1.1 (GrpExamples.gb 20) 1 = Ok Rejected.
Proof.
  split; [exact sg_reached|]. split; [exact sg_later|]. do 4 (split; [vm_compute; reflexivity|]).
  split; [exact sg_reached_all|]. split; [exact sg_later_all|]. split; [vm_compute; reflexivity|].
  split; [eexists; split; [vm_compute; reflexivity|split; vm_compute; reflexivity]|].
  split; [eexists; split; vm_compute; reflexivity|]. split; vm_compute; reflexivity.
Qed.

Theorem C96_grp_mult_tally d b s t l id p :
  mult_on_grp d b s t l -> MultModel.s_props s !! id = Some p ->
  (forall v, MultSpec.tally_of p v = MultSpec.ballot_total s id v) /\
  (forall a bl, MultModel.s_ballots s !! (id, a) = Some bl ->
     MultModel.bl_power bl = gpow t a (MultModel.p_start p) /\ 0 < MultModel.bl_power bl) /\
  MultModel.p_total p = gtot t (MultModel.p_start p) /\
  MultSpec.wsum (MultModel.p_votes p) <= MultModel.p_total p.
Proof. exact (c96_grp_mult_tally d b s t l id p). Qed.
Print Assumptions C96_grp_mult_tally.
Theorem C96_grp_mult_electorate d b1 s1 t1 l1 b' b2 s2 t2 l2 id p :
  mult_on_grp d b1 s1 t1 l1 -> block_le b1 b' -> mult_on_grp_later d b' s1 t1 b2 s2 t2 l2 ->
  MultModel.s_props s2 !! id = Some p ->
  height b1 < MultModel.p_start p <= height b' ->
  MultModel.p_total p = gheld_all t1 /\
  (forall a, gpow t2 a (MultModel.p_start p) = gheld t1 a) /\
  forall a bl, MultModel.s_ballots s2 !! (id, a) = Some bl ->
    MultModel.bl_power bl = gheld t1 a.
Proof. exact (c96_grp_mult_electorate d b1 s1 t1 l1 b' b2 s2 t2 l2 id p). Qed.
Print Assumptions C96_grp_mult_electorate.
Theorem C96_grp_mult_same d b s t l b' t' l' bx a m :
  mult_on_grp d b s t l -> leads GrpModel.g_handle b t b' t' l' -> mnot_propose m ->
  MultModel.handle (mult_ask gpow gtot t') s bx a m = MultModel.handle (mult_ask gpow gtot t) s bx a m.
Proof. exact (c96_grp_mult_same d b s t l b' t' l' bx a m). Qed.
Print Assumptions C96_grp_mult_same.
Theorem C96_grp_mult_final d b s t l id p st b' s' t' l' :
  mult_on_grp d b s t l -> mult_on_grp_later d b s t b' s' t' l' ->
  MultModel.s_props s !! id = Some p -> MultModel.query_status s b id = Ok st ->
  (MultSpec.passed_like st ->
   exists st' p' i, MultModel.query_status s' b' id = Ok st' /\
     (MultSpec.passed_like st' \/ st' = Vetoed) /\ MultModel.s_props s' !! id = Some p' /\
     MultSpec.chosen (MultModel.p_quorum p) (MultModel.p_total p) (MultModel.p_votes p) i /\
     MultSpec.chosen (MultModel.p_quorum p) (MultModel.p_total p) (MultModel.p_votes p') i) /\
  (MultSpec.rejected_like st ->
   exists st', MultModel.query_status s' b' id = Ok st' /\ MultSpec.rejected_like st').
Proof. exact (c96_grp_mult_final d b s t l id p st b' s' t' l'). Qed.
Print Assumptions C96_grp_mult_final.
(** At the end of block 9: 4, 3 and 3; in block 10 power is added before and taken from
    member 1 after the proposal is created. *)
Example C96_grp_mult_case :
  mult_on_grp 9 (GrpExamples.gb 9) mg_1.1.1 mg_1.1.2 mg_1.2 /\
  mult_on_grp_later 9 (GrpExamples.gb 10) mg_1.1.1 mg_1.1.2 (GrpExamples.gb 20) mg_2.1.1 mg_2.1.2 mg_2.2 /\
  gheld_all mg_1.1.2 = 10 /\ gheld mg_1.1.2 1 = 4 /\ gheld mg_2.1.2 1 = 0 /\
  gheld_all mg_2.1.2 = 7 /\
  mult_on_grp 9 (GrpExamples.gb 20) mg_all.1.1 mg_all.1.2 mg_all.2 /\
  mult_on_grp_later 9 (GrpExamples.gb 20) mg_all.1.1 mg_all.1.2 (GrpExamples.gb 30) mg_3.1.1 mg_3.1.2 mg_3.2 /\
  mg_all.1 = mg_2.1 /\
  (exists p, MultModel.s_props mg_2.1.1 !! 1 = Some p /\ MultModel.p_start p = 10 /\
     MultModel.p_total p = 10) /\
  (exists bl, MultModel.s_ballots mg_2.1.1 !! (1, 1%N) = Some bl /\ MultModel.bl_power bl = 4) /\
  MultModel.s_ballots mg_2.1.1 !! (1, 4%N) = None /\
  MultModel.query_status mg_all.1.1 (GrpExamples.gb 20) 1 = Ok Passed.
Proof.
  split; [exact mg_reached|]. split; [exact mg_later|]. do 4 (split; [vm_compute; reflexivity|]).
  split; [exact mg_reached_all|]. split; [exact mg_later_all|]. split; [vm_compute; reflexivity|].
  split; [eexists; split; [vm_compute; reflexivity|split; vm_compute; reflexivity]|].
  split; [eexists; split; vm_compute; reflexivity|]. split; vm_compute; reflexivity.
Qed.

Theorem C96_grp_cond_tally b s t l id ta p :
  cond_on_grp b s t l -> CondModel.s_tallies s !! id = Some ta -> CondModel.s_props s !! id = Some p ->
  CondModel.p_total p = gtot t (CondModel.t_start ta) /\
  msum (fun (k : Z * addr) _ => if k.1 =? id then gpow t k.2 (CondModel.t_start ta) else 0)
    (CondModel.s_votes s) + CondModel.t_outstanding ta = CondModel.p_total p /\
  0 <= CondModel.t_outstanding ta /\
  forall x y, 0 <= x < CondModel.m_n (CondModel.t_m ta) -> 0 <= y < CondModel.m_n (CondModel.t_m ta) ->
    x <> y -> exists c, CondModel.get (CondModel.t_m ta) x y = Ok c /\
      CondSpec.val c =
      msum (fun (k : Z * addr) v => if k.1 =? id then gpow t k.2 (CondModel.t_start ta) * CondSpec.sg v x y else 0)
        (CondModel.s_votes s).
Proof. exact (c96_grp_cond_tally b s t l id ta p). Qed.
Print Assumptions C96_grp_cond_tally.
Theorem C96_grp_cond_electorate b1 s1 t1 l1 b' b2 s2 t2 l2 id ta p :
  cond_on_grp b1 s1 t1 l1 -> block_le b1 b' -> cond_on_grp_later b' s1 t1 b2 s2 t2 l2 ->
  CondModel.s_tallies s2 !! id = Some ta -> CondModel.s_props s2 !! id = Some p ->
  height b1 < CondModel.t_start ta <= height b' ->
  CondModel.p_total p = gheld_all t1 /\
  forall x y, 0 <= x < CondModel.m_n (CondModel.t_m ta) -> 0 <= y < CondModel.m_n (CondModel.t_m ta) ->
    x <> y -> exists c, CondModel.get (CondModel.t_m ta) x y = Ok c /\
      CondSpec.val c =
      msum (fun (k : Z * addr) v => if k.1 =? id then gheld t1 k.2 * CondSpec.sg v x y else 0)
        (CondModel.s_votes s2).
Proof. exact (c96_grp_cond_electorate b1 s1 t1 l1 b' b2 s2 t2 l2 id ta p). Qed.
Print Assumptions C96_grp_cond_electorate.
Theorem C96_grp_cond_same b s t l b' t' l' bx a m :
  cond_on_grp b s t l -> leads GrpModel.g_handle b t b' t' l' -> cnot_propose m ->
  CondModel.handle (cond_ask gpow gtot t') s bx a m = CondModel.handle (cond_ask gpow gtot t) s bx a m.
Proof. exact (c96_grp_cond_same b s t l b' t' l' bx a m). Qed.
Print Assumptions C96_grp_cond_same.
(** At the end of block 9: 4, 3 and 3; in block 10 power is added before and taken from
    member 1 after the proposal is created. *)
Example C96_grp_cond_case :
  cond_on_grp (GrpExamples.gb 9) cg_1.1.1 cg_1.1.2 cg_1.2 /\
  cond_on_grp_later (GrpExamples.gb 10) cg_1.1.1 cg_1.1.2 (GrpExamples.gb 20) cg_2.1.1 cg_2.1.2 cg_2.2 /\
  gheld_all cg_1.1.2 = 10 /\ gheld cg_1.1.2 1 = 4 /\ gheld cg_2.1.2 1 = 0 /\
  gheld_all cg_2.1.2 = 7 /\
  cond_on_grp (GrpExamples.gb 20) cg_all.1.1 cg_all.1.2 cg_all.2 /\
  cond_on_grp_later (GrpExamples.gb 20) cg_all.1.1 cg_all.1.2 (GrpExamples.gb 30) cg_3.1.1 cg_3.1.2 cg_3.2 /\
  cg_all.1 = cg_2.1 /\
  (exists ta p, CondModel.s_tallies cg_2.1.1 !! 1 = Some ta /\ CondModel.s_props cg_2.1.1 !! 1 = Some p /\
     CondModel.t_start ta = 10 /\ CondModel.p_total p = 10 /\ CondModel.t_outstanding ta = 0 /\
     CondModel.get (CondModel.t_m ta) 1 0 = Ok (CondModel.Positive 2)).
Proof.
  split; [exact cg_reached|]. split; [exact cg_later|]. do 4 (split; [vm_compute; reflexivity|]).
  split; [exact cg_reached_all|]. split; [exact cg_later_all|]. split; [vm_compute; reflexivity|].
  do 2 eexists. split; [vm_compute; reflexivity|]. split; [vm_compute; reflexivity|].
  repeat split; vm_compute; reflexivity.
Qed.

Theorem C96_role_single_tally d b s t l id p :
  single_on_role d b s t l -> SingleModel.s_props s !! id = Some p ->
  (forall v, SingleSpec.tally_of p v = SingleSpec.ballot_total s id v) /\
  (forall a bl, SingleModel.s_ballots s !! (id, a) = Some bl ->
     SingleModel.bl_power bl = rpow t a (SingleModel.p_start p) /\ 0 < SingleModel.bl_power bl) /\
  SingleModel.p_total p = rtot t (SingleModel.p_start p) /\
  SingleSpec.tally_of p Yes + SingleSpec.tally_of p No + SingleSpec.tally_of p Abstain
    <= SingleModel.p_total p.
Proof. exact (c96_role_single_tally d b s t l id p). Qed.
Print Assumptions C96_role_single_tally.
Theorem C96_role_single_electorate d b1 s1 t1 l1 b' b2 s2 t2 l2 id p :
  single_on_role d b1 s1 t1 l1 -> block_le b1 b' -> single_on_role_later d b' s1 t1 b2 s2 t2 l2 ->
  SingleModel.s_props s2 !! id = Some p ->
  height b1 < SingleModel.p_start p <= height b' ->
  SingleModel.p_total p = rheld_all t1 /\
  (forall a, rpow t2 a (SingleModel.p_start p) = rheld t1 a) /\
  forall a bl, SingleModel.s_ballots s2 !! (id, a) = Some bl ->
    SingleModel.bl_power bl = rheld t1 a.
Proof. exact (c96_role_single_electorate d b1 s1 t1 l1 b' b2 s2 t2 l2 id p). Qed.
Print Assumptions C96_role_single_electorate.
Theorem C96_role_single_same d b s t l b' t' l' bx a m :
  single_on_role d b s t l -> leads RolesModel.r_handle b t b' t' l' -> not_propose m ->
  SingleModel.handle (single_ask rpow rtot t') s bx a m = SingleModel.handle (single_ask rpow rtot t) s bx a m.
Proof. exact (c96_role_single_same d b s t l b' t' l' bx a m). Qed.
Print Assumptions C96_role_single_same.
Theorem C96_role_single_rejected d b s t l id st b' s' t' l' :
  single_on_role d b s t l -> single_on_role_later d b s t b' s' t' l' ->
  SingleModel.query_status s b id = Ok st -> SingleSpec.rejected_like st ->
  exists st', SingleModel.query_status s' b' id = Ok st' /\ SingleSpec.rejected_like st'.
Proof. exact (c96_role_single_rejected d b s t l id st b' s' t' l'). Qed.
Print Assumptions C96_role_single_rejected.
(** At the end of block 9: 4, 3 and 3; in block 10 power is added before and taken from
    member 1 after the proposal is created. *)
Example C96_role_single_case :
  single_on_role 9 (RolesExamples.rb 9) sr_1.1.1 sr_1.1.2 sr_1.2 /\
  single_on_role_later 9 (RolesExamples.rb 10) sr_1.1.1 sr_1.1.2 (RolesExamples.rb 20) sr_2.1.1 sr_2.1.2 sr_2.2 /\
  rheld_all sr_1.1.2 = 10 /\ rheld sr_1.1.2 1 = 4 /\ rheld sr_2.1.2 1 = 0 /\
  rheld_all sr_2.1.2 = 7 /\
  single_on_role 9 (RolesExamples.rb 20) sr_all.1.1 sr_all.1.2 sr_all.2 /\
  single_on_role_later 9 (RolesExamples.rb 20) sr_all.1.1 sr_all.1.2 (RolesExamples.rb 30) sr_3.1.1 sr_3.1.2 sr_3.2 /\
  sr_all.1 = sr_2.1 /\
  (exists p, SingleModel.s_props sr_2.1.1 !! 1 = Some p /\ SingleModel.p_start p = 10 /\
     SingleModel.p_total p = 10) /\
  (exists bl, SingleModel.s_ballots sr_2.1.1 !! (1, 1%N) = Some bl /\ SingleModel.bl_power bl = 4) /\
  SingleModel.s_ballots sr_2.1.1 !! (1, 4%N) = None /\
  SingleModel.query_status sr_all.1.1 (RolesExamples.rb 20) 1 = Ok Rejected.
Proof.
  split; [exact sr_reached|]. split; [exact sr_later|]. do 4 (split; [vm_compute; reflexivity|]).
  split; [exact sr_reached_all|]. split; [exact sr_later_all|]. split; [vm_compute; reflexivity|].
  split; [eexists; split; [vm_compute; reflexivity|split; vm_compute; reflexivity]|].
  split; [eexists; split; vm_compute; reflexivity|]. split; vm_compute; reflexivity.
Qed.

Theorem C96_role_mult_tally d b s t l id p :
  mult_on_role d b s t l -> MultModel.s_props s !! id = Some p ->
  (forall v, MultSpec.tally_of p v = MultSpec.ballot_total s id v) /\
  (forall a bl, MultModel.s_ballots s !! (id, a) = Some bl ->
     MultModel.bl_power bl = rpow t a (MultModel.p_start p) /\ 0 < MultModel.bl_power bl) /\
  MultModel.p_total p = rtot t (MultModel.p_start p) /\
  MultSpec.wsum (MultModel.p_votes p) <= MultModel.p_total p.
Proof. exact (c96_role_mult_tally d b s t l id p). Qed.
Print Assumptions C96_role_mult_tally.
Theorem C96_role_mult_electorate d b1 s1 t1 l1 b' b2 s2 t2 l2 id p :
  mult_on_role d b1 s1 t1 l1 -> block_le b1 b' -> mult_on_role_later d b' s1 t1 b2 s2 t2 l2 ->
  MultModel.s_props s2 !! id = Some p ->
  height b1 < MultModel.p_start p <= height b' ->
  MultModel.p_total p = rheld_all t1 /\
  (forall a, rpow t2 a (MultModel.p_start p) = rheld t1 a) /\
  forall a bl, MultModel.s_ballots s2 !! (id, a) = Some bl ->
    MultModel.bl_power bl = rheld t1 a.
Proof. exact (c96_role_mult_electorate d b1 s1 t1 l1 b' b2 s2 t2 l2 id p). Qed.
Print Assumptions C96_role_mult_electorate.
Theorem C96_role_mult_same d b s t l b' t' l' bx a m :
  mult_on_role d b s t l -> leads RolesModel.r_handle b t b' t' l' -> mnot_propose m ->
  MultModel.handle (mult_ask rpow rtot t') s bx a m = MultModel.handle (mult_ask rpow rtot t) s bx a m.
Proof. exact (c96_role_mult_same d b s t l b' t' l' bx a m). Qed.
Print Assumptions C96_role_mult_same.
Theorem C96_role_mult_final d b s t l id p st b' s' t' l' :
  mult_on_role d b s t l -> mult_on_role_later d b s t b' s' t' l' ->
  MultModel.s_props s !! id = Some p -> MultModel.query_status s b id = Ok st ->
  (MultSpec.passed_like st ->
   exists st' p' i, MultModel.query_status s' b' id = Ok st' /\
     (MultSpec.passed_like st' \/ st' = Vetoed) /\ MultModel.s_props s' !! id = Some p' /\
     MultSpec.chosen (MultModel.p_quorum p) (MultModel.p_total p) (MultModel.p_votes p) i /\
     MultSpec.chosen (MultModel.p_quorum p) (MultModel.p_total p) (MultModel.p_votes p') i) /\
  (MultSpec.rejected_like st ->
   exists st', MultModel.query_status s' b' id = Ok st' /\ MultSpec.rejected_like st').
Proof. exact (c96_role_mult_final d b s t l id p st b' s' t' l'). Qed.
Print Assumptions C96_role_mult_final.
(** At the end of block 9: 4, 3 and 3; in block 10 power is added before and taken from
    member 1 after the proposal is created. *)
Example C96_role_mult_case :
  mult_on_role 9 (RolesExamples.rb 9) mr_1.1.1 mr_1.1.2 mr_1.2 /\
  mult_on_role_later 9 (RolesExamples.rb 10) mr_1.1.1 mr_1.1.2 (RolesExamples.rb 20) mr_2.1.1 mr_2.1.2 mr_2.2 /\
  rheld_all mr_1.1.2 = 10 /\ rheld mr_1.1.2 1 = 4 /\ rheld mr_2.1.2 1 = 0 /\
  rheld_all mr_2.1.2 = 7 /\
  mult_on_role 9 (RolesExamples.rb 20) mr_all.1.1 mr_all.1.2 mr_all.2 /\
  mult_on_role_later 9 (RolesExamples.rb 20) mr_all.1.1 mr_all.1.2 (RolesExamples.rb 30) mr_3.1.1 mr_3.1.2 mr_3.2 /\
  mr_all.1 = mr_2.1 /\
  (exists p, MultModel.s_props mr_2.1.1 !! 1 = Some p /\ MultModel.p_start p = 10 /\
     MultModel.p_total p = 10) /\
  (exists bl, MultModel.s_ballots mr_2.1.1 !! (1, 1%N) = Some bl /\ MultModel.bl_power bl = 4) /\
  MultModel.s_ballots mr_2.1.1 !! (1, 4%N) = None /\
  MultModel.query_status mr_all.1.1 (RolesExamples.rb 20) 1 = Ok Passed.
Proof.
  split; [exact mr_reached|]. split; [exact mr_later|]. do 4 (split; [vm_compute; reflexivity|]).
  split; [exact mr_reached_all|]. split; [exact mr_later_all|]. split; [vm_compute; reflexivity|].
  split; [eexists; split; [vm_compute; reflexivity|split; vm_compute; reflexivity]|].
  split; [eexists; split; vm_compute; reflexivity|]. split; vm_compute; reflexivity.
Qed.

Theorem C96_role_cond_tally b s t l id ta p :
  cond_on_role b s t l -> CondModel.s_tallies s !! id = Some ta -> CondModel.s_props s !! id = Some p ->
  CondModel.p_total p = rtot t (CondModel.t_start ta) /\
  msum (fun (k : Z * addr) _ => if k.1 =? id then rpow t k.2 (CondModel.t_start ta) else 0)
    (CondModel.s_votes s) + CondModel.t_outstanding ta = CondModel.p_total p /\
  0 <= CondModel.t_outstanding ta /\
  forall x y, 0 <= x < CondModel.m_n (CondModel.t_m ta) -> 0 <= y < CondModel.m_n (CondModel.t_m ta) ->
    x <> y -> exists c, CondModel.get (CondModel.t_m ta) x y = Ok c /\
      CondSpec.val c =
      msum (fun (k : Z * addr) v => if k.1 =? id then rpow t k.2 (CondModel.t_start ta) * CondSpec.sg v x y else 0)
        (CondModel.s_votes s).
Proof. exact (c96_role_cond_tally b s t l id ta p). Qed.
Print Assumptions C96_role_cond_tally.
Theorem C96_role_cond_electorate b1 s1 t1 l1 b' b2 s2 t2 l2 id ta p :
  cond_on_role b1 s1 t1 l1 -> block_le b1 b' -> cond_on_role_later b' s1 t1 b2 s2 t2 l2 ->
  CondModel.s_tallies s2 !! id = Some ta -> CondModel.s_props s2 !! id = Some p ->
  height b1 < CondModel.t_start ta <= height b' ->
  CondModel.p_total p = rheld_all t1 /\
  forall x y, 0 <= x < CondModel.m_n (CondModel.t_m ta) -> 0 <= y < CondModel.m_n (CondModel.t_m ta) ->
    x <> y -> exists c, CondModel.get (CondModel.t_m ta) x y = Ok c /\
      CondSpec.val c =
      msum (fun (k : Z * addr) v => if k.1 =? id then rheld t1 k.2 * CondSpec.sg v x y else 0)
        (CondModel.s_votes s2).
Proof. exact (c96_role_cond_electorate b1 s1 t1 l1 b' b2 s2 t2 l2 id ta p). Qed.
Print Assumptions C96_role_cond_electorate.
Theorem C96_role_cond_same b s t l b' t' l' bx a m :
  cond_on_role b s t l -> leads RolesModel.r_handle b t b' t' l' -> cnot_propose m ->
  CondModel.handle (cond_ask rpow rtot t') s bx a m = CondModel.handle (cond_ask rpow rtot t) s bx a m.
Proof. exact (c96_role_cond_same b s t l b' t' l' bx a m). Qed.
Print Assumptions C96_role_cond_same.
(** At the end of block 9: 4, 3 and 3; in block 10 power is added before and taken from
    member 1 after the proposal is created. *)
Example C96_role_cond_case :
  cond_on_role (RolesExamples.rb 9) cr_1.1.1 cr_1.1.2 cr_1.2 /\
  cond_on_role_later (RolesExamples.rb 10) cr_1.1.1 cr_1.1.2 (RolesExamples.rb 20) cr_2.1.1 cr_2.1.2 cr_2.2 /\
  rheld_all cr_1.1.2 = 10 /\ rheld cr_1.1.2 1 = 4 /\ rheld cr_2.1.2 1 = 0 /\
  rheld_all cr_2.1.2 = 7 /\
  cond_on_role (RolesExamples.rb 20) cr_all.1.1 cr_all.1.2 cr_all.2 /\
  cond_on_role_later (RolesExamples.rb 20) cr_all.1.1 cr_all.1.2 (RolesExamples.rb 30) cr_3.1.1 cr_3.1.2 cr_3.2 /\
  cr_all.1 = cr_2.1 /\
  (exists ta p, CondModel.s_tallies cr_2.1.1 !! 1 = Some ta /\ CondModel.s_props cr_2.1.1 !! 1 = Some p /\
     CondModel.t_start ta = 10 /\ CondModel.p_total p = 10 /\ CondModel.t_outstanding ta = 0 /\
     CondModel.get (CondModel.t_m ta) 1 0 = Ok (CondModel.Positive 2)).
Proof.
  split; [exact cr_reached|]. split; [exact cr_later|]. do 4 (split; [vm_compute; reflexivity|]).
  split; [exact cr_reached_all|]. split; [exact cr_later_all|]. split; [vm_compute; reflexivity|].
  do 2 eexists. split; [vm_compute; reflexivity|]. split; [vm_compute; reflexivity|].
  repeat split; vm_compute; reflexivity.
Qed.

Theorem C96_onft_single_tally d b s t l id p :
  single_on_onft d b s t l -> SingleModel.s_props s !! id = Some p ->
  (forall v, SingleSpec.tally_of p v = SingleSpec.ballot_total s id v) /\
  (forall a bl, SingleModel.s_ballots s !! (id, a) = Some bl ->
     SingleModel.bl_power bl = opow t a (SingleModel.p_start p) /\ 0 < SingleModel.bl_power bl) /\
  SingleModel.p_total p = otot t (SingleModel.p_start p) /\
  SingleSpec.tally_of p Yes + SingleSpec.tally_of p No + SingleSpec.tally_of p Abstain
    <= SingleModel.p_total p.
Proof. exact (c96_onft_single_tally d b s t l id p). Qed.
Print Assumptions C96_onft_single_tally.
Theorem C96_onft_single_electorate d b1 s1 t1 l1 b' b2 s2 t2 l2 id p :
  single_on_onft d b1 s1 t1 l1 -> block_le b1 b' -> single_on_onft_later d b' s1 t1 b2 s2 t2 l2 ->
  SingleModel.s_props s2 !! id = Some p ->
  height b1 < SingleModel.p_start p <= height b' ->
  SingleModel.p_total p = oheld_all t1 /\
  (forall a, opow t2 a (SingleModel.p_start p) = oheld t1 a) /\
  forall a bl, SingleModel.s_ballots s2 !! (id, a) = Some bl ->
    SingleModel.bl_power bl = oheld t1 a.
Proof. exact (c96_onft_single_electorate d b1 s1 t1 l1 b' b2 s2 t2 l2 id p). Qed.
Print Assumptions C96_onft_single_electorate.
Theorem C96_onft_single_same d b s t l b' t' l' bx a m :
  single_on_onft d b s t l -> leads OnftModel.f_handle b t b' t' l' -> not_propose m ->
  SingleModel.handle (single_ask opow otot t') s bx a m = SingleModel.handle (single_ask opow otot t) s bx a m.
Proof. exact (c96_onft_single_same d b s t l b' t' l' bx a m). Qed.
Print Assumptions C96_onft_single_same.
Theorem C96_onft_single_rejected d b s t l id st b' s' t' l' :
  single_on_onft d b s t l -> single_on_onft_later d b s t b' s' t' l' ->
  SingleModel.query_status s b id = Ok st -> SingleSpec.rejected_like st ->
  exists st', SingleModel.query_status s' b' id = Ok st' /\ SingleSpec.rejected_like st'.
Proof. exact (c96_onft_single_rejected d b s t l id st b' s' t' l'). Qed.
Print Assumptions C96_onft_single_rejected.
(** At the end of block 9: 4, 3 and 3; in block 10 power is added before and taken from
    member 1 after the proposal is created. *)
Example C96_onft_single_case :
  single_on_onft 9 (OnftExamples.fb 9) so_1.1.1 so_1.1.2 so_1.2 /\
  single_on_onft_later 9 (OnftExamples.fb 10) so_1.1.1 so_1.1.2 (OnftExamples.fb 20) so_2.1.1 so_2.1.2 so_2.2 /\
  oheld_all so_1.1.2 = 10 /\ oheld so_1.1.2 1 = 4 /\ oheld so_2.1.2 1 = 0 /\
  oheld_all so_2.1.2 = 7 /\
  single_on_onft 9 (OnftExamples.fb 20) so_all.1.1 so_all.1.2 so_all.2 /\
  single_on_onft_later 9 (OnftExamples.fb 20) so_all.1.1 so_all.1.2 (OnftExamples.fb 30) so_3.1.1 so_3.1.2 so_3.2 /\
  so_all.1 = so_2.1 /\
  (exists p, SingleModel.s_props so_2.1.1 !! 1 = Some p /\ SingleModel.p_start p = 10 /\
     SingleModel.p_total p = 10) /\
  (exists bl, SingleModel.s_ballots so_2.1.1 !! (1, 1%N) = Some bl /\ SingleModel.bl_power bl = 4) /\
  SingleModel.s_ballots so_2.1.1 !! (1, 4%N) = None /\
  SingleModel.query_status so_all.1.1 (OnftExamples.fb 20) 1 = Ok Rejected.
Proof.
  split; [exact so_reached|]. split; [exact so_later|]. do 4 (split; [vm_compute; reflexivity|]).
  split; [exact so_reached_all|]. split; [exact so_later_all|]. split; [vm_compute; reflexivity|].
  split; [eexists; split; [vm_compute; reflexivity|split; vm_compute; reflexivity]|].
  split; [eexists; split; vm_compute; reflexivity|]. split; vm_compute; reflexivity.
Qed.

Theorem C96_onft_mult_tally d b s t l id p :
  mult_on_onft d b s t l -> MultModel.s_props s !! id = Some p ->
  (forall v, MultSpec.tally_of p v = MultSpec.ballot_total s id v) /\
  (forall a bl, MultModel.s_ballots s !! (id, a) = Some bl ->
     MultModel.bl_power bl = opow t a (MultModel.p_start p) /\ 0 < MultModel.bl_power bl) /\
  MultModel.p_total p = otot t (MultModel.p_start p) /\
  MultSpec.wsum (MultModel.p_votes p) <= MultModel.p_total p.
Proof. exact (c96_onft_mult_tally d b s t l id p). Qed.
Print Assumptions C96_onft_mult_tally.
Theorem C96_onft_mult_electorate d b1 s1 t1 l1 b' b2 s2 t2 l2 id p :
  mult_on_onft d b1 s1 t1 l1 -> block_le b1 b' -> mult_on_onft_later d b' s1 t1 b2 s2 t2 l2 ->
  MultModel.s_props s2 !! id = Some p ->
  height b1 < MultModel.p_start p <= height b' ->
  MultModel.p_total p = oheld_all t1 /\
  (forall a, opow t2 a (MultModel.p_start p) = oheld t1 a) /\
  forall a bl, MultModel.s_ballots s2 !! (id, a) = Some bl ->
    MultModel.bl_power bl = oheld t1 a.
Proof. exact (c96_onft_mult_electorate d b1 s1 t1 l1 b' b2 s2 t2 l2 id p). Qed.
Print Assumptions C96_onft_mult_electorate.
Theorem C96_onft_mult_same d b s t l b' t' l' bx a m :
  mult_on_onft d b s t l -> leads OnftModel.f_handle b t b' t' l' -> mnot_propose m ->
  MultModel.handle (mult_ask opow otot t') s bx a m = MultModel.handle (mult_ask opow otot t) s bx a m.
Proof. exact (c96_onft_mult_same d b s t l b' t' l' bx a m). Qed.
Print Assumptions C96_onft_mult_same.
Theorem C96_onft_mult_final d b s t l id p st b' s' t' l' :
  mult_on_onft d b s t l -> mult_on_onft_later d b s t b' s' t' l' ->
  MultModel.s_props s !! id = Some p -> MultModel.query_status s b id = Ok st ->
  (MultSpec.passed_like st ->
   exists st' p' i, MultModel.query_status s' b' id = Ok st' /\
     (MultSpec.passed_like st' \/ st' = Vetoed) /\ MultModel.s_props s' !! id = Some p' /\
     MultSpec.chosen (MultModel.p_quorum p) (MultModel.p_total p) (MultModel.p_votes p) i /\
     MultSpec.chosen (MultModel.p_quorum p) (MultModel.p_total p) (MultModel.p_votes p') i) /\
  (MultSpec.rejected_like st ->
   exists st', MultModel.query_status s' b' id = Ok st' /\ MultSpec.rejected_like st').
Proof. exact (c96_onft_mult_final d b s t l id p st b' s' t' l'). Qed.
Print Assumptions C96_onft_mult_final.
(** At the end of block 9: 4, 3 and 3; in block 10 power is added before and taken from
    member 1 after the proposal is created. *)
Example C96_onft_mult_case :
  mult_on_onft 9 (OnftExamples.fb 9) mo_1.1.1 mo_1.1.2 mo_1.2 /\
  mult_on_onft_later 9 (OnftExamples.fb 10) mo_1.1.1 mo_1.1.2 (OnftExamples.fb 20) mo_2.1.1 mo_2.1.2 mo_2.2 /\
  oheld_all mo_1.1.2 = 10 /\ oheld mo_1.1.2 1 = 4 /\ oheld mo_2.1.2 1 = 0 /\
  oheld_all mo_2.1.2 = 7 /\
  mult_on_onft 9 (OnftExamples.fb 20) mo_all.1.1 mo_all.1.2 mo_all.2 /\
  mult_on_onft_later 9 (OnftExamples.fb 20) mo_all.1.1 mo_all.1.2 (OnftExamples.fb 30) mo_3.1.1 mo_3.1.2 mo_3.2 /\
  mo_all.1 = mo_2.1 /\
  (exists p, MultModel.s_props mo_2.1.1 !! 1 = Some p /\ MultModel.p_start p = 10 /\
     MultModel.p_total p = 10) /\
  (exists bl, MultModel.s_ballots mo_2.1.1 !! (1, 1%N) = Some bl /\ MultModel.bl_power bl = 4) /\
  MultModel.s_ballots mo_2.1.1 !! (1, 4%N) = None /\
  MultModel.query_status mo_all.1.1 (OnftExamples.fb 20) 1 = Ok Passed.
Proof.
  split; [exact mo_reached|]. split; [exact mo_later|]. do 4 (split; [vm_compute; reflexivity|]).
  split; [exact mo_reached_all|]. split; [exact mo_later_all|]. split; [vm_compute; reflexivity|].
  split; [eexists; split; [vm_compute; reflexivity|split; vm_compute; reflexivity]|].
  split; [eexists; split; vm_compute; reflexivity|]. split; vm_compute; reflexivity.
Qed.

Theorem C96_onft_cond_tally b s t l id ta p :
  cond_on_onft b s t l -> CondModel.s_tallies s !! id = Some ta -> CondModel.s_props s !! id = Some p ->
  CondModel.p_total p = otot t (CondModel.t_start ta) /\
  msum (fun (k : Z * addr) _ => if k.1 =? id then opow t k.2 (CondModel.t_start ta) else 0)
    (CondModel.s_votes s) + CondModel.t_outstanding ta = CondModel.p_total p /\
  0 <= CondModel.t_outstanding ta /\
  forall x y, 0 <= x < CondModel.m_n (CondModel.t_m ta) -> 0 <= y < CondModel.m_n (CondModel.t_m ta) ->
    x <> y -> exists c, CondModel.get (CondModel.t_m ta) x y = Ok c /\
      CondSpec.val c =
      msum (fun (k : Z * addr) v => if k.1 =? id then opow t k.2 (CondModel.t_start ta) * CondSpec.sg v x y else 0)
        (CondModel.s_votes s).
Proof. exact (c96_onft_cond_tally b s t l id ta p). Qed.
Print Assumptions C96_onft_cond_tally.
Theorem C96_onft_cond_electorate b1 s1 t1 l1 b' b2 s2 t2 l2 id ta p :
  cond_on_onft b1 s1 t1 l1 -> block_le b1 b' -> cond_on_onft_later b' s1 t1 b2 s2 t2 l2 ->
  CondModel.s_tallies s2 !! id = Some ta -> CondModel.s_props s2 !! id = Some p ->
  height b1 < CondModel.t_start ta <= height b' ->
  CondModel.p_total p = oheld_all t1 /\
  forall x y, 0 <= x < CondModel.m_n (CondModel.t_m ta) -> 0 <= y < CondModel.m_n (CondModel.t_m ta) ->
    x <> y -> exists c, CondModel.get (CondModel.t_m ta) x y = Ok c /\
      CondSpec.val c =
      msum (fun (k : Z * addr) v => if k.1 =? id then oheld t1 k.2 * CondSpec.sg v x y else 0)
        (CondModel.s_votes s2).
Proof. exact (c96_onft_cond_electorate b1 s1 t1 l1 b' b2 s2 t2 l2 id ta p). Qed.
Print Assumptions C96_onft_cond_electorate.
Theorem C96_onft_cond_same b s t l b' t' l' bx a m :
  cond_on_onft b s t l -> leads OnftModel.f_handle b t b' t' l' -> cnot_propose m ->
  CondModel.handle (cond_ask opow otot t') s bx a m = CondModel.handle (cond_ask opow otot t) s bx a m.
Proof. exact (c96_onft_cond_same b s t l b' t' l' bx a m). Qed.
Print Assumptions C96_onft_cond_same.
(** At the end of block 9: 4, 3 and 3; in block 10 power is added before and taken from
    member 1 after the proposal is created. *)
Example C96_onft_cond_case :
  cond_on_onft (OnftExamples.fb 9) co_1.1.1 co_1.1.2 co_1.2 /\
  cond_on_onft_later (OnftExamples.fb 10) co_1.1.1 co_1.1.2 (OnftExamples.fb 20) co_2.1.1 co_2.1.2 co_2.2 /\
  oheld_all co_1.1.2 = 10 /\ oheld co_1.1.2 1 = 4 /\ oheld co_2.1.2 1 = 0 /\
  oheld_all co_2.1.2 = 7 /\
  cond_on_onft (OnftExamples.fb 20) co_all.1.1 co_all.1.2 co_all.2 /\
  cond_on_onft_later (OnftExamples.fb 20) co_all.1.1 co_all.1.2 (OnftExamples.fb 30) co_3.1.1 co_3.1.2 co_3.2 /\
  co_all.1 = co_2.1 /\
  (exists ta p, CondModel.s_tallies co_2.1.1 !! 1 = Some ta /\ CondModel.s_props co_2.1.1 !! 1 = Some p /\
     CondModel.t_start ta = 10 /\ CondModel.p_total p = 10 /\ CondModel.t_outstanding ta = 0 /\
     CondModel.get (CondModel.t_m ta) 1 0 = Ok (CondModel.Positive 2)).
Proof.
  split; [exact co_reached|]. split; [exact co_later|]. do 4 (split; [vm_compute; reflexivity|]).
  split; [exact co_reached_all|]. split; [exact co_later_all|]. split; [vm_compute; reflexivity|].
  do 2 eexists. split; [vm_compute; reflexivity|]. split; [vm_compute; reflexivity|].
  repeat split; vm_compute; reflexivity.
Qed.

