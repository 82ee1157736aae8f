(** A proposal module together with a staking voting module: theorems.  Each is
    followed by what it rests on and by a concrete case meeting its hypotheses. *)
From Verif Require Import Base BaseProofs Exec ExecProofs Plain HooksModel VotingModel StoreModel
  ActiveModel Compose JointModel JointSpec JointClaims JointExamples.
From Verif Require SingleModel SingleSpec MultModel MultSpec CondModel CondSpec
  TokModel TokSpec TokExamples StakeModel StakeSpec StakeExamples NftModel NftSpec NftExamples.

(** * C42 *)
Theorem C42_tok_single_tally d b s t l id p :
  single_on_tok d b s t l -> SingleModel.s_props s !! id = Some p ->
  (forall v, SingleSpec.tally_of p v = SingleSpec.ballot_total s id v) /\
  (forall a bl, SingleModel.s_ballots s !! (id, a) = Some bl ->
     SingleModel.bl_power bl = tpow t a (SingleModel.p_start p) /\ 0 < SingleModel.bl_power bl) /\
  SingleModel.p_total p = ttot t (SingleModel.p_start p) /\
  SingleSpec.tally_of p Yes + SingleSpec.tally_of p No + SingleSpec.tally_of p Abstain
    <= SingleModel.p_total p.
Proof. exact (c42_tok_single_tally d b s t l id p). Qed.
Print Assumptions C42_tok_single_tally.
Theorem C42_tok_single_electorate d b1 s1 t1 l1 b' b2 s2 t2 l2 id p :
  single_on_tok d b1 s1 t1 l1 -> block_le b1 b' -> single_on_tok_later d b' s1 t1 b2 s2 t2 l2 ->
  SingleModel.s_props s2 !! id = Some p ->
  height b1 < SingleModel.p_start p <= height b' ->
  SingleModel.p_total p = TokSpec.ttotal t1 /\
  (forall a, tpow t2 a (SingleModel.p_start p) = TokSpec.tstaked t1 a) /\
  forall a bl, SingleModel.s_ballots s2 !! (id, a) = Some bl ->
    SingleModel.bl_power bl = TokSpec.tstaked t1 a.
Proof. exact (c42_tok_single_electorate d b1 s1 t1 l1 b' b2 s2 t2 l2 id p). Qed.
Print Assumptions C42_tok_single_electorate.
Theorem C42_tok_single_same d b s t l b' t' l' bx a m :
  single_on_tok d b s t l -> leads TokModel.t_handle b t b' t' l' -> not_propose m ->
  SingleModel.handle (single_ask tpow ttot t') s bx a m = SingleModel.handle (single_ask tpow ttot t) s bx a m.
Proof. exact (c42_tok_single_same d b s t l b' t' l' bx a m). Qed.
Print Assumptions C42_tok_single_same.
Theorem C42_tok_single_rejected d b s t l id st b' s' t' l' :
  single_on_tok d b s t l -> single_on_tok_later d b s t b' s' t' l' ->
  SingleModel.query_status s b id = Ok st -> SingleSpec.rejected_like st ->
  exists st', SingleModel.query_status s' b' id = Ok st' /\ SingleSpec.rejected_like st'.
Proof. exact (c42_tok_single_rejected d b s t l id st b' s' t' l'). Qed.
Print Assumptions C42_tok_single_rejected.
(** Staked at the end of block 9: 40, 35 and 30; in block 10 one staker adds 500
    before and member 1 leaves after the proposal is created. *)
Example C42_tok_single_case :
  single_on_tok 9 (TokExamples.tb 9) st_1.1.1 st_1.1.2 st_1.2 /\
  single_on_tok_later 9 (TokExamples.tb 10) st_1.1.1 st_1.1.2 (TokExamples.tb 20) st_2.1.1 st_2.1.2 st_2.2 /\
  TokSpec.ttotal st_1.1.2 = 105 /\ TokSpec.tstaked st_1.1.2 1 = 40 /\ TokSpec.tstaked st_2.1.2 1 = 0 /\
  TokSpec.ttotal st_2.1.2 = 565 /\
  single_on_tok 9 (TokExamples.tb 20) st_all.1.1 st_all.1.2 st_all.2 /\
  single_on_tok_later 9 (TokExamples.tb 20) st_all.1.1 st_all.1.2 (TokExamples.tb 30) st_3.1.1 st_3.1.2 st_3.2 /\
  st_all.1 = st_2.1 /\
  (exists p, SingleModel.s_props st_2.1.1 !! 1 = Some p /\ SingleModel.p_start p = 10 /\
     SingleModel.p_total p = 105) /\
  (exists bl, SingleModel.s_ballots st_2.1.1 !! (1, 1%N) = Some bl /\ SingleModel.bl_power bl = 40) /\
  SingleModel.s_ballots st_2.1.1 !! (1, 4%N) = None /\
  SingleModel.query_status st_all.1.1 (TokExamples.tb 20) 1 = Ok Rejected.
Proof.
  split; [exact st_reached|]. split; [exact st_later|]. do 4 (split; [vm_compute; reflexivity|]).
  split; [exact st_reached_all|]. split; [exact st_later_all|]. split; [vm_compute; reflexivity|].
  split; [eexists; split; [vm_compute; reflexivity|split; vm_compute; reflexivity]|].
  split; [eexists; split; vm_compute; reflexivity|]. split; vm_compute; reflexivity.
Qed.

Theorem C42_tok_mult_tally d b s t l id p :
  mult_on_tok d b s t l -> MultModel.s_props s !! id = Some p ->
  (forall v, MultSpec.tally_of p v = MultSpec.ballot_total s id v) /\
  (forall a bl, MultModel.s_ballots s !! (id, a) = Some bl ->
     MultModel.bl_power bl = tpow t a (MultModel.p_start p) /\ 0 < MultModel.bl_power bl) /\
  MultModel.p_total p = ttot t (MultModel.p_start p) /\
  MultSpec.wsum (MultModel.p_votes p) <= MultModel.p_total p.
Proof. exact (c42_tok_mult_tally d b s t l id p). Qed.
Print Assumptions C42_tok_mult_tally.
Theorem C42_tok_mult_electorate d b1 s1 t1 l1 b' b2 s2 t2 l2 id p :
  mult_on_tok d b1 s1 t1 l1 -> block_le b1 b' -> mult_on_tok_later d b' s1 t1 b2 s2 t2 l2 ->
  MultModel.s_props s2 !! id = Some p ->
  height b1 < MultModel.p_start p <= height b' ->
  MultModel.p_total p = TokSpec.ttotal t1 /\
  (forall a, tpow t2 a (MultModel.p_start p) = TokSpec.tstaked t1 a) /\
  forall a bl, MultModel.s_ballots s2 !! (id, a) = Some bl ->
    MultModel.bl_power bl = TokSpec.tstaked t1 a.
Proof. exact (c42_tok_mult_electorate d b1 s1 t1 l1 b' b2 s2 t2 l2 id p). Qed.
Print Assumptions C42_tok_mult_electorate.
Theorem C42_tok_mult_same d b s t l b' t' l' bx a m :
  mult_on_tok d b s t l -> leads TokModel.t_handle b t b' t' l' -> mnot_propose m ->
  MultModel.handle (mult_ask tpow ttot t') s bx a m = MultModel.handle (mult_ask tpow ttot t) s bx a m.
Proof. exact (c42_tok_mult_same d b s t l b' t' l' bx a m). Qed.
Print Assumptions C42_tok_mult_same.
Theorem C42_tok_mult_final d b s t l id p st b' s' t' l' :
  mult_on_tok d b s t l -> mult_on_tok_later d b s t b' s' t' l' ->
  MultModel.s_props s !! id = Some p -> MultModel.query_status s b id = Ok st ->
  (MultSpec.passed_like st ->
   exists st' p' i, MultModel.query_status s' b' id = Ok st' /\
     (MultSpec.passed_like st' \/ st' = Vetoed) /\ MultModel.s_props s' !! id = Some p' /\
     MultSpec.chosen (MultModel.p_quorum p) (MultModel.p_total p) (MultModel.p_votes p) i /\
     MultSpec.chosen (MultModel.p_quorum p) (MultModel.p_total p) (MultModel.p_votes p') i) /\
  (MultSpec.rejected_like st ->
   exists st', MultModel.query_status s' b' id = Ok st' /\ MultSpec.rejected_like st').
Proof. exact (c42_tok_mult_final d b s t l id p st b' s' t' l'). Qed.
Print Assumptions C42_tok_mult_final.
(** Staked at the end of block 9: 40, 35 and 30; in block 10 one staker adds 500
    before and member 1 leaves after the proposal is created. *)
Example C42_tok_mult_case :
  mult_on_tok 9 (TokExamples.tb 9) mt_1.1.1 mt_1.1.2 mt_1.2 /\
  mult_on_tok_later 9 (TokExamples.tb 10) mt_1.1.1 mt_1.1.2 (TokExamples.tb 20) mt_2.1.1 mt_2.1.2 mt_2.2 /\
  TokSpec.ttotal mt_1.1.2 = 105 /\ TokSpec.tstaked mt_1.1.2 1 = 40 /\ TokSpec.tstaked mt_2.1.2 1 = 0 /\
  TokSpec.ttotal mt_2.1.2 = 565 /\
  mult_on_tok 9 (TokExamples.tb 20) mt_all.1.1 mt_all.1.2 mt_all.2 /\
  mult_on_tok_later 9 (TokExamples.tb 20) mt_all.1.1 mt_all.1.2 (TokExamples.tb 30) mt_3.1.1 mt_3.1.2 mt_3.2 /\
  mt_all.1 = mt_2.1 /\
  (exists p, MultModel.s_props mt_2.1.1 !! 1 = Some p /\ MultModel.p_start p = 10 /\
     MultModel.p_total p = 105) /\
  (exists bl, MultModel.s_ballots mt_2.1.1 !! (1, 1%N) = Some bl /\ MultModel.bl_power bl = 40) /\
  MultModel.s_ballots mt_2.1.1 !! (1, 4%N) = None /\
  MultModel.query_status mt_all.1.1 (TokExamples.tb 20) 1 = Ok Passed.
Proof.
  split; [exact mt_reached|]. split; [exact mt_later|]. do 4 (split; [vm_compute; reflexivity|]).
  split; [exact mt_reached_all|]. split; [exact mt_later_all|]. split; [vm_compute; reflexivity|].
  split; [eexists; split; [vm_compute; reflexivity|split; vm_compute; reflexivity]|].
  split; [eexists; split; vm_compute; reflexivity|]. split; vm_compute; reflexivity.
Qed.

Theorem C42_tok_cond_tally b s t l id ta p :
  cond_on_tok b s t l -> CondModel.s_tallies s !! id = Some ta -> CondModel.s_props s !! id = Some p ->
  CondModel.p_total p = ttot t (CondModel.t_start ta) /\
  msum (fun (k : Z * addr) _ => if k.1 =? id then tpow t k.2 (CondModel.t_start ta) else 0)
    (CondModel.s_votes s) + CondModel.t_outstanding ta = CondModel.p_total p /\
  0 <= CondModel.t_outstanding ta /\
  forall x y, 0 <= x < CondModel.m_n (CondModel.t_m ta) -> 0 <= y < CondModel.m_n (CondModel.t_m ta) ->
    x <> y -> exists c, CondModel.get (CondModel.t_m ta) x y = Ok c /\
      CondSpec.val c =
      msum (fun (k : Z * addr) v => if k.1 =? id then tpow t k.2 (CondModel.t_start ta) * CondSpec.sg v x y else 0)
        (CondModel.s_votes s).
Proof. exact (c42_tok_cond_tally b s t l id ta p). Qed.
Print Assumptions C42_tok_cond_tally.
Theorem C42_tok_cond_electorate b1 s1 t1 l1 b' b2 s2 t2 l2 id ta p :
  cond_on_tok b1 s1 t1 l1 -> block_le b1 b' -> cond_on_tok_later b' s1 t1 b2 s2 t2 l2 ->
  CondModel.s_tallies s2 !! id = Some ta -> CondModel.s_props s2 !! id = Some p ->
  height b1 < CondModel.t_start ta <= height b' ->
  CondModel.p_total p = TokSpec.ttotal t1 /\
  forall x y, 0 <= x < CondModel.m_n (CondModel.t_m ta) -> 0 <= y < CondModel.m_n (CondModel.t_m ta) ->
    x <> y -> exists c, CondModel.get (CondModel.t_m ta) x y = Ok c /\
      CondSpec.val c =
      msum (fun (k : Z * addr) v => if k.1 =? id then TokSpec.tstaked t1 k.2 * CondSpec.sg v x y else 0)
        (CondModel.s_votes s2).
Proof. exact (c42_tok_cond_electorate b1 s1 t1 l1 b' b2 s2 t2 l2 id ta p). Qed.
Print Assumptions C42_tok_cond_electorate.
Theorem C42_tok_cond_same b s t l b' t' l' bx a m :
  cond_on_tok b s t l -> leads TokModel.t_handle b t b' t' l' -> cnot_propose m ->
  CondModel.handle (cond_ask tpow ttot t') s bx a m = CondModel.handle (cond_ask tpow ttot t) s bx a m.
Proof. exact (c42_tok_cond_same b s t l b' t' l' bx a m). Qed.
Print Assumptions C42_tok_cond_same.
(** Staked at the end of block 9: 40, 35 and 30; in block 10 one staker adds 500
    before and member 1 leaves after the proposal is created. *)
Example C42_tok_cond_case :
  cond_on_tok (TokExamples.tb 9) ct_1.1.1 ct_1.1.2 ct_1.2 /\
  cond_on_tok_later (TokExamples.tb 10) ct_1.1.1 ct_1.1.2 (TokExamples.tb 20) ct_2.1.1 ct_2.1.2 ct_2.2 /\
  TokSpec.ttotal ct_1.1.2 = 105 /\ TokSpec.tstaked ct_1.1.2 1 = 40 /\ TokSpec.tstaked ct_2.1.2 1 = 0 /\
  TokSpec.ttotal ct_2.1.2 = 565 /\
  cond_on_tok (TokExamples.tb 20) ct_all.1.1 ct_all.1.2 ct_all.2 /\
  cond_on_tok_later (TokExamples.tb 20) ct_all.1.1 ct_all.1.2 (TokExamples.tb 30) ct_3.1.1 ct_3.1.2 ct_3.2 /\
  ct_all.1 = ct_2.1 /\
  (exists ta p, CondModel.s_tallies ct_2.1.1 !! 1 = Some ta /\ CondModel.s_props ct_2.1.1 !! 1 = Some p /\
     CondModel.t_start ta = 10 /\ CondModel.p_total p = 105 /\ CondModel.t_outstanding ta = 0 /\
     CondModel.get (CondModel.t_m ta) 1 0 = Ok (CondModel.Positive 25)).
Proof.
  split; [exact ct_reached|]. split; [exact ct_later|]. do 4 (split; [vm_compute; reflexivity|]).
  split; [exact ct_reached_all|]. split; [exact ct_later_all|]. split; [vm_compute; reflexivity|].
  do 2 eexists. split; [vm_compute; reflexivity|]. split; [vm_compute; reflexivity|].
  repeat split; vm_compute; reflexivity.
Qed.

Theorem C42_cw20_single_tally d b s t l id p :
  single_on_cw20 d b s t l -> SingleModel.s_props s !! id = Some p ->
  (forall v, SingleSpec.tally_of p v = SingleSpec.ballot_total s id v) /\
  (forall a bl, SingleModel.s_ballots s !! (id, a) = Some bl ->
     SingleModel.bl_power bl = kpow t a (SingleModel.p_start p) /\ 0 < SingleModel.bl_power bl) /\
  SingleModel.p_total p = ktot t (SingleModel.p_start p) /\
  SingleSpec.tally_of p Yes + SingleSpec.tally_of p No + SingleSpec.tally_of p Abstain
    <= SingleModel.p_total p.
Proof. exact (c42_cw20_single_tally d b s t l id p). Qed.
Print Assumptions C42_cw20_single_tally.
Theorem C42_cw20_single_electorate d b1 s1 t1 l1 b' b2 s2 t2 l2 id p :
  single_on_cw20 d b1 s1 t1 l1 -> block_le b1 b' -> single_on_cw20_later d b' s1 t1 b2 s2 t2 l2 ->
  SingleModel.s_props s2 !! id = Some p ->
  height b1 < SingleModel.p_start p <= height b' ->
  SingleModel.p_total p = StakeSpec.total_staked t1 /\
  (forall a, kpow t2 a (SingleModel.p_start p) = StakeSpec.staked t1 a) /\
  forall a bl, SingleModel.s_ballots s2 !! (id, a) = Some bl ->
    SingleModel.bl_power bl = StakeSpec.staked t1 a.
Proof. exact (c42_cw20_single_electorate d b1 s1 t1 l1 b' b2 s2 t2 l2 id p). Qed.
Print Assumptions C42_cw20_single_electorate.
Theorem C42_cw20_single_same d b s t l b' t' l' bx a m :
  single_on_cw20 d b s t l -> leads StakeModel.k_handle b t b' t' l' -> not_propose m ->
  SingleModel.handle (single_ask kpow ktot t') s bx a m = SingleModel.handle (single_ask kpow ktot t) s bx a m.
Proof. exact (c42_cw20_single_same d b s t l b' t' l' bx a m). Qed.
Print Assumptions C42_cw20_single_same.
Theorem C42_cw20_single_rejected d b s t l id st b' s' t' l' :
  single_on_cw20 d b s t l -> single_on_cw20_later d b s t b' s' t' l' ->
  SingleModel.query_status s b id = Ok st -> SingleSpec.rejected_like st ->
  exists st', SingleModel.query_status s' b' id = Ok st' /\ SingleSpec.rejected_like st'.
Proof. exact (c42_cw20_single_rejected d b s t l id st b' s' t' l'). Qed.
Print Assumptions C42_cw20_single_rejected.
(** Staked at the end of block 9: 40, 35 and 30; in block 10 one staker adds 500
    before and member 1 leaves after the proposal is created. *)
Example C42_cw20_single_case :
  single_on_cw20 9 (StakeExamples.kb 9) sk_1.1.1 sk_1.1.2 sk_1.2 /\
  single_on_cw20_later 9 (StakeExamples.kb 10) sk_1.1.1 sk_1.1.2 (StakeExamples.kb 20) sk_2.1.1 sk_2.1.2 sk_2.2 /\
  StakeSpec.total_staked sk_1.1.2 = 105 /\ StakeSpec.staked sk_1.1.2 1 = 40 /\ StakeSpec.staked sk_2.1.2 1 = 0 /\
  StakeSpec.total_staked sk_2.1.2 = 565 /\
  single_on_cw20 9 (StakeExamples.kb 20) sk_all.1.1 sk_all.1.2 sk_all.2 /\
  single_on_cw20_later 9 (StakeExamples.kb 20) sk_all.1.1 sk_all.1.2 (StakeExamples.kb 30) sk_3.1.1 sk_3.1.2 sk_3.2 /\
  sk_all.1 = sk_2.1 /\
  (exists p, SingleModel.s_props sk_2.1.1 !! 1 = Some p /\ SingleModel.p_start p = 10 /\
     SingleModel.p_total p = 105) /\
  (exists bl, SingleModel.s_ballots sk_2.1.1 !! (1, 1%N) = Some bl /\ SingleModel.bl_power bl = 40) /\
  SingleModel.s_ballots sk_2.1.1 !! (1, 4%N) = None /\
  SingleModel.query_status sk_all.1.1 (StakeExamples.kb 20) 1 = Ok Rejected.
Proof.
  split; [exact sk_reached|]. split; [exact sk_later|]. do 4 (split; [vm_compute; reflexivity|]).
  split; [exact sk_reached_all|]. split; [exact sk_later_all|]. split; [vm_compute; reflexivity|].
  split; [eexists; split; [vm_compute; reflexivity|split; vm_compute; reflexivity]|].
  split; [eexists; split; vm_compute; reflexivity|]. split; vm_compute; reflexivity.
Qed.

Theorem C42_cw20_mult_tally d b s t l id p :
  mult_on_cw20 d b s t l -> MultModel.s_props s !! id = Some p ->
  (forall v, MultSpec.tally_of p v = MultSpec.ballot_total s id v) /\
  (forall a bl, MultModel.s_ballots s !! (id, a) = Some bl ->
     MultModel.bl_power bl = kpow t a (MultModel.p_start p) /\ 0 < MultModel.bl_power bl) /\
  MultModel.p_total p = ktot t (MultModel.p_start p) /\
  MultSpec.wsum (MultModel.p_votes p) <= MultModel.p_total p.
Proof. exact (c42_cw20_mult_tally d b s t l id p). Qed.
Print Assumptions C42_cw20_mult_tally.
Theorem C42_cw20_mult_electorate d b1 s1 t1 l1 b' b2 s2 t2 l2 id p :
  mult_on_cw20 d b1 s1 t1 l1 -> block_le b1 b' -> mult_on_cw20_later d b' s1 t1 b2 s2 t2 l2 ->
  MultModel.s_props s2 !! id = Some p ->
  height b1 < MultModel.p_start p <= height b' ->
  MultModel.p_total p = StakeSpec.total_staked t1 /\
  (forall a, kpow t2 a (MultModel.p_start p) = StakeSpec.staked t1 a) /\
  forall a bl, MultModel.s_ballots s2 !! (id, a) = Some bl ->
    MultModel.bl_power bl = StakeSpec.staked t1 a.
Proof. exact (c42_cw20_mult_electorate d b1 s1 t1 l1 b' b2 s2 t2 l2 id p). Qed.
Print Assumptions C42_cw20_mult_electorate.
Theorem C42_cw20_mult_same d b s t l b' t' l' bx a m :
  mult_on_cw20 d b s t l -> leads StakeModel.k_handle b t b' t' l' -> mnot_propose m ->
  MultModel.handle (mult_ask kpow ktot t') s bx a m = MultModel.handle (mult_ask kpow ktot t) s bx a m.
Proof. exact (c42_cw20_mult_same d b s t l b' t' l' bx a m). Qed.
Print Assumptions C42_cw20_mult_same.
Theorem C42_cw20_mult_final d b s t l id p st b' s' t' l' :
  mult_on_cw20 d b s t l -> mult_on_cw20_later d b s t b' s' t' l' ->
  MultModel.s_props s !! id = Some p -> MultModel.query_status s b id = Ok st ->
  (MultSpec.passed_like st ->
   exists st' p' i, MultModel.query_status s' b' id = Ok st' /\
     (MultSpec.passed_like st' \/ st' = Vetoed) /\ MultModel.s_props s' !! id = Some p' /\
     MultSpec.chosen (MultModel.p_quorum p) (MultModel.p_total p) (MultModel.p_votes p) i /\
     MultSpec.chosen (MultModel.p_quorum p) (MultModel.p_total p) (MultModel.p_votes p') i) /\
  (MultSpec.rejected_like st ->
   exists st', MultModel.query_status s' b' id = Ok st' /\ MultSpec.rejected_like st').
Proof. exact (c42_cw20_mult_final d b s t l id p st b' s' t' l'). Qed.
Print Assumptions C42_cw20_mult_final.
(** Staked at the end of block 9: 40, 35 and 30; in block 10 one staker adds 500
    before and member 1 leaves after the proposal is created. *)
Example C42_cw20_mult_case :
  mult_on_cw20 9 (StakeExamples.kb 9) mk_1.1.1 mk_1.1.2 mk_1.2 /\
  mult_on_cw20_later 9 (StakeExamples.kb 10) mk_1.1.1 mk_1.1.2 (StakeExamples.kb 20) mk_2.1.1 mk_2.1.2 mk_2.2 /\
  StakeSpec.total_staked mk_1.1.2 = 105 /\ StakeSpec.staked mk_1.1.2 1 = 40 /\ StakeSpec.staked mk_2.1.2 1 = 0 /\
  StakeSpec.total_staked mk_2.1.2 = 565 /\
  mult_on_cw20 9 (StakeExamples.kb 20) mk_all.1.1 mk_all.1.2 mk_all.2 /\
  mult_on_cw20_later 9 (StakeExamples.kb 20) mk_all.1.1 mk_all.1.2 (StakeExamples.kb 30) mk_3.1.1 mk_3.1.2 mk_3.2 /\
  mk_all.1 = mk_2.1 /\
  (exists p, MultModel.s_props mk_2.1.1 !! 1 = Some p /\ MultModel.p_start p = 10 /\
     MultModel.p_total p = 105) /\
  (exists bl, MultModel.s_ballots mk_2.1.1 !! (1, 1%N) = Some bl /\ MultModel.bl_power bl = 40) /\
  MultModel.s_ballots mk_2.1.1 !! (1, 4%N) = None /\
  MultModel.query_status mk_all.1.1 (StakeExamples.kb 20) 1 = Ok Passed.
Proof.
  split; [exact mk_reached|]. split; [exact mk_later|]. do 4 (split; [vm_compute; reflexivity|]).
  split; [exact mk_reached_all|]. split; [exact mk_later_all|]. split; [vm_compute; reflexivity|].
  split; [eexists; split; [vm_compute; reflexivity|split; vm_compute; reflexivity]|].
  split; [eexists; split; vm_compute; reflexivity|]. split; vm_compute; reflexivity.
Qed.

Theorem C42_cw20_cond_tally b s t l id ta p :
  cond_on_cw20 b s t l -> CondModel.s_tallies s !! id = Some ta -> CondModel.s_props s !! id = Some p ->
  CondModel.p_total p = ktot t (CondModel.t_start ta) /\
  msum (fun (k : Z * addr) _ => if k.1 =? id then kpow t k.2 (CondModel.t_start ta) else 0)
    (CondModel.s_votes s) + CondModel.t_outstanding ta = CondModel.p_total p /\
  0 <= CondModel.t_outstanding ta /\
  forall x y, 0 <= x < CondModel.m_n (CondModel.t_m ta) -> 0 <= y < CondModel.m_n (CondModel.t_m ta) ->
    x <> y -> exists c, CondModel.get (CondModel.t_m ta) x y = Ok c /\
      CondSpec.val c =
      msum (fun (k : Z * addr) v => if k.1 =? id then kpow t k.2 (CondModel.t_start ta) * CondSpec.sg v x y else 0)
        (CondModel.s_votes s).
Proof. exact (c42_cw20_cond_tally b s t l id ta p). Qed.
Print Assumptions C42_cw20_cond_tally.
Theorem C42_cw20_cond_electorate b1 s1 t1 l1 b' b2 s2 t2 l2 id ta p :
  cond_on_cw20 b1 s1 t1 l1 -> block_le b1 b' -> cond_on_cw20_later b' s1 t1 b2 s2 t2 l2 ->
  CondModel.s_tallies s2 !! id = Some ta -> CondModel.s_props s2 !! id = Some p ->
  height b1 < CondModel.t_start ta <= height b' ->
  CondModel.p_total p = StakeSpec.total_staked t1 /\
  forall x y, 0 <= x < CondModel.m_n (CondModel.t_m ta) -> 0 <= y < CondModel.m_n (CondModel.t_m ta) ->
    x <> y -> exists c, CondModel.get (CondModel.t_m ta) x y = Ok c /\
      CondSpec.val c =
      msum (fun (k : Z * addr) v => if k.1 =? id then StakeSpec.staked t1 k.2 * CondSpec.sg v x y else 0)
        (CondModel.s_votes s2).
Proof. exact (c42_cw20_cond_electorate b1 s1 t1 l1 b' b2 s2 t2 l2 id ta p). Qed.
Print Assumptions C42_cw20_cond_electorate.
Theorem C42_cw20_cond_same b s t l b' t' l' bx a m :
  cond_on_cw20 b s t l -> leads StakeModel.k_handle b t b' t' l' -> cnot_propose m ->
  CondModel.handle (cond_ask kpow ktot t') s bx a m = CondModel.handle (cond_ask kpow ktot t) s bx a m.
Proof. exact (c42_cw20_cond_same b s t l b' t' l' bx a m). Qed.
Print Assumptions C42_cw20_cond_same.
(** Staked at the end of block 9: 40, 35 and 30; in block 10 one staker adds 500
    before and member 1 leaves after the proposal is created. *)
Example C42_cw20_cond_case :
  cond_on_cw20 (StakeExamples.kb 9) ck_1.1.1 ck_1.1.2 ck_1.2 /\
  cond_on_cw20_later (StakeExamples.kb 10) ck_1.1.1 ck_1.1.2 (StakeExamples.kb 20) ck_2.1.1 ck_2.1.2 ck_2.2 /\
  StakeSpec.total_staked ck_1.1.2 = 105 /\ StakeSpec.staked ck_1.1.2 1 = 40 /\ StakeSpec.staked ck_2.1.2 1 = 0 /\
  StakeSpec.total_staked ck_2.1.2 = 565 /\
  cond_on_cw20 (StakeExamples.kb 20) ck_all.1.1 ck_all.1.2 ck_all.2 /\
  cond_on_cw20_later (StakeExamples.kb 20) ck_all.1.1 ck_all.1.2 (StakeExamples.kb 30) ck_3.1.1 ck_3.1.2 ck_3.2 /\
  ck_all.1 = ck_2.1 /\
  (exists ta p, CondModel.s_tallies ck_2.1.1 !! 1 = Some ta /\ CondModel.s_props ck_2.1.1 !! 1 = Some p /\
     CondModel.t_start ta = 10 /\ CondModel.p_total p = 105 /\ CondModel.t_outstanding ta = 0 /\
     CondModel.get (CondModel.t_m ta) 1 0 = Ok (CondModel.Positive 25)).
Proof.
  split; [exact ck_reached|]. split; [exact ck_later|]. do 4 (split; [vm_compute; reflexivity|]).
  split; [exact ck_reached_all|]. split; [exact ck_later_all|]. split; [vm_compute; reflexivity|].
  do 2 eexists. split; [vm_compute; reflexivity|]. split; [vm_compute; reflexivity|].
  repeat split; vm_compute; reflexivity.
Qed.

Theorem C42_nft_single_tally d b s t l id p :
  single_on_nft d b s t l -> SingleModel.s_props s !! id = Some p ->
  (forall v, SingleSpec.tally_of p v = SingleSpec.ballot_total s id v) /\
  (forall a bl, SingleModel.s_ballots s !! (id, a) = Some bl ->
     SingleModel.bl_power bl = npow t a (SingleModel.p_start p) /\ 0 < SingleModel.bl_power bl) /\
  SingleModel.p_total p = ntot t (SingleModel.p_start p) /\
  SingleSpec.tally_of p Yes + SingleSpec.tally_of p No + SingleSpec.tally_of p Abstain
    <= SingleModel.p_total p.
Proof. exact (c42_nft_single_tally d b s t l id p). Qed.
Print Assumptions C42_nft_single_tally.
Theorem C42_nft_single_electorate d b1 s1 t1 l1 b' b2 s2 t2 l2 id p :
  single_on_nft d b1 s1 t1 l1 -> block_le b1 b' -> single_on_nft_later d b' s1 t1 b2 s2 t2 l2 ->
  SingleModel.s_props s2 !! id = Some p ->
  height b1 < SingleModel.p_start p <= height b' ->
  SingleModel.p_total p = NftSpec.ncount_all t1 /\
  (forall a, npow t2 a (SingleModel.p_start p) = NftSpec.ncount t1 a) /\
  forall a bl, SingleModel.s_ballots s2 !! (id, a) = Some bl ->
    SingleModel.bl_power bl = NftSpec.ncount t1 a.
Proof. exact (c42_nft_single_electorate d b1 s1 t1 l1 b' b2 s2 t2 l2 id p). Qed.
Print Assumptions C42_nft_single_electorate.
Theorem C42_nft_single_same d b s t l b' t' l' bx a m :
  single_on_nft d b s t l -> leads NftModel.n_handle b t b' t' l' -> not_propose m ->
  SingleModel.handle (single_ask npow ntot t') s bx a m = SingleModel.handle (single_ask npow ntot t) s bx a m.
Proof. exact (c42_nft_single_same d b s t l b' t' l' bx a m). Qed.
Print Assumptions C42_nft_single_same.
Theorem C42_nft_single_rejected d b s t l id st b' s' t' l' :
  single_on_nft d b s t l -> single_on_nft_later d b s t b' s' t' l' ->
  SingleModel.query_status s b id = Ok st -> SingleSpec.rejected_like st ->
  exists st', SingleModel.query_status s' b' id = Ok st' /\ SingleSpec.rejected_like st'.
Proof. exact (c42_nft_single_rejected d b s t l id st b' s' t' l'). Qed.
Print Assumptions C42_nft_single_rejected.
(** Staked at the end of block 9: 4, 3 and 3; in block 10 one staker adds one
    before and member 1 leaves after the proposal is created. *)
Example C42_nft_single_case :
  single_on_nft 9 (NftExamples.nb 9) sn_1.1.1 sn_1.1.2 sn_1.2 /\
  single_on_nft_later 9 (NftExamples.nb 10) sn_1.1.1 sn_1.1.2 (NftExamples.nb 20) sn_2.1.1 sn_2.1.2 sn_2.2 /\
  NftSpec.ncount_all sn_1.1.2 = 10 /\ NftSpec.ncount sn_1.1.2 1 = 4 /\ NftSpec.ncount sn_2.1.2 1 = 0 /\
  NftSpec.ncount_all sn_2.1.2 = 7 /\
  single_on_nft 9 (NftExamples.nb 20) sn_all.1.1 sn_all.1.2 sn_all.2 /\
  single_on_nft_later 9 (NftExamples.nb 20) sn_all.1.1 sn_all.1.2 (NftExamples.nb 30) sn_3.1.1 sn_3.1.2 sn_3.2 /\
  sn_all.1 = sn_2.1 /\
  (exists p, SingleModel.s_props sn_2.1.1 !! 1 = Some p /\ SingleModel.p_start p = 10 /\
     SingleModel.p_total p = 10) /\
  (exists bl, SingleModel.s_ballots sn_2.1.1 !! (1, 1%N) = Some bl /\ SingleModel.bl_power bl = 4) /\
  SingleModel.s_ballots sn_2.1.1 !! (1, 4%N) = None /\
  SingleModel.query_status sn_all.1.1 (NftExamples.nb 20) 1 = Ok Rejected.
Proof.
  split; [exact sn_reached|]. split; [exact sn_later|]. do 4 (split; [vm_compute; reflexivity|]).
  split; [exact sn_reached_all|]. split; [exact sn_later_all|]. split; [vm_compute; reflexivity|].
  split; [eexists; split; [vm_compute; reflexivity|split; vm_compute; reflexivity]|].
  split; [eexists; split; vm_compute; reflexivity|]. split; vm_compute; reflexivity.
Qed.

Theorem C42_nft_mult_tally d b s t l id p :
  mult_on_nft d b s t l -> MultModel.s_props s !! id = Some p ->
  (forall v, MultSpec.tally_of p v = MultSpec.ballot_total s id v) /\
  (forall a bl, MultModel.s_ballots s !! (id, a) = Some bl ->
     MultModel.bl_power bl = npow t a (MultModel.p_start p) /\ 0 < MultModel.bl_power bl) /\
  MultModel.p_total p = ntot t (MultModel.p_start p) /\
  MultSpec.wsum (MultModel.p_votes p) <= MultModel.p_total p.
Proof. exact (c42_nft_mult_tally d b s t l id p). Qed.
Print Assumptions C42_nft_mult_tally.
Theorem C42_nft_mult_electorate d b1 s1 t1 l1 b' b2 s2 t2 l2 id p :
  mult_on_nft d b1 s1 t1 l1 -> block_le b1 b' -> mult_on_nft_later d b' s1 t1 b2 s2 t2 l2 ->
  MultModel.s_props s2 !! id = Some p ->
  height b1 < MultModel.p_start p <= height b' ->
  MultModel.p_total p = NftSpec.ncount_all t1 /\
  (forall a, npow t2 a (MultModel.p_start p) = NftSpec.ncount t1 a) /\
  forall a bl, MultModel.s_ballots s2 !! (id, a) = Some bl ->
    MultModel.bl_power bl = NftSpec.ncount t1 a.
Proof. exact (c42_nft_mult_electorate d b1 s1 t1 l1 b' b2 s2 t2 l2 id p). Qed.
Print Assumptions C42_nft_mult_electorate.
Theorem C42_nft_mult_same d b s t l b' t' l' bx a m :
  mult_on_nft d b s t l -> leads NftModel.n_handle b t b' t' l' -> mnot_propose m ->
  MultModel.handle (mult_ask npow ntot t') s bx a m = MultModel.handle (mult_ask npow ntot t) s bx a m.
Proof. exact (c42_nft_mult_same d b s t l b' t' l' bx a m). Qed.
Print Assumptions C42_nft_mult_same.
Theorem C42_nft_mult_final d b s t l id p st b' s' t' l' :
  mult_on_nft d b s t l -> mult_on_nft_later d b s t b' s' t' l' ->
  MultModel.s_props s !! id = Some p -> MultModel.query_status s b id = Ok st ->
  (MultSpec.passed_like st ->
   exists st' p' i, MultModel.query_status s' b' id = Ok st' /\
     (MultSpec.passed_like st' \/ st' = Vetoed) /\ MultModel.s_props s' !! id = Some p' /\
     MultSpec.chosen (MultModel.p_quorum p) (MultModel.p_total p) (MultModel.p_votes p) i /\
     MultSpec.chosen (MultModel.p_quorum p) (MultModel.p_total p) (MultModel.p_votes p') i) /\
  (MultSpec.rejected_like st ->
   exists st', MultModel.query_status s' b' id = Ok st' /\ MultSpec.rejected_like st').
Proof. exact (c42_nft_mult_final d b s t l id p st b' s' t' l'). Qed.
Print Assumptions C42_nft_mult_final.
(** Staked at the end of block 9: 4, 3 and 3; in block 10 one staker adds one
    before and member 1 leaves after the proposal is created. *)
Example C42_nft_mult_case :
  mult_on_nft 9 (NftExamples.nb 9) mn_1.1.1 mn_1.1.2 mn_1.2 /\
  mult_on_nft_later 9 (NftExamples.nb 10) mn_1.1.1 mn_1.1.2 (NftExamples.nb 20) mn_2.1.1 mn_2.1.2 mn_2.2 /\
  NftSpec.ncount_all mn_1.1.2 = 10 /\ NftSpec.ncount mn_1.1.2 1 = 4 /\ NftSpec.ncount mn_2.1.2 1 = 0 /\
  NftSpec.ncount_all mn_2.1.2 = 7 /\
  mult_on_nft 9 (NftExamples.nb 20) mn_all.1.1 mn_all.1.2 mn_all.2 /\
  mult_on_nft_later 9 (NftExamples.nb 20) mn_all.1.1 mn_all.1.2 (NftExamples.nb 30) mn_3.1.1 mn_3.1.2 mn_3.2 /\
  mn_all.1 = mn_2.1 /\
  (exists p, MultModel.s_props mn_2.1.1 !! 1 = Some p /\ MultModel.p_start p = 10 /\
     MultModel.p_total p = 10) /\
  (exists bl, MultModel.s_ballots mn_2.1.1 !! (1, 1%N) = Some bl /\ MultModel.bl_power bl = 4) /\
  MultModel.s_ballots mn_2.1.1 !! (1, 4%N) = None /\
  MultModel.query_status mn_all.1.1 (NftExamples.nb 20) 1 = Ok Passed.
Proof.
  split; [exact mn_reached|]. split; [exact mn_later|]. do 4 (split; [vm_compute; reflexivity|]).
  split; [exact mn_reached_all|]. split; [exact mn_later_all|]. split; [vm_compute; reflexivity|].
  split; [eexists; split; [vm_compute; reflexivity|split; vm_compute; reflexivity]|].
  split; [eexists; split; vm_compute; reflexivity|]. split; vm_compute; reflexivity.
Qed.

Theorem C42_nft_cond_tally b s t l id ta p :
  cond_on_nft b s t l -> CondModel.s_tallies s !! id = Some ta -> CondModel.s_props s !! id = Some p ->
  CondModel.p_total p = ntot t (CondModel.t_start ta) /\
  msum (fun (k : Z * addr) _ => if k.1 =? id then npow t k.2 (CondModel.t_start ta) else 0)
    (CondModel.s_votes s) + CondModel.t_outstanding ta = CondModel.p_total p /\
  0 <= CondModel.t_outstanding ta /\
  forall x y, 0 <= x < CondModel.m_n (CondModel.t_m ta) -> 0 <= y < CondModel.m_n (CondModel.t_m ta) ->
    x <> y -> exists c, CondModel.get (CondModel.t_m ta) x y = Ok c /\
      CondSpec.val c =
      msum (fun (k : Z * addr) v => if k.1 =? id then npow t k.2 (CondModel.t_start ta) * CondSpec.sg v x y else 0)
        (CondModel.s_votes s).
Proof. exact (c42_nft_cond_tally b s t l id ta p). Qed.
Print Assumptions C42_nft_cond_tally.
Theorem C42_nft_cond_electorate b1 s1 t1 l1 b' b2 s2 t2 l2 id ta p :
  cond_on_nft b1 s1 t1 l1 -> block_le b1 b' -> cond_on_nft_later b' s1 t1 b2 s2 t2 l2 ->
  CondModel.s_tallies s2 !! id = Some ta -> CondModel.s_props s2 !! id = Some p ->
  height b1 < CondModel.t_start ta <= height b' ->
  CondModel.p_total p = NftSpec.ncount_all t1 /\
  forall x y, 0 <= x < CondModel.m_n (CondModel.t_m ta) -> 0 <= y < CondModel.m_n (CondModel.t_m ta) ->
    x <> y -> exists c, CondModel.get (CondModel.t_m ta) x y = Ok c /\
      CondSpec.val c =
      msum (fun (k : Z * addr) v => if k.1 =? id then NftSpec.ncount t1 k.2 * CondSpec.sg v x y else 0)
        (CondModel.s_votes s2).
Proof. exact (c42_nft_cond_electorate b1 s1 t1 l1 b' b2 s2 t2 l2 id ta p). Qed.
Print Assumptions C42_nft_cond_electorate.
Theorem C42_nft_cond_same b s t l b' t' l' bx a m :
  cond_on_nft b s t l -> leads NftModel.n_handle b t b' t' l' -> cnot_propose m ->
  CondModel.handle (cond_ask npow ntot t') s bx a m = CondModel.handle (cond_ask npow ntot t) s bx a m.
Proof. exact (c42_nft_cond_same b s t l b' t' l' bx a m). Qed.
Print Assumptions C42_nft_cond_same.
(** Staked at the end of block 9: 4, 3 and 3; in block 10 one staker adds one
    before and member 1 leaves after the proposal is created. *)
Example C42_nft_cond_case :
  cond_on_nft (NftExamples.nb 9) cn_1.1.1 cn_1.1.2 cn_1.2 /\
  cond_on_nft_later (NftExamples.nb 10) cn_1.1.1 cn_1.1.2 (NftExamples.nb 20) cn_2.1.1 cn_2.1.2 cn_2.2 /\
  NftSpec.ncount_all cn_1.1.2 = 10 /\ NftSpec.ncount cn_1.1.2 1 = 4 /\ NftSpec.ncount cn_2.1.2 1 = 0 /\
  NftSpec.ncount_all cn_2.1.2 = 7 /\
  cond_on_nft (NftExamples.nb 20) cn_all.1.1 cn_all.1.2 cn_all.2 /\
  cond_on_nft_later (NftExamples.nb 20) cn_all.1.1 cn_all.1.2 (NftExamples.nb 30) cn_3.1.1 cn_3.1.2 cn_3.2 /\
  cn_all.1 = cn_2.1 /\
  (exists ta p, CondModel.s_tallies cn_2.1.1 !! 1 = Some ta /\ CondModel.s_props cn_2.1.1 !! 1 = Some p /\
     CondModel.t_start ta = 10 /\ CondModel.p_total p = 10 /\ CondModel.t_outstanding ta = 0 /\
     CondModel.get (CondModel.t_m ta) 1 0 = Ok (CondModel.Positive 2)).
Proof.
  split; [exact cn_reached|]. split; [exact cn_later|]. do 4 (split; [vm_compute; reflexivity|]).
  split; [exact cn_reached_all|]. split; [exact cn_later_all|]. split; [vm_compute; reflexivity|].
  do 2 eexists. split; [vm_compute; reflexivity|]. split; [vm_compute; reflexivity|].
  repeat split; vm_compute; reflexivity.
Qed.

