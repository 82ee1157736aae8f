(** Claims about a proposal module together with the voting modules on cw4 groups, role tokens
    and ONFTs. *)
From Verif Require Import Base BaseProofs Exec ExecProofs Plain PlainProofs VotingModel VotingSpec
  HooksModel StoreModel StoreProofs LedgerProofs ActiveModel Compose ComposeProofs JointModel JointSpec
  JointProofs JointClaims ElectSpec ElectProofs.
From Verif Require SingleModel SingleSpec SingleProofs SingleTally SingleFinal SingleClaims
  MultModel MultSpec MultProofs MultTally MultFinal MultClaims CondModel CondSpec CondProofs CondClaims
  GrpModel GrpSpec RolesModel RolesSpec OnftModel OnftSpec.

Lemma c96_grp_single_tally d b s t l id p :
  single_on_grp d b s t l -> SingleModel.s_props s !! id = Some p ->
  (forall v, SingleSpec.tally_of p v = SingleSpec.ballot_total s id v) /\
  (forall a bl, SingleModel.s_ballots s !! (id, a) = Some bl ->
     SingleModel.bl_power bl = gpow t a (SingleModel.p_start p) /\ 0 < SingleModel.bl_power bl) /\
  SingleModel.p_total p = gtot t (SingleModel.p_start p) /\
  SingleSpec.tally_of p Yes + SingleSpec.tally_of p No + SingleSpec.tally_of p Abstain
    <= SingleModel.p_total p.
Proof. exact (j_single_tally GrpModel.g_handle gpow gtot always_active GrpSpec.greached grp_stable grp_app grp_sane _ _ _ _ _ _ _). Qed.
Lemma c96_grp_single_electorate d b1 s1 t1 l1 b' b2 s2 t2 l2 id p :
  single_on_grp d b1 s1 t1 l1 -> block_le b1 b' -> single_on_grp_later d b' s1 t1 b2 s2 t2 l2 ->
  SingleModel.s_props s2 !! id = Some p ->
  height b1 < SingleModel.p_start p <= height b' ->
  SingleModel.p_total p = gheld_all t1 /\
  (forall a, gpow t2 a (SingleModel.p_start p) = gheld t1 a) /\
  forall a bl, SingleModel.s_ballots s2 !! (id, a) = Some bl ->
    SingleModel.bl_power bl = gheld t1 a.
Proof. exact (j_single_electorate GrpModel.g_handle gpow gtot always_active GrpSpec.greached grp_stable grp_app grp_sane gheld gheld_all grp_reported _ _ _ _ _ _ _ _ _ _ _ _). Qed.
Lemma c96_grp_single_same d b s t l b' t' l' bx a m :
  single_on_grp d b s t l -> leads GrpModel.g_handle b t b' t' l' -> not_propose m ->
  SingleModel.handle (single_ask gpow gtot t') s bx a m = SingleModel.handle (single_ask gpow gtot t) s bx a m.
Proof. exact (j_single_same GrpModel.g_handle gpow gtot always_active GrpSpec.greached grp_stable grp_app grp_sane gheld gheld_all grp_reported _ _ _ _ _ _ _ _ _ _ _). Qed.
Lemma c96_grp_single_rejected d b s t l id st b' s' t' l' :
  single_on_grp d b s t l -> single_on_grp_later d b s t b' s' t' l' ->
  SingleModel.query_status s b id = Ok st -> SingleSpec.rejected_like st ->
  exists st', SingleModel.query_status s' b' id = Ok st' /\ SingleSpec.rejected_like st'.
Proof. exact (j_single_rejected GrpModel.g_handle gpow gtot always_active GrpSpec.greached grp_stable grp_app grp_sane _ _ _ _ _ _ _ _ _ _ _). Qed.
Lemma c96_grp_mult_tally d b s t l id p :
  mult_on_grp d b s t l -> MultModel.s_props s !! id = Some p ->
  (forall v, MultSpec.tally_of p v = MultSpec.ballot_total s id v) /\
  (forall a bl, MultModel.s_ballots s !! (id, a) = Some bl ->
     MultModel.bl_power bl = gpow t a (MultModel.p_start p) /\ 0 < MultModel.bl_power bl) /\
  MultModel.p_total p = gtot t (MultModel.p_start p) /\
  MultSpec.wsum (MultModel.p_votes p) <= MultModel.p_total p.
Proof. exact (j_mult_tally GrpModel.g_handle gpow gtot always_active GrpSpec.greached grp_stable grp_app grp_sane _ _ _ _ _ _ _). Qed.
Lemma c96_grp_mult_electorate d b1 s1 t1 l1 b' b2 s2 t2 l2 id p :
  mult_on_grp d b1 s1 t1 l1 -> block_le b1 b' -> mult_on_grp_later d b' s1 t1 b2 s2 t2 l2 ->
  MultModel.s_props s2 !! id = Some p ->
  height b1 < MultModel.p_start p <= height b' ->
  MultModel.p_total p = gheld_all t1 /\
  (forall a, gpow t2 a (MultModel.p_start p) = gheld t1 a) /\
  forall a bl, MultModel.s_ballots s2 !! (id, a) = Some bl ->
    MultModel.bl_power bl = gheld t1 a.
Proof. exact (j_mult_electorate GrpModel.g_handle gpow gtot always_active GrpSpec.greached grp_stable grp_app grp_sane gheld gheld_all grp_reported _ _ _ _ _ _ _ _ _ _ _ _). Qed.
Lemma c96_grp_mult_same d b s t l b' t' l' bx a m :
  mult_on_grp d b s t l -> leads GrpModel.g_handle b t b' t' l' -> mnot_propose m ->
  MultModel.handle (mult_ask gpow gtot t') s bx a m = MultModel.handle (mult_ask gpow gtot t) s bx a m.
Proof. exact (j_mult_same GrpModel.g_handle gpow gtot always_active GrpSpec.greached grp_stable grp_app grp_sane gheld gheld_all grp_reported _ _ _ _ _ _ _ _ _ _ _). Qed.
Lemma c96_grp_mult_final d b s t l id p st b' s' t' l' :
  mult_on_grp d b s t l -> mult_on_grp_later d b s t b' s' t' l' ->
  MultModel.s_props s !! id = Some p -> MultModel.query_status s b id = Ok st ->
  (MultSpec.passed_like st ->
   exists st' p' i, MultModel.query_status s' b' id = Ok st' /\
     (MultSpec.passed_like st' \/ st' = Vetoed) /\ MultModel.s_props s' !! id = Some p' /\
     MultSpec.chosen (MultModel.p_quorum p) (MultModel.p_total p) (MultModel.p_votes p) i /\
     MultSpec.chosen (MultModel.p_quorum p) (MultModel.p_total p) (MultModel.p_votes p') i) /\
  (MultSpec.rejected_like st ->
   exists st', MultModel.query_status s' b' id = Ok st' /\ MultSpec.rejected_like st').
Proof. exact (j_mult_final GrpModel.g_handle gpow gtot always_active GrpSpec.greached grp_stable grp_app grp_sane _ _ _ _ _ _ _ _ _ _ _ _). Qed.
Lemma c96_grp_cond_tally b s t l id ta p :
  cond_on_grp b s t l -> CondModel.s_tallies s !! id = Some ta -> CondModel.s_props s !! id = Some p ->
  CondModel.p_total p = gtot t (CondModel.t_start ta) /\
  msum (fun (k : Z * addr) _ => if k.1 =? id then gpow t k.2 (CondModel.t_start ta) else 0)
    (CondModel.s_votes s) + CondModel.t_outstanding ta = CondModel.p_total p /\
  0 <= CondModel.t_outstanding ta /\
  forall x y, 0 <= x < CondModel.m_n (CondModel.t_m ta) -> 0 <= y < CondModel.m_n (CondModel.t_m ta) ->
    x <> y -> exists c, CondModel.get (CondModel.t_m ta) x y = Ok c /\
      CondSpec.val c =
      msum (fun (k : Z * addr) v => if k.1 =? id then gpow t k.2 (CondModel.t_start ta) * CondSpec.sg v x y else 0)
        (CondModel.s_votes s).
Proof. exact (j_cond_tally GrpModel.g_handle gpow gtot always_active GrpSpec.greached grp_stable grp_app grp_sane gheld gheld_all grp_reported _ _ _ _ _ _ _). Qed.
Lemma c96_grp_cond_electorate b1 s1 t1 l1 b' b2 s2 t2 l2 id ta p :
  cond_on_grp b1 s1 t1 l1 -> block_le b1 b' -> cond_on_grp_later b' s1 t1 b2 s2 t2 l2 ->
  CondModel.s_tallies s2 !! id = Some ta -> CondModel.s_props s2 !! id = Some p ->
  height b1 < CondModel.t_start ta <= height b' ->
  CondModel.p_total p = gheld_all t1 /\
  forall x y, 0 <= x < CondModel.m_n (CondModel.t_m ta) -> 0 <= y < CondModel.m_n (CondModel.t_m ta) ->
    x <> y -> exists c, CondModel.get (CondModel.t_m ta) x y = Ok c /\
      CondSpec.val c =
      msum (fun (k : Z * addr) v => if k.1 =? id then gheld t1 k.2 * CondSpec.sg v x y else 0)
        (CondModel.s_votes s2).
Proof. exact (j_cond_electorate GrpModel.g_handle gpow gtot always_active GrpSpec.greached grp_stable grp_app grp_sane gheld gheld_all grp_reported _ _ _ _ _ _ _ _ _ _ _ _). Qed.
Lemma c96_grp_cond_same b s t l b' t' l' bx a m :
  cond_on_grp b s t l -> leads GrpModel.g_handle b t b' t' l' -> cnot_propose m ->
  CondModel.handle (cond_ask gpow gtot t') s bx a m = CondModel.handle (cond_ask gpow gtot t) s bx a m.
Proof. exact (j_cond_same GrpModel.g_handle gpow gtot always_active GrpSpec.greached grp_stable grp_app grp_sane gheld gheld_all grp_reported _ _ _ _ _ _ _ _ _ _). Qed.
Lemma c96_role_single_tally d b s t l id p :
  single_on_role d b s t l -> SingleModel.s_props s !! id = Some p ->
  (forall v, SingleSpec.tally_of p v = SingleSpec.ballot_total s id v) /\
  (forall a bl, SingleModel.s_ballots s !! (id, a) = Some bl ->
     SingleModel.bl_power bl = rpow t a (SingleModel.p_start p) /\ 0 < SingleModel.bl_power bl) /\
  SingleModel.p_total p = rtot t (SingleModel.p_start p) /\
  SingleSpec.tally_of p Yes + SingleSpec.tally_of p No + SingleSpec.tally_of p Abstain
    <= SingleModel.p_total p.
Proof. exact (j_single_tally RolesModel.r_handle rpow rtot always_active RolesSpec.rreached role_stable role_app role_sane _ _ _ _ _ _ _). Qed.
Lemma c96_role_single_electorate d b1 s1 t1 l1 b' b2 s2 t2 l2 id p :
  single_on_role d b1 s1 t1 l1 -> block_le b1 b' -> single_on_role_later d b' s1 t1 b2 s2 t2 l2 ->
  SingleModel.s_props s2 !! id = Some p ->
  height b1 < SingleModel.p_start p <= height b' ->
  SingleModel.p_total p = rheld_all t1 /\
  (forall a, rpow t2 a (SingleModel.p_start p) = rheld t1 a) /\
  forall a bl, SingleModel.s_ballots s2 !! (id, a) = Some bl ->
    SingleModel.bl_power bl = rheld t1 a.
Proof. exact (j_single_electorate RolesModel.r_handle rpow rtot always_active RolesSpec.rreached role_stable role_app role_sane rheld rheld_all role_reported _ _ _ _ _ _ _ _ _ _ _ _). Qed.
Lemma c96_role_single_same d b s t l b' t' l' bx a m :
  single_on_role d b s t l -> leads RolesModel.r_handle b t b' t' l' -> not_propose m ->
  SingleModel.handle (single_ask rpow rtot t') s bx a m = SingleModel.handle (single_ask rpow rtot t) s bx a m.
Proof. exact (j_single_same RolesModel.r_handle rpow rtot always_active RolesSpec.rreached role_stable role_app role_sane rheld rheld_all role_reported _ _ _ _ _ _ _ _ _ _ _). Qed.
Lemma c96_role_single_rejected d b s t l id st b' s' t' l' :
  single_on_role d b s t l -> single_on_role_later d b s t b' s' t' l' ->
  SingleModel.query_status s b id = Ok st -> SingleSpec.rejected_like st ->
  exists st', SingleModel.query_status s' b' id = Ok st' /\ SingleSpec.rejected_like st'.
Proof. exact (j_single_rejected RolesModel.r_handle rpow rtot always_active RolesSpec.rreached role_stable role_app role_sane _ _ _ _ _ _ _ _ _ _ _). Qed.
Lemma c96_role_mult_tally d b s t l id p :
  mult_on_role d b s t l -> MultModel.s_props s !! id = Some p ->
  (forall v, MultSpec.tally_of p v = MultSpec.ballot_total s id v) /\
  (forall a bl, MultModel.s_ballots s !! (id, a) = Some bl ->
     MultModel.bl_power bl = rpow t a (MultModel.p_start p) /\ 0 < MultModel.bl_power bl) /\
  MultModel.p_total p = rtot t (MultModel.p_start p) /\
  MultSpec.wsum (MultModel.p_votes p) <= MultModel.p_total p.
Proof. exact (j_mult_tally RolesModel.r_handle rpow rtot always_active RolesSpec.rreached role_stable role_app role_sane _ _ _ _ _ _ _). Qed.
Lemma c96_role_mult_electorate d b1 s1 t1 l1 b' b2 s2 t2 l2 id p :
  mult_on_role d b1 s1 t1 l1 -> block_le b1 b' -> mult_on_role_later d b' s1 t1 b2 s2 t2 l2 ->
  MultModel.s_props s2 !! id = Some p ->
  height b1 < MultModel.p_start p <= height b' ->
  MultModel.p_total p = rheld_all t1 /\
  (forall a, rpow t2 a (MultModel.p_start p) = rheld t1 a) /\
  forall a bl, MultModel.s_ballots s2 !! (id, a) = Some bl ->
    MultModel.bl_power bl = rheld t1 a.
Proof. exact (j_mult_electorate RolesModel.r_handle rpow rtot always_active RolesSpec.rreached role_stable role_app role_sane rheld rheld_all role_reported _ _ _ _ _ _ _ _ _ _ _ _). Qed.
Lemma c96_role_mult_same d b s t l b' t' l' bx a m :
  mult_on_role d b s t l -> leads RolesModel.r_handle b t b' t' l' -> mnot_propose m ->
  MultModel.handle (mult_ask rpow rtot t') s bx a m = MultModel.handle (mult_ask rpow rtot t) s bx a m.
Proof. exact (j_mult_same RolesModel.r_handle rpow rtot always_active RolesSpec.rreached role_stable role_app role_sane rheld rheld_all role_reported _ _ _ _ _ _ _ _ _ _ _). Qed.
Lemma c96_role_mult_final d b s t l id p st b' s' t' l' :
  mult_on_role d b s t l -> mult_on_role_later d b s t b' s' t' l' ->
  MultModel.s_props s !! id = Some p -> MultModel.query_status s b id = Ok st ->
  (MultSpec.passed_like st ->
   exists st' p' i, MultModel.query_status s' b' id = Ok st' /\
     (MultSpec.passed_like st' \/ st' = Vetoed) /\ MultModel.s_props s' !! id = Some p' /\
     MultSpec.chosen (MultModel.p_quorum p) (MultModel.p_total p) (MultModel.p_votes p) i /\
     MultSpec.chosen (MultModel.p_quorum p) (MultModel.p_total p) (MultModel.p_votes p') i) /\
  (MultSpec.rejected_like st ->
   exists st', MultModel.query_status s' b' id = Ok st' /\ MultSpec.rejected_like st').
Proof. exact (j_mult_final RolesModel.r_handle rpow rtot always_active RolesSpec.rreached role_stable role_app role_sane _ _ _ _ _ _ _ _ _ _ _ _). Qed.
Lemma c96_role_cond_tally b s t l id ta p :
  cond_on_role b s t l -> CondModel.s_tallies s !! id = Some ta -> CondModel.s_props s !! id = Some p ->
  CondModel.p_total p = rtot t (CondModel.t_start ta) /\
  msum (fun (k : Z * addr) _ => if k.1 =? id then rpow t k.2 (CondModel.t_start ta) else 0)
    (CondModel.s_votes s) + CondModel.t_outstanding ta = CondModel.p_total p /\
  0 <= CondModel.t_outstanding ta /\
  forall x y, 0 <= x < CondModel.m_n (CondModel.t_m ta) -> 0 <= y < CondModel.m_n (CondModel.t_m ta) ->
    x <> y -> exists c, CondModel.get (CondModel.t_m ta) x y = Ok c /\
      CondSpec.val c =
      msum (fun (k : Z * addr) v => if k.1 =? id then rpow t k.2 (CondModel.t_start ta) * CondSpec.sg v x y else 0)
        (CondModel.s_votes s).
Proof. exact (j_cond_tally RolesModel.r_handle rpow rtot always_active RolesSpec.rreached role_stable role_app role_sane rheld rheld_all role_reported _ _ _ _ _ _ _). Qed.
Lemma c96_role_cond_electorate b1 s1 t1 l1 b' b2 s2 t2 l2 id ta p :
  cond_on_role b1 s1 t1 l1 -> block_le b1 b' -> cond_on_role_later b' s1 t1 b2 s2 t2 l2 ->
  CondModel.s_tallies s2 !! id = Some ta -> CondModel.s_props s2 !! id = Some p ->
  height b1 < CondModel.t_start ta <= height b' ->
  CondModel.p_total p = rheld_all t1 /\
  forall x y, 0 <= x < CondModel.m_n (CondModel.t_m ta) -> 0 <= y < CondModel.m_n (CondModel.t_m ta) ->
    x <> y -> exists c, CondModel.get (CondModel.t_m ta) x y = Ok c /\
      CondSpec.val c =
      msum (fun (k : Z * addr) v => if k.1 =? id then rheld t1 k.2 * CondSpec.sg v x y else 0)
        (CondModel.s_votes s2).
Proof. exact (j_cond_electorate RolesModel.r_handle rpow rtot always_active RolesSpec.rreached role_stable role_app role_sane rheld rheld_all role_reported _ _ _ _ _ _ _ _ _ _ _ _). Qed.
Lemma c96_role_cond_same b s t l b' t' l' bx a m :
  cond_on_role b s t l -> leads RolesModel.r_handle b t b' t' l' -> cnot_propose m ->
  CondModel.handle (cond_ask rpow rtot t') s bx a m = CondModel.handle (cond_ask rpow rtot t) s bx a m.
Proof. exact (j_cond_same RolesModel.r_handle rpow rtot always_active RolesSpec.rreached role_stable role_app role_sane rheld rheld_all role_reported _ _ _ _ _ _ _ _ _ _). Qed.
Lemma c96_onft_single_tally d b s t l id p :
  single_on_onft d b s t l -> SingleModel.s_props s !! id = Some p ->
  (forall v, SingleSpec.tally_of p v = SingleSpec.ballot_total s id v) /\
  (forall a bl, SingleModel.s_ballots s !! (id, a) = Some bl ->
     SingleModel.bl_power bl = opow t a (SingleModel.p_start p) /\ 0 < SingleModel.bl_power bl) /\
  SingleModel.p_total p = otot t (SingleModel.p_start p) /\
  SingleSpec.tally_of p Yes + SingleSpec.tally_of p No + SingleSpec.tally_of p Abstain
    <= SingleModel.p_total p.
Proof. exact (j_single_tally OnftModel.f_handle opow otot oact OnftSpec.freached onft_stable onft_app onft_sane _ _ _ _ _ _ _). Qed.
Lemma c96_onft_single_electorate d b1 s1 t1 l1 b' b2 s2 t2 l2 id p :
  single_on_onft d b1 s1 t1 l1 -> block_le b1 b' -> single_on_onft_later d b' s1 t1 b2 s2 t2 l2 ->
  SingleModel.s_props s2 !! id = Some p ->
  height b1 < SingleModel.p_start p <= height b' ->
  SingleModel.p_total p = oheld_all t1 /\
  (forall a, opow t2 a (SingleModel.p_start p) = oheld t1 a) /\
  forall a bl, SingleModel.s_ballots s2 !! (id, a) = Some bl ->
    SingleModel.bl_power bl = oheld t1 a.
Proof. exact (j_single_electorate OnftModel.f_handle opow otot oact OnftSpec.freached onft_stable onft_app onft_sane oheld oheld_all onft_reported _ _ _ _ _ _ _ _ _ _ _ _). Qed.
Lemma c96_onft_single_same d b s t l b' t' l' bx a m :
  single_on_onft d b s t l -> leads OnftModel.f_handle b t b' t' l' -> not_propose m ->
  SingleModel.handle (single_ask opow otot t') s bx a m = SingleModel.handle (single_ask opow otot t) s bx a m.
Proof. exact (j_single_same OnftModel.f_handle opow otot oact OnftSpec.freached onft_stable onft_app onft_sane oheld oheld_all onft_reported _ _ _ _ _ _ _ _ _ _ _). Qed.
Lemma c96_onft_single_rejected d b s t l id st b' s' t' l' :
  single_on_onft d b s t l -> single_on_onft_later d b s t b' s' t' l' ->
  SingleModel.query_status s b id = Ok st -> SingleSpec.rejected_like st ->
  exists st', SingleModel.query_status s' b' id = Ok st' /\ SingleSpec.rejected_like st'.
Proof. exact (j_single_rejected OnftModel.f_handle opow otot oact OnftSpec.freached onft_stable onft_app onft_sane _ _ _ _ _ _ _ _ _ _ _). Qed.
Lemma c96_onft_mult_tally d b s t l id p :
  mult_on_onft d b s t l -> MultModel.s_props s !! id = Some p ->
  (forall v, MultSpec.tally_of p v = MultSpec.ballot_total s id v) /\
  (forall a bl, MultModel.s_ballots s !! (id, a) = Some bl ->
     MultModel.bl_power bl = opow t a (MultModel.p_start p) /\ 0 < MultModel.bl_power bl) /\
  MultModel.p_total p = otot t (MultModel.p_start p) /\
  MultSpec.wsum (MultModel.p_votes p) <= MultModel.p_total p.
Proof. exact (j_mult_tally OnftModel.f_handle opow otot oact OnftSpec.freached onft_stable onft_app onft_sane _ _ _ _ _ _ _). Qed.
Lemma c96_onft_mult_electorate d b1 s1 t1 l1 b' b2 s2 t2 l2 id p :
  mult_on_onft d b1 s1 t1 l1 -> block_le b1 b' -> mult_on_onft_later d b' s1 t1 b2 s2 t2 l2 ->
  MultModel.s_props s2 !! id = Some p ->
  height b1 < MultModel.p_start p <= height b' ->
  MultModel.p_total p = oheld_all t1 /\
  (forall a, opow t2 a (MultModel.p_start p) = oheld t1 a) /\
  forall a bl, MultModel.s_ballots s2 !! (id, a) = Some bl ->
    MultModel.bl_power bl = oheld t1 a.
Proof. exact (j_mult_electorate OnftModel.f_handle opow otot oact OnftSpec.freached onft_stable onft_app onft_sane oheld oheld_all onft_reported _ _ _ _ _ _ _ _ _ _ _ _). Qed.
Lemma c96_onft_mult_same d b s t l b' t' l' bx a m :
  mult_on_onft d b s t l -> leads OnftModel.f_handle b t b' t' l' -> mnot_propose m ->
  MultModel.handle (mult_ask opow otot t') s bx a m = MultModel.handle (mult_ask opow otot t) s bx a m.
Proof. exact (j_mult_same OnftModel.f_handle opow otot oact OnftSpec.freached onft_stable onft_app onft_sane oheld oheld_all onft_reported _ _ _ _ _ _ _ _ _ _ _). Qed.
Lemma c96_onft_mult_final d b s t l id p st b' s' t' l' :
  mult_on_onft d b s t l -> mult_on_onft_later d b s t b' s' t' l' ->
  MultModel.s_props s !! id = Some p -> MultModel.query_status s b id = Ok st ->
  (MultSpec.passed_like st ->
   exists st' p' i, MultModel.query_status s' b' id = Ok st' /\
     (MultSpec.passed_like st' \/ st' = Vetoed) /\ MultModel.s_props s' !! id = Some p' /\
     MultSpec.chosen (MultModel.p_quorum p) (MultModel.p_total p) (MultModel.p_votes p) i /\
     MultSpec.chosen (MultModel.p_quorum p) (MultModel.p_total p) (MultModel.p_votes p') i) /\
  (MultSpec.rejected_like st ->
   exists st', MultModel.query_status s' b' id = Ok st' /\ MultSpec.rejected_like st').
Proof. exact (j_mult_final OnftModel.f_handle opow otot oact OnftSpec.freached onft_stable onft_app onft_sane _ _ _ _ _ _ _ _ _ _ _ _). Qed.
Lemma c96_onft_cond_tally b s t l id ta p :
  cond_on_onft b s t l -> CondModel.s_tallies s !! id = Some ta -> CondModel.s_props s !! id = Some p ->
  CondModel.p_total p = otot t (CondModel.t_start ta) /\
  msum (fun (k : Z * addr) _ => if k.1 =? id then opow t k.2 (CondModel.t_start ta) else 0)
    (CondModel.s_votes s) + CondModel.t_outstanding ta = CondModel.p_total p /\
  0 <= CondModel.t_outstanding ta /\
  forall x y, 0 <= x < CondModel.m_n (CondModel.t_m ta) -> 0 <= y < CondModel.m_n (CondModel.t_m ta) ->
    x <> y -> exists c, CondModel.get (CondModel.t_m ta) x y = Ok c /\
      CondSpec.val c =
      msum (fun (k : Z * addr) v => if k.1 =? id then opow t k.2 (CondModel.t_start ta) * CondSpec.sg v x y else 0)
        (CondModel.s_votes s).
Proof. exact (j_cond_tally OnftModel.f_handle opow otot oact OnftSpec.freached onft_stable onft_app onft_sane oheld oheld_all onft_reported _ _ _ _ _ _ _). Qed.
Lemma c96_onft_cond_electorate b1 s1 t1 l1 b' b2 s2 t2 l2 id ta p :
  cond_on_onft b1 s1 t1 l1 -> block_le b1 b' -> cond_on_onft_later b' s1 t1 b2 s2 t2 l2 ->
  CondModel.s_tallies s2 !! id = Some ta -> CondModel.s_props s2 !! id = Some p ->
  height b1 < CondModel.t_start ta <= height b' ->
  CondModel.p_total p = oheld_all t1 /\
  forall x y, 0 <= x < CondModel.m_n (CondModel.t_m ta) -> 0 <= y < CondModel.m_n (CondModel.t_m ta) ->
    x <> y -> exists c, CondModel.get (CondModel.t_m ta) x y = Ok c /\
      CondSpec.val c =
      msum (fun (k : Z * addr) v => if k.1 =? id then oheld t1 k.2 * CondSpec.sg v x y else 0)
        (CondModel.s_votes s2).
Proof. exact (j_cond_electorate OnftModel.f_handle opow otot oact OnftSpec.freached onft_stable onft_app onft_sane oheld oheld_all onft_reported _ _ _ _ _ _ _ _ _ _ _ _). Qed.
Lemma c96_onft_cond_same b s t l b' t' l' bx a m :
  cond_on_onft b s t l -> leads OnftModel.f_handle b t b' t' l' -> cnot_propose m ->
  CondModel.handle (cond_ask opow otot t') s bx a m = CondModel.handle (cond_ask opow otot t) s bx a m.
Proof. exact (j_cond_same OnftModel.f_handle opow otot oact OnftSpec.freached onft_stable onft_app onft_sane oheld oheld_all onft_reported _ _ _ _ _ _ _ _ _ _). Qed.
