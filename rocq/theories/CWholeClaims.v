(** Claims about a Condorcet DAO with each of the voting modules. *)
From stdpp Require Import gmap strings.
From Verif Require Import Base BaseProofs Exec ExecProofs Plain PlainProofs VotingModel VotingSpec
  CondModel CondSpec CoreModel CoreSpec CDaoModel CDaoSpec JointModel JointSpec
  JointClaims ElectSpec ElectProofs CWholeModel CWholeSpec CWholeProofs.
From Verif Require TokModel TokSpec TokProofs StakeModel StakeSpec StakeProofs NftModel NftSpec
  NftProofs GrpModel GrpSpec RolesModel RolesSpec OnftModel OnftSpec.

(** A history of the DAO with that module: [leads] from a state to another, [reached] from a
    start. *)
Notation tok_leads := (wleads TokModel.t_handle tpow ttot).
Notation tok_start := (wstart TokSpec.treached).
Notation tok_reached := (wreached TokModel.t_handle tpow ttot TokSpec.treached).
Notation cw20_leads := (wleads StakeModel.k_handle kpow ktot).
Notation cw20_start := (wstart StakeSpec.kreached).
Notation cw20_reached := (wreached StakeModel.k_handle kpow ktot StakeSpec.kreached).
Notation nft_leads := (wleads NftModel.n_handle npow ntot).
Notation nft_start := (wstart NftSpec.nreached).
Notation nft_reached := (wreached NftModel.n_handle npow ntot NftSpec.nreached).
Notation grp_leads := (wleads GrpModel.g_handle gpow gtot).
Notation grp_start := (wstart GrpSpec.greached).
Notation grp_reached := (wreached GrpModel.g_handle gpow gtot GrpSpec.greached).
Notation role_leads := (wleads RolesModel.r_handle rpow rtot).
Notation role_start := (wstart RolesSpec.rreached).
Notation role_reached := (wreached RolesModel.r_handle rpow rtot RolesSpec.rreached).
Notation onft_leads := (wleads OnftModel.f_handle opow otot).
Notation onft_start := (wstart OnftSpec.freached).
Notation onft_reached := (wreached OnftModel.f_handle opow otot OnftSpec.freached).

Lemma c128_tok_history for_v K b s l :
  tok_reached for_v K b s l ->
  exists b1, block_le b1 b /\ dreached K (cond_ask tpow ttot (w_v s)) b1 (w_dao s) (dao_log l).
Proof. exact (whole_reached TokModel.t_handle tpow ttot TokSpec.treached tok_stable TokProofs.treached_app tok_sane for_v K b s l). Qed.
Lemma c128_tok_backed for_v K b s l e id msgs :
  tok_reached for_v K b s l -> e ∈ l -> wcarries e id msgs ->
  exists p tl w, s_props (d_prop (w_dao (we_pre e))) !! id = Some p /\
    s_tallies (d_prop (w_dao (we_pre e))) !! id = Some tl /\ p_choices p !! Z.to_nat w = Some msgs /\
    backed tpow ttot (w_v s) (d_prop (w_dao (we_pre e))) id p (t_start tl) w.
Proof. exact (whole_backed TokModel.t_handle tpow ttot TokSpec.treached tok_stable TokProofs.treached_app tok_sane TokSpec.tstaked TokSpec.ttotal tok_reported for_v K b s l e id msgs). Qed.
Lemma c128_tok_stakes for_v K b0 s0 b1 s1 l1 b' b s l2 h :
  tok_start b0 s0 -> tok_leads for_v K b0 s0 b1 s1 l1 -> block_le b1 b' ->
  tok_leads for_v K b' s1 b s l2 -> height b1 < h <= height b' ->
  (forall a, tpow (w_v s) a h = TokSpec.tstaked (w_v s1) a) /\ ttot (w_v s) h = TokSpec.ttotal (w_v s1).
Proof. exact (whole_stakes TokModel.t_handle tpow ttot TokSpec.treached tok_stable TokProofs.treached_app tok_sane TokSpec.tstaked TokSpec.ttotal tok_reported for_v K b0 s0 b1 s1 l1 b' b s l2 h). Qed.
Lemma c128_tok_powerless for_v K b0 s0 b s l C :
  tok_start b0 s0 -> sovereign (w_dao s0) -> tok_leads for_v K b0 s0 b s l ->
  short tpow ttot (w_v s) b (c_quorum (s_cfg (d_prop (w_dao s0)))) C ->
  (forall e, e ∈ l -> others_decline C (d_prop (w_dao (we_pre e)))) ->
  governed (w_dao s) = governed (w_dao s0) /\
  forall e d, e ∈ l -> dao_entry e = Some d -> act d = None.
Proof. exact (whole_powerless TokModel.t_handle tpow ttot TokSpec.treached tok_stable TokProofs.treached_app tok_sane TokSpec.tstaked TokSpec.ttotal tok_reported for_v K b0 s0 b s l C). Qed.

Lemma c128_cw20_history for_v K b s l :
  cw20_reached for_v K b s l ->
  exists b1, block_le b1 b /\ dreached K (cond_ask kpow ktot (w_v s)) b1 (w_dao s) (dao_log l).
Proof. exact (whole_reached StakeModel.k_handle kpow ktot StakeSpec.kreached cw20_stable StakeProofs.kreached_app cw20_sane for_v K b s l). Qed.
Lemma c128_cw20_backed for_v K b s l e id msgs :
  cw20_reached for_v K b s l -> e ∈ l -> wcarries e id msgs ->
  exists p tl w, s_props (d_prop (w_dao (we_pre e))) !! id = Some p /\
    s_tallies (d_prop (w_dao (we_pre e))) !! id = Some tl /\ p_choices p !! Z.to_nat w = Some msgs /\
    backed kpow ktot (w_v s) (d_prop (w_dao (we_pre e))) id p (t_start tl) w.
Proof. exact (whole_backed StakeModel.k_handle kpow ktot StakeSpec.kreached cw20_stable StakeProofs.kreached_app cw20_sane StakeSpec.staked StakeSpec.total_staked cw20_reported for_v K b s l e id msgs). Qed.
Lemma c128_cw20_stakes for_v K b0 s0 b1 s1 l1 b' b s l2 h :
  cw20_start b0 s0 -> cw20_leads for_v K b0 s0 b1 s1 l1 -> block_le b1 b' ->
  cw20_leads for_v K b' s1 b s l2 -> height b1 < h <= height b' ->
  (forall a, kpow (w_v s) a h = StakeSpec.staked (w_v s1) a) /\ ktot (w_v s) h = StakeSpec.total_staked (w_v s1).
Proof. exact (whole_stakes StakeModel.k_handle kpow ktot StakeSpec.kreached cw20_stable StakeProofs.kreached_app cw20_sane StakeSpec.staked StakeSpec.total_staked cw20_reported for_v K b0 s0 b1 s1 l1 b' b s l2 h). Qed.
Lemma c128_cw20_powerless for_v K b0 s0 b s l C :
  cw20_start b0 s0 -> sovereign (w_dao s0) -> cw20_leads for_v K b0 s0 b s l ->
  short kpow ktot (w_v s) b (c_quorum (s_cfg (d_prop (w_dao s0)))) C ->
  (forall e, e ∈ l -> others_decline C (d_prop (w_dao (we_pre e)))) ->
  governed (w_dao s) = governed (w_dao s0) /\
  forall e d, e ∈ l -> dao_entry e = Some d -> act d = None.
Proof. exact (whole_powerless StakeModel.k_handle kpow ktot StakeSpec.kreached cw20_stable StakeProofs.kreached_app cw20_sane StakeSpec.staked StakeSpec.total_staked cw20_reported for_v K b0 s0 b s l C). Qed.

Lemma c128_nft_history for_v K b s l :
  nft_reached for_v K b s l ->
  exists b1, block_le b1 b /\ dreached K (cond_ask npow ntot (w_v s)) b1 (w_dao s) (dao_log l).
Proof. exact (whole_reached NftModel.n_handle npow ntot NftSpec.nreached nft_stable NftProofs.nreached_app nft_sane for_v K b s l). Qed.
Lemma c128_nft_backed for_v K b s l e id msgs :
  nft_reached for_v K b s l -> e ∈ l -> wcarries e id msgs ->
  exists p tl w, s_props (d_prop (w_dao (we_pre e))) !! id = Some p /\
    s_tallies (d_prop (w_dao (we_pre e))) !! id = Some tl /\ p_choices p !! Z.to_nat w = Some msgs /\
    backed npow ntot (w_v s) (d_prop (w_dao (we_pre e))) id p (t_start tl) w.
Proof. exact (whole_backed NftModel.n_handle npow ntot NftSpec.nreached nft_stable NftProofs.nreached_app nft_sane NftSpec.ncount NftSpec.ncount_all nft_reported for_v K b s l e id msgs). Qed.
Lemma c128_nft_stakes for_v K b0 s0 b1 s1 l1 b' b s l2 h :
  nft_start b0 s0 -> nft_leads for_v K b0 s0 b1 s1 l1 -> block_le b1 b' ->
  nft_leads for_v K b' s1 b s l2 -> height b1 < h <= height b' ->
  (forall a, npow (w_v s) a h = NftSpec.ncount (w_v s1) a) /\ ntot (w_v s) h = NftSpec.ncount_all (w_v s1).
Proof. exact (whole_stakes NftModel.n_handle npow ntot NftSpec.nreached nft_stable NftProofs.nreached_app nft_sane NftSpec.ncount NftSpec.ncount_all nft_reported for_v K b0 s0 b1 s1 l1 b' b s l2 h). Qed.
Lemma c128_nft_powerless for_v K b0 s0 b s l C :
  nft_start b0 s0 -> sovereign (w_dao s0) -> nft_leads for_v K b0 s0 b s l ->
  short npow ntot (w_v s) b (c_quorum (s_cfg (d_prop (w_dao s0)))) C ->
  (forall e, e ∈ l -> others_decline C (d_prop (w_dao (we_pre e)))) ->
  governed (w_dao s) = governed (w_dao s0) /\
  forall e d, e ∈ l -> dao_entry e = Some d -> act d = None.
Proof. exact (whole_powerless NftModel.n_handle npow ntot NftSpec.nreached nft_stable NftProofs.nreached_app nft_sane NftSpec.ncount NftSpec.ncount_all nft_reported for_v K b0 s0 b s l C). Qed.

Lemma c128_grp_history for_v K b s l :
  grp_reached for_v K b s l ->
  exists b1, block_le b1 b /\ dreached K (cond_ask gpow gtot (w_v s)) b1 (w_dao s) (dao_log l).
Proof. exact (whole_reached GrpModel.g_handle gpow gtot GrpSpec.greached grp_stable grp_app grp_sane for_v K b s l). Qed.
Lemma c128_grp_backed for_v K b s l e id msgs :
  grp_reached for_v K b s l -> e ∈ l -> wcarries e id msgs ->
  exists p tl w, s_props (d_prop (w_dao (we_pre e))) !! id = Some p /\
    s_tallies (d_prop (w_dao (we_pre e))) !! id = Some tl /\ p_choices p !! Z.to_nat w = Some msgs /\
    backed gpow gtot (w_v s) (d_prop (w_dao (we_pre e))) id p (t_start tl) w.
Proof. exact (whole_backed GrpModel.g_handle gpow gtot GrpSpec.greached grp_stable grp_app grp_sane gheld gheld_all grp_reported for_v K b s l e id msgs). Qed.
Lemma c128_grp_stakes for_v K b0 s0 b1 s1 l1 b' b s l2 h :
  grp_start b0 s0 -> grp_leads for_v K b0 s0 b1 s1 l1 -> block_le b1 b' ->
  grp_leads for_v K b' s1 b s l2 -> height b1 < h <= height b' ->
  (forall a, gpow (w_v s) a h = gheld (w_v s1) a) /\ gtot (w_v s) h = gheld_all (w_v s1).
Proof. exact (whole_stakes GrpModel.g_handle gpow gtot GrpSpec.greached grp_stable grp_app grp_sane gheld gheld_all grp_reported for_v K b0 s0 b1 s1 l1 b' b s l2 h). Qed.
Lemma c128_grp_powerless for_v K b0 s0 b s l C :
  grp_start b0 s0 -> sovereign (w_dao s0) -> grp_leads for_v K b0 s0 b s l ->
  short gpow gtot (w_v s) b (c_quorum (s_cfg (d_prop (w_dao s0)))) C ->
  (forall e, e ∈ l -> others_decline C (d_prop (w_dao (we_pre e)))) ->
  governed (w_dao s) = governed (w_dao s0) /\
  forall e d, e ∈ l -> dao_entry e = Some d -> act d = None.
Proof. exact (whole_powerless GrpModel.g_handle gpow gtot GrpSpec.greached grp_stable grp_app grp_sane gheld gheld_all grp_reported for_v K b0 s0 b s l C). Qed.

Lemma c128_role_history for_v K b s l :
  role_reached for_v K b s l ->
  exists b1, block_le b1 b /\ dreached K (cond_ask rpow rtot (w_v s)) b1 (w_dao s) (dao_log l).
Proof. exact (whole_reached RolesModel.r_handle rpow rtot RolesSpec.rreached role_stable role_app role_sane for_v K b s l). Qed.
Lemma c128_role_backed for_v K b s l e id msgs :
  role_reached for_v K b s l -> e ∈ l -> wcarries e id msgs ->
  exists p tl w, s_props (d_prop (w_dao (we_pre e))) !! id = Some p /\
    s_tallies (d_prop (w_dao (we_pre e))) !! id = Some tl /\ p_choices p !! Z.to_nat w = Some msgs /\
    backed rpow rtot (w_v s) (d_prop (w_dao (we_pre e))) id p (t_start tl) w.
Proof. exact (whole_backed RolesModel.r_handle rpow rtot RolesSpec.rreached role_stable role_app role_sane rheld rheld_all role_reported for_v K b s l e id msgs). Qed.
Lemma c128_role_stakes for_v K b0 s0 b1 s1 l1 b' b s l2 h :
  role_start b0 s0 -> role_leads for_v K b0 s0 b1 s1 l1 -> block_le b1 b' ->
  role_leads for_v K b' s1 b s l2 -> height b1 < h <= height b' ->
  (forall a, rpow (w_v s) a h = rheld (w_v s1) a) /\ rtot (w_v s) h = rheld_all (w_v s1).
Proof. exact (whole_stakes RolesModel.r_handle rpow rtot RolesSpec.rreached role_stable role_app role_sane rheld rheld_all role_reported for_v K b0 s0 b1 s1 l1 b' b s l2 h). Qed.
Lemma c128_role_powerless for_v K b0 s0 b s l C :
  role_start b0 s0 -> sovereign (w_dao s0) -> role_leads for_v K b0 s0 b s l ->
  short rpow rtot (w_v s) b (c_quorum (s_cfg (d_prop (w_dao s0)))) C ->
  (forall e, e ∈ l -> others_decline C (d_prop (w_dao (we_pre e)))) ->
  governed (w_dao s) = governed (w_dao s0) /\
  forall e d, e ∈ l -> dao_entry e = Some d -> act d = None.
Proof. exact (whole_powerless RolesModel.r_handle rpow rtot RolesSpec.rreached role_stable role_app role_sane rheld rheld_all role_reported for_v K b0 s0 b s l C). Qed.

Lemma c128_onft_history for_v K b s l :
  onft_reached for_v K b s l ->
  exists b1, block_le b1 b /\ dreached K (cond_ask opow otot (w_v s)) b1 (w_dao s) (dao_log l).
Proof. exact (whole_reached OnftModel.f_handle opow otot OnftSpec.freached onft_stable onft_app onft_sane for_v K b s l). Qed.
Lemma c128_onft_backed for_v K b s l e id msgs :
  onft_reached for_v K b s l -> e ∈ l -> wcarries e id msgs ->
  exists p tl w, s_props (d_prop (w_dao (we_pre e))) !! id = Some p /\
    s_tallies (d_prop (w_dao (we_pre e))) !! id = Some tl /\ p_choices p !! Z.to_nat w = Some msgs /\
    backed opow otot (w_v s) (d_prop (w_dao (we_pre e))) id p (t_start tl) w.
Proof. exact (whole_backed OnftModel.f_handle opow otot OnftSpec.freached onft_stable onft_app onft_sane oheld oheld_all onft_reported for_v K b s l e id msgs). Qed.
Lemma c128_onft_stakes for_v K b0 s0 b1 s1 l1 b' b s l2 h :
  onft_start b0 s0 -> onft_leads for_v K b0 s0 b1 s1 l1 -> block_le b1 b' ->
  onft_leads for_v K b' s1 b s l2 -> height b1 < h <= height b' ->
  (forall a, opow (w_v s) a h = oheld (w_v s1) a) /\ otot (w_v s) h = oheld_all (w_v s1).
Proof. exact (whole_stakes OnftModel.f_handle opow otot OnftSpec.freached onft_stable onft_app onft_sane oheld oheld_all onft_reported for_v K b0 s0 b1 s1 l1 b' b s l2 h). Qed.
Lemma c128_onft_powerless for_v K b0 s0 b s l C :
  onft_start b0 s0 -> sovereign (w_dao s0) -> onft_leads for_v K b0 s0 b s l ->
  short opow otot (w_v s) b (c_quorum (s_cfg (d_prop (w_dao s0)))) C ->
  (forall e, e ∈ l -> others_decline C (d_prop (w_dao (we_pre e)))) ->
  governed (w_dao s) = governed (w_dao s0) /\
  forall e d, e ∈ l -> dao_entry e = Some d -> act d = None.
Proof. exact (whole_powerless OnftModel.f_handle opow otot OnftSpec.freached onft_stable onft_app onft_sane oheld oheld_all onft_reported for_v K b0 s0 b s l C). Qed.

(** The same for every voting module. *)
Lemma c128_calls {T MV XV} (handle_v : T -> block -> addr -> MV -> result (T * list XV)) power total for_v K
    b0 s0 b s l e :
  wleads handle_v power total for_v K b0 s0 b s l -> e ∈ l -> v_lawful handle_v for_v K e.
Proof. exact (whole_lawful handle_v power total for_v K b0 s0 b s l e). Qed.
