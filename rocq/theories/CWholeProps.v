(** C128: a Condorcet DAO with its voting module. *)
From stdpp Require Import gmap strings.
From Verif Require Import Base BaseProofs Exec Plain PlainProofs VotingModel VotingSpec
  CondModel CondSpec CondExamples CoreModel CoreSpec CDaoModel CDaoSpec CDaoProofs CDaoExamples
  StoreModel JointModel JointSpec ElectSpec CWholeModel CWholeSpec CWholeProofs CWholeClaims CWholeExamples.
From Verif Require TokModel TokSpec TokExamples StakeModel StakeSpec NftModel NftSpec GrpModel GrpSpec
  RolesModel RolesSpec OnftModel OnftSpec.

(** * C128 *)
(** Staked native tokens. *)
Theorem C128_tok_history for_v K b s l :
  tok_reached for_v K b s l ->
  exists b1, block_le b1 b /\ dreached K (cond_ask tpow ttot (w_v s)) b1 (w_dao s) (dao_log l).
Proof. exact (c128_tok_history for_v K b s l). Qed.
Print Assumptions C128_tok_history.
Theorem C128_tok_backed for_v K b s l e id msgs :
  tok_reached for_v K b s l -> e ∈ l -> wcarries e id msgs ->
  exists p tl w, s_props (d_prop (w_dao (we_pre e))) !! id = Some p /\
    s_tallies (d_prop (w_dao (we_pre e))) !! id = Some tl /\ p_choices p !! Z.to_nat w = Some msgs /\
    backed tpow ttot (w_v s) (d_prop (w_dao (we_pre e))) id p (t_start tl) w.
Proof. exact (c128_tok_backed for_v K b s l e id msgs). Qed.
Print Assumptions C128_tok_backed.
Theorem C128_tok_stakes for_v K b0 s0 b1 s1 l1 b' b s l2 h :
  tok_start b0 s0 -> tok_leads for_v K b0 s0 b1 s1 l1 -> block_le b1 b' ->
  tok_leads for_v K b' s1 b s l2 -> height b1 < h <= height b' ->
  (forall a, tpow (w_v s) a h = TokSpec.tstaked (w_v s1) a) /\ ttot (w_v s) h = TokSpec.ttotal (w_v s1).
Proof. exact (c128_tok_stakes for_v K b0 s0 b1 s1 l1 b' b s l2 h). Qed.
Print Assumptions C128_tok_stakes.
(** Missing: that it is enough for [C] alone to be short of the quorum, see
    [C128_alone_refuted]. *)
Theorem C128_tok_powerless_partial for_v K b0 s0 b s l C :
  tok_start b0 s0 -> sovereign (w_dao s0) -> tok_leads for_v K b0 s0 b s l ->
  short tpow ttot (w_v s) b (c_quorum (s_cfg (d_prop (w_dao s0)))) C ->
  (forall e, e ∈ l -> others_decline C (d_prop (w_dao (we_pre e)))) ->
  governed (w_dao s) = governed (w_dao s0) /\
  forall e d, e ∈ l -> dao_entry e = Some d -> act d = None.
Proof. exact (c128_tok_powerless for_v K b0 s0 b s l C). Qed.
Print Assumptions C128_tok_powerless_partial.
(** Staked cw20 tokens. *)
Theorem C128_cw20_history for_v K b s l :
  cw20_reached for_v K b s l ->
  exists b1, block_le b1 b /\ dreached K (cond_ask kpow ktot (w_v s)) b1 (w_dao s) (dao_log l).
Proof. exact (c128_cw20_history for_v K b s l). Qed.
Print Assumptions C128_cw20_history.
Theorem C128_cw20_backed for_v K b s l e id msgs :
  cw20_reached for_v K b s l -> e ∈ l -> wcarries e id msgs ->
  exists p tl w, s_props (d_prop (w_dao (we_pre e))) !! id = Some p /\
    s_tallies (d_prop (w_dao (we_pre e))) !! id = Some tl /\ p_choices p !! Z.to_nat w = Some msgs /\
    backed kpow ktot (w_v s) (d_prop (w_dao (we_pre e))) id p (t_start tl) w.
Proof. exact (c128_cw20_backed for_v K b s l e id msgs). Qed.
Print Assumptions C128_cw20_backed.
Theorem C128_cw20_stakes for_v K b0 s0 b1 s1 l1 b' b s l2 h :
  cw20_start b0 s0 -> cw20_leads for_v K b0 s0 b1 s1 l1 -> block_le b1 b' ->
  cw20_leads for_v K b' s1 b s l2 -> height b1 < h <= height b' ->
  (forall a, kpow (w_v s) a h = StakeSpec.staked (w_v s1) a) /\ ktot (w_v s) h = StakeSpec.total_staked (w_v s1).
Proof. exact (c128_cw20_stakes for_v K b0 s0 b1 s1 l1 b' b s l2 h). Qed.
Print Assumptions C128_cw20_stakes.
(** Missing: that it is enough for [C] alone to be short of the quorum, see
    [C128_alone_refuted]. *)
Theorem C128_cw20_powerless_partial for_v K b0 s0 b s l C :
  cw20_start b0 s0 -> sovereign (w_dao s0) -> cw20_leads for_v K b0 s0 b s l ->
  short kpow ktot (w_v s) b (c_quorum (s_cfg (d_prop (w_dao s0)))) C ->
  (forall e, e ∈ l -> others_decline C (d_prop (w_dao (we_pre e)))) ->
  governed (w_dao s) = governed (w_dao s0) /\
  forall e d, e ∈ l -> dao_entry e = Some d -> act d = None.
Proof. exact (c128_cw20_powerless for_v K b0 s0 b s l C). Qed.
Print Assumptions C128_cw20_powerless_partial.
(** Staked NFTs. *)
Theorem C128_nft_history for_v K b s l :
  nft_reached for_v K b s l ->
  exists b1, block_le b1 b /\ dreached K (cond_ask npow ntot (w_v s)) b1 (w_dao s) (dao_log l).
Proof. exact (c128_nft_history for_v K b s l). Qed.
Print Assumptions C128_nft_history.
Theorem C128_nft_backed for_v K b s l e id msgs :
  nft_reached for_v K b s l -> e ∈ l -> wcarries e id msgs ->
  exists p tl w, s_props (d_prop (w_dao (we_pre e))) !! id = Some p /\
    s_tallies (d_prop (w_dao (we_pre e))) !! id = Some tl /\ p_choices p !! Z.to_nat w = Some msgs /\
    backed npow ntot (w_v s) (d_prop (w_dao (we_pre e))) id p (t_start tl) w.
Proof. exact (c128_nft_backed for_v K b s l e id msgs). Qed.
Print Assumptions C128_nft_backed.
Theorem C128_nft_stakes for_v K b0 s0 b1 s1 l1 b' b s l2 h :
  nft_start b0 s0 -> nft_leads for_v K b0 s0 b1 s1 l1 -> block_le b1 b' ->
  nft_leads for_v K b' s1 b s l2 -> height b1 < h <= height b' ->
  (forall a, npow (w_v s) a h = NftSpec.ncount (w_v s1) a) /\ ntot (w_v s) h = NftSpec.ncount_all (w_v s1).
Proof. exact (c128_nft_stakes for_v K b0 s0 b1 s1 l1 b' b s l2 h). Qed.
Print Assumptions C128_nft_stakes.
(** Missing: that it is enough for [C] alone to be short of the quorum, see
    [C128_alone_refuted]. *)
Theorem C128_nft_powerless_partial for_v K b0 s0 b s l C :
  nft_start b0 s0 -> sovereign (w_dao s0) -> nft_leads for_v K b0 s0 b s l ->
  short npow ntot (w_v s) b (c_quorum (s_cfg (d_prop (w_dao s0)))) C ->
  (forall e, e ∈ l -> others_decline C (d_prop (w_dao (we_pre e)))) ->
  governed (w_dao s) = governed (w_dao s0) /\
  forall e d, e ∈ l -> dao_entry e = Some d -> act d = None.
Proof. exact (c128_nft_powerless for_v K b0 s0 b s l C). Qed.
Print Assumptions C128_nft_powerless_partial.
(** A cw4 group. *)
Theorem C128_grp_history for_v K b s l :
  grp_reached for_v K b s l ->
  exists b1, block_le b1 b /\ dreached K (cond_ask gpow gtot (w_v s)) b1 (w_dao s) (dao_log l).
Proof. exact (c128_grp_history for_v K b s l). Qed.
Print Assumptions C128_grp_history.
Theorem C128_grp_backed for_v K b s l e id msgs :
  grp_reached for_v K b s l -> e ∈ l -> wcarries e id msgs ->
  exists p tl w, s_props (d_prop (w_dao (we_pre e))) !! id = Some p /\
    s_tallies (d_prop (w_dao (we_pre e))) !! id = Some tl /\ p_choices p !! Z.to_nat w = Some msgs /\
    backed gpow gtot (w_v s) (d_prop (w_dao (we_pre e))) id p (t_start tl) w.
Proof. exact (c128_grp_backed for_v K b s l e id msgs). Qed.
Print Assumptions C128_grp_backed.
Theorem C128_grp_stakes for_v K b0 s0 b1 s1 l1 b' b s l2 h :
  grp_start b0 s0 -> grp_leads for_v K b0 s0 b1 s1 l1 -> block_le b1 b' ->
  grp_leads for_v K b' s1 b s l2 -> height b1 < h <= height b' ->
  (forall a, gpow (w_v s) a h = gheld (w_v s1) a) /\ gtot (w_v s) h = gheld_all (w_v s1).
Proof. exact (c128_grp_stakes for_v K b0 s0 b1 s1 l1 b' b s l2 h). Qed.
Print Assumptions C128_grp_stakes.
(** Missing: that it is enough for [C] alone to be short of the quorum, see
    [C128_alone_refuted]. *)
Theorem C128_grp_powerless_partial for_v K b0 s0 b s l C :
  grp_start b0 s0 -> sovereign (w_dao s0) -> grp_leads for_v K b0 s0 b s l ->
  short gpow gtot (w_v s) b (c_quorum (s_cfg (d_prop (w_dao s0)))) C ->
  (forall e, e ∈ l -> others_decline C (d_prop (w_dao (we_pre e)))) ->
  governed (w_dao s) = governed (w_dao s0) /\
  forall e d, e ∈ l -> dao_entry e = Some d -> act d = None.
Proof. exact (c128_grp_powerless for_v K b0 s0 b s l C). Qed.
Print Assumptions C128_grp_powerless_partial.
(** Role tokens. *)
Theorem C128_role_history for_v K b s l :
  role_reached for_v K b s l ->
  exists b1, block_le b1 b /\ dreached K (cond_ask rpow rtot (w_v s)) b1 (w_dao s) (dao_log l).
Proof. exact (c128_role_history for_v K b s l). Qed.
Print Assumptions C128_role_history.
Theorem C128_role_backed for_v K b s l e id msgs :
  role_reached for_v K b s l -> e ∈ l -> wcarries e id msgs ->
  exists p tl w, s_props (d_prop (w_dao (we_pre e))) !! id = Some p /\
    s_tallies (d_prop (w_dao (we_pre e))) !! id = Some tl /\ p_choices p !! Z.to_nat w = Some msgs /\
    backed rpow rtot (w_v s) (d_prop (w_dao (we_pre e))) id p (t_start tl) w.
Proof. exact (c128_role_backed for_v K b s l e id msgs). Qed.
Print Assumptions C128_role_backed.
Theorem C128_role_stakes for_v K b0 s0 b1 s1 l1 b' b s l2 h :
  role_start b0 s0 -> role_leads for_v K b0 s0 b1 s1 l1 -> block_le b1 b' ->
  role_leads for_v K b' s1 b s l2 -> height b1 < h <= height b' ->
  (forall a, rpow (w_v s) a h = rheld (w_v s1) a) /\ rtot (w_v s) h = rheld_all (w_v s1).
Proof. exact (c128_role_stakes for_v K b0 s0 b1 s1 l1 b' b s l2 h). Qed.
Print Assumptions C128_role_stakes.
(** Missing: that it is enough for [C] alone to be short of the quorum, see
    [C128_alone_refuted]. *)
Theorem C128_role_powerless_partial for_v K b0 s0 b s l C :
  role_start b0 s0 -> sovereign (w_dao s0) -> role_leads for_v K b0 s0 b s l ->
  short rpow rtot (w_v s) b (c_quorum (s_cfg (d_prop (w_dao s0)))) C ->
  (forall e, e ∈ l -> others_decline C (d_prop (w_dao (we_pre e)))) ->
  governed (w_dao s) = governed (w_dao s0) /\
  forall e d, e ∈ l -> dao_entry e = Some d -> act d = None.
Proof. exact (c128_role_powerless for_v K b0 s0 b s l C). Qed.
Print Assumptions C128_role_powerless_partial.
(** Staked ONFTs. *)
Theorem C128_onft_history for_v K b s l :
  onft_reached for_v K b s l ->
  exists b1, block_le b1 b /\ dreached K (cond_ask opow otot (w_v s)) b1 (w_dao s) (dao_log l).
Proof. exact (c128_onft_history for_v K b s l). Qed.
Print Assumptions C128_onft_history.
Theorem C128_onft_backed for_v K b s l e id msgs :
  onft_reached for_v K b s l -> e ∈ l -> wcarries e id msgs ->
  exists p tl w, s_props (d_prop (w_dao (we_pre e))) !! id = Some p /\
    s_tallies (d_prop (w_dao (we_pre e))) !! id = Some tl /\ p_choices p !! Z.to_nat w = Some msgs /\
    backed opow otot (w_v s) (d_prop (w_dao (we_pre e))) id p (t_start tl) w.
Proof. exact (c128_onft_backed for_v K b s l e id msgs). Qed.
Print Assumptions C128_onft_backed.
Theorem C128_onft_stakes for_v K b0 s0 b1 s1 l1 b' b s l2 h :
  onft_start b0 s0 -> onft_leads for_v K b0 s0 b1 s1 l1 -> block_le b1 b' ->
  onft_leads for_v K b' s1 b s l2 -> height b1 < h <= height b' ->
  (forall a, opow (w_v s) a h = oheld (w_v s1) a) /\ otot (w_v s) h = oheld_all (w_v s1).
Proof. exact (c128_onft_stakes for_v K b0 s0 b1 s1 l1 b' b s l2 h). Qed.
Print Assumptions C128_onft_stakes.
(** Missing: that it is enough for [C] alone to be short of the quorum, see
    [C128_alone_refuted]. *)
Theorem C128_onft_powerless_partial for_v K b0 s0 b s l C :
  onft_start b0 s0 -> sovereign (w_dao s0) -> onft_leads for_v K b0 s0 b s l ->
  short opow otot (w_v s) b (c_quorum (s_cfg (d_prop (w_dao s0)))) C ->
  (forall e, e ∈ l -> others_decline C (d_prop (w_dao (we_pre e)))) ->
  governed (w_dao s) = governed (w_dao s0) /\
  forall e d, e ∈ l -> dao_entry e = Some d -> act d = None.
Proof. exact (c128_onft_powerless for_v K b0 s0 b s l C). Qed.
Print Assumptions C128_onft_powerless_partial.
Theorem C128_calls {T MV XV} (handle_v : T -> block -> addr -> MV -> result (T * list XV)) power total for_v K
    b0 s0 b s l e :
  wleads handle_v power total for_v K b0 s0 b s l -> e ∈ l -> v_lawful handle_v for_v K e.
Proof. exact (c128_calls handle_v power total for_v K b0 s0 b s l e). Qed.
Print Assumptions C128_calls.
Theorem C128_alone_refuted :
  exists for_v K b0 s0 b s l C,
    tok_start b0 s0 /\ sovereign (w_dao s0) /\ tok_leads for_v K b0 s0 b s l /\
    short_alone tpow ttot (w_v s) b (c_quorum (s_cfg (d_prop (w_dao s0)))) C /\
    (forall e, e ∈ l -> others_decline C (d_prop (w_dao (we_pre e)))) /\
    exists e d, e ∈ l /\ dao_entry e = Some d /\ act d <> None.
Proof. exact c128_alone_refuted. Qed.
Print Assumptions C128_alone_refuted.
(** The rankings of members 1 and 4 stand for what they held when block 10 began, 60 of 100, though
    they have 115 of 555 when it is executed; the DAO sets an item and reconfigures the voting
    module. *)
Example C128_case :
  let '(b, s, l) := cw_of cw_cfg cw_passed in
  tok_reached cw_v cw_K b s l /\
  (exists e, e ∈ l /\ wcarries e 1 [7; 13] /\
     behind tpow (w_v s) (d_prop (w_dao (we_pre e))) 1 10 1 0 = 60) /\
  ttot (w_v s) 10 = 100 /\ TokSpec.ttotal (w_v s) = 555 /\
  k_items (d_core (w_dao s)) !! "x" = Some "y" /\
  TokModel.t_dur (w_v s) = Some (DHeight 10).
Proof.
  rewrite (surjective_pairing (cw_of cw_cfg cw_passed)), (surjective_pairing (cw_of cw_cfg cw_passed).1).
  split; [apply cw_reached; [reflexivity|exact cw_runs1]|]. split.
  { assert (match (cw_of cw_cfg cw_passed).2 !! 11%nat with
      | Some e =>
          match we_ev e, d_todo (w_dao (we_pre e)) with
          | WDao DRun, DP (SExec d 1 ms c) :: t =>
              bool_decide (d = k_self (d_core (w_dao (we_pre e)))) && bool_decide (ms = [7; 13])
          | _, _ => false
          end && (behind tpow (w_v (cw_of cw_cfg cw_passed).1.2) (d_prop (w_dao (we_pre e))) 1 10 1 0 =? 60)
      | None => false end = true) as C by (vm_compute; reflexivity).
    destruct ((cw_of cw_cfg cw_passed).2 !! 11%nat) as [e|] eqn:E; [|discriminate].
    exists e. split; [by apply (elem_of_list_lookup_2 _ 11)|].
    apply andb_true_iff in C as [C C2]. split; [|by apply Z.eqb_eq].
    clear - C. unfold wcarries, dao_entry. destruct (we_ev e) as [[]|]; try discriminate.
    eexists. split; [reflexivity|]. split; [reflexivity|]. cbn [de_pre].
    destruct (d_todo (w_dao (we_pre e))) as [|[|[d [|[]|] ms c]|] t]; try discriminate.
    apply andb_true_iff in C as [C1 C2]. apply bool_decide_eq_true in C1, C2. subst.
    exists c, t. reflexivity. }
  do 3 (split; [vm_compute; reflexivity|]). vm_compute; reflexivity.
Qed.
Example C128_case_stakes :
  exists l1 l2 s1 b s,
    tok_start (at_ 1) (cw_s0 cw_cfg) /\
    tok_leads cw_v cw_K (at_ 1) (cw_s0 cw_cfg) (at_ 2) s1 l1 /\
    tok_leads cw_v cw_K (at_ 10) s1 b s l2 /\ length l2 = 11%nat /\
    TokSpec.tstaked (w_v s1) 1 = 45 /\ TokSpec.tstaked (w_v s) 1 = 0.
Proof.
  assert (match wrun (at_ 1) (cw_s0 cw_cfg) cw_staked with
    | Some (b1, s1, _) => (height b1 =? 2) && (time b1 =? 2 * 5 * NANOS) && (TokSpec.tstaked (w_v s1) 1 =? 45) &&
        match wrun (at_ 10) s1 (drop 4 cw_passed) with
        | Some (b, s, l2) => (TokSpec.tstaked (w_v s) 1 =? 0) && (length l2 =? 11)%nat
        | None => false end
    | None => false end = true) as C by (vm_compute; reflexivity).
  destruct (wrun (at_ 1) (cw_s0 cw_cfg) cw_staked) as [[[b1 s1] l1]|] eqn:E1; [|discriminate].
  apply andb_true_iff in C as [C C2]. apply andb_true_iff in C as [C C3].
  apply andb_true_iff in C as [C1 C6].
  destruct (wrun (at_ 10) s1 (drop 4 cw_passed)) as [[[b s] l2]|] eqn:E2; [|discriminate].
  apply andb_true_iff in C2 as [C4 C5]. 
  assert (b1 = at_ 2) as -> by (destruct b1; apply Z.eqb_eq in C1, C6; cbn in C1, C6; by subst).
  exists l1, l2, s1, b, s. split; [apply cw_start; reflexivity|].
  split; [exact (wrun_leads _ _ _ _ _ [] _ _ _ (wl_nil _ _ _ _ _ _ _) E1)|].
  split; [exact (wrun_leads _ _ _ _ _ [] _ _ _ (wl_nil _ _ _ _ _ _ _) E2)|].
  split; [by apply Nat.eqb_eq|]. split; by apply Z.eqb_eq.
Qed.
(** Members 3 and 4, with 25 of 100, and 2 who puts "none of the above" first. *)
Example C128_case_powerless :
  let '(b, s, l) := cw_of cw_cfg cw_refused in
  tok_start (at_ 1) (cw_s0 cw_cfg) /\ sovereign (w_dao (cw_s0 cw_cfg)) /\
  tok_leads cw_v cw_K (at_ 1) (cw_s0 cw_cfg) b s l /\
  short tpow ttot (w_v s) b (c_quorum (s_cfg (d_prop (w_dao (cw_s0 cw_cfg))))) [3; 4]%N /\
  (forall e, e ∈ l -> others_decline [3; 4]%N (d_prop (w_dao (we_pre e)))) /\
  behind tpow (w_v s) (d_prop (w_dao s)) 1 10 0 1 = 25 /\
  behind tpow (w_v s) (d_prop (w_dao s)) 1 10 2 0 = 30 /\
  status_of (d_prop (w_dao s)) 1 = Some CExecuted.
Proof.
  rewrite (surjective_pairing (cw_of cw_cfg cw_refused)), (surjective_pairing (cw_of cw_cfg cw_refused).1).
  split; [apply cw_start; reflexivity|]. split; [apply cw_sov|].
  split; [apply cw_leads, cw_runs2|]. split.
  { intros h n _.
    destruct (cw_shares (w_v (cw_of cw_cfg cw_refused).1.2) 3 4 10 15 h [3; 4]%N eq_refl) as [E1 E2];
      [vm_compute; reflexivity|vm_compute; reflexivity|vm_compute; reflexivity|].
    intros Hn Hs. rewrite E1 in Hn. rewrite E1, E2 in Hs. revert Hn Hs. clear. unfold share_near. cbn.
    destruct (h <=? 2); lia. }
  split; [apply cw_all_declined; vm_compute; reflexivity|].
  split; [vm_compute; reflexivity|]. split; [vm_compute; reflexivity|]. vm_compute; reflexivity.
Qed.
(** Step 13 of the first case is the DAO's call of the voting module. *)
Example C128_case_calls :
  exists e m, e ∈ (cw_of cw_cfg cw_passed).2 /\ called_by cw_v cw_K e 9 m /\
    w_v (we_post e) <> w_v (we_pre e).
Proof.
  assert (match (cw_of cw_cfg cw_passed).2 !! 13%nat with
    | Some e =>
        match we_ev e, d_todo (w_dao (we_pre e)), cw_v 300 with
        | WDao DSend, DK (KSend (inr n)) :: _, Some m =>
            (n =? 300)%N && (k_self (d_core (w_dao (we_pre e))) =? 9)%N &&
            match TokModel.t_dur (w_v (we_post e)), TokModel.t_dur (w_v (we_pre e)) with
            | Some _, None => true | _, _ => false end
        | _, _, _ => false
        end
    | None => false end = true) as C by (vm_compute; reflexivity).
  destruct ((cw_of cw_cfg cw_passed).2 !! 13%nat) as [e|] eqn:E; [|discriminate].
  destruct (cw_v 300) as [m|] eqn:Em; [|discriminate].
  exists e, m. split; [by apply (elem_of_list_lookup_2 _ 13)|]. clear E. split.
  - right. unfold dao_entry. destruct (we_ev e) as [[]|]; try discriminate.
    destruct (d_todo (w_dao (we_pre e))) as [|[[|[|n]]| |] t] eqn:Et; try discriminate.
    apply andb_true_iff in C as [C _]. apply andb_true_iff in C as [C1 C2].
    apply N.eqb_eq in C1, C2. subst n. eexists _, 300%N. split; [reflexivity|].
    unfold act. cbn [de_ev de_pre]. rewrite Et. split; [done|]. split; [done|].
    split; [reflexivity|done].
  - intros Ev. rewrite Ev in C. destruct (we_ev e) as [[]|]; try discriminate.
    destruct (d_todo (w_dao (we_pre e))) as [|[[|[|n]]| |] t]; try discriminate.
    destruct (TokModel.t_dur (w_v (we_pre e))); rewrite andb_false_r in C; discriminate.
Qed.
