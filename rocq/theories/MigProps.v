(** C97, C98: migrations of the single-choice proposal module. *)
From Verif Require Import Base BaseProofs Exec ExecProofs VotingModel VotingSpec HooksModel
  SingleModel SingleSpec SingleProofs MigModel MigSpec MigProofs MigClaims MigExamples.

(** * C97 *)
Theorem C97_accepted O t b a v close i veto :
  (exists t' subs, t_handle O t b a (TMigrate v (FromV1 close i veto)) = Ok (t', subs)) <->
  a = t_admin t /\ v <> t_version t /\
  (exists c, t_vcfg t = Some c /\ forall c', same_config c c' ->
     match veto with Some w => validate_veto w (c_max c') = Ok tt | None => True end) /\
  (forall id w n, t_vprops t !! id = Some w -> vr_deposit w = Some n -> n <> 0 ->
     vr_status w = VExecuted \/ vr_status w = VClosed).
Proof. exact (migrate_iff O t b a v close i veto). Qed.
Print Assumptions C97_accepted.
Theorem C97_kept O t b a v close i veto t' subs :
  t_handle O t b a (TMigrate v (FromV1 close i veto)) = Ok (t', subs) ->
  (exists c c', t_vcfg t = Some c /\ t_cfg t' = Some c' /\ same_config c c' /\
     c_close_on_fail c' = close /\ c_veto c' = veto) /\
  (forall id w, t_vprops t !! id = Some w ->
     exists p, t_props t' !! id = Some p /\ same_prop w p /\ p_veto p = None) /\
  (forall id, t_vprops t !! id = None -> t_props t' !! id = t_props t !! id) /\
  t_count t' = t_count t /\ t_ballots t' = t_ballots t /\
  t_phooks t' = t_phooks t /\ t_vhooks t' = t_vhooks t /\
  t_version t' = v /\ t_admin t' = t_admin t /\
  t_vcfg t' = t_vcfg t /\ t_vprops t' = t_vprops t.
Proof. exact (migrate_keeps O t b a v close i veto t' subs). Qed.
Print Assumptions C97_kept.
Theorem C97_compatible O t b a v t' subs :
  t_handle O t b a (TMigrate v FromCompatible) = Ok (t', subs) ->
  a = t_admin t /\ live t' = live t /\ t_vcfg t' = t_vcfg t /\ t_vprops t' = t_vprops t /\
  t_version t' = v /\ subs = [].
Proof. exact (compatible_keeps O t b a v t' subs). Qed.
Print Assumptions C97_compatible.
Theorem C97_old_final O b t l id w :
  grown O b t l -> t_vprops t !! id = Some w ->
  vr_status w = VExecuted \/ vr_status w = VClosed ->
  t_dispatches id l = 0 /\
  (is_Some (live t) -> exists p, t_props t !! id = Some p /\ status_same (vr_status w) (p_status p)).
Proof. exact (old_final O b t l id w). Qed.
Print Assumptions C97_old_final.
Theorem C97_old_no_veto O b t l id w a b' :
  grown O b t l -> t_vprops t !! id = Some w ->
  exists e, t_handle O t b' a (TCall (Veto id)) = Err e.
Proof. exact (old_no_veto O b t l id w a b'). Qed.
Print Assumptions C97_old_no_veto.
Example C97_case : v1_left (Block 20 0) xold /\
  (exists t subs, t_handle xorc xold (Block 20 0) 10 (TMigrate 2 (FromV1 true AnyoneMayPropose None)) = Ok (t, subs) /\
     map (t_status t) [1; 2; 3; 4] = [Some Open; Some Executed; Some Closed; Some Open]) /\
  grown xorc (Block 25 0) (trun xorc xold xall).1 (trun xorc xold xall).2 /\
  option_map vr_status (t_vprops (trun xorc xold xall).1 !! 2) = Some VExecuted.
Proof.
  split; [exact xold_left|]. split.
  { destruct (t_handle xorc xold (Block 20 0) 10 (TMigrate 2 (FromV1 true AnyoneMayPropose None)))
      as [[t subs]|] eqn:E.
    - exists t, subs. split; [reflexivity|]. revert E. vm_compute. intros [= <- <-]. reflexivity.
    - exfalso. revert E. vm_compute. discriminate. }
  split; [exact xall_grown|]. vm_compute; reflexivity.
Qed.
Example C97_case_refused :
  is_ok (t_handle xorc xold (Block 20 0) 11 (TMigrate 2 (FromV1 true AnyoneMayPropose None))) = false /\
  is_ok (t_handle xorc xold (Block 20 0) 10 (TMigrate 1 (FromV1 true AnyoneMayPropose None))) = false /\
  is_ok (t_handle xorc xold (Block 20 0) 10 (TMigrate 2 (FromV1 true (ModuleMayPropose 9) None))) = true.
Proof. vm_compute. tauto. Qed.

(** * C98 *)
Theorem C98_final_partial O b t l b' t' l' id st :
  upgraded O b t l -> t_later O no_v1 b t b' t' l' ->
  t_status t id = Some st -> terminal st ->
  t_status t' id = Some st /\ t_dispatches id l' = 0.
Proof. exact (upgraded_final O b t l b' t' l' id st). Qed.
Print Assumptions C98_final_partial.
Theorem C98_once_partial O b t l id : upgraded O b t l -> t_dispatches id l <= 1.
Proof. exact (upgraded_once O b t l id). Qed.
Print Assumptions C98_once_partial.
Theorem C98_twice_refuted : exists O b t l id,
  grown O b t l /\ t_dispatches id l = 2.
Proof. exact twice_refuted. Qed.
Print Assumptions C98_twice_refuted.
Theorem C98_undone_refuted : exists O b t l b' a v m t' subs id,
  grown O b t l /\ block_le b b' /\ t_handle O t b' a (TMigrate v m) = Ok (t', subs) /\
  t_status t id = Some Executed /\ t_status t' id = Some Open /\
  (forall c c', t_cfg t = Some c -> t_cfg t' = Some c' -> c_thr c' <> c_thr c).
Proof. exact undone_refuted. Qed.
Print Assumptions C98_undone_refuted.
Example C98_case : upgraded xorc (Block 23 0) xnow (trun xorc xold xhist).2 /\
  t_later xorc no_v1 (Block 23 0) xnow (Block 26 0) (trun xorc xnow xhist2).1 (trun xorc xnow xhist2).2 /\
  map (t_status xnow) [1; 2; 3; 4] = [Some Executed; Some Executed; Some Closed; Some Passed] /\
  map (t_status (trun xorc xnow xhist2).1) [1; 2; 3; 4] =
    [Some Executed; Some Executed; Some Closed; Some Executed].
Proof.
  split; [exact xnow_upgraded|]. split; [exact xnow_later|].
  split; [exact (proj1 xnow_case)|exact (proj1 xlater_case)].
Qed.
