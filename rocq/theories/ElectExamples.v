(** Proposal modules on a cw4 group, on role tokens and on ONFTs. *)
From Verif Require Import Base BaseProofs Exec ExecProofs Plain PlainProofs VotingModel HooksModel
  StoreModel ActiveModel Compose JointModel JointSpec JointExamples ElectSpec.
From Verif Require SingleModel SingleSpec SingleExamples MultModel MultSpec MultExamples CondModel
  CondSpec CondExamples GrpModel GrpSpec GrpExamples RolesModel RolesSpec RolesExamples
  OnftModel OnftSpec OnftExamples.

(** Members 1, 2 and 3 have weights 4, 3 and 2. *)
Definition j_g0 : GrpModel.gstate := GrpExamples.g_of (Some 30%N) [(1%N, 4); (2%N, 3); (3%N, 2)].
Lemma j_g0_reached : GrpSpec.greached (GrpExamples.gb 4) j_g0 [].
Proof.
  exists (Some 30%N), [(1%N, 4); (2%N, 3); (3%N, 2)], (GrpExamples.gb 0), j_g0.
  split; [vm_compute; reflexivity|]. apply leads_refl. split; by vm_compute.
Qed.
Definition j_roles : list (block * call RolesModel.rmsg) :=
  [RolesExamples.rc 1 1 (RolesModel.RMint 11 1 4); RolesExamples.rc 1 1 (RolesModel.RMint 12 2 3);
   RolesExamples.rc 2 1 (RolesModel.RMint 13 3 2)].
Definition j_r0 : RolesModel.rstate := fst (RolesExamples.rrun j_roles).
Lemma j_r0_reached : RolesSpec.rreached (RolesExamples.rb 4) j_r0 (snd (RolesExamples.rrun j_roles)).
Proof. unfold j_r0. RolesExamples.rreach. Qed.
(** The members get and stake as many tokens. *)
Definition o_stake (h : Z) (a : addr) (i : N) : list (block * call OnftModel.fmsg) :=
  [OnftExamples.fc h a (OnftModel.XCreate i a); OnftExamples.fc h a (OnftModel.FPrepare [i]);
   OnftExamples.fc h a (OnftModel.XMove i 100); OnftExamples.fc h a (OnftModel.FConfirm [i])].
Definition j_onft : list (block * call OnftModel.fmsg) :=
  concat (map (o_stake 2 1) [11; 12; 13; 14]%N) ++ concat (map (o_stake 2 2) [21; 22; 23]%N) ++
  concat (map (o_stake 3 3) [31; 32]%N).
Definition j_o0 : OnftModel.fstate := fst (OnftExamples.frun None j_onft).
Lemma j_o0_reached :
  OnftSpec.freached (OnftExamples.fb 4) j_o0 (snd (OnftExamples.frun None j_onft)).
Proof. unfold j_o0. OnftExamples.freach. Qed.

(** ** Single choice, group *)
Definition sgp (a : addr) (m : SingleModel.msg) : call (SingleModel.msg * Z + GrpModel.gmsg) :=
  Call a (inl (m, 1000)) [].
Definition sgv (a : addr) (m : GrpModel.gmsg) : call (SingleModel.msg * Z + GrpModel.gmsg) := Call a (inr m) [].
Definition sg_h1 : list (block * call (SingleModel.msg * Z + GrpModel.gmsg)) :=
  [ (GrpExamples.gb 6, sgv 30 (GrpModel.GMembers [] [(3%N, 3)])) ].
(** In block 10: power added, a proposal created, all power of member 1 taken. *)
Definition sg_h2 : list (block * call (SingleModel.msg * Z + GrpModel.gmsg)) :=
  [ (GrpExamples.gb 10, sgv 30 (GrpModel.GMembers [] [(4%N, 1)]));
    (GrpExamples.gb 10, sgp 4 (SingleModel.Propose (SingleExamples.ex_pm [7; 8] None)));
    (GrpExamples.gb 10, sgv 30 (GrpModel.GMembers [1%N] []));
    (GrpExamples.gb 11, sgp 4 (SingleModel.CastVote 1 Yes None));
    (GrpExamples.gb 11, sgp 1 (SingleModel.CastVote 1 Yes None));
    (GrpExamples.gb 12, sgp 2 (SingleModel.CastVote 1 No None));
    (GrpExamples.gb 13, sgp 3 (SingleModel.CastVote 1 No None)) ].
(** Afterwards power is added. *)
Definition sg_h3 : list (block * call (SingleModel.msg * Z + GrpModel.gmsg)) :=
  [ (GrpExamples.gb 25, sgv 30 (GrpModel.GMembers [] [(3%N, 9)])) ].
Definition sg_run (j : SingleModel.state * GrpModel.gstate) (h : list (block * call (SingleModel.msg * Z + GrpModel.gmsg))) :=
  single_run GrpModel.g_handle gpow gtot always_active j h.
Definition sg_0 : SingleModel.state * GrpModel.gstate := (SingleExamples.ex_state SingleExamples.ex_cfg, j_g0).
Definition sg_1 := sg_run sg_0 sg_h1.
Definition sg_2 := sg_run sg_1.1 sg_h2.
Definition sg_all := sg_run sg_0 (sg_h1 ++ sg_h2).
Definition sg_3 := sg_run sg_all.1 sg_h3.
Lemma sg_reached : single_on_grp 9 (GrpExamples.gb 9) sg_1.1.1 sg_1.1.2 sg_1.2.
Proof.
  exists (GrpExamples.gb 4), (SingleExamples.ex_state SingleExamples.ex_cfg), j_g0,
    [], sg_h1.
  split; [exact j_g0_reached|]. split; [done|]. split; [done|]. split; [jside|]. split; [jside|]. split; [|jside]. unfold sg_1, sg_run, sg_0.
  by destruct (single_run GrpModel.g_handle gpow gtot always_active _ sg_h1) as [[? ?] ?].
Qed.
Lemma sg_later : single_on_grp_later 9 (GrpExamples.gb 10) sg_1.1.1 sg_1.1.2
  (GrpExamples.gb 20) sg_2.1.1 sg_2.1.2 sg_2.2.
Proof.
  exists sg_h2. split; [jside|]. split; [jside|]. split; [|jside]. unfold sg_2, sg_run.
  rewrite <- surjective_pairing.
  by destruct (single_run GrpModel.g_handle gpow gtot always_active _ sg_h2) as [[? ?] ?].
Qed.
Lemma sg_reached_all : single_on_grp 9 (GrpExamples.gb 20) sg_all.1.1 sg_all.1.2 sg_all.2.
Proof.
  exists (GrpExamples.gb 4), (SingleExamples.ex_state SingleExamples.ex_cfg), j_g0,
    [], (sg_h1 ++ sg_h2).
  split; [exact j_g0_reached|]. split; [done|]. split; [done|]. split; [jside|]. split; [jside|]. split; [|jside]. unfold sg_all, sg_run, sg_0.
  by destruct (single_run GrpModel.g_handle gpow gtot always_active _ (sg_h1 ++ sg_h2)) as [[? ?] ?].
Qed.
Lemma sg_later_all : single_on_grp_later 9 (GrpExamples.gb 20) sg_all.1.1 sg_all.1.2
  (GrpExamples.gb 30) sg_3.1.1 sg_3.1.2 sg_3.2.
Proof.
  exists sg_h3. split; [jside|]. split; [jside|]. split; [|jside]. unfold sg_3, sg_run.
  rewrite <- surjective_pairing.
  by destruct (single_run GrpModel.g_handle gpow gtot always_active _ sg_h3) as [[? ?] ?].
Qed.

(** ** Multiple choice, group *)
Definition mgp (a : addr) (m : MultModel.msg) : call (MultModel.msg * Z + GrpModel.gmsg) :=
  Call a (inl (m, 1000)) [].
Definition mgv (a : addr) (m : GrpModel.gmsg) : call (MultModel.msg * Z + GrpModel.gmsg) := Call a (inr m) [].
Definition mg_h1 : list (block * call (MultModel.msg * Z + GrpModel.gmsg)) :=
  [ (GrpExamples.gb 6, mgv 30 (GrpModel.GMembers [] [(3%N, 3)])) ].
(** In block 10: power added, a proposal created, all power of member 1 taken. *)
Definition mg_h2 : list (block * call (MultModel.msg * Z + GrpModel.gmsg)) :=
  [ (GrpExamples.gb 10, mgv 30 (GrpModel.GMembers [] [(4%N, 1)]));
    (GrpExamples.gb 10, mgp 4 (MultModel.Propose (MultExamples.ex_pm [[7]; [8]] None)));
    (GrpExamples.gb 10, mgv 30 (GrpModel.GMembers [1%N] []));
    (GrpExamples.gb 11, mgp 4 (MultModel.CastVote 1 0 None));
    (GrpExamples.gb 11, mgp 1 (MultModel.CastVote 1 0 None));
    (GrpExamples.gb 12, mgp 2 (MultModel.CastVote 1 1 None));
    (GrpExamples.gb 13, mgp 3 (MultModel.CastVote 1 1 None)) ].
(** Afterwards power is added. *)
Definition mg_h3 : list (block * call (MultModel.msg * Z + GrpModel.gmsg)) :=
  [ (GrpExamples.gb 25, mgv 30 (GrpModel.GMembers [] [(3%N, 9)])) ].
Definition mg_run (j : MultModel.state * GrpModel.gstate) (h : list (block * call (MultModel.msg * Z + GrpModel.gmsg))) :=
  mult_run GrpModel.g_handle gpow gtot always_active j h.
Definition mg_0 : MultModel.state * GrpModel.gstate := (MultExamples.ex_state MultExamples.ex_cfg, j_g0).
Definition mg_1 := mg_run mg_0 mg_h1.
Definition mg_2 := mg_run mg_1.1 mg_h2.
Definition mg_all := mg_run mg_0 (mg_h1 ++ mg_h2).
Definition mg_3 := mg_run mg_all.1 mg_h3.
Lemma mg_reached : mult_on_grp 9 (GrpExamples.gb 9) mg_1.1.1 mg_1.1.2 mg_1.2.
Proof.
  exists (GrpExamples.gb 4), (MultExamples.ex_state MultExamples.ex_cfg), j_g0,
    [], mg_h1.
  split; [exact j_g0_reached|]. split; [done|]. split; [done|]. split; [jside|]. split; [jside|]. split; [|jside]. unfold mg_1, mg_run, mg_0.
  by destruct (mult_run GrpModel.g_handle gpow gtot always_active _ mg_h1) as [[? ?] ?].
Qed.
Lemma mg_later : mult_on_grp_later 9 (GrpExamples.gb 10) mg_1.1.1 mg_1.1.2
  (GrpExamples.gb 20) mg_2.1.1 mg_2.1.2 mg_2.2.
Proof.
  exists mg_h2. split; [jside|]. split; [jside|]. split; [|jside]. unfold mg_2, mg_run.
  rewrite <- surjective_pairing.
  by destruct (mult_run GrpModel.g_handle gpow gtot always_active _ mg_h2) as [[? ?] ?].
Qed.
Lemma mg_reached_all : mult_on_grp 9 (GrpExamples.gb 20) mg_all.1.1 mg_all.1.2 mg_all.2.
Proof.
  exists (GrpExamples.gb 4), (MultExamples.ex_state MultExamples.ex_cfg), j_g0,
    [], (mg_h1 ++ mg_h2).
  split; [exact j_g0_reached|]. split; [done|]. split; [done|]. split; [jside|]. split; [jside|]. split; [|jside]. unfold mg_all, mg_run, mg_0.
  by destruct (mult_run GrpModel.g_handle gpow gtot always_active _ (mg_h1 ++ mg_h2)) as [[? ?] ?].
Qed.
Lemma mg_later_all : mult_on_grp_later 9 (GrpExamples.gb 20) mg_all.1.1 mg_all.1.2
  (GrpExamples.gb 30) mg_3.1.1 mg_3.1.2 mg_3.2.
Proof.
  exists mg_h3. split; [jside|]. split; [jside|]. split; [|jside]. unfold mg_3, mg_run.
  rewrite <- surjective_pairing.
  by destruct (mult_run GrpModel.g_handle gpow gtot always_active _ mg_h3) as [[? ?] ?].
Qed.

(** ** Condorcet, group *)
Definition cgp (a : addr) (m : CondModel.msg) : call (CondModel.msg + GrpModel.gmsg) :=
  Call a (inl m) [].
Definition cgv (a : addr) (m : GrpModel.gmsg) : call (CondModel.msg + GrpModel.gmsg) := Call a (inr m) [].
Definition cg_h1 : list (block * call (CondModel.msg + GrpModel.gmsg)) :=
  [ (GrpExamples.gb 6, cgv 30 (GrpModel.GMembers [] [(3%N, 3)])) ].
(** In block 10: power added, a proposal created, all power of member 1 taken. *)
Definition cg_h2 : list (block * call (CondModel.msg + GrpModel.gmsg)) :=
  [ (GrpExamples.gb 10, cgv 30 (GrpModel.GMembers [] [(2%N, 4)]));
    (GrpExamples.gb 10, cgp 1 (CondModel.Propose [[7]; [8]]));
    (GrpExamples.gb 10, cgv 30 (GrpModel.GMembers [1%N] []));
    (GrpExamples.gb 11, cgp 1 (CondModel.CastVote 1 [0; 1; 2]));
    (GrpExamples.gb 12, cgp 2 (CondModel.CastVote 1 [1; 0; 2]));
    (GrpExamples.gb 13, cgp 3 (CondModel.CastVote 1 [1; 0; 2])) ].
(** Afterwards power is added. *)
Definition cg_h3 : list (block * call (CondModel.msg + GrpModel.gmsg)) :=
  [ (GrpExamples.gb 25, cgv 30 (GrpModel.GMembers [] [(3%N, 9)])) ].
Definition cg_run (j : CondModel.state * GrpModel.gstate) (h : list (block * call (CondModel.msg + GrpModel.gmsg))) :=
  cond_run GrpModel.g_handle gpow gtot j h.
Definition cg_0 : CondModel.state * GrpModel.gstate := (CondExamples.ex_state CondExamples.ex_cfg, j_g0).
Definition cg_1 := cg_run cg_0 cg_h1.
Definition cg_2 := cg_run cg_1.1 cg_h2.
Definition cg_all := cg_run cg_0 (cg_h1 ++ cg_h2).
Definition cg_3 := cg_run cg_all.1 cg_h3.
Lemma cg_reached : cond_on_grp (GrpExamples.gb 9) cg_1.1.1 cg_1.1.2 cg_1.2.
Proof.
  exists (GrpExamples.gb 4), (CondExamples.ex_state CondExamples.ex_cfg), j_g0,
    [], cg_h1.
  split; [exact j_g0_reached|]. split; [done|]. split; [jside|]. split; [|jside]. unfold cg_1, cg_run, cg_0.
  by destruct (cond_run GrpModel.g_handle gpow gtot _ cg_h1) as [[? ?] ?].
Qed.
Lemma cg_later : cond_on_grp_later (GrpExamples.gb 10) cg_1.1.1 cg_1.1.2
  (GrpExamples.gb 20) cg_2.1.1 cg_2.1.2 cg_2.2.
Proof.
  exists cg_h2. split; [jside|]. split; [|jside]. unfold cg_2, cg_run.
  rewrite <- surjective_pairing.
  by destruct (cond_run GrpModel.g_handle gpow gtot _ cg_h2) as [[? ?] ?].
Qed.
Lemma cg_reached_all : cond_on_grp (GrpExamples.gb 20) cg_all.1.1 cg_all.1.2 cg_all.2.
Proof.
  exists (GrpExamples.gb 4), (CondExamples.ex_state CondExamples.ex_cfg), j_g0,
    [], (cg_h1 ++ cg_h2).
  split; [exact j_g0_reached|]. split; [done|]. split; [jside|]. split; [|jside]. unfold cg_all, cg_run, cg_0.
  by destruct (cond_run GrpModel.g_handle gpow gtot _ (cg_h1 ++ cg_h2)) as [[? ?] ?].
Qed.
Lemma cg_later_all : cond_on_grp_later (GrpExamples.gb 20) cg_all.1.1 cg_all.1.2
  (GrpExamples.gb 30) cg_3.1.1 cg_3.1.2 cg_3.2.
Proof.
  exists cg_h3. split; [jside|]. split; [|jside]. unfold cg_3, cg_run.
  rewrite <- surjective_pairing.
  by destruct (cond_run GrpModel.g_handle gpow gtot _ cg_h3) as [[? ?] ?].
Qed.

(** ** Single choice, role tokens *)
Definition srp (a : addr) (m : SingleModel.msg) : call (SingleModel.msg * Z + RolesModel.rmsg) :=
  Call a (inl (m, 1000)) [].
Definition srv (a : addr) (m : RolesModel.rmsg) : call (SingleModel.msg * Z + RolesModel.rmsg) := Call a (inr m) [].
Definition sr_h1 : list (block * call (SingleModel.msg * Z + RolesModel.rmsg)) :=
  [ (RolesExamples.rb 6, srv 1 (RolesModel.RMint 14 3 1)) ].
(** In block 10: power added, a proposal created, all power of member 1 taken. *)
Definition sr_h2 : list (block * call (SingleModel.msg * Z + RolesModel.rmsg)) :=
  [ (RolesExamples.rb 10, srv 1 (RolesModel.RMint 15 4 1));
    (RolesExamples.rb 10, srp 4 (SingleModel.Propose (SingleExamples.ex_pm [7; 8] None)));
    (RolesExamples.rb 10, srv 1 (RolesModel.RBurn 11));
    (RolesExamples.rb 11, srp 4 (SingleModel.CastVote 1 Yes None));
    (RolesExamples.rb 11, srp 1 (SingleModel.CastVote 1 Yes None));
    (RolesExamples.rb 12, srp 2 (SingleModel.CastVote 1 No None));
    (RolesExamples.rb 13, srp 3 (SingleModel.CastVote 1 No None)) ].
(** Afterwards power is added. *)
Definition sr_h3 : list (block * call (SingleModel.msg * Z + RolesModel.rmsg)) :=
  [ (RolesExamples.rb 25, srv 1 (RolesModel.RMint 16 3 6)) ].
Definition sr_run (j : SingleModel.state * RolesModel.rstate) (h : list (block * call (SingleModel.msg * Z + RolesModel.rmsg))) :=
  single_run RolesModel.r_handle rpow rtot always_active j h.
Definition sr_0 : SingleModel.state * RolesModel.rstate := (SingleExamples.ex_state SingleExamples.ex_cfg, j_r0).
Definition sr_1 := sr_run sr_0 sr_h1.
Definition sr_2 := sr_run sr_1.1 sr_h2.
Definition sr_all := sr_run sr_0 (sr_h1 ++ sr_h2).
Definition sr_3 := sr_run sr_all.1 sr_h3.
Lemma sr_reached : single_on_role 9 (RolesExamples.rb 9) sr_1.1.1 sr_1.1.2 sr_1.2.
Proof.
  exists (RolesExamples.rb 4), (SingleExamples.ex_state SingleExamples.ex_cfg), j_r0,
    (snd (RolesExamples.rrun j_roles)), sr_h1.
  split; [exact j_r0_reached|]. split; [done|]. split; [done|]. split; [jside|]. split; [jside|]. split; [|jside]. unfold sr_1, sr_run, sr_0.
  by destruct (single_run RolesModel.r_handle rpow rtot always_active _ sr_h1) as [[? ?] ?].
Qed.
Lemma sr_later : single_on_role_later 9 (RolesExamples.rb 10) sr_1.1.1 sr_1.1.2
  (RolesExamples.rb 20) sr_2.1.1 sr_2.1.2 sr_2.2.
Proof.
  exists sr_h2. split; [jside|]. split; [jside|]. split; [|jside]. unfold sr_2, sr_run.
  rewrite <- surjective_pairing.
  by destruct (single_run RolesModel.r_handle rpow rtot always_active _ sr_h2) as [[? ?] ?].
Qed.
Lemma sr_reached_all : single_on_role 9 (RolesExamples.rb 20) sr_all.1.1 sr_all.1.2 sr_all.2.
Proof.
  exists (RolesExamples.rb 4), (SingleExamples.ex_state SingleExamples.ex_cfg), j_r0,
    (snd (RolesExamples.rrun j_roles)), (sr_h1 ++ sr_h2).
  split; [exact j_r0_reached|]. split; [done|]. split; [done|]. split; [jside|]. split; [jside|]. split; [|jside]. unfold sr_all, sr_run, sr_0.
  by destruct (single_run RolesModel.r_handle rpow rtot always_active _ (sr_h1 ++ sr_h2)) as [[? ?] ?].
Qed.
Lemma sr_later_all : single_on_role_later 9 (RolesExamples.rb 20) sr_all.1.1 sr_all.1.2
  (RolesExamples.rb 30) sr_3.1.1 sr_3.1.2 sr_3.2.
Proof.
  exists sr_h3. split; [jside|]. split; [jside|]. split; [|jside]. unfold sr_3, sr_run.
  rewrite <- surjective_pairing.
  by destruct (single_run RolesModel.r_handle rpow rtot always_active _ sr_h3) as [[? ?] ?].
Qed.

(** ** Multiple choice, role tokens *)
Definition mrp (a : addr) (m : MultModel.msg) : call (MultModel.msg * Z + RolesModel.rmsg) :=
  Call a (inl (m, 1000)) [].
Definition mrv (a : addr) (m : RolesModel.rmsg) : call (MultModel.msg * Z + RolesModel.rmsg) := Call a (inr m) [].
Definition mr_h1 : list (block * call (MultModel.msg * Z + RolesModel.rmsg)) :=
  [ (RolesExamples.rb 6, mrv 1 (RolesModel.RMint 14 3 1)) ].
(** In block 10: power added, a proposal created, all power of member 1 taken. *)
Definition mr_h2 : list (block * call (MultModel.msg * Z + RolesModel.rmsg)) :=
  [ (RolesExamples.rb 10, mrv 1 (RolesModel.RMint 15 4 1));
    (RolesExamples.rb 10, mrp 4 (MultModel.Propose (MultExamples.ex_pm [[7]; [8]] None)));
    (RolesExamples.rb 10, mrv 1 (RolesModel.RBurn 11));
    (RolesExamples.rb 11, mrp 4 (MultModel.CastVote 1 0 None));
    (RolesExamples.rb 11, mrp 1 (MultModel.CastVote 1 0 None));
    (RolesExamples.rb 12, mrp 2 (MultModel.CastVote 1 1 None));
    (RolesExamples.rb 13, mrp 3 (MultModel.CastVote 1 1 None)) ].
(** Afterwards power is added. *)
Definition mr_h3 : list (block * call (MultModel.msg * Z + RolesModel.rmsg)) :=
  [ (RolesExamples.rb 25, mrv 1 (RolesModel.RMint 16 3 6)) ].
Definition mr_run (j : MultModel.state * RolesModel.rstate) (h : list (block * call (MultModel.msg * Z + RolesModel.rmsg))) :=
  mult_run RolesModel.r_handle rpow rtot always_active j h.
Definition mr_0 : MultModel.state * RolesModel.rstate := (MultExamples.ex_state MultExamples.ex_cfg, j_r0).
Definition mr_1 := mr_run mr_0 mr_h1.
Definition mr_2 := mr_run mr_1.1 mr_h2.
Definition mr_all := mr_run mr_0 (mr_h1 ++ mr_h2).
Definition mr_3 := mr_run mr_all.1 mr_h3.
Lemma mr_reached : mult_on_role 9 (RolesExamples.rb 9) mr_1.1.1 mr_1.1.2 mr_1.2.
Proof.
  exists (RolesExamples.rb 4), (MultExamples.ex_state MultExamples.ex_cfg), j_r0,
    (snd (RolesExamples.rrun j_roles)), mr_h1.
  split; [exact j_r0_reached|]. split; [done|]. split; [done|]. split; [jside|]. split; [jside|]. split; [|jside]. unfold mr_1, mr_run, mr_0.
  by destruct (mult_run RolesModel.r_handle rpow rtot always_active _ mr_h1) as [[? ?] ?].
Qed.
Lemma mr_later : mult_on_role_later 9 (RolesExamples.rb 10) mr_1.1.1 mr_1.1.2
  (RolesExamples.rb 20) mr_2.1.1 mr_2.1.2 mr_2.2.
Proof.
  exists mr_h2. split; [jside|]. split; [jside|]. split; [|jside]. unfold mr_2, mr_run.
  rewrite <- surjective_pairing.
  by destruct (mult_run RolesModel.r_handle rpow rtot always_active _ mr_h2) as [[? ?] ?].
Qed.
Lemma mr_reached_all : mult_on_role 9 (RolesExamples.rb 20) mr_all.1.1 mr_all.1.2 mr_all.2.
Proof.
  exists (RolesExamples.rb 4), (MultExamples.ex_state MultExamples.ex_cfg), j_r0,
    (snd (RolesExamples.rrun j_roles)), (mr_h1 ++ mr_h2).
  split; [exact j_r0_reached|]. split; [done|]. split; [done|]. split; [jside|]. split; [jside|]. split; [|jside]. unfold mr_all, mr_run, mr_0.
  by destruct (mult_run RolesModel.r_handle rpow rtot always_active _ (mr_h1 ++ mr_h2)) as [[? ?] ?].
Qed.
Lemma mr_later_all : mult_on_role_later 9 (RolesExamples.rb 20) mr_all.1.1 mr_all.1.2
  (RolesExamples.rb 30) mr_3.1.1 mr_3.1.2 mr_3.2.
Proof.
  exists mr_h3. split; [jside|]. split; [jside|]. split; [|jside]. unfold mr_3, mr_run.
  rewrite <- surjective_pairing.
  by destruct (mult_run RolesModel.r_handle rpow rtot always_active _ mr_h3) as [[? ?] ?].
Qed.

(** ** Condorcet, role tokens *)
Definition crp (a : addr) (m : CondModel.msg) : call (CondModel.msg + RolesModel.rmsg) :=
  Call a (inl m) [].
Definition crv (a : addr) (m : RolesModel.rmsg) : call (CondModel.msg + RolesModel.rmsg) := Call a (inr m) [].
Definition cr_h1 : list (block * call (CondModel.msg + RolesModel.rmsg)) :=
  [ (RolesExamples.rb 6, crv 1 (RolesModel.RMint 14 3 1)) ].
(** In block 10: power added, a proposal created, all power of member 1 taken. *)
Definition cr_h2 : list (block * call (CondModel.msg + RolesModel.rmsg)) :=
  [ (RolesExamples.rb 10, crv 1 (RolesModel.RMint 15 2 1));
    (RolesExamples.rb 10, crp 1 (CondModel.Propose [[7]; [8]]));
    (RolesExamples.rb 10, crv 1 (RolesModel.RBurn 11));
    (RolesExamples.rb 11, crp 1 (CondModel.CastVote 1 [0; 1; 2]));
    (RolesExamples.rb 12, crp 2 (CondModel.CastVote 1 [1; 0; 2]));
    (RolesExamples.rb 13, crp 3 (CondModel.CastVote 1 [1; 0; 2])) ].
(** Afterwards power is added. *)
Definition cr_h3 : list (block * call (CondModel.msg + RolesModel.rmsg)) :=
  [ (RolesExamples.rb 25, crv 1 (RolesModel.RMint 16 3 6)) ].
Definition cr_run (j : CondModel.state * RolesModel.rstate) (h : list (block * call (CondModel.msg + RolesModel.rmsg))) :=
  cond_run RolesModel.r_handle rpow rtot j h.
Definition cr_0 : CondModel.state * RolesModel.rstate := (CondExamples.ex_state CondExamples.ex_cfg, j_r0).
Definition cr_1 := cr_run cr_0 cr_h1.
Definition cr_2 := cr_run cr_1.1 cr_h2.
Definition cr_all := cr_run cr_0 (cr_h1 ++ cr_h2).
Definition cr_3 := cr_run cr_all.1 cr_h3.
Lemma cr_reached : cond_on_role (RolesExamples.rb 9) cr_1.1.1 cr_1.1.2 cr_1.2.
Proof.
  exists (RolesExamples.rb 4), (CondExamples.ex_state CondExamples.ex_cfg), j_r0,
    (snd (RolesExamples.rrun j_roles)), cr_h1.
  split; [exact j_r0_reached|]. split; [done|]. split; [jside|]. split; [|jside]. unfold cr_1, cr_run, cr_0.
  by destruct (cond_run RolesModel.r_handle rpow rtot _ cr_h1) as [[? ?] ?].
Qed.
Lemma cr_later : cond_on_role_later (RolesExamples.rb 10) cr_1.1.1 cr_1.1.2
  (RolesExamples.rb 20) cr_2.1.1 cr_2.1.2 cr_2.2.
Proof.
  exists cr_h2. split; [jside|]. split; [|jside]. unfold cr_2, cr_run.
  rewrite <- surjective_pairing.
  by destruct (cond_run RolesModel.r_handle rpow rtot _ cr_h2) as [[? ?] ?].
Qed.
Lemma cr_reached_all : cond_on_role (RolesExamples.rb 20) cr_all.1.1 cr_all.1.2 cr_all.2.
Proof.
  exists (RolesExamples.rb 4), (CondExamples.ex_state CondExamples.ex_cfg), j_r0,
    (snd (RolesExamples.rrun j_roles)), (cr_h1 ++ cr_h2).
  split; [exact j_r0_reached|]. split; [done|]. split; [jside|]. split; [|jside]. unfold cr_all, cr_run, cr_0.
  by destruct (cond_run RolesModel.r_handle rpow rtot _ (cr_h1 ++ cr_h2)) as [[? ?] ?].
Qed.
Lemma cr_later_all : cond_on_role_later (RolesExamples.rb 20) cr_all.1.1 cr_all.1.2
  (RolesExamples.rb 30) cr_3.1.1 cr_3.1.2 cr_3.2.
Proof.
  exists cr_h3. split; [jside|]. split; [|jside]. unfold cr_3, cr_run.
  rewrite <- surjective_pairing.
  by destruct (cond_run RolesModel.r_handle rpow rtot _ cr_h3) as [[? ?] ?].
Qed.

(** ** Single choice, ONFTs *)
Definition sop (a : addr) (m : SingleModel.msg) : call (SingleModel.msg * Z + OnftModel.fmsg) :=
  Call a (inl (m, 1000)) [].
Definition sov (a : addr) (m : OnftModel.fmsg) : call (SingleModel.msg * Z + OnftModel.fmsg) := Call a (inr m) [].
Definition so_h1 : list (block * call (SingleModel.msg * Z + OnftModel.fmsg)) :=
  [ (OnftExamples.fb 6, sov 3 (OnftModel.XCreate 60 3));
    (OnftExamples.fb 6, sov 3 (OnftModel.FPrepare [60%N]));
    (OnftExamples.fb 6, sov 3 (OnftModel.XMove 60 100));
    (OnftExamples.fb 6, sov 3 (OnftModel.FConfirm [60%N])) ].
(** In block 10: power added, a proposal created, all power of member 1 taken. *)
Definition so_h2 : list (block * call (SingleModel.msg * Z + OnftModel.fmsg)) :=
  [ (OnftExamples.fb 10, sov 4 (OnftModel.XCreate 70 4));
    (OnftExamples.fb 10, sov 4 (OnftModel.FPrepare [70%N]));
    (OnftExamples.fb 10, sov 4 (OnftModel.XMove 70 100));
    (OnftExamples.fb 10, sov 4 (OnftModel.FConfirm [70%N]));
    (OnftExamples.fb 10, sop 4 (SingleModel.Propose (SingleExamples.ex_pm [7; 8] None)));
    (OnftExamples.fb 10, sov 1 (OnftModel.FUnstake [11; 12; 13; 14]%N));
    (OnftExamples.fb 11, sop 4 (SingleModel.CastVote 1 Yes None));
    (OnftExamples.fb 11, sop 1 (SingleModel.CastVote 1 Yes None));
    (OnftExamples.fb 12, sop 2 (SingleModel.CastVote 1 No None));
    (OnftExamples.fb 13, sop 3 (SingleModel.CastVote 1 No None)) ].
(** Afterwards power is added. *)
Definition so_h3 : list (block * call (SingleModel.msg * Z + OnftModel.fmsg)) :=
  [ (OnftExamples.fb 25, sov 3 (OnftModel.XCreate 80 3));
    (OnftExamples.fb 25, sov 3 (OnftModel.FPrepare [80%N]));
    (OnftExamples.fb 25, sov 3 (OnftModel.XMove 80 100));
    (OnftExamples.fb 25, sov 3 (OnftModel.FConfirm [80%N])) ].
Definition so_run (j : SingleModel.state * OnftModel.fstate) (h : list (block * call (SingleModel.msg * Z + OnftModel.fmsg))) :=
  single_run OnftModel.f_handle opow otot oact j h.
Definition so_0 : SingleModel.state * OnftModel.fstate := (SingleExamples.ex_state SingleExamples.ex_cfg, j_o0).
Definition so_1 := so_run so_0 so_h1.
Definition so_2 := so_run so_1.1 so_h2.
Definition so_all := so_run so_0 (so_h1 ++ so_h2).
Definition so_3 := so_run so_all.1 so_h3.
Lemma so_reached : single_on_onft 9 (OnftExamples.fb 9) so_1.1.1 so_1.1.2 so_1.2.
Proof.
  exists (OnftExamples.fb 4), (SingleExamples.ex_state SingleExamples.ex_cfg), j_o0,
    (snd (OnftExamples.frun None j_onft)), so_h1.
  split; [exact j_o0_reached|]. split; [done|]. split; [done|]. split; [jside|]. split; [jside|]. split; [|jside]. unfold so_1, so_run, so_0.
  by destruct (single_run OnftModel.f_handle opow otot oact _ so_h1) as [[? ?] ?].
Qed.
Lemma so_later : single_on_onft_later 9 (OnftExamples.fb 10) so_1.1.1 so_1.1.2
  (OnftExamples.fb 20) so_2.1.1 so_2.1.2 so_2.2.
Proof.
  exists so_h2. split; [jside|]. split; [jside|]. split; [|jside]. unfold so_2, so_run.
  rewrite <- surjective_pairing.
  by destruct (single_run OnftModel.f_handle opow otot oact _ so_h2) as [[? ?] ?].
Qed.
Lemma so_reached_all : single_on_onft 9 (OnftExamples.fb 20) so_all.1.1 so_all.1.2 so_all.2.
Proof.
  exists (OnftExamples.fb 4), (SingleExamples.ex_state SingleExamples.ex_cfg), j_o0,
    (snd (OnftExamples.frun None j_onft)), (so_h1 ++ so_h2).
  split; [exact j_o0_reached|]. split; [done|]. split; [done|]. split; [jside|]. split; [jside|]. split; [|jside]. unfold so_all, so_run, so_0.
  by destruct (single_run OnftModel.f_handle opow otot oact _ (so_h1 ++ so_h2)) as [[? ?] ?].
Qed.
Lemma so_later_all : single_on_onft_later 9 (OnftExamples.fb 20) so_all.1.1 so_all.1.2
  (OnftExamples.fb 30) so_3.1.1 so_3.1.2 so_3.2.
Proof.
  exists so_h3. split; [jside|]. split; [jside|]. split; [|jside]. unfold so_3, so_run.
  rewrite <- surjective_pairing.
  by destruct (single_run OnftModel.f_handle opow otot oact _ so_h3) as [[? ?] ?].
Qed.

(** ** Multiple choice, ONFTs *)
Definition mop (a : addr) (m : MultModel.msg) : call (MultModel.msg * Z + OnftModel.fmsg) :=
  Call a (inl (m, 1000)) [].
Definition mov (a : addr) (m : OnftModel.fmsg) : call (MultModel.msg * Z + OnftModel.fmsg) := Call a (inr m) [].
Definition mo_h1 : list (block * call (MultModel.msg * Z + OnftModel.fmsg)) :=
  [ (OnftExamples.fb 6, mov 3 (OnftModel.XCreate 60 3));
    (OnftExamples.fb 6, mov 3 (OnftModel.FPrepare [60%N]));
    (OnftExamples.fb 6, mov 3 (OnftModel.XMove 60 100));
    (OnftExamples.fb 6, mov 3 (OnftModel.FConfirm [60%N])) ].
(** In block 10: power added, a proposal created, all power of member 1 taken. *)
Definition mo_h2 : list (block * call (MultModel.msg * Z + OnftModel.fmsg)) :=
  [ (OnftExamples.fb 10, mov 4 (OnftModel.XCreate 70 4));
    (OnftExamples.fb 10, mov 4 (OnftModel.FPrepare [70%N]));
    (OnftExamples.fb 10, mov 4 (OnftModel.XMove 70 100));
    (OnftExamples.fb 10, mov 4 (OnftModel.FConfirm [70%N]));
    (OnftExamples.fb 10, mop 4 (MultModel.Propose (MultExamples.ex_pm [[7]; [8]] None)));
    (OnftExamples.fb 10, mov 1 (OnftModel.FUnstake [11; 12; 13; 14]%N));
    (OnftExamples.fb 11, mop 4 (MultModel.CastVote 1 0 None));
    (OnftExamples.fb 11, mop 1 (MultModel.CastVote 1 0 None));
    (OnftExamples.fb 12, mop 2 (MultModel.CastVote 1 1 None));
    (OnftExamples.fb 13, mop 3 (MultModel.CastVote 1 1 None)) ].
(** Afterwards power is added. *)
Definition mo_h3 : list (block * call (MultModel.msg * Z + OnftModel.fmsg)) :=
  [ (OnftExamples.fb 25, mov 3 (OnftModel.XCreate 80 3));
    (OnftExamples.fb 25, mov 3 (OnftModel.FPrepare [80%N]));
    (OnftExamples.fb 25, mov 3 (OnftModel.XMove 80 100));
    (OnftExamples.fb 25, mov 3 (OnftModel.FConfirm [80%N])) ].
Definition mo_run (j : MultModel.state * OnftModel.fstate) (h : list (block * call (MultModel.msg * Z + OnftModel.fmsg))) :=
  mult_run OnftModel.f_handle opow otot oact j h.
Definition mo_0 : MultModel.state * OnftModel.fstate := (MultExamples.ex_state MultExamples.ex_cfg, j_o0).
Definition mo_1 := mo_run mo_0 mo_h1.
Definition mo_2 := mo_run mo_1.1 mo_h2.
Definition mo_all := mo_run mo_0 (mo_h1 ++ mo_h2).
Definition mo_3 := mo_run mo_all.1 mo_h3.
Lemma mo_reached : mult_on_onft 9 (OnftExamples.fb 9) mo_1.1.1 mo_1.1.2 mo_1.2.
Proof.
  exists (OnftExamples.fb 4), (MultExamples.ex_state MultExamples.ex_cfg), j_o0,
    (snd (OnftExamples.frun None j_onft)), mo_h1.
  split; [exact j_o0_reached|]. split; [done|]. split; [done|]. split; [jside|]. split; [jside|]. split; [|jside]. unfold mo_1, mo_run, mo_0.
  by destruct (mult_run OnftModel.f_handle opow otot oact _ mo_h1) as [[? ?] ?].
Qed.
Lemma mo_later : mult_on_onft_later 9 (OnftExamples.fb 10) mo_1.1.1 mo_1.1.2
  (OnftExamples.fb 20) mo_2.1.1 mo_2.1.2 mo_2.2.
Proof.
  exists mo_h2. split; [jside|]. split; [jside|]. split; [|jside]. unfold mo_2, mo_run.
  rewrite <- surjective_pairing.
  by destruct (mult_run OnftModel.f_handle opow otot oact _ mo_h2) as [[? ?] ?].
Qed.
Lemma mo_reached_all : mult_on_onft 9 (OnftExamples.fb 20) mo_all.1.1 mo_all.1.2 mo_all.2.
Proof.
  exists (OnftExamples.fb 4), (MultExamples.ex_state MultExamples.ex_cfg), j_o0,
    (snd (OnftExamples.frun None j_onft)), (mo_h1 ++ mo_h2).
  split; [exact j_o0_reached|]. split; [done|]. split; [done|]. split; [jside|]. split; [jside|]. split; [|jside]. unfold mo_all, mo_run, mo_0.
  by destruct (mult_run OnftModel.f_handle opow otot oact _ (mo_h1 ++ mo_h2)) as [[? ?] ?].
Qed.
Lemma mo_later_all : mult_on_onft_later 9 (OnftExamples.fb 20) mo_all.1.1 mo_all.1.2
  (OnftExamples.fb 30) mo_3.1.1 mo_3.1.2 mo_3.2.
Proof.
  exists mo_h3. split; [jside|]. split; [jside|]. split; [|jside]. unfold mo_3, mo_run.
  rewrite <- surjective_pairing.
  by destruct (mult_run OnftModel.f_handle opow otot oact _ mo_h3) as [[? ?] ?].
Qed.

(** ** Condorcet, ONFTs *)
Definition cop (a : addr) (m : CondModel.msg) : call (CondModel.msg + OnftModel.fmsg) :=
  Call a (inl m) [].
Definition cov (a : addr) (m : OnftModel.fmsg) : call (CondModel.msg + OnftModel.fmsg) := Call a (inr m) [].
Definition co_h1 : list (block * call (CondModel.msg + OnftModel.fmsg)) :=
  [ (OnftExamples.fb 6, cov 3 (OnftModel.XCreate 60 3));
    (OnftExamples.fb 6, cov 3 (OnftModel.FPrepare [60%N]));
    (OnftExamples.fb 6, cov 3 (OnftModel.XMove 60 100));
    (OnftExamples.fb 6, cov 3 (OnftModel.FConfirm [60%N])) ].
(** In block 10: power added, a proposal created, all power of member 1 taken. *)
Definition co_h2 : list (block * call (CondModel.msg + OnftModel.fmsg)) :=
  [ (OnftExamples.fb 10, cov 2 (OnftModel.XCreate 70 2));
    (OnftExamples.fb 10, cov 2 (OnftModel.FPrepare [70%N]));
    (OnftExamples.fb 10, cov 2 (OnftModel.XMove 70 100));
    (OnftExamples.fb 10, cov 2 (OnftModel.FConfirm [70%N]));
    (OnftExamples.fb 10, cop 1 (CondModel.Propose [[7]; [8]]));
    (OnftExamples.fb 10, cov 1 (OnftModel.FUnstake [11; 12; 13; 14]%N));
    (OnftExamples.fb 11, cop 1 (CondModel.CastVote 1 [0; 1; 2]));
    (OnftExamples.fb 12, cop 2 (CondModel.CastVote 1 [1; 0; 2]));
    (OnftExamples.fb 13, cop 3 (CondModel.CastVote 1 [1; 0; 2])) ].
(** Afterwards power is added. *)
Definition co_h3 : list (block * call (CondModel.msg + OnftModel.fmsg)) :=
  [ (OnftExamples.fb 25, cov 3 (OnftModel.XCreate 80 3));
    (OnftExamples.fb 25, cov 3 (OnftModel.FPrepare [80%N]));
    (OnftExamples.fb 25, cov 3 (OnftModel.XMove 80 100));
    (OnftExamples.fb 25, cov 3 (OnftModel.FConfirm [80%N])) ].
Definition co_run (j : CondModel.state * OnftModel.fstate) (h : list (block * call (CondModel.msg + OnftModel.fmsg))) :=
  cond_run OnftModel.f_handle opow otot j h.
Definition co_0 : CondModel.state * OnftModel.fstate := (CondExamples.ex_state CondExamples.ex_cfg, j_o0).
Definition co_1 := co_run co_0 co_h1.
Definition co_2 := co_run co_1.1 co_h2.
Definition co_all := co_run co_0 (co_h1 ++ co_h2).
Definition co_3 := co_run co_all.1 co_h3.
Lemma co_reached : cond_on_onft (OnftExamples.fb 9) co_1.1.1 co_1.1.2 co_1.2.
Proof.
  exists (OnftExamples.fb 4), (CondExamples.ex_state CondExamples.ex_cfg), j_o0,
    (snd (OnftExamples.frun None j_onft)), co_h1.
  split; [exact j_o0_reached|]. split; [done|]. split; [jside|]. split; [|jside]. unfold co_1, co_run, co_0.
  by destruct (cond_run OnftModel.f_handle opow otot _ co_h1) as [[? ?] ?].
Qed.
Lemma co_later : cond_on_onft_later (OnftExamples.fb 10) co_1.1.1 co_1.1.2
  (OnftExamples.fb 20) co_2.1.1 co_2.1.2 co_2.2.
Proof.
  exists co_h2. split; [jside|]. split; [|jside]. unfold co_2, co_run.
  rewrite <- surjective_pairing.
  by destruct (cond_run OnftModel.f_handle opow otot _ co_h2) as [[? ?] ?].
Qed.
Lemma co_reached_all : cond_on_onft (OnftExamples.fb 20) co_all.1.1 co_all.1.2 co_all.2.
Proof.
  exists (OnftExamples.fb 4), (CondExamples.ex_state CondExamples.ex_cfg), j_o0,
    (snd (OnftExamples.frun None j_onft)), (co_h1 ++ co_h2).
  split; [exact j_o0_reached|]. split; [done|]. split; [jside|]. split; [|jside]. unfold co_all, co_run, co_0.
  by destruct (cond_run OnftModel.f_handle opow otot _ (co_h1 ++ co_h2)) as [[? ?] ?].
Qed.
Lemma co_later_all : cond_on_onft_later (OnftExamples.fb 20) co_all.1.1 co_all.1.2
  (OnftExamples.fb 30) co_3.1.1 co_3.1.2 co_3.2.
Proof.
  exists co_h3. split; [jside|]. split; [|jside]. unfold co_3, co_run.
  rewrite <- surjective_pairing.
  by destruct (cond_run OnftModel.f_handle opow otot _ co_h3) as [[? ?] ?].
Qed.
