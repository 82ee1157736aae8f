(** Concrete joint histories. *)
From Verif Require Import Base BaseProofs Exec ExecProofs Plain PlainProofs HooksModel
  VotingModel StoreModel ActiveModel Compose JointModel JointSpec.
From Verif Require SingleModel SingleSpec SingleExamples MultModel MultSpec MultExamples
  CondModel CondSpec CondExamples TokModel TokSpec TokExamples StakeModel StakeSpec StakeExamples
  NftModel NftSpec NftExamples.

(** Members 1, 2 and 3 have staked 40, 35 and 25 by block 4. *)
Definition j_thr : option athreshold := Some (ACount 50).
Definition j_tok : list (block * call TokModel.tmsg) :=
  [(TokExamples.tb 2, TokExamples.tstk 1%N 40); (TokExamples.tb 2, TokExamples.tstk 2%N 35);
   (TokExamples.tb 3, TokExamples.tstk 3%N 25)].
Definition j_t0 : TokModel.tstate := fst (TokExamples.trun None j_thr j_tok).
Lemma j_t0_reached : TokSpec.treached (TokExamples.tb 4) j_t0 (snd (TokExamples.trun None j_thr j_tok)).
Proof. unfold j_t0. TokExamples.treach. Qed.
Definition j_cw20 : list (block * call StakeModel.kmsg) :=
  [(StakeExamples.kb 2, StakeExamples.kstk 1%N 40); (StakeExamples.kb 2, StakeExamples.kstk 2%N 35);
   (StakeExamples.kb 3, StakeExamples.kstk 3%N 25)].
Definition j_k0 : StakeModel.kstate := fst (StakeExamples.krun None j_cw20).
Lemma j_k0_reached : StakeSpec.kreached (StakeExamples.kb 4) j_k0 (snd (StakeExamples.krun None j_cw20)).
Proof. unfold j_k0. StakeExamples.kreach. Qed.

Definition j_nft : list (block * call NftModel.nmsg) :=
  map (fun i => (NftExamples.nb 2, NftExamples.nstk 1%N i)) [11; 12; 13; 14]%N ++
  map (fun i => (NftExamples.nb 2, NftExamples.nstk 2%N i)) [21; 22; 23]%N ++
  map (fun i => (NftExamples.nb 3, NftExamples.nstk 3%N i)) [31; 32]%N.
(** Members 1, 2 and 3 have staked 4, 3 and 2 tokens by block 4. *)
Definition j_n0 : NftModel.nstate := fst (NftExamples.nrun None (Some (ACount 5)) j_nft).
Lemma j_n0_reached :
  NftSpec.nreached (NftExamples.nb 4) j_n0 (snd (NftExamples.nrun None (Some (ACount 5)) j_nft)).
Proof. unfold j_n0. NftExamples.nreach. Qed.

Ltac jside :=
  repeat match goal with
  | |- _ /\ _ => split
  | |- Forall _ (_ ++ _) => apply Forall_app_2
  | |- Forall _ ?h => is_const h; unfold h
  | |- Forall _ [] => apply Forall_nil_2
  | |- Forall _ (_ :: _) => apply Forall_cons_2
  | |- forall _, _ => intro
  | _ => progress (simpl; unfold SingleSpec.attached, SingleSpec.keeps_dao, SingleSpec.thr_typed,
      SingleSpec.pct_typed, MultSpec.attached, MultSpec.keeps_dao, MultSpec.pct_typed,
      any_msg, block_le, hist_all, pair_msg)
  | |- True => exact I
  | _ => reflexivity
  | _ => vm_compute; discriminate
  end.

(** ** The single-choice module on staked tokens *)
Definition stp (a : addr) (m : SingleModel.msg) : call (SingleModel.msg * Z + TokModel.tmsg) :=
  Call a (inl (m, 1000)) [].
Definition stv (a : addr) (m : TokModel.tmsg) : call (SingleModel.msg * Z + TokModel.tmsg) := Call a (inr m) [].
Definition st_h1 : list (block * call (SingleModel.msg * Z + TokModel.tmsg)) := [(TokExamples.tb 6, stv 3 (TokModel.TStake [(5%N, 5)]))].
(** In block 10: 500 staked, a proposal created, everything of member 1 withdrawn. *)
Definition st_h2 : list (block * call (SingleModel.msg * Z + TokModel.tmsg)) :=
  [ (TokExamples.tb 10, stv 4 (TokModel.TStake [(5%N, 500)]));
    (TokExamples.tb 10, stp 4 (SingleModel.Propose (SingleExamples.ex_pm [7; 8] None)));
    (TokExamples.tb 10, stv 1 (TokModel.TUnstake 40));
    (TokExamples.tb 11, stp 4 (SingleModel.CastVote 1 Yes None));
    (TokExamples.tb 11, stp 1 (SingleModel.CastVote 1 Yes None));
    (TokExamples.tb 12, stp 2 (SingleModel.CastVote 1 No None));
    (TokExamples.tb 13, stp 3 (SingleModel.CastVote 1 No None)) ].
(** Afterwards more is staked. *)
Definition st_h3 : list (block * call (SingleModel.msg * Z + TokModel.tmsg)) := [(TokExamples.tb 25, stv 3 (TokModel.TStake [(5%N, 7)]))].
Definition st_run (j : SingleModel.state * TokModel.tstate) (h : list (block * call (SingleModel.msg * Z + TokModel.tmsg))) :=
  single_run TokModel.t_handle tpow ttot tact j h.
Definition st_0 : SingleModel.state * TokModel.tstate := (SingleExamples.ex_state SingleExamples.ex_cfg, j_t0).
Definition st_1 := st_run st_0 st_h1.
Definition st_2 := st_run st_1.1 st_h2.
Definition st_all := st_run st_0 (st_h1 ++ st_h2).
Definition st_3 := st_run st_all.1 st_h3.
Lemma st_reached : single_on_tok 9 (TokExamples.tb 9) st_1.1.1 st_1.1.2 st_1.2.
Proof.
  exists (TokExamples.tb 4), (SingleExamples.ex_state SingleExamples.ex_cfg), j_t0,
    (snd (TokExamples.trun None j_thr j_tok)), st_h1.
  split; [exact j_t0_reached|]. split; [done|]. split; [done|]. split; [jside|]. split; [jside|]. split; [|jside]. unfold st_1, st_run, st_0.
  by destruct (single_run TokModel.t_handle tpow ttot tact _ st_h1) as [[? ?] ?].
Qed.
Lemma st_later : single_on_tok_later 9 (TokExamples.tb 10) st_1.1.1 st_1.1.2
  (TokExamples.tb 20) st_2.1.1 st_2.1.2 st_2.2.
Proof.
  exists st_h2. split; [jside|]. split; [jside|]. split; [|jside]. unfold st_2, st_run.
  rewrite <- surjective_pairing.
  by destruct (single_run TokModel.t_handle tpow ttot tact _ st_h2) as [[? ?] ?].
Qed.
Lemma st_reached_all : single_on_tok 9 (TokExamples.tb 20) st_all.1.1 st_all.1.2 st_all.2.
Proof.
  exists (TokExamples.tb 4), (SingleExamples.ex_state SingleExamples.ex_cfg), j_t0,
    (snd (TokExamples.trun None j_thr j_tok)), (st_h1 ++ st_h2).
  split; [exact j_t0_reached|]. split; [done|]. split; [done|]. split; [jside|]. split; [jside|]. split; [|jside]. unfold st_all, st_run, st_0.
  by destruct (single_run TokModel.t_handle tpow ttot tact _ (st_h1 ++ st_h2)) as [[? ?] ?].
Qed.
Lemma st_later_all : single_on_tok_later 9 (TokExamples.tb 20) st_all.1.1 st_all.1.2
  (TokExamples.tb 30) st_3.1.1 st_3.1.2 st_3.2.
Proof.
  exists st_h3. split; [jside|]. split; [jside|]. split; [|jside]. unfold st_3, st_run.
  rewrite <- surjective_pairing.
  by destruct (single_run TokModel.t_handle tpow ttot tact _ st_h3) as [[? ?] ?].
Qed.

(** ** The multiple-choice module on staked tokens *)
Definition mtp (a : addr) (m : MultModel.msg) : call (MultModel.msg * Z + TokModel.tmsg) :=
  Call a (inl (m, 1000)) [].
Definition mtv (a : addr) (m : TokModel.tmsg) : call (MultModel.msg * Z + TokModel.tmsg) := Call a (inr m) [].
Definition mt_h1 : list (block * call (MultModel.msg * Z + TokModel.tmsg)) := [(TokExamples.tb 6, mtv 3 (TokModel.TStake [(5%N, 5)]))].
(** In block 10: 500 staked, a proposal created, everything of member 1 withdrawn. *)
Definition mt_h2 : list (block * call (MultModel.msg * Z + TokModel.tmsg)) :=
  [ (TokExamples.tb 10, mtv 4 (TokModel.TStake [(5%N, 500)]));
    (TokExamples.tb 10, mtp 4 (MultModel.Propose (MultExamples.ex_pm [[7]; [8]] None)));
    (TokExamples.tb 10, mtv 1 (TokModel.TUnstake 40));
    (TokExamples.tb 11, mtp 4 (MultModel.CastVote 1 0 None));
    (TokExamples.tb 11, mtp 1 (MultModel.CastVote 1 0 None));
    (TokExamples.tb 12, mtp 2 (MultModel.CastVote 1 1 None));
    (TokExamples.tb 13, mtp 3 (MultModel.CastVote 1 1 None)) ].
(** Afterwards more is staked. *)
Definition mt_h3 : list (block * call (MultModel.msg * Z + TokModel.tmsg)) := [(TokExamples.tb 25, mtv 3 (TokModel.TStake [(5%N, 7)]))].
Definition mt_run (j : MultModel.state * TokModel.tstate) (h : list (block * call (MultModel.msg * Z + TokModel.tmsg))) :=
  mult_run TokModel.t_handle tpow ttot tact j h.
Definition mt_0 : MultModel.state * TokModel.tstate := (MultExamples.ex_state MultExamples.ex_cfg, j_t0).
Definition mt_1 := mt_run mt_0 mt_h1.
Definition mt_2 := mt_run mt_1.1 mt_h2.
Definition mt_all := mt_run mt_0 (mt_h1 ++ mt_h2).
Definition mt_3 := mt_run mt_all.1 mt_h3.
Lemma mt_reached : mult_on_tok 9 (TokExamples.tb 9) mt_1.1.1 mt_1.1.2 mt_1.2.
Proof.
  exists (TokExamples.tb 4), (MultExamples.ex_state MultExamples.ex_cfg), j_t0,
    (snd (TokExamples.trun None j_thr j_tok)), mt_h1.
  split; [exact j_t0_reached|]. split; [done|]. split; [done|]. split; [jside|]. split; [jside|]. split; [|jside]. unfold mt_1, mt_run, mt_0.
  by destruct (mult_run TokModel.t_handle tpow ttot tact _ mt_h1) as [[? ?] ?].
Qed.
Lemma mt_later : mult_on_tok_later 9 (TokExamples.tb 10) mt_1.1.1 mt_1.1.2
  (TokExamples.tb 20) mt_2.1.1 mt_2.1.2 mt_2.2.
Proof.
  exists mt_h2. split; [jside|]. split; [jside|]. split; [|jside]. unfold mt_2, mt_run.
  rewrite <- surjective_pairing.
  by destruct (mult_run TokModel.t_handle tpow ttot tact _ mt_h2) as [[? ?] ?].
Qed.
Lemma mt_reached_all : mult_on_tok 9 (TokExamples.tb 20) mt_all.1.1 mt_all.1.2 mt_all.2.
Proof.
  exists (TokExamples.tb 4), (MultExamples.ex_state MultExamples.ex_cfg), j_t0,
    (snd (TokExamples.trun None j_thr j_tok)), (mt_h1 ++ mt_h2).
  split; [exact j_t0_reached|]. split; [done|]. split; [done|]. split; [jside|]. split; [jside|]. split; [|jside]. unfold mt_all, mt_run, mt_0.
  by destruct (mult_run TokModel.t_handle tpow ttot tact _ (mt_h1 ++ mt_h2)) as [[? ?] ?].
Qed.
Lemma mt_later_all : mult_on_tok_later 9 (TokExamples.tb 20) mt_all.1.1 mt_all.1.2
  (TokExamples.tb 30) mt_3.1.1 mt_3.1.2 mt_3.2.
Proof.
  exists mt_h3. split; [jside|]. split; [jside|]. split; [|jside]. unfold mt_3, mt_run.
  rewrite <- surjective_pairing.
  by destruct (mult_run TokModel.t_handle tpow ttot tact _ mt_h3) as [[? ?] ?].
Qed.

(** ** The Condorcet module on staked tokens *)
Definition ctp (a : addr) (m : CondModel.msg) : call (CondModel.msg + TokModel.tmsg) :=
  Call a (inl m) [].
Definition ctv (a : addr) (m : TokModel.tmsg) : call (CondModel.msg + TokModel.tmsg) := Call a (inr m) [].
Definition ct_h1 : list (block * call (CondModel.msg + TokModel.tmsg)) := [(TokExamples.tb 6, ctv 3 (TokModel.TStake [(5%N, 5)]))].
(** In block 10: 500 staked, a proposal created, everything of member 1 withdrawn. *)
Definition ct_h2 : list (block * call (CondModel.msg + TokModel.tmsg)) :=
  [ (TokExamples.tb 10, ctv 2 (TokModel.TStake [(5%N, 500)]));
    (TokExamples.tb 10, ctp 1 (CondModel.Propose [[7]; [8]]));
    (TokExamples.tb 10, ctv 1 (TokModel.TUnstake 40));
    (TokExamples.tb 11, ctp 1 (CondModel.CastVote 1 [0; 1; 2]));
    (TokExamples.tb 12, ctp 2 (CondModel.CastVote 1 [1; 0; 2]));
    (TokExamples.tb 13, ctp 3 (CondModel.CastVote 1 [1; 0; 2])) ].
(** Afterwards more is staked. *)
Definition ct_h3 : list (block * call (CondModel.msg + TokModel.tmsg)) := [(TokExamples.tb 25, ctv 3 (TokModel.TStake [(5%N, 7)]))].
Definition ct_run (j : CondModel.state * TokModel.tstate) (h : list (block * call (CondModel.msg + TokModel.tmsg))) :=
  cond_run TokModel.t_handle tpow ttot j h.
Definition ct_0 : CondModel.state * TokModel.tstate := (CondExamples.ex_state CondExamples.ex_cfg, j_t0).
Definition ct_1 := ct_run ct_0 ct_h1.
Definition ct_2 := ct_run ct_1.1 ct_h2.
Definition ct_all := ct_run ct_0 (ct_h1 ++ ct_h2).
Definition ct_3 := ct_run ct_all.1 ct_h3.
Lemma ct_reached : cond_on_tok (TokExamples.tb 9) ct_1.1.1 ct_1.1.2 ct_1.2.
Proof.
  exists (TokExamples.tb 4), (CondExamples.ex_state CondExamples.ex_cfg), j_t0,
    (snd (TokExamples.trun None j_thr j_tok)), ct_h1.
  split; [exact j_t0_reached|]. split; [done|]. split; [jside|]. split; [|jside]. unfold ct_1, ct_run, ct_0.
  by destruct (cond_run TokModel.t_handle tpow ttot _ ct_h1) as [[? ?] ?].
Qed.
Lemma ct_later : cond_on_tok_later (TokExamples.tb 10) ct_1.1.1 ct_1.1.2
  (TokExamples.tb 20) ct_2.1.1 ct_2.1.2 ct_2.2.
Proof.
  exists ct_h2. split; [jside|]. split; [|jside]. unfold ct_2, ct_run.
  rewrite <- surjective_pairing.
  by destruct (cond_run TokModel.t_handle tpow ttot _ ct_h2) as [[? ?] ?].
Qed.
Lemma ct_reached_all : cond_on_tok (TokExamples.tb 20) ct_all.1.1 ct_all.1.2 ct_all.2.
Proof.
  exists (TokExamples.tb 4), (CondExamples.ex_state CondExamples.ex_cfg), j_t0,
    (snd (TokExamples.trun None j_thr j_tok)), (ct_h1 ++ ct_h2).
  split; [exact j_t0_reached|]. split; [done|]. split; [jside|]. split; [|jside]. unfold ct_all, ct_run, ct_0.
  by destruct (cond_run TokModel.t_handle tpow ttot _ (ct_h1 ++ ct_h2)) as [[? ?] ?].
Qed.
Lemma ct_later_all : cond_on_tok_later (TokExamples.tb 20) ct_all.1.1 ct_all.1.2
  (TokExamples.tb 30) ct_3.1.1 ct_3.1.2 ct_3.2.
Proof.
  exists ct_h3. split; [jside|]. split; [|jside]. unfold ct_3, ct_run.
  rewrite <- surjective_pairing.
  by destruct (cond_run TokModel.t_handle tpow ttot _ ct_h3) as [[? ?] ?].
Qed.

(** ** The single-choice module on cw20-stake *)
Definition skp (a : addr) (m : SingleModel.msg) : call (SingleModel.msg * Z + StakeModel.kmsg) :=
  Call a (inl (m, 1)) [].
Definition skv (a : addr) (m : StakeModel.kmsg) : call (SingleModel.msg * Z + StakeModel.kmsg) := Call a (inr m) [].
Definition sk_h1 : list (block * call (SingleModel.msg * Z + StakeModel.kmsg)) := [(StakeExamples.kb 6, skv 70 (StakeModel.KReceive 3 5 true))].
(** In block 10: 500 staked, a proposal created, everything of member 1 withdrawn. *)
Definition sk_h2 : list (block * call (SingleModel.msg * Z + StakeModel.kmsg)) :=
  [ (StakeExamples.kb 10, skv 70 (StakeModel.KReceive 4 500 true));
    (StakeExamples.kb 10, skp 4 (SingleModel.Propose (SingleExamples.ex_pm [7; 8] None)));
    (StakeExamples.kb 10, skv 1 (StakeModel.KUnstake 40));
    (StakeExamples.kb 11, skp 4 (SingleModel.CastVote 1 Yes None));
    (StakeExamples.kb 11, skp 1 (SingleModel.CastVote 1 Yes None));
    (StakeExamples.kb 12, skp 2 (SingleModel.CastVote 1 No None));
    (StakeExamples.kb 13, skp 3 (SingleModel.CastVote 1 No None)) ].
(** Afterwards more is staked. *)
Definition sk_h3 : list (block * call (SingleModel.msg * Z + StakeModel.kmsg)) := [(StakeExamples.kb 25, skv 70 (StakeModel.KReceive 3 7 true))].
Definition sk_run (j : SingleModel.state * StakeModel.kstate) (h : list (block * call (SingleModel.msg * Z + StakeModel.kmsg))) :=
  single_run StakeModel.k_handle kpow ktot kact j h.
Definition sk_0 : SingleModel.state * StakeModel.kstate := (SingleExamples.ex_state SingleExamples.ex_cfg, j_k0).
Definition sk_1 := sk_run sk_0 sk_h1.
Definition sk_2 := sk_run sk_1.1 sk_h2.
Definition sk_all := sk_run sk_0 (sk_h1 ++ sk_h2).
Definition sk_3 := sk_run sk_all.1 sk_h3.
Lemma sk_reached : single_on_cw20 9 (StakeExamples.kb 9) sk_1.1.1 sk_1.1.2 sk_1.2.
Proof.
  exists (StakeExamples.kb 4), (SingleExamples.ex_state SingleExamples.ex_cfg), j_k0,
    (snd (StakeExamples.krun None j_cw20)), sk_h1.
  split; [exact j_k0_reached|]. split; [done|]. split; [done|]. split; [jside|]. split; [jside|]. split; [|jside]. unfold sk_1, sk_run, sk_0.
  by destruct (single_run StakeModel.k_handle kpow ktot kact _ sk_h1) as [[? ?] ?].
Qed.
Lemma sk_later : single_on_cw20_later 9 (StakeExamples.kb 10) sk_1.1.1 sk_1.1.2
  (StakeExamples.kb 20) sk_2.1.1 sk_2.1.2 sk_2.2.
Proof.
  exists sk_h2. split; [jside|]. split; [jside|]. split; [|jside]. unfold sk_2, sk_run.
  rewrite <- surjective_pairing.
  by destruct (single_run StakeModel.k_handle kpow ktot kact _ sk_h2) as [[? ?] ?].
Qed.
Lemma sk_reached_all : single_on_cw20 9 (StakeExamples.kb 20) sk_all.1.1 sk_all.1.2 sk_all.2.
Proof.
  exists (StakeExamples.kb 4), (SingleExamples.ex_state SingleExamples.ex_cfg), j_k0,
    (snd (StakeExamples.krun None j_cw20)), (sk_h1 ++ sk_h2).
  split; [exact j_k0_reached|]. split; [done|]. split; [done|]. split; [jside|]. split; [jside|]. split; [|jside]. unfold sk_all, sk_run, sk_0.
  by destruct (single_run StakeModel.k_handle kpow ktot kact _ (sk_h1 ++ sk_h2)) as [[? ?] ?].
Qed.
Lemma sk_later_all : single_on_cw20_later 9 (StakeExamples.kb 20) sk_all.1.1 sk_all.1.2
  (StakeExamples.kb 30) sk_3.1.1 sk_3.1.2 sk_3.2.
Proof.
  exists sk_h3. split; [jside|]. split; [jside|]. split; [|jside]. unfold sk_3, sk_run.
  rewrite <- surjective_pairing.
  by destruct (single_run StakeModel.k_handle kpow ktot kact _ sk_h3) as [[? ?] ?].
Qed.

(** ** The multiple-choice module on cw20-stake *)
Definition mkp (a : addr) (m : MultModel.msg) : call (MultModel.msg * Z + StakeModel.kmsg) :=
  Call a (inl (m, 1)) [].
Definition mkv (a : addr) (m : StakeModel.kmsg) : call (MultModel.msg * Z + StakeModel.kmsg) := Call a (inr m) [].
Definition mk_h1 : list (block * call (MultModel.msg * Z + StakeModel.kmsg)) := [(StakeExamples.kb 6, mkv 70 (StakeModel.KReceive 3 5 true))].
(** In block 10: 500 staked, a proposal created, everything of member 1 withdrawn. *)
Definition mk_h2 : list (block * call (MultModel.msg * Z + StakeModel.kmsg)) :=
  [ (StakeExamples.kb 10, mkv 70 (StakeModel.KReceive 4 500 true));
    (StakeExamples.kb 10, mkp 4 (MultModel.Propose (MultExamples.ex_pm [[7]; [8]] None)));
    (StakeExamples.kb 10, mkv 1 (StakeModel.KUnstake 40));
    (StakeExamples.kb 11, mkp 4 (MultModel.CastVote 1 0 None));
    (StakeExamples.kb 11, mkp 1 (MultModel.CastVote 1 0 None));
    (StakeExamples.kb 12, mkp 2 (MultModel.CastVote 1 1 None));
    (StakeExamples.kb 13, mkp 3 (MultModel.CastVote 1 1 None)) ].
(** Afterwards more is staked. *)
Definition mk_h3 : list (block * call (MultModel.msg * Z + StakeModel.kmsg)) := [(StakeExamples.kb 25, mkv 70 (StakeModel.KReceive 3 7 true))].
Definition mk_run (j : MultModel.state * StakeModel.kstate) (h : list (block * call (MultModel.msg * Z + StakeModel.kmsg))) :=
  mult_run StakeModel.k_handle kpow ktot kact j h.
Definition mk_0 : MultModel.state * StakeModel.kstate := (MultExamples.ex_state MultExamples.ex_cfg, j_k0).
Definition mk_1 := mk_run mk_0 mk_h1.
Definition mk_2 := mk_run mk_1.1 mk_h2.
Definition mk_all := mk_run mk_0 (mk_h1 ++ mk_h2).
Definition mk_3 := mk_run mk_all.1 mk_h3.
Lemma mk_reached : mult_on_cw20 9 (StakeExamples.kb 9) mk_1.1.1 mk_1.1.2 mk_1.2.
Proof.
  exists (StakeExamples.kb 4), (MultExamples.ex_state MultExamples.ex_cfg), j_k0,
    (snd (StakeExamples.krun None j_cw20)), mk_h1.
  split; [exact j_k0_reached|]. split; [done|]. split; [done|]. split; [jside|]. split; [jside|]. split; [|jside]. unfold mk_1, mk_run, mk_0.
  by destruct (mult_run StakeModel.k_handle kpow ktot kact _ mk_h1) as [[? ?] ?].
Qed.
Lemma mk_later : mult_on_cw20_later 9 (StakeExamples.kb 10) mk_1.1.1 mk_1.1.2
  (StakeExamples.kb 20) mk_2.1.1 mk_2.1.2 mk_2.2.
Proof.
  exists mk_h2. split; [jside|]. split; [jside|]. split; [|jside]. unfold mk_2, mk_run.
  rewrite <- surjective_pairing.
  by destruct (mult_run StakeModel.k_handle kpow ktot kact _ mk_h2) as [[? ?] ?].
Qed.
Lemma mk_reached_all : mult_on_cw20 9 (StakeExamples.kb 20) mk_all.1.1 mk_all.1.2 mk_all.2.
Proof.
  exists (StakeExamples.kb 4), (MultExamples.ex_state MultExamples.ex_cfg), j_k0,
    (snd (StakeExamples.krun None j_cw20)), (mk_h1 ++ mk_h2).
  split; [exact j_k0_reached|]. split; [done|]. split; [done|]. split; [jside|]. split; [jside|]. split; [|jside]. unfold mk_all, mk_run, mk_0.
  by destruct (mult_run StakeModel.k_handle kpow ktot kact _ (mk_h1 ++ mk_h2)) as [[? ?] ?].
Qed.
Lemma mk_later_all : mult_on_cw20_later 9 (StakeExamples.kb 20) mk_all.1.1 mk_all.1.2
  (StakeExamples.kb 30) mk_3.1.1 mk_3.1.2 mk_3.2.
Proof.
  exists mk_h3. split; [jside|]. split; [jside|]. split; [|jside]. unfold mk_3, mk_run.
  rewrite <- surjective_pairing.
  by destruct (mult_run StakeModel.k_handle kpow ktot kact _ mk_h3) as [[? ?] ?].
Qed.

(** ** The Condorcet module on cw20-stake *)
Definition ckp (a : addr) (m : CondModel.msg) : call (CondModel.msg + StakeModel.kmsg) :=
  Call a (inl m) [].
Definition ckv (a : addr) (m : StakeModel.kmsg) : call (CondModel.msg + StakeModel.kmsg) := Call a (inr m) [].
Definition ck_h1 : list (block * call (CondModel.msg + StakeModel.kmsg)) := [(StakeExamples.kb 6, ckv 70 (StakeModel.KReceive 3 5 true))].
(** In block 10: 500 staked, a proposal created, everything of member 1 withdrawn. *)
Definition ck_h2 : list (block * call (CondModel.msg + StakeModel.kmsg)) :=
  [ (StakeExamples.kb 10, ckv 70 (StakeModel.KReceive 2 500 true));
    (StakeExamples.kb 10, ckp 1 (CondModel.Propose [[7]; [8]]));
    (StakeExamples.kb 10, ckv 1 (StakeModel.KUnstake 40));
    (StakeExamples.kb 11, ckp 1 (CondModel.CastVote 1 [0; 1; 2]));
    (StakeExamples.kb 12, ckp 2 (CondModel.CastVote 1 [1; 0; 2]));
    (StakeExamples.kb 13, ckp 3 (CondModel.CastVote 1 [1; 0; 2])) ].
(** Afterwards more is staked. *)
Definition ck_h3 : list (block * call (CondModel.msg + StakeModel.kmsg)) := [(StakeExamples.kb 25, ckv 70 (StakeModel.KReceive 3 7 true))].
Definition ck_run (j : CondModel.state * StakeModel.kstate) (h : list (block * call (CondModel.msg + StakeModel.kmsg))) :=
  cond_run StakeModel.k_handle kpow ktot j h.
Definition ck_0 : CondModel.state * StakeModel.kstate := (CondExamples.ex_state CondExamples.ex_cfg, j_k0).
Definition ck_1 := ck_run ck_0 ck_h1.
Definition ck_2 := ck_run ck_1.1 ck_h2.
Definition ck_all := ck_run ck_0 (ck_h1 ++ ck_h2).
Definition ck_3 := ck_run ck_all.1 ck_h3.
Lemma ck_reached : cond_on_cw20 (StakeExamples.kb 9) ck_1.1.1 ck_1.1.2 ck_1.2.
Proof.
  exists (StakeExamples.kb 4), (CondExamples.ex_state CondExamples.ex_cfg), j_k0,
    (snd (StakeExamples.krun None j_cw20)), ck_h1.
  split; [exact j_k0_reached|]. split; [done|]. split; [jside|]. split; [|jside]. unfold ck_1, ck_run, ck_0.
  by destruct (cond_run StakeModel.k_handle kpow ktot _ ck_h1) as [[? ?] ?].
Qed.
Lemma ck_later : cond_on_cw20_later (StakeExamples.kb 10) ck_1.1.1 ck_1.1.2
  (StakeExamples.kb 20) ck_2.1.1 ck_2.1.2 ck_2.2.
Proof.
  exists ck_h2. split; [jside|]. split; [|jside]. unfold ck_2, ck_run.
  rewrite <- surjective_pairing.
  by destruct (cond_run StakeModel.k_handle kpow ktot _ ck_h2) as [[? ?] ?].
Qed.
Lemma ck_reached_all : cond_on_cw20 (StakeExamples.kb 20) ck_all.1.1 ck_all.1.2 ck_all.2.
Proof.
  exists (StakeExamples.kb 4), (CondExamples.ex_state CondExamples.ex_cfg), j_k0,
    (snd (StakeExamples.krun None j_cw20)), (ck_h1 ++ ck_h2).
  split; [exact j_k0_reached|]. split; [done|]. split; [jside|]. split; [|jside]. unfold ck_all, ck_run, ck_0.
  by destruct (cond_run StakeModel.k_handle kpow ktot _ (ck_h1 ++ ck_h2)) as [[? ?] ?].
Qed.
Lemma ck_later_all : cond_on_cw20_later (StakeExamples.kb 20) ck_all.1.1 ck_all.1.2
  (StakeExamples.kb 30) ck_3.1.1 ck_3.1.2 ck_3.2.
Proof.
  exists ck_h3. split; [jside|]. split; [|jside]. unfold ck_3, ck_run.
  rewrite <- surjective_pairing.
  by destruct (cond_run StakeModel.k_handle kpow ktot _ ck_h3) as [[? ?] ?].
Qed.

(** ** The single-choice module on staked NFTs *)
Definition snp (a : addr) (m : SingleModel.msg) : call (SingleModel.msg * Z + NftModel.nmsg) :=
  Call a (inl (m, 1000)) [].
Definition snv (a : addr) (m : NftModel.nmsg) : call (SingleModel.msg * Z + NftModel.nmsg) := Call a (inr m) [].
Definition sn_h1 : list (block * call (SingleModel.msg * Z + NftModel.nmsg)) := [(NftExamples.nb 6, snv 70 (NftModel.NReceive 3 60))].
(** In block 10: one staked, a proposal created, everything of member 1 withdrawn. *)
Definition sn_h2 : list (block * call (SingleModel.msg * Z + NftModel.nmsg)) :=
  [ (NftExamples.nb 10, snv 70 (NftModel.NReceive 4 70));
    (NftExamples.nb 10, snp 4 (SingleModel.Propose (SingleExamples.ex_pm [7; 8] None)));
    (NftExamples.nb 10, snv 1 (NftModel.NUnstake [11; 12; 13; 14]%N));
    (NftExamples.nb 11, snp 4 (SingleModel.CastVote 1 Yes None));
    (NftExamples.nb 11, snp 1 (SingleModel.CastVote 1 Yes None));
    (NftExamples.nb 12, snp 2 (SingleModel.CastVote 1 No None));
    (NftExamples.nb 13, snp 3 (SingleModel.CastVote 1 No None)) ].
(** Afterwards more is staked. *)
Definition sn_h3 : list (block * call (SingleModel.msg * Z + NftModel.nmsg)) := [(NftExamples.nb 25, snv 70 (NftModel.NReceive 3 80))].
Definition sn_run (j : SingleModel.state * NftModel.nstate) (h : list (block * call (SingleModel.msg * Z + NftModel.nmsg))) :=
  single_run NftModel.n_handle npow ntot nact j h.
Definition sn_0 : SingleModel.state * NftModel.nstate := (SingleExamples.ex_state SingleExamples.ex_cfg, j_n0).
Definition sn_1 := sn_run sn_0 sn_h1.
Definition sn_2 := sn_run sn_1.1 sn_h2.
Definition sn_all := sn_run sn_0 (sn_h1 ++ sn_h2).
Definition sn_3 := sn_run sn_all.1 sn_h3.
Lemma sn_reached : single_on_nft 9 (NftExamples.nb 9) sn_1.1.1 sn_1.1.2 sn_1.2.
Proof.
  exists (NftExamples.nb 4), (SingleExamples.ex_state SingleExamples.ex_cfg), j_n0,
    (snd (NftExamples.nrun None (Some (ACount 5)) j_nft)), sn_h1.
  split; [exact j_n0_reached|]. split; [done|]. split; [done|]. split; [jside|]. split; [jside|]. split; [|jside]. unfold sn_1, sn_run, sn_0.
  by destruct (single_run NftModel.n_handle npow ntot nact _ sn_h1) as [[? ?] ?].
Qed.
Lemma sn_later : single_on_nft_later 9 (NftExamples.nb 10) sn_1.1.1 sn_1.1.2
  (NftExamples.nb 20) sn_2.1.1 sn_2.1.2 sn_2.2.
Proof.
  exists sn_h2. split; [jside|]. split; [jside|]. split; [|jside]. unfold sn_2, sn_run.
  rewrite <- surjective_pairing.
  by destruct (single_run NftModel.n_handle npow ntot nact _ sn_h2) as [[? ?] ?].
Qed.
Lemma sn_reached_all : single_on_nft 9 (NftExamples.nb 20) sn_all.1.1 sn_all.1.2 sn_all.2.
Proof.
  exists (NftExamples.nb 4), (SingleExamples.ex_state SingleExamples.ex_cfg), j_n0,
    (snd (NftExamples.nrun None (Some (ACount 5)) j_nft)), (sn_h1 ++ sn_h2).
  split; [exact j_n0_reached|]. split; [done|]. split; [done|]. split; [jside|]. split; [jside|]. split; [|jside]. unfold sn_all, sn_run, sn_0.
  by destruct (single_run NftModel.n_handle npow ntot nact _ (sn_h1 ++ sn_h2)) as [[? ?] ?].
Qed.
Lemma sn_later_all : single_on_nft_later 9 (NftExamples.nb 20) sn_all.1.1 sn_all.1.2
  (NftExamples.nb 30) sn_3.1.1 sn_3.1.2 sn_3.2.
Proof.
  exists sn_h3. split; [jside|]. split; [jside|]. split; [|jside]. unfold sn_3, sn_run.
  rewrite <- surjective_pairing.
  by destruct (single_run NftModel.n_handle npow ntot nact _ sn_h3) as [[? ?] ?].
Qed.

(** ** The multiple-choice module on staked NFTs *)
Definition mnp (a : addr) (m : MultModel.msg) : call (MultModel.msg * Z + NftModel.nmsg) :=
  Call a (inl (m, 1000)) [].
Definition mnv (a : addr) (m : NftModel.nmsg) : call (MultModel.msg * Z + NftModel.nmsg) := Call a (inr m) [].
Definition mn_h1 : list (block * call (MultModel.msg * Z + NftModel.nmsg)) := [(NftExamples.nb 6, mnv 70 (NftModel.NReceive 3 60))].
(** In block 10: one staked, a proposal created, everything of member 1 withdrawn. *)
Definition mn_h2 : list (block * call (MultModel.msg * Z + NftModel.nmsg)) :=
  [ (NftExamples.nb 10, mnv 70 (NftModel.NReceive 4 70));
    (NftExamples.nb 10, mnp 4 (MultModel.Propose (MultExamples.ex_pm [[7]; [8]] None)));
    (NftExamples.nb 10, mnv 1 (NftModel.NUnstake [11; 12; 13; 14]%N));
    (NftExamples.nb 11, mnp 4 (MultModel.CastVote 1 0 None));
    (NftExamples.nb 11, mnp 1 (MultModel.CastVote 1 0 None));
    (NftExamples.nb 12, mnp 2 (MultModel.CastVote 1 1 None));
    (NftExamples.nb 13, mnp 3 (MultModel.CastVote 1 1 None)) ].
(** Afterwards more is staked. *)
Definition mn_h3 : list (block * call (MultModel.msg * Z + NftModel.nmsg)) := [(NftExamples.nb 25, mnv 70 (NftModel.NReceive 3 80))].
Definition mn_run (j : MultModel.state * NftModel.nstate) (h : list (block * call (MultModel.msg * Z + NftModel.nmsg))) :=
  mult_run NftModel.n_handle npow ntot nact j h.
Definition mn_0 : MultModel.state * NftModel.nstate := (MultExamples.ex_state MultExamples.ex_cfg, j_n0).
Definition mn_1 := mn_run mn_0 mn_h1.
Definition mn_2 := mn_run mn_1.1 mn_h2.
Definition mn_all := mn_run mn_0 (mn_h1 ++ mn_h2).
Definition mn_3 := mn_run mn_all.1 mn_h3.
Lemma mn_reached : mult_on_nft 9 (NftExamples.nb 9) mn_1.1.1 mn_1.1.2 mn_1.2.
Proof.
  exists (NftExamples.nb 4), (MultExamples.ex_state MultExamples.ex_cfg), j_n0,
    (snd (NftExamples.nrun None (Some (ACount 5)) j_nft)), mn_h1.
  split; [exact j_n0_reached|]. split; [done|]. split; [done|]. split; [jside|]. split; [jside|]. split; [|jside]. unfold mn_1, mn_run, mn_0.
  by destruct (mult_run NftModel.n_handle npow ntot nact _ mn_h1) as [[? ?] ?].
Qed.
Lemma mn_later : mult_on_nft_later 9 (NftExamples.nb 10) mn_1.1.1 mn_1.1.2
  (NftExamples.nb 20) mn_2.1.1 mn_2.1.2 mn_2.2.
Proof.
  exists mn_h2. split; [jside|]. split; [jside|]. split; [|jside]. unfold mn_2, mn_run.
  rewrite <- surjective_pairing.
  by destruct (mult_run NftModel.n_handle npow ntot nact _ mn_h2) as [[? ?] ?].
Qed.
Lemma mn_reached_all : mult_on_nft 9 (NftExamples.nb 20) mn_all.1.1 mn_all.1.2 mn_all.2.
Proof.
  exists (NftExamples.nb 4), (MultExamples.ex_state MultExamples.ex_cfg), j_n0,
    (snd (NftExamples.nrun None (Some (ACount 5)) j_nft)), (mn_h1 ++ mn_h2).
  split; [exact j_n0_reached|]. split; [done|]. split; [done|]. split; [jside|]. split; [jside|]. split; [|jside]. unfold mn_all, mn_run, mn_0.
  by destruct (mult_run NftModel.n_handle npow ntot nact _ (mn_h1 ++ mn_h2)) as [[? ?] ?].
Qed.
Lemma mn_later_all : mult_on_nft_later 9 (NftExamples.nb 20) mn_all.1.1 mn_all.1.2
  (NftExamples.nb 30) mn_3.1.1 mn_3.1.2 mn_3.2.
Proof.
  exists mn_h3. split; [jside|]. split; [jside|]. split; [|jside]. unfold mn_3, mn_run.
  rewrite <- surjective_pairing.
  by destruct (mult_run NftModel.n_handle npow ntot nact _ mn_h3) as [[? ?] ?].
Qed.

(** ** The Condorcet module on staked NFTs *)
Definition cnp (a : addr) (m : CondModel.msg) : call (CondModel.msg + NftModel.nmsg) :=
  Call a (inl m) [].
Definition cnv (a : addr) (m : NftModel.nmsg) : call (CondModel.msg + NftModel.nmsg) := Call a (inr m) [].
Definition cn_h1 : list (block * call (CondModel.msg + NftModel.nmsg)) := [(NftExamples.nb 6, cnv 70 (NftModel.NReceive 3 60))].
(** In block 10: one staked, a proposal created, everything of member 1 withdrawn. *)
Definition cn_h2 : list (block * call (CondModel.msg + NftModel.nmsg)) :=
  [ (NftExamples.nb 10, cnv 70 (NftModel.NReceive 2 70));
    (NftExamples.nb 10, cnp 1 (CondModel.Propose [[7]; [8]]));
    (NftExamples.nb 10, cnv 1 (NftModel.NUnstake [11; 12; 13; 14]%N));
    (NftExamples.nb 11, cnp 1 (CondModel.CastVote 1 [0; 1; 2]));
    (NftExamples.nb 12, cnp 2 (CondModel.CastVote 1 [1; 0; 2]));
    (NftExamples.nb 13, cnp 3 (CondModel.CastVote 1 [1; 0; 2])) ].
(** Afterwards more is staked. *)
Definition cn_h3 : list (block * call (CondModel.msg + NftModel.nmsg)) := [(NftExamples.nb 25, cnv 70 (NftModel.NReceive 3 80))].
Definition cn_run (j : CondModel.state * NftModel.nstate) (h : list (block * call (CondModel.msg + NftModel.nmsg))) :=
  cond_run NftModel.n_handle npow ntot j h.
Definition cn_0 : CondModel.state * NftModel.nstate := (CondExamples.ex_state CondExamples.ex_cfg, j_n0).
Definition cn_1 := cn_run cn_0 cn_h1.
Definition cn_2 := cn_run cn_1.1 cn_h2.
Definition cn_all := cn_run cn_0 (cn_h1 ++ cn_h2).
Definition cn_3 := cn_run cn_all.1 cn_h3.
Lemma cn_reached : cond_on_nft (NftExamples.nb 9) cn_1.1.1 cn_1.1.2 cn_1.2.
Proof.
  exists (NftExamples.nb 4), (CondExamples.ex_state CondExamples.ex_cfg), j_n0,
    (snd (NftExamples.nrun None (Some (ACount 5)) j_nft)), cn_h1.
  split; [exact j_n0_reached|]. split; [done|]. split; [jside|]. split; [|jside]. unfold cn_1, cn_run, cn_0.
  by destruct (cond_run NftModel.n_handle npow ntot _ cn_h1) as [[? ?] ?].
Qed.
Lemma cn_later : cond_on_nft_later (NftExamples.nb 10) cn_1.1.1 cn_1.1.2
  (NftExamples.nb 20) cn_2.1.1 cn_2.1.2 cn_2.2.
Proof.
  exists cn_h2. split; [jside|]. split; [|jside]. unfold cn_2, cn_run.
  rewrite <- surjective_pairing.
  by destruct (cond_run NftModel.n_handle npow ntot _ cn_h2) as [[? ?] ?].
Qed.
Lemma cn_reached_all : cond_on_nft (NftExamples.nb 20) cn_all.1.1 cn_all.1.2 cn_all.2.
Proof.
  exists (NftExamples.nb 4), (CondExamples.ex_state CondExamples.ex_cfg), j_n0,
    (snd (NftExamples.nrun None (Some (ACount 5)) j_nft)), (cn_h1 ++ cn_h2).
  split; [exact j_n0_reached|]. split; [done|]. split; [jside|]. split; [|jside]. unfold cn_all, cn_run, cn_0.
  by destruct (cond_run NftModel.n_handle npow ntot _ (cn_h1 ++ cn_h2)) as [[? ?] ?].
Qed.
Lemma cn_later_all : cond_on_nft_later (NftExamples.nb 20) cn_all.1.1 cn_all.1.2
  (NftExamples.nb 30) cn_3.1.1 cn_3.1.2 cn_3.2.
Proof.
  exists cn_h3. split; [jside|]. split; [|jside]. unfold cn_3, cn_run.
  rewrite <- surjective_pairing.
  by destruct (cond_run NftModel.n_handle npow ntot _ cn_h3) as [[? ?] ?].
Qed.

