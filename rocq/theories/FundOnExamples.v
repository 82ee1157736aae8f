(** cw-fund-distributor together with each voting module: concrete histories. *)
From Verif Require Import Base BaseProofs Exec ExecProofs Plain PlainProofs Compose StoreModel ActiveModel
  FundModel FundSpec FundOnModel FundOnSpec JointSpec ElectSpec ElectProofs.
From Verif Require TokModel TokSpec TokExamples StakeModel StakeSpec StakeExamples NftModel NftSpec
  NftExamples GrpModel GrpSpec GrpExamples RolesModel RolesSpec RolesExamples OnftModel OnftSpec
  OnftExamples JointExamples ElectExamples TokProofs StakeProofs NftProofs.
Import JointExamples ElectExamples.

Definition fob (n : Z) : block := Block n (n * NANOS).
Definition fo_bad (c : addr) : bool := (c =? 66)%N.
Definition fo_no : gstate := GState 0 Never 0 ∅ ∅ ∅.
(** A distributor made in block [n] for height [h], five blocks of funding. *)
Definition fo_ini (w : world) (n h : Z) : gstate :=
  match g_instantiate w (fob n) h (DHeight 5) with Ok s => s | Err _ => fo_no end.

Lemma fo_intro {T MV XV} (hv : T -> block -> addr -> MV -> result (T * list XV)) pow tot
    (vr : block -> T -> log T MV XV -> Prop) t0 b1 l0 n h b hs :
  (forall b t l b' t' l', vr b t l -> leads hv b t b' t' l' -> vr b' t' (l ++ l')) ->
  vr b1 t0 l0 -> block_le b1 (fob n) ->
  g_instantiate (fo_world pow tot fo_bad t0) (fob n) h (DHeight 5) =
    Ok (fo_ini (fo_world pow tot fo_bad t0) n h) ->
  hist_ok (fob n) hs -> hist_all (same_height h) hs -> block_le (hist_end (fob n) hs) b ->
  let r := fo_run hv pow tot fo_bad (fo_ini (fo_world pow tot fo_bad t0) n h, t0) hs in
  fo_reached hv pow tot vr fo_bad h (fob n) b r.1.1 r.1.2 r.2.
Proof.
  intros Ha HV Hb Hi Hh HM He r. exists t0, l0. split.
  { rewrite <-(app_nil_r l0). eapply Ha; [exact HV|]. by apply leads_refl. }
  exists (DHeight 5), (fo_ini (fo_world pow tot fo_bad t0) n h), hs.
  split; [exact Hi|]. split; [exact Hh|]. split; [exact HM|]. split; [|exact He].
  subst r. generalize (fo_run hv pow tot fo_bad (fo_ini (fo_world pow tot fo_bad t0) n h, t0) hs).
  by intros [[? ?] ?].
Qed.
Lemma fo_from_intro {T MV XV} (hv : T -> block -> addr -> MV -> result (T * list XV)) pow tot t0 n h b hs :
  g_instantiate (fo_world pow tot fo_bad t0) (fob n) h (DHeight 5) =
    Ok (fo_ini (fo_world pow tot fo_bad t0) n h) ->
  hist_ok (fob n) hs -> hist_all (same_height h) hs -> block_le (hist_end (fob n) hs) b ->
  let r := fo_run hv pow tot fo_bad (fo_ini (fo_world pow tot fo_bad t0) n h, t0) hs in
  fo_from hv pow tot fo_bad h (fob n) t0 b r.1.1 r.1.2 r.2.
Proof.
  intros Hi Hh HM He r. exists (DHeight 5), (fo_ini (fo_world pow tot fo_bad t0) n h), hs.
  split; [exact Hi|]. split; [exact Hh|]. split; [exact HM|]. split; [|exact He].
  subst r. generalize (fo_run hv pow tot fo_bad (fo_ini (fo_world pow tot fo_bad t0) n h, t0) hs).
  by intros [[? ?] ?].
Qed.

(** 1000 coins are brought; all claim them, member 2 twice; meanwhile the module changes. *)
Definition fo_hist {MV} (vs : list (block * call MV)) : list (block * call (gmsg + MV)) :=
  [(fob 6, Call 9%N (inl (GFundNative [(7%N, 900)])) [])] ++
  map (fun bc => match bc with (b, Call a m _) => (b, Call a (inr m) []) end) vs ++
  [(fob 8, Call 9%N (inl (GFundNative [(7%N, 100)])) []);
   (fob 11, Call 1%N (inl (GClaimNative [7%N])) []); (fob 12, Call 2%N (inl GClaimAll) []);
   (fob 12, Call 2%N (inl GClaimAll) []); (fob 13, Call 3%N (inl (GClaimNative [7%N])) [])].
Definition vc {MV} (h : Z) (a : addr) (m : MV) : block * call MV := (fob h, Call a m []).
Ltac fside := vm_compute; repeat split; discriminate || reflexivity.
Ltac fheights := repeat first [apply Forall_nil_2 | apply Forall_cons_2]; cbn; repeat split.

Definition foh_tok := fo_hist [vc 6 1%N (TokModel.TUnstake 40); vc 7 4%N (TokModel.TStake [(5%N, 500)])].
Definition fo_tok := fo_run TokModel.t_handle tpow ttot fo_bad (fo_ini (fo_world tpow ttot fo_bad j_t0) 5 5, j_t0) foh_tok.
Lemma fo_tok_reached : fund_on_tok fo_bad 5 (fob 5) (fob 14) fo_tok.1.1 fo_tok.1.2 fo_tok.2.
Proof.
  apply (fo_intro TokModel.t_handle tpow ttot TokSpec.treached j_t0 (TokExamples.tb 4) _ 5 5 (fob 14) foh_tok TokProofs.treached_app j_t0_reached);
    [fside|vm_compute; reflexivity|fside|fheights|fside].
Qed.
Lemma fo_tok_from : fund_on_tok_from fo_bad 5 (fob 5) j_t0 (fob 14) fo_tok.1.1 fo_tok.1.2 fo_tok.2.
Proof.
  apply (fo_from_intro TokModel.t_handle tpow ttot j_t0 5 5 (fob 14) foh_tok); [vm_compute; reflexivity|fside|fheights|fside].
Qed.

Definition foh_cw20 := fo_hist [vc 6 1%N (StakeModel.KUnstake 40); vc 7 70%N (StakeModel.KReceive 4 500 true)].
Definition fo_cw20 := fo_run StakeModel.k_handle kpow ktot fo_bad (fo_ini (fo_world kpow ktot fo_bad j_k0) 5 5, j_k0) foh_cw20.
Lemma fo_cw20_reached : fund_on_cw20 fo_bad 5 (fob 5) (fob 14) fo_cw20.1.1 fo_cw20.1.2 fo_cw20.2.
Proof.
  apply (fo_intro StakeModel.k_handle kpow ktot StakeSpec.kreached j_k0 (StakeExamples.kb 4) _ 5 5 (fob 14) foh_cw20 StakeProofs.kreached_app j_k0_reached);
    [fside|vm_compute; reflexivity|fside|fheights|fside].
Qed.
Lemma fo_cw20_from : fund_on_cw20_from fo_bad 5 (fob 5) j_k0 (fob 14) fo_cw20.1.1 fo_cw20.1.2 fo_cw20.2.
Proof.
  apply (fo_from_intro StakeModel.k_handle kpow ktot j_k0 5 5 (fob 14) foh_cw20); [vm_compute; reflexivity|fside|fheights|fside].
Qed.

Definition foh_nft := fo_hist [vc 6 1%N (NftModel.NUnstake [11; 12]%N)].
Definition fo_nft := fo_run NftModel.n_handle npow ntot fo_bad (fo_ini (fo_world npow ntot fo_bad j_n0) 5 5, j_n0) foh_nft.
Lemma fo_nft_reached : fund_on_nft fo_bad 5 (fob 5) (fob 14) fo_nft.1.1 fo_nft.1.2 fo_nft.2.
Proof.
  apply (fo_intro NftModel.n_handle npow ntot NftSpec.nreached j_n0 (NftExamples.nb 4) _ 5 5 (fob 14) foh_nft NftProofs.nreached_app j_n0_reached);
    [fside|vm_compute; reflexivity|fside|fheights|fside].
Qed.
Lemma fo_nft_from : fund_on_nft_from fo_bad 5 (fob 5) j_n0 (fob 14) fo_nft.1.1 fo_nft.1.2 fo_nft.2.
Proof.
  apply (fo_from_intro NftModel.n_handle npow ntot j_n0 5 5 (fob 14) foh_nft); [vm_compute; reflexivity|fside|fheights|fside].
Qed.

Definition foh_grp := fo_hist [vc 6 30%N (GrpModel.GMembers [1%N] [(4%N, 100)])].
Definition fo_grp := fo_run GrpModel.g_handle gpow gtot fo_bad (fo_ini (fo_world gpow gtot fo_bad j_g0) 5 5, j_g0) foh_grp.
Lemma fo_grp_reached : fund_on_grp fo_bad 5 (fob 5) (fob 14) fo_grp.1.1 fo_grp.1.2 fo_grp.2.
Proof.
  apply (fo_intro GrpModel.g_handle gpow gtot GrpSpec.greached j_g0 (GrpExamples.gb 4) _ 5 5 (fob 14) foh_grp grp_app j_g0_reached);
    [fside|vm_compute; reflexivity|fside|fheights|fside].
Qed.
Lemma fo_grp_from : fund_on_grp_from fo_bad 5 (fob 5) j_g0 (fob 14) fo_grp.1.1 fo_grp.1.2 fo_grp.2.
Proof.
  apply (fo_from_intro GrpModel.g_handle gpow gtot j_g0 5 5 (fob 14) foh_grp); [vm_compute; reflexivity|fside|fheights|fside].
Qed.

Definition foh_role := fo_hist [vc 6 1%N (RolesModel.RMint 15 4 100); vc 7 1%N (RolesModel.RBurn 11)].
Definition fo_role := fo_run RolesModel.r_handle rpow rtot fo_bad (fo_ini (fo_world rpow rtot fo_bad j_r0) 5 5, j_r0) foh_role.
Lemma fo_role_reached : fund_on_role fo_bad 5 (fob 5) (fob 14) fo_role.1.1 fo_role.1.2 fo_role.2.
Proof.
  apply (fo_intro RolesModel.r_handle rpow rtot RolesSpec.rreached j_r0 (RolesExamples.rb 4) _ 5 5 (fob 14) foh_role role_app j_r0_reached);
    [fside|vm_compute; reflexivity|fside|fheights|fside].
Qed.
Lemma fo_role_from : fund_on_role_from fo_bad 5 (fob 5) j_r0 (fob 14) fo_role.1.1 fo_role.1.2 fo_role.2.
Proof.
  apply (fo_from_intro RolesModel.r_handle rpow rtot j_r0 5 5 (fob 14) foh_role); [vm_compute; reflexivity|fside|fheights|fside].
Qed.

Definition foh_onft := fo_hist [vc 6 1%N (OnftModel.FUnstake [11; 12; 13; 14]%N)].
Definition fo_onft := fo_run OnftModel.f_handle opow otot fo_bad (fo_ini (fo_world opow otot fo_bad j_o0) 5 5, j_o0) foh_onft.
Lemma fo_onft_reached : fund_on_onft fo_bad 5 (fob 5) (fob 14) fo_onft.1.1 fo_onft.1.2 fo_onft.2.
Proof.
  apply (fo_intro OnftModel.f_handle opow otot OnftSpec.freached j_o0 (OnftExamples.fb 4) _ 5 5 (fob 14) foh_onft onft_app j_o0_reached);
    [fside|vm_compute; reflexivity|fside|fheights|fside].
Qed.
Lemma fo_onft_from : fund_on_onft_from fo_bad 5 (fob 5) j_o0 (fob 14) fo_onft.1.1 fo_onft.1.2 fo_onft.2.
Proof.
  apply (fo_from_intro OnftModel.f_handle opow otot j_o0 5 5 (fob 14) foh_onft); [vm_compute; reflexivity|fside|fheights|fside].
Qed.

(** Member 1 leaves in block 6.  A distributor made in block 10 for height 5 pays them 40 of 60
    and has not enough left for member 2. *)
Definition fo_t1h : list (block * call TokModel.tmsg) :=
  j_tok ++ [(TokExamples.tb 6, TokExamples.tc 1%N (TokModel.TUnstake 40))].
Definition fo_t1 : TokModel.tstate := fst (TokExamples.trun None j_thr fo_t1h).
Lemma fo_t1_reached : TokSpec.treached (TokExamples.tb 9) fo_t1 (snd (TokExamples.trun None j_thr fo_t1h)).
Proof. unfold fo_t1. TokExamples.treach. Qed.
Definition foh_early : list (block * call (gmsg + TokModel.tmsg)) :=
  [(fob 11, Call 9%N (inl (GFundNative [(7%N, 600)])) []); (fob 15, Call 1%N (inl (GClaimNative [7%N])) [])].
Definition fo_early := fo_run TokModel.t_handle tpow ttot fo_bad
  (fo_ini (fo_world tpow ttot fo_bad fo_t1) 10 5, fo_t1) foh_early.
Lemma fo_early_reached : fund_on_tok fo_bad 5 (fob 10) (fob 16) fo_early.1.1 fo_early.1.2 fo_early.2.
Proof.
  apply (fo_intro TokModel.t_handle tpow ttot TokSpec.treached fo_t1 (TokExamples.tb 9) _ 10 5 (fob 16)
    foh_early TokProofs.treached_app fo_t1_reached); [fside|vm_compute; reflexivity|fside|fheights|fside].
Qed.
Lemma c137_early_refuted :
  exists bad h b0 b s t l, fund_on_tok bad h b0 b s t l /\ h <= height b0 /\
    funded (false, 7%N) (fo_own l) = 600 /\ ttot t h = 100 /\ tpow t 1%N h = 40 /\ tpow t 2%N h = 35 /\
    paid_to 1%N (false, 7%N) (fo_own l) = 399 /\
    g_handle (fo_world tpow ttot bad t) s b 2%N (GClaimNative [7%N]) = Err "insufficient funds".
Proof.
  exists fo_bad, 5, (fob 10), (fob 16), fo_early.1.1, fo_early.1.2, fo_early.2.
  split; [exact fo_early_reached|]. split; [vm_compute; discriminate|].
  repeat (split; [vm_compute; reflexivity|]). vm_compute; reflexivity.
Qed.
(** Shares by a height to come: what member 1 takes out after their claim, member 4 puts in. *)
Definition foh_late : list (block * call (gmsg + TokModel.tmsg)) :=
  [(fob 6, Call 9%N (inl (GFundNative [(7%N, 1000)])) []); (fob 11, Call 1%N (inl (GClaimNative [7%N])) []);
   (fob 12, Call 1%N (inr (TokModel.TUnstake 40)) []); (fob 12, Call 4%N (inr (TokModel.TStake [(5%N, 40)])) []);
   (fob 13, Call 4%N (inl (GClaimNative [7%N])) [])].
Definition fo_late := fo_run TokModel.t_handle tpow ttot fo_bad
  (fo_ini (fo_world tpow ttot fo_bad j_t0) 5 50, j_t0) foh_late.
Lemma fo_late_reached : fund_on_tok fo_bad 50 (fob 5) (fob 14) fo_late.1.1 fo_late.1.2 fo_late.2.
Proof.
  apply (fo_intro TokModel.t_handle tpow ttot TokSpec.treached j_t0 (TokExamples.tb 4) _ 5 50 (fob 14)
    foh_late TokProofs.treached_app j_t0_reached); [fside|vm_compute; reflexivity|fside|fheights|fside].
Qed.
Lemma c137_late_refuted :
  exists bad h b0 b s t l, fund_on_tok bad h b0 b s t l /\ ttot t h = ttot t (height b0) /\ height b < h /\
    funded (false, 7%N) (fo_own l) = 1000 /\ ttot t h = 100 /\ tpow t 1%N h = 0 /\ tpow t 2%N h = 35 /\
    paid_to 1%N (false, 7%N) (fo_own l) = 400 /\ paid_to 4%N (false, 7%N) (fo_own l) = 400 /\
    g_handle (fo_world tpow ttot bad t) s b 2%N (GClaimNative [7%N]) = Err "insufficient funds".
Proof.
  exists fo_bad, 50, (fob 5), (fob 14), fo_late.1.1, fo_late.1.2, fo_late.2.
  split; [exact fo_late_reached|]. split; [vm_compute; reflexivity|]. split; [vm_compute; reflexivity|].
  repeat (split; [vm_compute; reflexivity|]). vm_compute; reflexivity.
Qed.
