(** cw-fund-distributor together with each voting module: theorems.  Each is followed by what
    it rests on; concrete cases come at the end. *)
From Verif Require Import Base BaseProofs Exec ExecProofs Plain Compose StoreModel FundModel FundSpec
  FundOnModel FundOnSpec JointSpec ElectSpec FundOnClaims FundOnExamples.
From Verif Require TokModel TokSpec TokExamples StakeModel StakeSpec StakeExamples NftModel NftSpec
  NftExamples GrpModel GrpSpec GrpExamples RolesModel RolesSpec RolesExamples OnftModel OnftSpec
  OnftExamples JointExamples ElectExamples.
Import JointExamples ElectExamples.

(** * C137 *)
(** Missing: heights after the making of the distributor, and heights of a greater total power;
    for claims also tokens that refuse transfers. *)
Theorem C137_tok_pays_partial bad h b0 b s t l :
  fund_on_tok bad h b0 b s t l -> h <= height b0 -> ttot t h <= ttot t (height b0) ->
  pays (fun a => tpow t a h) (ttot t (height b0)) s (fo_own l).
Proof. exact (c137_tok_pays bad h b0 b s t l). Qed.
Print Assumptions C137_tok_pays_partial.
Theorem C137_tok_claims_partial bad h b0 b s t l a m :
  fund_on_tok bad h b0 b s t l -> h <= height b0 -> ttot t h <= ttot t (height b0) ->
  is_claim m = true -> is_expired (g_dead s) b = true -> m <> GClaimCw20 [] -> m <> GClaimNative [] ->
  (forall tk, asks m tk -> m = GClaimAll \/ 0 < pool tk (fo_own l)) ->
  (forall c, asks m (true, c) -> 0 < pool (true, c) (fo_own l) -> bad c = false) ->
  exists s' subs, g_handle (fo_world tpow ttot bad t) s b a m = Ok (s', subs).
Proof. exact (c137_tok_claims bad h b0 b s t l a m). Qed.
Print Assumptions C137_tok_claims_partial.
Theorem C137_tok_shares bad h b1 t1 l1 b0 b s t l :
  TokSpec.treached b1 t1 l1 -> block_le b1 b0 -> height b1 < h <= height b0 ->
  fund_on_tok_from bad h b0 t1 b s t l ->
  (forall a, tpow t a h = TokSpec.tstaked t1 a) /\ ttot t h = TokSpec.ttotal t1.
Proof. exact (c137_tok_shares bad h b1 t1 l1 b0 b s t l). Qed.
Print Assumptions C137_tok_shares.
Theorem C137_cw20_pays_partial bad h b0 b s t l :
  fund_on_cw20 bad h b0 b s t l -> h <= height b0 -> ktot t h <= ktot t (height b0) ->
  pays (fun a => kpow t a h) (ktot t (height b0)) s (fo_own l).
Proof. exact (c137_cw20_pays bad h b0 b s t l). Qed.
Print Assumptions C137_cw20_pays_partial.
Theorem C137_cw20_claims_partial bad h b0 b s t l a m :
  fund_on_cw20 bad h b0 b s t l -> h <= height b0 -> ktot t h <= ktot t (height b0) ->
  is_claim m = true -> is_expired (g_dead s) b = true -> m <> GClaimCw20 [] -> m <> GClaimNative [] ->
  (forall tk, asks m tk -> m = GClaimAll \/ 0 < pool tk (fo_own l)) ->
  (forall c, asks m (true, c) -> 0 < pool (true, c) (fo_own l) -> bad c = false) ->
  exists s' subs, g_handle (fo_world kpow ktot bad t) s b a m = Ok (s', subs).
Proof. exact (c137_cw20_claims bad h b0 b s t l a m). Qed.
Print Assumptions C137_cw20_claims_partial.
Theorem C137_cw20_shares bad h b1 t1 l1 b0 b s t l :
  StakeSpec.kreached b1 t1 l1 -> block_le b1 b0 -> height b1 < h <= height b0 ->
  fund_on_cw20_from bad h b0 t1 b s t l ->
  (forall a, kpow t a h = StakeSpec.staked t1 a) /\ ktot t h = StakeSpec.total_staked t1.
Proof. exact (c137_cw20_shares bad h b1 t1 l1 b0 b s t l). Qed.
Print Assumptions C137_cw20_shares.
Theorem C137_nft_pays_partial bad h b0 b s t l :
  fund_on_nft bad h b0 b s t l -> h <= height b0 -> ntot t h <= ntot t (height b0) ->
  pays (fun a => npow t a h) (ntot t (height b0)) s (fo_own l).
Proof. exact (c137_nft_pays bad h b0 b s t l). Qed.
Print Assumptions C137_nft_pays_partial.
Theorem C137_nft_claims_partial bad h b0 b s t l a m :
  fund_on_nft bad h b0 b s t l -> h <= height b0 -> ntot t h <= ntot t (height b0) ->
  is_claim m = true -> is_expired (g_dead s) b = true -> m <> GClaimCw20 [] -> m <> GClaimNative [] ->
  (forall tk, asks m tk -> m = GClaimAll \/ 0 < pool tk (fo_own l)) ->
  (forall c, asks m (true, c) -> 0 < pool (true, c) (fo_own l) -> bad c = false) ->
  exists s' subs, g_handle (fo_world npow ntot bad t) s b a m = Ok (s', subs).
Proof. exact (c137_nft_claims bad h b0 b s t l a m). Qed.
Print Assumptions C137_nft_claims_partial.
Theorem C137_nft_shares bad h b1 t1 l1 b0 b s t l :
  NftSpec.nreached b1 t1 l1 -> block_le b1 b0 -> height b1 < h <= height b0 ->
  fund_on_nft_from bad h b0 t1 b s t l ->
  (forall a, npow t a h = NftSpec.ncount t1 a) /\ ntot t h = NftSpec.ncount_all t1.
Proof. exact (c137_nft_shares bad h b1 t1 l1 b0 b s t l). Qed.
Print Assumptions C137_nft_shares.
Theorem C137_grp_pays_partial bad h b0 b s t l :
  fund_on_grp bad h b0 b s t l -> h <= height b0 -> gtot t h <= gtot t (height b0) ->
  pays (fun a => gpow t a h) (gtot t (height b0)) s (fo_own l).
Proof. exact (c137_grp_pays bad h b0 b s t l). Qed.
Print Assumptions C137_grp_pays_partial.
Theorem C137_grp_claims_partial bad h b0 b s t l a m :
  fund_on_grp bad h b0 b s t l -> h <= height b0 -> gtot t h <= gtot t (height b0) ->
  is_claim m = true -> is_expired (g_dead s) b = true -> m <> GClaimCw20 [] -> m <> GClaimNative [] ->
  (forall tk, asks m tk -> m = GClaimAll \/ 0 < pool tk (fo_own l)) ->
  (forall c, asks m (true, c) -> 0 < pool (true, c) (fo_own l) -> bad c = false) ->
  exists s' subs, g_handle (fo_world gpow gtot bad t) s b a m = Ok (s', subs).
Proof. exact (c137_grp_claims bad h b0 b s t l a m). Qed.
Print Assumptions C137_grp_claims_partial.
Theorem C137_grp_shares bad h b1 t1 l1 b0 b s t l :
  GrpSpec.greached b1 t1 l1 -> block_le b1 b0 -> height b1 < h <= height b0 ->
  fund_on_grp_from bad h b0 t1 b s t l ->
  (forall a, gpow t a h = gheld t1 a) /\ gtot t h = gheld_all t1.
Proof. exact (c137_grp_shares bad h b1 t1 l1 b0 b s t l). Qed.
Print Assumptions C137_grp_shares.
Theorem C137_role_pays_partial bad h b0 b s t l :
  fund_on_role bad h b0 b s t l -> h <= height b0 -> rtot t h <= rtot t (height b0) ->
  pays (fun a => rpow t a h) (rtot t (height b0)) s (fo_own l).
Proof. exact (c137_role_pays bad h b0 b s t l). Qed.
Print Assumptions C137_role_pays_partial.
Theorem C137_role_claims_partial bad h b0 b s t l a m :
  fund_on_role bad h b0 b s t l -> h <= height b0 -> rtot t h <= rtot t (height b0) ->
  is_claim m = true -> is_expired (g_dead s) b = true -> m <> GClaimCw20 [] -> m <> GClaimNative [] ->
  (forall tk, asks m tk -> m = GClaimAll \/ 0 < pool tk (fo_own l)) ->
  (forall c, asks m (true, c) -> 0 < pool (true, c) (fo_own l) -> bad c = false) ->
  exists s' subs, g_handle (fo_world rpow rtot bad t) s b a m = Ok (s', subs).
Proof. exact (c137_role_claims bad h b0 b s t l a m). Qed.
Print Assumptions C137_role_claims_partial.
Theorem C137_role_shares bad h b1 t1 l1 b0 b s t l :
  RolesSpec.rreached b1 t1 l1 -> block_le b1 b0 -> height b1 < h <= height b0 ->
  fund_on_role_from bad h b0 t1 b s t l ->
  (forall a, rpow t a h = rheld t1 a) /\ rtot t h = rheld_all t1.
Proof. exact (c137_role_shares bad h b1 t1 l1 b0 b s t l). Qed.
Print Assumptions C137_role_shares.
Theorem C137_onft_pays_partial bad h b0 b s t l :
  fund_on_onft bad h b0 b s t l -> h <= height b0 -> otot t h <= otot t (height b0) ->
  pays (fun a => opow t a h) (otot t (height b0)) s (fo_own l).
Proof. exact (c137_onft_pays bad h b0 b s t l). Qed.
Print Assumptions C137_onft_pays_partial.
Theorem C137_onft_claims_partial bad h b0 b s t l a m :
  fund_on_onft bad h b0 b s t l -> h <= height b0 -> otot t h <= otot t (height b0) ->
  is_claim m = true -> is_expired (g_dead s) b = true -> m <> GClaimCw20 [] -> m <> GClaimNative [] ->
  (forall tk, asks m tk -> m = GClaimAll \/ 0 < pool tk (fo_own l)) ->
  (forall c, asks m (true, c) -> 0 < pool (true, c) (fo_own l) -> bad c = false) ->
  exists s' subs, g_handle (fo_world opow otot bad t) s b a m = Ok (s', subs).
Proof. exact (c137_onft_claims bad h b0 b s t l a m). Qed.
Print Assumptions C137_onft_claims_partial.
Theorem C137_onft_shares bad h b1 t1 l1 b0 b s t l :
  OnftSpec.freached b1 t1 l1 -> block_le b1 b0 -> height b1 < h <= height b0 ->
  fund_on_onft_from bad h b0 t1 b s t l ->
  (forall a, opow t a h = oheld t1 a) /\ otot t h = oheld_all t1.
Proof. exact (c137_onft_shares bad h b1 t1 l1 b0 b s t l). Qed.
Print Assumptions C137_onft_shares.
(** The height lies before a loss of power. *)
Theorem C137_earlier_height_refuted :
  exists bad h b0 b s t l, fund_on_tok bad h b0 b s t l /\ h <= height b0 /\
    funded (false, 7%N) (fo_own l) = 600 /\ ttot t h = 100 /\ tpow t 1%N h = 40 /\ tpow t 2%N h = 35 /\
    paid_to 1%N (false, 7%N) (fo_own l) = 399 /\
    g_handle (fo_world tpow ttot bad t) s b 2%N (GClaimNative [7%N]) = Err "insufficient funds".
Proof. exact c137_early_refuted. Qed.
Print Assumptions C137_earlier_height_refuted.
(** The height is to come. *)
Theorem C137_later_height_refuted :
  exists bad h b0 b s t l, fund_on_tok bad h b0 b s t l /\ ttot t h = ttot t (height b0) /\ height b < h /\
    funded (false, 7%N) (fo_own l) = 1000 /\ ttot t h = 100 /\ tpow t 1%N h = 0 /\ tpow t 2%N h = 35 /\
    paid_to 1%N (false, 7%N) (fo_own l) = 400 /\ paid_to 4%N (false, 7%N) (fo_own l) = 400 /\
    g_handle (fo_world tpow ttot bad t) s b 2%N (GClaimNative [7%N]) = Err "insufficient funds".
Proof. exact c137_late_refuted. Qed.
Print Assumptions C137_later_height_refuted.
Example C137_case_tok :
  fund_on_tok fo_bad 5 (fob 5) (fob 14) fo_tok.1.1 fo_tok.1.2 fo_tok.2 /\
  fund_on_tok_from fo_bad 5 (fob 5) j_t0 (fob 14) fo_tok.1.1 fo_tok.1.2 fo_tok.2 /\
  (exists l0, TokSpec.treached (TokExamples.tb 4) j_t0 l0) /\
  ttot fo_tok.1.2 5 = 100 /\ tpow fo_tok.1.2 1%N 5 = 40 /\ tpow fo_tok.1.2 1%N 10 <> 40 /\
  funded (false, 7%N) (fo_own fo_tok.2) = 1000 /\
  map (fun a => paid_to a (false, 7%N) (fo_own fo_tok.2)) [1; 2; 3; 4]%N = [400; 350; 250; 0] /\
  is_expired (g_dead fo_tok.1.1) (fob 14) = true.
Proof.
  split; [exact fo_tok_reached|]. split; [exact fo_tok_from|]. split; [eexists; exact j_t0_reached|].
  repeat (split; [vm_compute; (reflexivity || discriminate)|]). vm_compute; reflexivity.
Qed.
Example C137_case_cw20 :
  fund_on_cw20 fo_bad 5 (fob 5) (fob 14) fo_cw20.1.1 fo_cw20.1.2 fo_cw20.2 /\
  fund_on_cw20_from fo_bad 5 (fob 5) j_k0 (fob 14) fo_cw20.1.1 fo_cw20.1.2 fo_cw20.2 /\
  (exists l0, StakeSpec.kreached (StakeExamples.kb 4) j_k0 l0) /\
  ktot fo_cw20.1.2 5 = 100 /\ kpow fo_cw20.1.2 1%N 5 = 40 /\ kpow fo_cw20.1.2 1%N 10 <> 40 /\
  funded (false, 7%N) (fo_own fo_cw20.2) = 1000 /\
  map (fun a => paid_to a (false, 7%N) (fo_own fo_cw20.2)) [1; 2; 3; 4]%N = [400; 350; 250; 0] /\
  is_expired (g_dead fo_cw20.1.1) (fob 14) = true.
Proof.
  split; [exact fo_cw20_reached|]. split; [exact fo_cw20_from|]. split; [eexists; exact j_k0_reached|].
  repeat (split; [vm_compute; (reflexivity || discriminate)|]). vm_compute; reflexivity.
Qed.
Example C137_case_nft :
  fund_on_nft fo_bad 5 (fob 5) (fob 14) fo_nft.1.1 fo_nft.1.2 fo_nft.2 /\
  fund_on_nft_from fo_bad 5 (fob 5) j_n0 (fob 14) fo_nft.1.1 fo_nft.1.2 fo_nft.2 /\
  (exists l0, NftSpec.nreached (NftExamples.nb 4) j_n0 l0) /\
  ntot fo_nft.1.2 5 = 9 /\ npow fo_nft.1.2 1%N 5 = 4 /\ npow fo_nft.1.2 1%N 10 <> 4 /\
  funded (false, 7%N) (fo_own fo_nft.2) = 1000 /\
  map (fun a => paid_to a (false, 7%N) (fo_own fo_nft.2)) [1; 2; 3; 4]%N = [444; 333; 222; 0] /\
  is_expired (g_dead fo_nft.1.1) (fob 14) = true.
Proof.
  split; [exact fo_nft_reached|]. split; [exact fo_nft_from|]. split; [eexists; exact j_n0_reached|].
  repeat (split; [vm_compute; (reflexivity || discriminate)|]). vm_compute; reflexivity.
Qed.
Example C137_case_grp :
  fund_on_grp fo_bad 5 (fob 5) (fob 14) fo_grp.1.1 fo_grp.1.2 fo_grp.2 /\
  fund_on_grp_from fo_bad 5 (fob 5) j_g0 (fob 14) fo_grp.1.1 fo_grp.1.2 fo_grp.2 /\
  (exists l0, GrpSpec.greached (GrpExamples.gb 4) j_g0 l0) /\
  gtot fo_grp.1.2 5 = 9 /\ gpow fo_grp.1.2 1%N 5 = 4 /\ gpow fo_grp.1.2 1%N 10 <> 4 /\
  funded (false, 7%N) (fo_own fo_grp.2) = 1000 /\
  map (fun a => paid_to a (false, 7%N) (fo_own fo_grp.2)) [1; 2; 3; 4]%N = [444; 333; 222; 0] /\
  is_expired (g_dead fo_grp.1.1) (fob 14) = true.
Proof.
  split; [exact fo_grp_reached|]. split; [exact fo_grp_from|]. split; [eexists; exact j_g0_reached|].
  repeat (split; [vm_compute; (reflexivity || discriminate)|]). vm_compute; reflexivity.
Qed.
Example C137_case_role :
  fund_on_role fo_bad 5 (fob 5) (fob 14) fo_role.1.1 fo_role.1.2 fo_role.2 /\
  fund_on_role_from fo_bad 5 (fob 5) j_r0 (fob 14) fo_role.1.1 fo_role.1.2 fo_role.2 /\
  (exists l0, RolesSpec.rreached (RolesExamples.rb 4) j_r0 l0) /\
  rtot fo_role.1.2 5 = 9 /\ rpow fo_role.1.2 1%N 5 = 4 /\ rpow fo_role.1.2 1%N 10 <> 4 /\
  funded (false, 7%N) (fo_own fo_role.2) = 1000 /\
  map (fun a => paid_to a (false, 7%N) (fo_own fo_role.2)) [1; 2; 3; 4]%N = [444; 333; 222; 0] /\
  is_expired (g_dead fo_role.1.1) (fob 14) = true.
Proof.
  split; [exact fo_role_reached|]. split; [exact fo_role_from|]. split; [eexists; exact j_r0_reached|].
  repeat (split; [vm_compute; (reflexivity || discriminate)|]). vm_compute; reflexivity.
Qed.
Example C137_case_onft :
  fund_on_onft fo_bad 5 (fob 5) (fob 14) fo_onft.1.1 fo_onft.1.2 fo_onft.2 /\
  fund_on_onft_from fo_bad 5 (fob 5) j_o0 (fob 14) fo_onft.1.1 fo_onft.1.2 fo_onft.2 /\
  (exists l0, OnftSpec.freached (OnftExamples.fb 4) j_o0 l0) /\
  otot fo_onft.1.2 5 = 9 /\ opow fo_onft.1.2 1%N 5 = 4 /\ opow fo_onft.1.2 1%N 10 <> 4 /\
  funded (false, 7%N) (fo_own fo_onft.2) = 1000 /\
  map (fun a => paid_to a (false, 7%N) (fo_own fo_onft.2)) [1; 2; 3; 4]%N = [444; 333; 222; 0] /\
  is_expired (g_dead fo_onft.1.1) (fob 14) = true.
Proof.
  split; [exact fo_onft_reached|]. split; [exact fo_onft_from|]. split; [eexists; exact j_o0_reached|].
  repeat (split; [vm_compute; (reflexivity || discriminate)|]). vm_compute; reflexivity.
Qed.
