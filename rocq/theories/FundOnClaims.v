(** cw-fund-distributor together with a voting module: the claims, for any module and for each
    of the modules. *)
From Verif Require Import Base BaseProofs Exec ExecProofs Plain PlainProofs Compose
  StoreModel FundModel FundSpec FundProofs FundClaims FundOnModel FundOnSpec FundOnProofs
  JointSpec JointClaims ElectSpec ElectProofs.
From Verif Require TokModel TokSpec TokProofs StakeModel StakeSpec StakeProofs NftModel NftSpec NftProofs
  GrpModel GrpSpec RolesModel RolesSpec OnftModel OnftSpec.

Section on.
  Context {T MV XV : Type}.
  Variable handle_v : T -> block -> addr -> MV -> result (T * list XV).
  Variable power : T -> addr -> Z -> Z.
  Variable total : T -> Z -> Z.
  Variable vreached : block -> T -> log T MV XV -> Prop.
  Hypothesis v_stable : forall t b a m t' subs h,
    handle_v t b a m = Ok (t', subs) -> h <= height b ->
    (forall a', power t' a' h = power t a' h) /\ total t' h = total t h.
  Hypothesis v_app : forall b t l b' t' l',
    vreached b t l -> leads handle_v b t b' t' l' -> vreached b' t' (l ++ l').
  Hypothesis v_sane : forall b t l, vreached b t l ->
    (forall a h, 0 <= power t a h) /\ (forall h, total t h <= U128_MAX) /\
    (forall h vs, NoDup vs -> lsum (fun a => power t a h) vs <= total t h).
  Notation from := (fo_from handle_v power total).
  Notation reached := (fo_reached handle_v power total vreached).

  Lemma j_fund_pays bad h b0 b s t l :
    reached bad h b0 b s t l -> h <= height b0 -> total t h <= total t (height b0) ->
    pays (fun a => power t a h) (total t (height b0)) s (fo_own l).
  Proof.
    intros HR Hh HT. destruct (on_own _ _ _ _ v_stable v_app v_sane _ _ _ _ _ _ _ HR Hh) as (HG & E1 & E2 & _ & HP & HF).
    pose proof (pays_world _ _ _ _ HG HP (HF HT)) as K. cbn in K. by rewrite E1, E2 in K.
  Qed.
  Lemma j_fund_claims bad h b0 b s t l a m :
    reached bad h b0 b s t l -> h <= height b0 -> total t h <= total t (height b0) ->
    is_claim m = true -> is_expired (g_dead s) b = true -> m <> GClaimCw20 [] -> m <> GClaimNative [] ->
    (forall tk, asks m tk -> m = GClaimAll \/ 0 < pool tk (fo_own l)) ->
    (forall c, asks m (true, c) -> 0 < pool (true, c) (fo_own l) -> bad c = false) ->
    exists s' subs, g_handle (fo_world power total bad t) s b a m = Ok (s', subs).
  Proof.
    intros HR Hh HT Hm Hx N1 N2 Hk Hb.
    destruct (on_own _ _ _ _ v_stable v_app v_sane _ _ _ _ _ _ _ HR Hh) as (HG & E1 & E2 & [Hle _] & HP & HF).
    apply (c53_accepted _ _ _ (fo_own l) a m HG HP (HF HT) Hm); try done.
    - rewrite E1. lia.
    - cbn. by rewrite E1, E2.
    - intros [[|] c] Ha Hpl; unfold refused; cbn; [|done]. by apply Hb.
  Qed.
  Variable held : T -> addr -> Z.
  Variable held_all : T -> Z.
  Hypothesis v_reported : forall b1 t1 l1 b' b2 t2 l2 h,
    vreached b1 t1 l1 -> height b1 < h -> block_le b1 b' -> h <= height b' ->
    leads handle_v b' t1 b2 t2 l2 ->
    (forall a, power t2 a h = held t1 a) /\ total t2 h = held_all t1.
  Lemma j_fund_shares bad h b1 t1 l1 b0 b s t l :
    vreached b1 t1 l1 -> block_le b1 b0 -> height b1 < h <= height b0 ->
    from bad h b0 t1 b s t l ->
    (forall a, power t a h = held t1 a) /\ total t h = held_all t1.
  Proof.
    intros HV Hb [H1 H2] HF. pose proof (on_module _ _ _ _ _ _ _ _ _ _ _ HF) as HL.
    by eapply v_reported.
  Qed.
  Lemma j_fund_from bad h b1 t1 l1 b0 b s t l :
    vreached b1 t1 l1 -> block_le b1 b0 -> from bad h b0 t1 b s t l -> reached bad h b0 b s t l.
  Proof.
    intros HV Hb HF. exists t1, l1. split; [|done]. rewrite <-(app_nil_r l1).
    eapply v_app; [exact HV|]. by apply leads_refl.
  Qed.
End on.

(** *** tok *)
Lemma c137_tok_pays bad h b0 b s t l :
  fund_on_tok bad h b0 b s t l -> h <= height b0 -> ttot t h <= ttot t (height b0) ->
  pays (fun a => tpow t a h) (ttot t (height b0)) s (fo_own l).
Proof.
  exact (j_fund_pays TokModel.t_handle tpow ttot TokSpec.treached tok_stable TokProofs.treached_app tok_sane bad h b0 b s t l).
Qed.
Lemma c137_tok_claims bad h b0 b s t l a m :
  fund_on_tok bad h b0 b s t l -> h <= height b0 -> ttot t h <= ttot t (height b0) ->
  is_claim m = true -> is_expired (g_dead s) b = true -> m <> GClaimCw20 [] -> m <> GClaimNative [] ->
  (forall tk, asks m tk -> m = GClaimAll \/ 0 < pool tk (fo_own l)) ->
  (forall c, asks m (true, c) -> 0 < pool (true, c) (fo_own l) -> bad c = false) ->
  exists s' subs, g_handle (fo_world tpow ttot bad t) s b a m = Ok (s', subs).
Proof.
  exact (j_fund_claims TokModel.t_handle tpow ttot TokSpec.treached tok_stable TokProofs.treached_app tok_sane bad h b0 b s t l a m).
Qed.
Lemma c137_tok_shares bad h b1 t1 l1 b0 b s t l :
  TokSpec.treached b1 t1 l1 -> block_le b1 b0 -> height b1 < h <= height b0 ->
  fund_on_tok_from bad h b0 t1 b s t l ->
  (forall a, tpow t a h = TokSpec.tstaked t1 a) /\ ttot t h = TokSpec.ttotal t1.
Proof.
  exact (j_fund_shares TokModel.t_handle tpow ttot TokSpec.treached TokSpec.tstaked TokSpec.ttotal tok_reported bad h b1 t1 l1 b0 b s t l).
Qed.

(** *** cw20 *)
Lemma c137_cw20_pays bad h b0 b s t l :
  fund_on_cw20 bad h b0 b s t l -> h <= height b0 -> ktot t h <= ktot t (height b0) ->
  pays (fun a => kpow t a h) (ktot t (height b0)) s (fo_own l).
Proof.
  exact (j_fund_pays StakeModel.k_handle kpow ktot StakeSpec.kreached cw20_stable StakeProofs.kreached_app cw20_sane bad h b0 b s t l).
Qed.
Lemma c137_cw20_claims bad h b0 b s t l a m :
  fund_on_cw20 bad h b0 b s t l -> h <= height b0 -> ktot t h <= ktot t (height b0) ->
  is_claim m = true -> is_expired (g_dead s) b = true -> m <> GClaimCw20 [] -> m <> GClaimNative [] ->
  (forall tk, asks m tk -> m = GClaimAll \/ 0 < pool tk (fo_own l)) ->
  (forall c, asks m (true, c) -> 0 < pool (true, c) (fo_own l) -> bad c = false) ->
  exists s' subs, g_handle (fo_world kpow ktot bad t) s b a m = Ok (s', subs).
Proof.
  exact (j_fund_claims StakeModel.k_handle kpow ktot StakeSpec.kreached cw20_stable StakeProofs.kreached_app cw20_sane bad h b0 b s t l a m).
Qed.
Lemma c137_cw20_shares bad h b1 t1 l1 b0 b s t l :
  StakeSpec.kreached b1 t1 l1 -> block_le b1 b0 -> height b1 < h <= height b0 ->
  fund_on_cw20_from bad h b0 t1 b s t l ->
  (forall a, kpow t a h = StakeSpec.staked t1 a) /\ ktot t h = StakeSpec.total_staked t1.
Proof.
  exact (j_fund_shares StakeModel.k_handle kpow ktot StakeSpec.kreached StakeSpec.staked StakeSpec.total_staked cw20_reported bad h b1 t1 l1 b0 b s t l).
Qed.

(** *** nft *)
Lemma c137_nft_pays bad h b0 b s t l :
  fund_on_nft bad h b0 b s t l -> h <= height b0 -> ntot t h <= ntot t (height b0) ->
  pays (fun a => npow t a h) (ntot t (height b0)) s (fo_own l).
Proof.
  exact (j_fund_pays NftModel.n_handle npow ntot NftSpec.nreached nft_stable NftProofs.nreached_app nft_sane bad h b0 b s t l).
Qed.
Lemma c137_nft_claims bad h b0 b s t l a m :
  fund_on_nft bad h b0 b s t l -> h <= height b0 -> ntot t h <= ntot t (height b0) ->
  is_claim m = true -> is_expired (g_dead s) b = true -> m <> GClaimCw20 [] -> m <> GClaimNative [] ->
  (forall tk, asks m tk -> m = GClaimAll \/ 0 < pool tk (fo_own l)) ->
  (forall c, asks m (true, c) -> 0 < pool (true, c) (fo_own l) -> bad c = false) ->
  exists s' subs, g_handle (fo_world npow ntot bad t) s b a m = Ok (s', subs).
Proof.
  exact (j_fund_claims NftModel.n_handle npow ntot NftSpec.nreached nft_stable NftProofs.nreached_app nft_sane bad h b0 b s t l a m).
Qed.
Lemma c137_nft_shares bad h b1 t1 l1 b0 b s t l :
  NftSpec.nreached b1 t1 l1 -> block_le b1 b0 -> height b1 < h <= height b0 ->
  fund_on_nft_from bad h b0 t1 b s t l ->
  (forall a, npow t a h = NftSpec.ncount t1 a) /\ ntot t h = NftSpec.ncount_all t1.
Proof.
  exact (j_fund_shares NftModel.n_handle npow ntot NftSpec.nreached NftSpec.ncount NftSpec.ncount_all nft_reported bad h b1 t1 l1 b0 b s t l).
Qed.

(** *** grp *)
Lemma c137_grp_pays bad h b0 b s t l :
  fund_on_grp bad h b0 b s t l -> h <= height b0 -> gtot t h <= gtot t (height b0) ->
  pays (fun a => gpow t a h) (gtot t (height b0)) s (fo_own l).
Proof.
  exact (j_fund_pays GrpModel.g_handle gpow gtot GrpSpec.greached grp_stable grp_app grp_sane bad h b0 b s t l).
Qed.
Lemma c137_grp_claims bad h b0 b s t l a m :
  fund_on_grp bad h b0 b s t l -> h <= height b0 -> gtot t h <= gtot t (height b0) ->
  is_claim m = true -> is_expired (g_dead s) b = true -> m <> GClaimCw20 [] -> m <> GClaimNative [] ->
  (forall tk, asks m tk -> m = GClaimAll \/ 0 < pool tk (fo_own l)) ->
  (forall c, asks m (true, c) -> 0 < pool (true, c) (fo_own l) -> bad c = false) ->
  exists s' subs, g_handle (fo_world gpow gtot bad t) s b a m = Ok (s', subs).
Proof.
  exact (j_fund_claims GrpModel.g_handle gpow gtot GrpSpec.greached grp_stable grp_app grp_sane bad h b0 b s t l a m).
Qed.
Lemma c137_grp_shares bad h b1 t1 l1 b0 b s t l :
  GrpSpec.greached b1 t1 l1 -> block_le b1 b0 -> height b1 < h <= height b0 ->
  fund_on_grp_from bad h b0 t1 b s t l ->
  (forall a, gpow t a h = gheld t1 a) /\ gtot t h = gheld_all t1.
Proof.
  exact (j_fund_shares GrpModel.g_handle gpow gtot GrpSpec.greached gheld gheld_all grp_reported bad h b1 t1 l1 b0 b s t l).
Qed.

(** *** role *)
Lemma c137_role_pays bad h b0 b s t l :
  fund_on_role bad h b0 b s t l -> h <= height b0 -> rtot t h <= rtot t (height b0) ->
  pays (fun a => rpow t a h) (rtot t (height b0)) s (fo_own l).
Proof.
  exact (j_fund_pays RolesModel.r_handle rpow rtot RolesSpec.rreached role_stable role_app role_sane bad h b0 b s t l).
Qed.
Lemma c137_role_claims bad h b0 b s t l a m :
  fund_on_role bad h b0 b s t l -> h <= height b0 -> rtot t h <= rtot t (height b0) ->
  is_claim m = true -> is_expired (g_dead s) b = true -> m <> GClaimCw20 [] -> m <> GClaimNative [] ->
  (forall tk, asks m tk -> m = GClaimAll \/ 0 < pool tk (fo_own l)) ->
  (forall c, asks m (true, c) -> 0 < pool (true, c) (fo_own l) -> bad c = false) ->
  exists s' subs, g_handle (fo_world rpow rtot bad t) s b a m = Ok (s', subs).
Proof.
  exact (j_fund_claims RolesModel.r_handle rpow rtot RolesSpec.rreached role_stable role_app role_sane bad h b0 b s t l a m).
Qed.
Lemma c137_role_shares bad h b1 t1 l1 b0 b s t l :
  RolesSpec.rreached b1 t1 l1 -> block_le b1 b0 -> height b1 < h <= height b0 ->
  fund_on_role_from bad h b0 t1 b s t l ->
  (forall a, rpow t a h = rheld t1 a) /\ rtot t h = rheld_all t1.
Proof.
  exact (j_fund_shares RolesModel.r_handle rpow rtot RolesSpec.rreached rheld rheld_all role_reported bad h b1 t1 l1 b0 b s t l).
Qed.

(** *** onft *)
Lemma c137_onft_pays bad h b0 b s t l :
  fund_on_onft bad h b0 b s t l -> h <= height b0 -> otot t h <= otot t (height b0) ->
  pays (fun a => opow t a h) (otot t (height b0)) s (fo_own l).
Proof.
  exact (j_fund_pays OnftModel.f_handle opow otot OnftSpec.freached onft_stable onft_app onft_sane bad h b0 b s t l).
Qed.
Lemma c137_onft_claims bad h b0 b s t l a m :
  fund_on_onft bad h b0 b s t l -> h <= height b0 -> otot t h <= otot t (height b0) ->
  is_claim m = true -> is_expired (g_dead s) b = true -> m <> GClaimCw20 [] -> m <> GClaimNative [] ->
  (forall tk, asks m tk -> m = GClaimAll \/ 0 < pool tk (fo_own l)) ->
  (forall c, asks m (true, c) -> 0 < pool (true, c) (fo_own l) -> bad c = false) ->
  exists s' subs, g_handle (fo_world opow otot bad t) s b a m = Ok (s', subs).
Proof.
  exact (j_fund_claims OnftModel.f_handle opow otot OnftSpec.freached onft_stable onft_app onft_sane bad h b0 b s t l a m).
Qed.
Lemma c137_onft_shares bad h b1 t1 l1 b0 b s t l :
  OnftSpec.freached b1 t1 l1 -> block_le b1 b0 -> height b1 < h <= height b0 ->
  fund_on_onft_from bad h b0 t1 b s t l ->
  (forall a, opow t a h = oheld t1 a) /\ otot t h = oheld_all t1.
Proof.
  exact (j_fund_shares OnftModel.f_handle opow otot OnftSpec.freached oheld oheld_all onft_reported bad h b1 t1 l1 b0 b s t l).
Qed.
