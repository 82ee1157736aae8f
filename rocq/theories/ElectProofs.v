(** The voting modules on cw4 groups, role tokens and ONFTs give stable, sensible answers. *)
From Verif Require Import Base BaseProofs Exec ExecProofs Plain PlainProofs VotingModel
  StoreModel StoreProofs LedgerProofs RolesModel RolesProofs JointModel ElectSpec.
From Verif Require RolesSpec RolesClaims GrpModel GrpSpec GrpProofs GrpClaims
  OnftModel OnftSpec OnftProofs OnftClaims.

Lemma lsum_le_lsum {A} (f : A -> Z) (l k : list A) :
  (forall x, 0 <= f x) -> l ⊆+ k -> lsum f l <= lsum f k.
Proof. intros P. induction 1; cbn; try specialize (P x); lia. Qed.
(** What some accounts have is at most the sum over the map. *)
Lemma some_le (f : addr -> Z) (m : smap) vs :
  (forall a, 0 <= f a) -> (forall a, m !! a = None -> f a = 0) -> NoDup vs ->
  lsum f vs <= sum_of f m.
Proof.
  intros P Z0 ND. unfold sum_of. rewrite msum_keys.
  rewrite (lsum_nz f vs). etransitivity; [|apply (lsum_le_lsum f (filter (fun x => f x <> 0) vs)); [done|]]; [done|].
  apply NoDup_submseteq; [by apply NoDup_filter|]. intros a [N _]%elem_of_list_filter.
  destruct (m !! a) as [sn|] eqn:E; [|by rewrite Z0 in N].
  apply elem_of_list_fmap. exists (a, sn). split; [done|]. by apply elem_of_map_to_list.
Qed.

(** ** Groups *)
Lemma grp_stable t b a m t' subs h :
  GrpModel.g_handle t b a m = Ok (t', subs) -> h <= height b ->
  (forall a', gpow t' a' h = gpow t a' h) /\ gtot t' h = gtot t h.
Proof.
  intros H Hh. split; [intros a'|]; eapply (GrpClaims.g_step_past _ _ _ _ _ _); eauto.
Qed.
Lemma grp_app b t l b' t' l' :
  GrpSpec.greached b t l -> leads GrpModel.g_handle b t b' t' l' -> GrpSpec.greached b' t' (l ++ l').
Proof.
  intros (ad & ms & b0 & s0 & C & HL) HL'. exists ad, ms, b0, s0. split; [done|]. by eapply leads_app.
Qed.
Record gbound (s : GrpModel.gstate) : Prop := GBound {
  gbd_tot : forall h, gtot s h <= U64_MAX;
  gbd_pow : forall a h, 0 <= gpow s a h }.
Lemma g_add_max l : forall ms t h ms' t' ds,
  GrpModel.g_add ms t h l = Ok (ms', t', ds) -> t <= U64_MAX -> t' <= U64_MAX.
Proof.
  induction l as [|[a w] l IH]; cbn [GrpModel.g_add]; intros ms t h ms' t' ds H L.
  - by injection H as <- <- <-.
  - cbv zeta in H. unfold sub64, add64 in H.
    destruct (default 0 (smap_load ms a) <=? t); [|done]. cbn in H.
    destruct (t - default 0 (smap_load ms a) + w <=? U64_MAX) eqn:E2; [|done]. cbn in H.
    destruct (GrpModel.g_add (smap_save ms a h w) _ h l) as [[[ms2 t2] ds2]|] eqn:E; [|done].
    injection H as <- <- <-. eapply IH; [exact E|lia].
Qed.
Lemma g_remove_max l : forall ms t h ms' t' ds,
  GrpModel.g_remove ms t h l = Ok (ms', t', ds) ->
  (forall a n, smap_load ms a = Some n -> 0 <= n) -> t' <= t.
Proof.
  induction l as [|a l IH]; cbn [GrpModel.g_remove]; intros ms t h ms' t' ds H P.
  - by injection H as <- <- <-.
  - destruct (smap_load ms a) as [w|] eqn:El; [|by eapply IH].
    unfold sub64 in H. destruct (w <=? t); [|done]. cbn in H.
    destruct (GrpModel.g_remove (smap_drop ms a h) _ h l) as [[[ms2 t2] ds2]|] eqn:E; [|done].
    injection H as <- <- <-. apply IH in E.
    + specialize (P _ _ El). lia.
    + intros c n. change (smap_drop ms a h) with (set_member ms a h None).
      rewrite set_member_load. destruct (decide _); [done|]. apply P.
Qed.
Lemma g_fill_max l : forall ms t h ms' t',
  GrpModel.g_fill ms t h l = Ok (ms', t') -> t <= U64_MAX -> t' <= U64_MAX.
Proof.
  induction l as [|[a w] l IH]; cbn [GrpModel.g_fill]; intros ms t h ms' t' H L.
  - by injection H as <- <-.
  - unfold add64 in H. destruct (t + w <=? U64_MAX) eqn:E; [|done]. cbn in H. eapply IH; [exact H|lia].
Qed.
Lemma g_total_max b s a m s' subs :
  GrpProofs.ginv b s -> snap_get (GrpModel.g_total s) <= U64_MAX ->
  GrpModel.g_handle s b a m = Ok (s', subs) -> snap_get (GrpModel.g_total s') <= U64_MAX.
Proof.
  intros I L H. destruct m as [x|remove add|h|h|]; cbn in H.
  - destruct (GrpModel.is_admin s a); [|done]. by injection H as <- <-.
  - destruct (GrpModel.weights_fit add) eqn:Ef; [|done].
    destruct (GrpModel.is_admin s a); [|done]. unfold GrpModel.g_update in H.
    unfold GrpModel.unique in H. destruct (bool_decide_reflect (NoDup add.*1)) as [ND|]; [|done].
    destruct (GrpModel.g_add _ _ _ add) as [[[ms t] ds]|] eqn:Ea; [|done]. cbn in H.
    destruct (GrpModel.g_remove _ _ _ remove) as [[[ms' t'] ds']|] eqn:Er; [|done].
    injection H as <- <-. cbn [GrpModel.g_total]. rewrite snap_get_save.
    pose proof (g_add_max _ _ _ _ _ _ _ Ea L). apply g_remove_max in Er; [lia|].
    apply GrpProofs.g_add_ok in Ea as (_ & _ & L1). intros c n. rewrite (L1 ND).
    destruct (GrpSpec.given add c) eqn:Eg.
    + intros [= ->]. apply GrpProofs.weights_fit_pos in Eg; [lia|done].
    + apply (GrpProofs.gi_pos _ _ I).
  - destruct (GrpModel.is_admin s a); [|done]. destruct (negb _); [|done]. by injection H as <- <-.
  - destruct (GrpModel.is_admin s a); [|done]. destruct (bool_decide _); [|done]. by injection H as <- <-.
  - done.
Qed.
Lemma gbound_step b s a m s' subs :
  GrpProofs.ginv b s /\ gbound s -> GrpModel.g_handle s b a m = Ok (s', subs) ->
  GrpProofs.ginv b s' /\ gbound s'.
Proof.
  intros [I [B1 B2]] H. pose proof (GrpProofs.ginv_step _ _ _ _ _ _ I H) as I'. split; [done|].
  assert (snap_get (GrpModel.g_total s) <= U64_MAX) as L.
  { specialize (B1 (height b + 1)). unfold gtot, GrpModel.gv_total, GrpModel.q_total in B1.
    rewrite (snap_get_at_now _ (height b)) in B1; [done|apply I|lia]. }
  pose proof (g_total_max _ _ _ _ _ _ I L H) as L'.
  split.
  - intros h. destruct (Z.le_gt_cases h (height b)) as [Hh|Hh].
    + destruct (grp_stable _ _ _ _ _ _ _ H Hh) as [_ ->]. apply B1.
    + unfold gtot, GrpModel.gv_total, GrpModel.q_total.
      rewrite (snap_get_at_now _ (height b)); [done|apply I'|lia].
  - intros c h. destruct (Z.le_gt_cases h (height b)) as [Hh|Hh].
    + destruct (grp_stable _ _ _ _ _ _ _ H Hh) as [-> _]. apply B2.
    + unfold gpow, GrpModel.gv_power, GrpModel.q_weight.
      rewrite (snap_at_now _ (height b)); [|apply I'|lia].
      pose proof (GrpProofs.gi_pos _ _ I' c) as P. unfold smap_load in P.
      destruct (sn_cur _) as [n|]; cbn; [by apply P|lia].
Qed.
Lemma grp_bound b t l : GrpSpec.greached b t l -> GrpProofs.ginv b t /\ gbound t.
Proof.
  intros (ad & ms & b0 & s0 & C & HL).
  assert (GrpProofs.ginv b0 s0 /\ gbound s0) as HI.
  { pose proof (GrpProofs.create_ok _ _ _ _ C) as (I & _ & _ & _ & _ & _ & _ & Z0). split; [done|].
    assert (snap_get (GrpModel.g_total s0) <= U64_MAX) as L.
    { unfold GrpModel.g_create in C. destruct (GrpModel.weights_fit _); [|done].
      destruct (GrpModel.unique _); [|done].
      destruct (GrpModel.g_fill _ _ _ _) as [[ms' t']|] eqn:E; [|done]. injection C as <-.
      cbn [GrpModel.g_total]. rewrite snap_get_save. eapply g_fill_max; [exact E|]. by vm_compute. }
    split.
    - intros h. unfold gtot, GrpModel.gv_total, GrpModel.q_total.
      destruct (Z.le_gt_cases h (height b0)) as [Hh|Hh].
      + destruct (Z0 h Hh) as [-> _]. by vm_compute.
      + rewrite (snap_get_at_now _ (height b0)); [done|apply I|lia].
    - intros a h. unfold gpow, GrpModel.gv_power, GrpModel.q_weight.
      destruct (Z.le_gt_cases h (height b0)) as [Hh|Hh].
      + destruct (Z0 h Hh) as [_ ->]. done.
      + rewrite (snap_at_now _ (height b0)); [|apply I|lia].
        pose proof (GrpProofs.gi_pos _ _ I a) as P. unfold smap_load in P.
        destruct (sn_cur _) as [n|]; cbn; [by apply P|lia]. }
  revert HI HL. apply (leads_inv GrpModel.g_handle (fun b s => GrpProofs.ginv b s /\ gbound s)).
  - intros; by eapply gbound_step.
  - intros b1 b2 s [I B] L. split; [by eapply GrpProofs.ginv_time|done].
Qed.
Lemma grp_sane b t l : GrpSpec.greached b t l ->
  (forall a h, 0 <= gpow t a h) /\ (forall h, gtot t h <= U128_MAX) /\
  (forall h vs, NoDup vs -> lsum (fun a => gpow t a h) vs <= gtot t h).
Proof.
  intros HR. destruct (grp_bound _ _ _ HR) as [I [B1 B2]]. split; [done|]. split.
  - intros h. specialize (B1 h). unfold U64_MAX, U128_MAX in *. lia.
  - intros h vs ND.
    assert (gtot t h = sum_of (fun a => gpow t a h) (GrpModel.g_members t)) as ->.
    { symmetry. apply (GrpProofs.gi_sum _ _ I h). }
    apply some_le; [intros; apply B2| |done]. intros a E. unfold gpow, GrpModel.gv_power, GrpModel.q_weight, smap_snap.
    by rewrite E.
Qed.
Lemma grp_reported b1 t1 l1 b' b2 t2 l2 h :
  GrpSpec.greached b1 t1 l1 -> height b1 < h -> block_le b1 b' -> h <= height b' ->
  leads GrpModel.g_handle b' t1 b2 t2 l2 ->
  (forall a, gpow t2 a h = gheld t1 a) /\ gtot t2 h = gheld_all t1.
Proof.
  intros HR Hlt Hb Hle HL.
  assert (GrpSpec.greached b' t1 l1) as HR'.
  { rewrite <-(app_nil_r l1). eapply grp_app; [exact HR|]. by apply leads_refl. }
  assert (forall a, gpow t2 a h = gheld t1 a /\ gtot t2 h = gheld_all t1) as K.
  { intros a. destruct (GrpClaims.g_powers_past _ _ _ _ _ _ a h HR' HL) as [A _].
    destruct (A Hle) as [A1 A2].
    destruct (GrpClaims.g_powers_past _ _ _ _ _ _ a h HR (leads_refl _ _ _ _ Hb)) as [_ B].
    destruct (B Hlt) as [B1 B2]. unfold gpow, gtot, gheld, gheld_all. by rewrite A1, A2. }
  split; [intros a; apply K|apply (K 0%N)].
Qed.

(** ** Role tokens *)
Lemma role_stable t b a m t' subs h :
  r_handle t b a m = Ok (t', subs) -> h <= height b ->
  (forall a', rpow t' a' h = rpow t a' h) /\ rtot t' h = rtot t h.
Proof.
  intros H Hh. unfold rpow, rtot, v_power, v_total, q_member, q_total_weight.
  assert (forall ms, (exists c v, ms = set_member (r_members t) c (height b) v) ->
    forall a', default 0 (snap_at (smap_snap ms a') h) =
               default 0 (snap_at (smap_snap (r_members t) a') h)) as K.
  { intros ms (c & v & ->) a'. by rewrite set_member_at. }
  unfold r_handle in H. destruct (is_owner _ _); [|done].
  destruct m as [id ow w|id|x|x|id|id w|to id|to id| |act].
  - destruct (fits64 w); [|done]. unfold r_mint in H. res_inv H. cbn [r_members r_total].
    split; [apply K; by eexists ow, (Some _)|by apply snap_get_at_save].
  - unfold r_burn in H. res_inv H. cbn [r_members r_total]. split; [|by apply snap_get_at_save].
    apply K. destruct (_ =? 0); [by eexists _, None|by eexists _, (Some _)].
  - destruct (negb _); [|done]. by injection H as <- <-.
  - destruct (bool_decide _); [|done]. by injection H as <- <-.
  - destruct (r_tokens t !! id); [|done]. by injection H as <- <-.
  - destruct (fits64 w); [|done]. unfold r_weight in H. res_inv H. cbn [r_members r_total].
    split; [apply K; by eexists _, (Some _)|by apply snap_get_at_save].
  - destruct (r_tokens t !! id); [|done]. by injection H as <- <-.
  - destruct (r_tokens t !! id); [|done]. by injection H as <- <-.
  - by injection H as <- <-.
  - destruct (update_ownership _ _ _ _); [|done]. by injection H as <- <-.
Qed.
Lemma role_app b t l b' t' l' :
  RolesSpec.rreached b t l -> leads r_handle b t b' t' l' -> RolesSpec.rreached b' t' (l ++ l').
Proof. intros (b0 & mi & HL) HL'. exists b0, mi. by eapply leads_app. Qed.
Record rbound (s : rstate) : Prop := RBound {
  rbd_tot : forall h, rtot s h <= U64_MAX;
  rbd_pow : forall a h, 0 <= rpow s a h }.
Lemma r_total_max b s a m s' subs :
  rinv b s -> snap_get (r_total s) <= U64_MAX ->
  r_handle s b a m = Ok (s', subs) -> snap_get (r_total s') <= U64_MAX.
Proof.
  intros I L H. unfold r_handle in H. destruct (is_owner _ _); [|done].
  destruct m as [id ow w|id|x|x|id|id w|to id|to id| |act].
  - destruct (fits64 w); [|done]. unfold r_mint, add64 in H.
    destruct (snap_get (r_total s) + w <=? U64_MAX) eqn:E; [|done].
    destruct (default 0 (smap_load (r_members s) ow) + w <=? U64_MAX); [|done]. destruct (r_tokens s !! id); [done|]. injection H as <- <-.
    cbn [r_total]. rewrite snap_get_save. lia.
  - unfold r_burn in H. destruct (r_tokens s !! id) as [x|] eqn:Et; [|done].
    destruct (smap_load _ _) as [old|]; [|done]. destruct (_ <=? old); [|done].
    unfold sub64 in H. destruct (_ <=? snap_get _); [|done]. cbn zeta in H. injection H as <- <-.
    cbn [r_total]. rewrite snap_get_save. destruct (ri_pos _ _ I) as (_ & _ & P).
    specialize (P _ _ Et). lia.
  - destruct (negb _); [|done]. by injection H as <- <-.
  - destruct (bool_decide _); [|done]. by injection H as <- <-.
  - destruct (r_tokens s !! id); [|done]. by injection H as <- <-.
  - destruct (fits64 w); [|done]. unfold r_weight in H.
    destruct (r_tokens s !! id) as [x|] eqn:Et; [|done]. cbn zeta in H.
    destruct (Z.compare_spec w (ro_weight x)) as [->|Lw|G]; [done| |].
    + destruct (ro_weight x - w <=? default 0 (smap_load (r_members s) (ro_owner x))); [|done].
      unfold sub64 in H. destruct (ro_weight x - w <=? snap_get (r_total s)); [|done].
      injection H as <- <-.
      cbn [r_total]. rewrite snap_get_save. lia.
    + unfold add64 in H. destruct (snap_get (r_total s) + (w - ro_weight x) <=? U64_MAX) eqn:E; [|done].
      destruct (default 0 (smap_load (r_members s) (ro_owner x)) + (w - ro_weight x) <=? U64_MAX); [|done].
      injection H as <- <-.
      cbn [r_total]. rewrite snap_get_save. lia.
  - destruct (r_tokens s !! id); [|done]. by injection H as <- <-.
  - destruct (r_tokens s !! id); [|done]. by injection H as <- <-.
  - by injection H as <- <-.
  - destruct (update_ownership _ _ _ _); [|done]. by injection H as <- <-.
Qed.
Lemma rbound_step b s a m s' subs :
  rinv b s /\ rbound s -> r_handle s b a m = Ok (s', subs) -> rinv b s' /\ rbound s'.
Proof.
  intros [I [B1 B2]] H. pose proof (rinv_step _ _ _ _ _ _ I H) as I'. split; [done|].
  assert (snap_get (r_total s) <= U64_MAX) as L.
  { specialize (B1 (height b + 1)). unfold rtot, v_total, q_total_weight in B1.
    rewrite (snap_get_at_now _ (height b)) in B1; [done|apply I|lia]. }
  pose proof (r_total_max _ _ _ _ _ _ I L H) as L'. split.
  - intros h. destruct (Z.le_gt_cases h (height b)) as [Hh|Hh].
    + destruct (role_stable _ _ _ _ _ _ _ H Hh) as [_ ->]. apply B1.
    + unfold rtot, v_total, q_total_weight.
      rewrite (snap_get_at_now _ (height b)); [done|apply I'|lia].
  - intros c h. destruct (Z.le_gt_cases h (height b)) as [Hh|Hh].
    + destruct (role_stable _ _ _ _ _ _ _ H Hh) as [-> _]. apply B2.
    + unfold rpow, v_power, q_member.
      rewrite (snap_at_now _ (height b)); [|apply I'|lia].
      destruct (ri_pos _ _ I') as (P & _ & _). specialize (P c). unfold smap_load in P.
      destruct (sn_cur _) as [n|]; cbn; [by apply P|lia].
Qed.
Lemma role_bound b t l : RolesSpec.rreached b t l -> rinv b t /\ rbound t.
Proof.
  intros (b0 & mi & HL). revert HL.
  apply (leads_inv r_handle (fun b s => rinv b s /\ rbound s)).
  - intros; by eapply rbound_step.
  - intros b1 b2 s [I B] L. split; [by eapply rinv_time|done].
  - split; [apply rinv_init|]. split.
    + intros h. unfold rtot, v_total, q_total_weight, snap_get_at, snap_at. cbn.
      destruct (h <=? height b0); by vm_compute.
    + intros a h. unfold rpow, v_power, q_member, smap_snap, r_instantiate. cbn.
      by rewrite lookup_empty.
Qed.
Lemma role_sane b t l : RolesSpec.rreached b t l ->
  (forall a h, 0 <= rpow t a h) /\ (forall h, rtot t h <= U128_MAX) /\
  (forall h vs, NoDup vs -> lsum (fun a => rpow t a h) vs <= rtot t h).
Proof.
  intros HR. destruct (role_bound _ _ _ HR) as [I [B1 B2]]. split; [done|]. split.
  - intros h. specialize (B1 h). unfold U64_MAX, U128_MAX in *. lia.
  - intros h vs ND.
    assert (rtot t h = sum_of (fun a => rpow t a h) (r_members t)) as ->.
    { symmetry. apply (ri_sum _ _ I h). }
    apply some_le; [intros; apply B2| |done]. intros a E. unfold rpow, v_power, q_member, smap_snap.
    by rewrite E.
Qed.
Lemma role_reported b1 t1 l1 b' b2 t2 l2 h :
  RolesSpec.rreached b1 t1 l1 -> height b1 < h -> block_le b1 b' -> h <= height b' ->
  leads r_handle b' t1 b2 t2 l2 ->
  (forall a, rpow t2 a h = rheld t1 a) /\ rtot t2 h = rheld_all t1.
Proof.
  intros HR Hlt Hb Hle HL.
  assert (RolesSpec.rreached b' t1 l1) as HR'.
  { rewrite <-(app_nil_r l1). eapply role_app; [exact HR|]. by apply leads_refl. }
  assert (forall a, rpow t2 a h = rheld t1 a /\ rtot t2 h = rheld_all t1) as K.
  { intros a. destruct (RolesClaims.powers_past _ _ _ _ _ _ a h HR' HL) as [A _].
    destruct (A Hle) as [A1 A2].
    destruct (RolesClaims.powers_past _ _ _ _ _ _ a h HR (leads_refl _ _ _ _ Hb)) as [_ B].
    destruct (B Hlt) as [B1 B2]. unfold rpow, rtot, rheld, rheld_all.
    rewrite A1, A2, B1, B2. split; [done|]. by eapply RolesClaims.total_is_tokens. }
  split; [intros a; apply K|apply (K 0%N)].
Qed.

(** ** ONFTs *)
Lemma onft_stable t b a m t' subs h :
  OnftModel.f_handle t b a m = Ok (t', subs) -> h <= height b ->
  (forall a', opow t' a' h = opow t a' h) /\ otot t' h = otot t h.
Proof. intros H Hh. exact (OnftClaims.fat_call _ _ _ _ _ _ _ H Hh). Qed.
Lemma onft_app b t l b' t' l' :
  OnftSpec.freached b t l -> leads OnftModel.f_handle b t b' t' l' -> OnftSpec.freached b' t' (l ++ l').
Proof.
  intros (b0 & self & dao & d & thr & sup & own & s0 & A & B & C & HL) HL'.
  exists b0, self, dao, d, thr, sup, own, s0. do 3 (split; [done|]). by eapply leads_app.
Qed.
Lemma onft_sane b t l : OnftSpec.freached b t l ->
  (forall a h, 0 <= opow t a h) /\ (forall h, otot t h <= U128_MAX) /\
  (forall h vs, NoDup vs -> lsum (fun a => opow t a h) vs <= otot t h).
Proof.
  intros HR. split; [|split].
  - intros a h. by apply (OnftClaims.c85_any_voters _ _ _ (Block 0 0) h [] HR (NoDup_nil_2)).
  - intros h. by apply (OnftClaims.c85_any_voters _ _ _ (Block 0 0) h [] HR (NoDup_nil_2)).
  - intros h vs Hn. by apply (OnftClaims.c85_any_voters _ _ _ (Block 0 0) h vs HR Hn).
Qed.
Lemma onft_reported b1 t1 l1 b' b2 t2 l2 h :
  OnftSpec.freached b1 t1 l1 -> height b1 < h -> block_le b1 b' -> h <= height b' ->
  leads OnftModel.f_handle b' t1 b2 t2 l2 ->
  (forall a, opow t2 a h = oheld t1 a) /\ otot t2 h = oheld_all t1.
Proof.
  intros HR Hlt Hb Hle HL.
  assert (OnftSpec.freached b' t1 l1) as HR'.
  { rewrite <-(app_nil_r l1). eapply onft_app; [exact HR|]. by apply leads_refl. }
  destruct (OnftClaims.c85_past _ _ _ _ _ _ (Block 0 0) (Block 0 0) h HR' HL Hle) as [A B].
  pose proof (OnftProofs.freached_linv _ _ _ HR) as I. unfold opow, otot, oheld, oheld_all.
  rewrite B. split.
  - intros a. rewrite A. eapply smap_at_now; [apply I|done].
  - eapply snap_get_at_now; [apply I|done].
Qed.
