(** Migrations of the staking contracts: lemmas and claims. *)
From Verif Require Import Base BaseProofs Exec ExecProofs Plain PlainProofs StoreModel StoreProofs
  StakeModel StakeSpec StakeProofs StakeClaims ExtModel DistModel MigStakeModel MigStakeSpec.

Section host.
  Context {State Msg Sub Old : Type}.
  Variable handle : State -> block -> addr -> Msg -> result (State * list Sub).
  Variable reset : Old -> State -> State.
  Notation H := (h_handle handle reset).

  Lemma h_migrate_inv s b a v s' subs : H s b a (HMigrate v) = Ok (s', subs) ->
    exists c, a = h_admin s /\ h_version s <> v /\ h_old s = Some c /\ subs = [] /\
      s' = Host (h_admin s) v (h_old s) (reset c (h_st s)).
  Proof.
    cbn [h_handle]. intros E. destruct (N.eqb_spec a (h_admin s)) as [Ea|]; [|discriminate].
    destruct (N.eqb_spec (h_version s) v); [discriminate|]. cbn [negb] in E.
    destruct (h_old s) as [c|] eqn:Ec; [|discriminate]. injection E as <- <-. eauto 10.
  Qed.
  Lemma h_accepted s b a v :
    (exists s' subs, H s b a (HMigrate v) = Ok (s', subs)) <->
    a = h_admin s /\ v <> h_version s /\ is_Some (h_old s).
  Proof.
    split.
    - intros (s' & subs & E). apply h_migrate_inv in E as (c & -> & Hv & Hc & _).
      split; [done|]. split; [done|]. rewrite Hc. eauto.
    - intros (-> & Hv & [c Hc]). cbn [h_handle]. rewrite N.eqb_refl.
      rewrite (proj2 (N.eqb_neq _ _)) by done. cbn [negb]. rewrite Hc. eauto.
  Qed.
  Lemma h_call_inv s b a m s' subs : H s b a (HCall m) = Ok (s', subs) ->
    handle (h_st s) b a m = Ok (h_st s', subs) /\ h_admin s' = h_admin s /\
    h_version s' = h_version s /\ h_old s' = h_old s.
  Proof.
    cbn [h_handle]. intros E. destruct (handle (h_st s) b a m) as [[t u]|]; [|discriminate].
    by injection E as <- <-.
  Qed.
  Lemma h_old_step s b a m s' subs : H s b a m = Ok (s', subs) ->
    h_old s' = h_old s /\ h_admin s' = h_admin s.
  Proof.
    destruct m as [m|v]; intros E.
    - apply h_call_inv in E as (_ & ? & _ & ?). done.
    - apply h_migrate_inv in E as (c & _ & _ & _ & _ & ->). done.
  Qed.
  (** A contract made by this version refuses every upgrade, for ever. *)
  Lemma h_new_never b0 s0 b s (l : log _ _ _) b' a v :
    leads H b0 s0 b s l -> h_old s0 = None -> exists e, H s b' a (HMigrate v) = Err e.
  Proof.
    intros HL H0.
    assert (h_old s = h_old s0) as Eo.
    { revert HL. apply (leads_rel H (fun _ _ => True) ltac:(done) ltac:(done)
        (fun s s' => h_old s' = h_old s)); [done|intros ? ? ? ? ?; congruence| |done].
      intros ? ? ? ? ? ? _ E. apply h_old_step in E. tauto. }
    destruct (H s b' a (HMigrate v)) as [[s' subs]|e] eqn:E; [|eauto].
    apply h_migrate_inv in E as (c & _ & _ & Hc & _). congruence.
  Qed.
End host.

(** ** What a migration changes *)
Lemma hk_kept (s : host kstate kold) b a v s' subs :
  hk_handle s b a (HMigrate v) = Ok (s', subs) ->
  exists c, h_old s = Some c /\ h_version s' = v /\ subs = [] /\
    k_own (h_st s') = Own (ko_owner c) None None /\ k_token (h_st s') = ko_token c /\
    k_dur (h_st s') = ko_dur c /\ k_bals (h_st s') = k_bals (h_st s) /\
    k_total (h_st s') = k_total (h_st s) /\ k_pool (h_st s') = k_pool (h_st s) /\
    k_claims (h_st s') = k_claims (h_st s) /\ k_hooks (h_st s') = k_hooks (h_st s) /\
    k_held (h_st s') = k_held (h_st s).
Proof.
  intros E. apply h_migrate_inv in E as (c & _ & _ & Hc & -> & ->). exists c. by rewrite Hc.
Qed.
Lemma hx_kept (s : host xstate rold) b a v s' subs :
  hx_handle s b a (HMigrate v) = Ok (s', subs) ->
  exists c, h_old s = Some c /\ h_version s' = v /\ subs = [] /\
    let r := x_rew (h_st s) in let r' := x_rew (h_st s') in
    r_own r' = Own (ro_owner c) None None /\ r_token r' = ro_token c /\
    x_staking (h_st s') = ro_staking c /\ r_fin r' = r_fin r /\ r_rate r' = r_rate r /\
    r_dur r' = r_dur r /\ r_rpt r' = r_rpt r /\ r_last r' = r_last r /\ r_pend r' = r_pend r /\
    r_urpt r' = r_urpt r /\ x_held (h_st s') = x_held (h_st s) /\ x_stake (h_st s') = x_stake (h_st s).
Proof.
  intros E. apply h_migrate_inv in E as (c & _ & _ & Hc & -> & ->). exists c. by rewrite Hc.
Qed.
Lemma hd_kept (s : host dstate dold) b a v s' subs :
  hd_handle s b a (HMigrate v) = Ok (s', subs) ->
  exists c, h_old s = Some c /\ h_version s' = v /\ subs = [] /\
    d_own (h_st s') = Own (Some (do_owner c)) None None /\ d_staking (h_st s') = do_staking c /\
    d_token (h_st s') = do_token c /\ d_rate (h_st s') = do_rate c /\
    d_last (h_st s') = d_last (h_st s) /\ d_bals (h_st s') = d_bals (h_st s).
Proof.
  intros E. apply h_migrate_inv in E as (c & _ & _ & Hc & -> & ->). exists c. by rewrite Hc.
Qed.

(** ** Stakes through migrations *)
Definition hkinv (b : block) (s : host kstate kold) : Prop :=
  kinv b (h_st s) /\ exists c, h_old s = Some c /\ ko_token c = k_token (h_st s).
Lemma kinv_like b s s' : kinv b s -> k_bals s' = k_bals s -> k_total s' = k_total s ->
  k_pool s' = k_pool s -> k_claims s' = k_claims s -> k_held s' = k_held s -> kinv b s'.
Proof.
  intros [A1 A2 A3 A4 A5 A6 A7 A8 A9] E1 E2 E3 E4 E5.
  split; unfold total_staked in *; rewrite ?E1, ?E2, ?E3, ?E4, ?E5; done.
Qed.
Lemma k_token_step s b a m s' subs : k_handle s b a m = Ok (s', subs) -> k_token s' = k_token s.
Proof.
  intros E. destruct (k_quiet m) eqn:Eq.
  - by apply quiet_step in E as (_ & _ & _ & _ & _ & ? & _).
  - destruct m as [from x [|]|x| | | | | |x]; try discriminate Eq.
    + by apply stake_step in E as (n & _ & _ & _ & _ & _ & _ & -> & _).
    + by apply fund_step in E as (_ & _ & _ & -> & _).
    + apply unstake_step in E as (_ & _ & _ & _ & _ & _ & _ & _ & _ & E & _). exact E.
    + by apply claim_step in E as (_ & _ & _ & -> & _).
    + by apply donate_step in E as (_ & _ & _ & ->).
Qed.
Lemma hkinv_call b s a m s' subs : hkinv b s -> hk_handle s b a m = Ok (s', subs) -> hkinv b s'.
Proof.
  intros [HI (c & Hc & Ht)] E. destruct m as [m|v].
  - apply h_call_inv in E as (E & _ & _ & Eo). split; [by eapply kinv_call|].
    exists c. rewrite Eo. split; [done|]. by rewrite (k_token_step _ _ _ _ _ _ E).
  - apply h_migrate_inv in E as (c' & _ & _ & Hc' & _ & ->). split.
    + by eapply kinv_like.
    + exists c'. cbn. done.
Qed.
Lemma hkinv_time b b' s : hkinv b s -> block_le b b' -> hkinv b' s.
Proof. intros [HI HO] Hb. split; [by eapply kinv_time|done]. Qed.
Lemma k_grown_inv b s : k_grown b s -> hkinv b s.
Proof.
  intros (b0 & s0 & b1 & a & v & s1 & subs & l & (c & s2 & l2 & Hc & HR & Ht & E1 & E2 & E3 & E4 & E5)
    & Hb & E & HL).
  eapply (leads_inv hk_handle hkinv hkinv_call hkinv_time); [|exact HL].
  apply h_migrate_inv in E as (c' & _ & _ & Hc' & _ & ->). rewrite Hc in Hc'. injection Hc' as <-.
  split.
  - eapply kinv_like; [eapply kinv_time; [eapply kreached_inv; exact HR|exact Hb]|..]; done.
  - exists c. done.
Qed.
Lemma hk_solvent b s : k_grown b s ->
  sum_staked (h_st s) = total_staked (h_st s) /\ (forall a, 0 <= staked (h_st s) a) /\
  total_staked (h_st s) <= k_pool (h_st s) /\
  k_pool (h_st s) + unclaimed (h_st s) <= k_held (h_st s).
Proof.
  intros HG. destruct (k_grown_inv _ _ HG) as [HI _]. split; [exact (ki_sum _ _ HI)|].
  split; [intros a; apply (staked_le_total _ _ a HI)|].
  split; [exact (ki_pool _ _ HI)|exact (ki_held _ _ HI)].
Qed.
Lemma hk_token b s : k_grown b s -> exists c, h_old s = Some c /\ k_token (h_st s) = ko_token c.
Proof. intros HG. destruct (k_grown_inv _ _ HG) as [_ (c & Hc & Ht)]. eauto. Qed.
Lemma hk_past b s b' s' (l : log _ _ _) bq bq' h :
  k_grown b s -> leads hk_handle b s b' s' l -> h <= height b ->
  (forall a, k_balance_at (h_st s') bq' a (Some h) = k_balance_at (h_st s) bq a (Some h)) /\
  k_total_at (h_st s') bq' (Some h) = k_total_at (h_st s) bq (Some h).
Proof.
  intros _ HL Hle. unfold k_balance_at, k_total_at. cbn.
  revert HL. apply (leads_rel_from hk_handle (fun _ _ => True) ltac:(done) ltac:(done)
    (fun s s' => (forall a', smap_at (k_bals (h_st s')) a' h = smap_at (k_bals (h_st s)) a' h) /\
      snap_get_at (k_total (h_st s')) h = snap_get_at (k_total (h_st s)) h)); [done| | |done].
  - intros x y z [P1 P2] [Q1 Q2]. split; [intros; by rewrite Q1, P1|by rewrite Q2, P2].
  - intros b2 s2 a [m|v] s3 subs [Hbb _] _ Hh.
    + apply h_call_inv in Hh as (Hh & _). apply (at_call _ _ _ _ _ _ _ Hh). lia.
    + by apply hk_kept in Hh as (c & _ & _ & _ & _ & _ & _ & -> & -> & _).
Qed.

(** ** An upgrade while owner and settings are still version one's *)
Lemma hk_unchanged (s : host kstate kold) b a v s' subs c :
  hk_handle s b a (HMigrate v) = Ok (s', subs) -> h_old s = Some c ->
  k_own (h_st s) = Own (ko_owner c) None None -> k_token (h_st s) = ko_token c ->
  k_dur (h_st s) = ko_dur c -> h_st s' = h_st s.
Proof.
  intros E Hc E1 E2 E3. apply h_migrate_inv in E as (c' & _ & _ & Hc' & _ & ->).
  rewrite Hc in Hc'. injection Hc' as <-. cbn. destruct (h_st s). cbn in *. unfold k_reset.
  cbn. by subst.
Qed.
Lemma hx_unchanged (s : host xstate rold) b a v s' subs c :
  hx_handle s b a (HMigrate v) = Ok (s', subs) -> h_old s = Some c ->
  r_own (x_rew (h_st s)) = Own (ro_owner c) None None -> r_token (x_rew (h_st s)) = ro_token c ->
  x_staking (h_st s) = ro_staking c -> h_st s' = h_st s.
Proof.
  intros E Hc E1 E2 E3. apply h_migrate_inv in E as (c' & _ & _ & Hc' & _ & ->).
  rewrite Hc in Hc'. injection Hc' as <-. cbn. destruct (h_st s) as [k [] me st he du bl].
  cbn in *. unfold x_reset. cbn. by subst.
Qed.
Lemma hd_unchanged (s : host dstate dold) b a v s' subs c :
  hd_handle s b a (HMigrate v) = Ok (s', subs) -> h_old s = Some c ->
  d_own (h_st s) = Own (Some (do_owner c)) None None -> d_token (h_st s) = do_token c ->
  d_staking (h_st s) = do_staking c -> d_rate (h_st s) = do_rate c -> h_st s' = h_st s.
Proof.
  intros E Hc E1 E2 E3 E4. apply h_migrate_inv in E as (c' & _ & _ & Hc' & _ & ->).
  rewrite Hc in Hc'. injection Hc' as <-. cbn. destruct (h_st s). cbn in *. unfold d_reset.
  cbn. by subst.
Qed.
