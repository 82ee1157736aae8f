(** Statements of C41, C44, C72 and their proofs. *)
From Verif Require Import Base BaseProofs Exec ExecProofs Plain PlainProofs VotingModel HooksModel
  StoreModel StoreProofs LedgerProofs ActiveModel TokModel TokSpec TokProofs.

(** ** C41 *)
Lemma c41_adds_up b s l bq h : treached b s l -> tsum_at s bq h = t_total_at s bq (Some h).
Proof. intros HR. apply (lg_snap _ _ _ (ti_led _ _ (treached_inv _ _ _ HR)) h). Qed.
Lemma c41_any_voters b s l bq h vs :
  treached b s l -> NoDup vs ->
  lsum (fun a => t_power_at s bq a (Some h)) vs <= t_total_at s bq (Some h) <= U128_MAX /\
  (forall a, 0 <= t_power_at s bq a (Some h)).
Proof.
  intros HR Hn. pose proof (ti_led _ _ (treached_inv _ _ _ HR)) as HL.
  split; [split|].
  - by apply (ledger_at_list (height b)).
  - apply (lg_hmax _ _ _ HL).
  - intros a. apply (lg_hpos _ _ _ HL).
Qed.
Lemma c41_holdings b s l : treached b s l -> t_held s = ttotal s + tunclaimed s + tdonated l.
Proof.
  intros (b0 & dao & denom & src & d & thr & s0 & _ & _ & Hi & HL). revert HL.
  apply (leads_ind t_handle (fun b s l => t_held s = ttotal s + tunclaimed s + tdonated l)).
  - intros b1 s1 l1 a m s' subs IH H. unfold tdonated in *. rewrite lsum_app.
    rewrite tunclaimed_get, ttotal_get in *. destruct m as [funds|x|d1| |t sup|h|h|x].
    + apply tstake_step in H as (n & _ & Hn & Hh & H1 & H2 & -> & ->). cbn.
      rewrite ttotal_get in *. unfold snap_get in *. cbn. lia.
    + apply tunstake_step in H as (Hx & Hs & Ht & Eb & Et & _ & _ & _ & _ & _ & Hc).
      cbn. rewrite Et, snap_get_save, ttotal_get.
      destruct Hc as [(_ & _ & -> & -> & _)|(d2 & _ & _ & -> & -> & _)]; [lia|].
      rewrite claims_sum_create. lia.
    + apply tquiet_step in H as (_ & E1 & -> & -> & -> & _); [|done]. cbn. lia.
    + apply tclaim_step in H as (H0 & Hh & Hs & E & _). rewrite Hs. subst s'. cbn. lia.
    + apply tquiet_step in H as (_ & E1 & -> & -> & -> & _); [|done]. cbn. lia.
    + apply tquiet_step in H as (_ & E1 & -> & -> & -> & _); [|done]. cbn. lia.
    + apply tquiet_step in H as (_ & E1 & -> & -> & -> & _); [|done]. cbn. lia.
    + apply tdonate_step in H as (H0 & H1 & _ & ->). cbn. lia.
  - intros b1 s1 l1 x IH. unfold tdonated in *. rewrite lsum_app. cbn. lia.
  - eauto.
  - unfold t_instantiate in Hi. res_inv Hi. done.
Qed.
Lemma c41_reported b1 s1 l1 b' b2 s2 l2 bq h :
  treached b1 s1 l1 -> height b1 < h -> block_le b1 b' -> h <= height b' ->
  leads t_handle b' s1 b2 s2 l2 ->
  (forall a, t_power_at s2 bq a (Some h) = tstaked s1 a) /\
  t_total_at s2 bq (Some h) = ttotal s1.
Proof.
  intros HR Hlt Hb Hle HL. pose proof (ti_led _ _ (treached_inv _ _ _ HR)) as HI.
  unfold t_power_at, t_total_at. cbn.
  assert ((forall a', smap_at (t_bals s2) a' h = smap_at (t_bals s1) a' h) /\
    snap_get_at (t_total s2) h = snap_get_at (t_total s1) h) as [A B].
  { revert HL. apply (leads_rel_from t_handle (fun _ _ => True)
      ltac:(done) ltac:(done) (fun s s' => (forall a', smap_at (t_bals s') a' h = smap_at (t_bals s) a' h) /\
      snap_get_at (t_total s') h = snap_get_at (t_total s) h)); [done| | |done].
    - intros x y z [P1 P2] [Q1 Q2]. split; [intros; by rewrite Q1, P1|by rewrite Q2, P2].
    - intros b s a m s' subs [Hbb _] _ Hh. apply (tat_call _ _ _ _ _ _ _ Hh). lia. }
  split.
  - intros a. rewrite A, tstaked_get. eapply smap_at_now; [apply HI|done].
  - rewrite B. eapply snap_get_at_now; [apply HI|done].
Qed.
Lemma c41_immutable b s l b' s' l' bq bq' h :
  treached b s l -> leads t_handle b s b' s' l' -> h <= height b ->
  (forall a, t_power_at s' bq' a (Some h) = t_power_at s bq a (Some h)) /\
  t_total_at s' bq' (Some h) = t_total_at s bq (Some h).
Proof.
  intros HR HL Hle. unfold t_power_at, t_total_at. cbn.
  revert HL. apply (leads_rel_from t_handle (fun _ _ => True)
      ltac:(done) ltac:(done) (fun s s' => (forall a', smap_at (t_bals s') a' h = smap_at (t_bals s) a' h) /\
      snap_get_at (t_total s') h = snap_get_at (t_total s) h)); [done| | |done].
  - intros x y z [P1 P2] [Q1 Q2]. split; [intros; by rewrite Q1, P1|by rewrite Q2, P2].
  - intros b2 s2 a m s3 subs [Hbb _] _ Hh. apply (tat_call _ _ _ _ _ _ _ Hh). lia.
Qed.

(** ** C44 *)
(** The percentage test compares the stake with the exact product truncated to
    nine decimals. *)
Lemma ceil_ge x d n : 0 < d -> ((x + d - 1) / d <= n <-> x <= n * d).
Proof.
  intros Hd. pose proof (Z.div_mod (x + d - 1) d ltac:(lia)).
  pose proof (Z.mod_pos_bound (x + d - 1) d Hd). nia.
Qed.
Lemma active_count_ok supply p :
  0 <= supply <= U128_MAX -> 0 <= p <= DEC_ONE -> exists n, active_count supply p = Ok n /\
    forall k, n <= k <-> supply * 10 ^ 9 * p / 10 ^ 18 <= k * 10 ^ 9.
Proof.
  intros Hs Hp. unfold active_count, PRECISION_FACTOR, DEC_ONE in *.
  set (x := supply * 10 ^ 9 * p / 10 ^ 18).
  assert (x <= supply * 10 ^ 9) as Hx.
  { unfold x. apply Z.div_le_upper_bound; nia. }
  assert ((x + 10 ^ 9 - 1) / 10 ^ 9 <= supply) as Hc by (apply ceil_ge; lia).
  rewrite (proj2 (Z.leb_le _ _)) by lia. eexists. split; [done|]. intros k. by apply ceil_ge.
Qed.
(** A percentage of at most nine decimals is tested exactly. *)
Lemma c44_percent_exact staked supply p :
  0 <= supply <= U128_MAX -> 0 <= p * 10 ^ 9 <= DEC_ONE ->
  exists a, is_active (Some (APercent (p * 10 ^ 9))) staked supply = Ok a /\
    (a = true <-> supply * (p * 10 ^ 9) <= staked * DEC_ONE).
Proof.
  intros Hs Hp. destruct (active_count_ok supply (p * 10 ^ 9) Hs Hp) as (n & Hn & Hk).
  unfold is_active. rewrite Hn. eexists. split; [done|]. rewrite Z.leb_le, Hk. unfold DEC_ONE in *.
  replace (supply * 10 ^ 9 * (p * 10 ^ 9)) with (supply * p * 10 ^ 18) by ring.
  rewrite Z.div_mul by done. nia.
Qed.
(** Any percentage: never stricter than the exact test, and at most a billionth
    of a token more lenient. *)
Lemma c44_percent_close staked supply p :
  0 <= supply <= U128_MAX -> 0 <= p <= DEC_ONE ->
  exists a, is_active (Some (APercent p)) staked supply = Ok a /\
    (supply * p <= staked * DEC_ONE -> a = true) /\
    (a = true -> supply * p < staked * DEC_ONE + 10 ^ 9) /\
    (a = true <-> supply * 10 ^ 9 * p / 10 ^ 18 <= staked * 10 ^ 9).
Proof.
  intros Hs Hp. destruct (active_count_ok supply p Hs Hp) as (n & Hn & Hk).
  unfold is_active. rewrite Hn. eexists. split; [done|]. rewrite Z.leb_le, Hk. unfold DEC_ONE in *.
  set (x := supply * 10 ^ 9 * p / 10 ^ 18).
  pose proof (Z.div_mod (supply * 10 ^ 9 * p) (10 ^ 18) ltac:(lia)) as Hdm. fold x in Hdm.
  pose proof (Z.mod_pos_bound (supply * 10 ^ 9 * p) (10 ^ 18) ltac:(lia)).
  split; [|split]; [| |done]; intros; nia.
Qed.
Lemma c44_count staked supply n : is_active (Some (ACount n)) staked supply = Ok (bool_decide (n <= staked)).
Proof. unfold is_active. f_equal. by destruct (n <=? staked) eqn:E; case_bool_decide; lia. Qed.
(** The module's answer, about the coins staked when it is asked. *)
Lemma c44_module b s l supply :
  treached b s l -> 0 <= supply <= U128_MAX ->
  exists a, t_is_active s supply = Ok a /\
  match t_thr s with
  | None => a = true
  | Some (ACount n) => a = true <-> n <= ttotal s
  | Some (APercent p) => a = true <-> supply * 10 ^ 9 * p / 10 ^ 18 <= ttotal s * 10 ^ 9
  end.
Proof.
  intros HR Hs.
  assert (match t_thr s with Some (APercent p) => 0 < p <= DEC_ONE | Some (ACount n) => 0 < n | None => True end) as Hthr.
  { destruct HR as (b0 & dao & denom & src & d & thr & s0 & _ & Hf & Hi & HL). revert HL.
    assert (forall t sup, fits_active t = true -> validate_active t sup = Ok tt ->
      match t with Some (APercent p) => 0 < p <= DEC_ONE | Some (ACount n) => 0 < n | None => True end) as Hv.
    { intros [[n|p]|] sup Hft Hva; cbn in *; try done; apply fits_ok in Hft.
      - unfold assert_valid_absolute_count in Hva. destruct (n =? 0) eqn:E; [done|]. lia.
      - unfold assert_valid_percentage in Hva. destruct (p =? 0) eqn:E; [done|]. cbn in Hva.
        destruct (p <=? DEC_ONE) eqn:E2; [|done]. lia. }
    apply (leads_ind t_handle (fun b s l => match t_thr s with Some (APercent p) => 0 < p <= DEC_ONE | Some (ACount n) => 0 < n | None => True end)).
    - intros b1 s1 l1 a m s' subs IH H. destruct m as [funds|x|d1| |t sup|h|h|x].
      + apply tstake_step in H as (n & _ & Hn & Hh & H1 & H2 & -> & ->). done.
      + apply tunstake_step in H as (_ & _ & _ & _ & _ & _ & _ & _ & -> & _). done.
      + cbn [t_handle] in H. unfold t_update_config in H. res_inv H. done.
      + apply tclaim_step in H as (H0 & Hh & Hs' & -> & _). done.
      + cbn [t_handle] in H. destruct (fits_active t && fits128 sup) eqn:Eft; [|done].
        apply andb_true_iff in Eft as [Eft _]. unfold t_update_threshold in H.
        destruct (_ =? _)%N; [|done]. destruct (validate_active t sup) as [[]|] eqn:Ev; [|done].
        injection H as <- <-. cbn. by eapply Hv.
      + cbn [t_handle] in H. unfold t_set_hooks in H. res_inv H. done.
      + cbn [t_handle] in H. unfold t_set_hooks in H. res_inv H. done.
      + apply tdonate_step in H as (H0 & H1 & _ & ->). done.
    - done.
    - done.
    - unfold t_instantiate in Hi. destruct (validate_duration d); [|done].
      destruct src as [sup|sup].
      + destruct (validate_active thr sup) as [[]|] eqn:Ev; [|done]. injection Hi as <-. cbn. by eapply Hv.
      + destruct (validate_active thr sup) as [[]|] eqn:Ev; [|done]. destruct (sup =? 0); [done|].
        injection Hi as <-. cbn. by eapply Hv. }
  unfold t_is_active. destruct (t_thr s) as [[n|p]|].
  - rewrite c44_count. eexists. split; [done|]. by rewrite bool_decide_eq_true.
  - destruct (c44_percent_close (snap_get (t_total s)) supply p Hs ltac:(lia)) as (a & Ha & _ & _ & Hi).
    eauto.
  - eauto.
Qed.
(** Configuring a threshold no stake can reach is refused, at instantiation and
    later; reachable ones are accepted. *)
Lemma c44_config b s l t supply :
  treached b s l -> fits_active t = true -> 0 <= supply <= U128_MAX ->
  (exists s' subs, t_handle s b (t_dao s) (TUpdateThreshold t supply) = Ok (s', subs) /\ t_thr s' = t) <->
  match t with
  | Some (ACount n) => 0 < n <= supply
  | Some (APercent p) => 0 < p <= DEC_ONE
  | None => True
  end.
Proof.
  intros HR Hf Hs. cbn [t_handle]. rewrite Hf, (proj2 (fits_ok supply)) by done. cbn [andb].
  unfold t_update_threshold. rewrite N.eqb_refl.
  destruct t as [[n|p]|]; cbn in *; [apply fits_ok in Hf..|].
  - unfold assert_valid_absolute_count. destruct (n =? 0) eqn:E; cbn.
    { split; [by intros (? & ? & ? & _)|lia]. }
    destruct (n <=? supply) eqn:E2; cbn; split; try lia; eauto. by intros (? & ? & ? & _).
  - unfold assert_valid_percentage. destruct (p =? 0) eqn:E; cbn.
    { split; [by intros (? & ? & ? & _)|lia]. }
    destruct (p <=? DEC_ONE) eqn:E2; cbn; split; try lia; eauto. by intros (? & ? & ? & _).
  - split; eauto.
Qed.
Lemma c44_instantiate dao denom src d thr :
  fits_active thr = true -> fits_dur d = true -> (d <> Some (DHeight 0) /\ d <> Some (DTime 0)) ->
  (exists s, t_instantiate dao denom src d thr = Ok s) <->
  (match src with CreatedToken n => n <> 0 | ExistingToken _ => True end) /\
  match thr with
  | Some (ACount n) => 0 < n <= match src with ExistingToken x | CreatedToken x => x end
  | Some (APercent p) => 0 < p <= DEC_ONE
  | None => True
  end.
Proof.
  intros Hf Hd [Hd1 Hd2]. unfold t_instantiate.
  assert (validate_duration d = Ok tt) as ->.
  { unfold validate_duration. destruct d as [[n|n]|]; [| |done];
      (destruct (n =? 0) eqn:E; [|done]); apply Z.eqb_eq in E; subst; done. }
  assert (forall sup, validate_active thr sup = Ok tt <->
    match thr with Some (ACount n) => 0 < n <= sup | Some (APercent p) => 0 < p <= DEC_ONE | None => True end) as Hv.
  { intros sup. destruct thr as [[n|p]|]; cbn in *; [apply fits_ok in Hf..|done].
    - unfold assert_valid_absolute_count. destruct (n =? 0) eqn:E; cbn; [split; [done|lia]|].
      destruct (n <=? sup) eqn:E2; cbn; split; (done || lia).
    - unfold assert_valid_percentage. destruct (p =? 0) eqn:E; cbn; [split; [done|lia]|].
      destruct (p <=? DEC_ONE) eqn:E2; cbn; split; (done || lia). }
  destruct src as [sup|sup]; rewrite <-(Hv sup);
    destruct (validate_active thr sup) as [[]|]; split.
  - intros _. done.
  - eauto.
  - by intros [? ?].
  - by intros [_ ?].
  - destruct (sup =? 0) eqn:E; cbn; [by intros [? ?]|]. intros _. split; [lia|done].
  - intros [H _]. destruct (sup =? 0) eqn:E; [lia|]. eauto.
  - by intros [? ?].
  - by intros [_ ?].
Qed.

(** ** C72 *)
Lemma c72_conservation b s l a :
  treached b s l -> tput_in a l = ttaken_out a l + twaiting s a + tstaked s a.
Proof.
  intros (b0 & dao & denom & src & d & thr & s0 & _ & _ & Hi & HL). revert HL.
  apply (leads_ind t_handle (fun b s l => tput_in a l = ttaken_out a l + twaiting s a + tstaked s a)).
  - intros b1 s1 l1 a1 m s' subs IH H. unfold tput_in, ttaken_out in *. rewrite !lsum_app, IH. cbn [lsum].
    assert (forall x n k, lsum (fun y => match y with TPay to n => if (to =? a)%N then n else 0 | _ => 0 end)
      (map (fun h => THook h x k n) (t_hooks s1)) = 0) as Hz.
    { intros x n k. generalize (t_hooks s1). intros L. induction L; simpl; [done|]. lia. }
    unfold twaiting. rewrite !tstaked_get. destruct m as [funds|x|d1| |t sup|h|h|x].
    + apply tstake_step in H as (n & -> & Hn & Hh & H1 & H2 & -> & ->).
      cbn [tev_in tev_out t_claims t_bals]. rewrite Hz, smap_get_save, tstaked_get. cbn.
      destruct (a1 =? a)%N eqn:E.
      * apply N.eqb_eq in E. subst. destruct (decide (a = a)); [|done]. lia.
      * apply N.eqb_neq in E. destruct (decide (a = a1)); [done|]. lia.
    + apply tunstake_step in H as (Hx & Hs & Ht & -> & Et & _ & _ & _ & _ & _ & Hc).
      rewrite smap_get_save, tstaked_get.
      destruct Hc as [(_ & _ & _ & -> & ->)|(d2 & _ & _ & _ & -> & ->)]; cbn [tev_in tev_out lsum].
      * rewrite Hz. destruct (a1 =? a)%N eqn:E.
        { apply N.eqb_eq in E. subst. destruct (decide (a = a)); [|done]. lia. }
        { apply N.eqb_neq in E. destruct (decide (a = a1)); [done|]. lia. }
      * rewrite Hz. unfold create_claim. rewrite claims_of_insert. destruct (a1 =? a)%N eqn:E.
        { apply N.eqb_eq in E. subst. destruct (decide (a = a)); [|done]. rewrite lsum_app. cbn. lia. }
        { apply N.eqb_neq in E. destruct (decide (a = a1)); [done|]. lia. }
    + apply tquiet_step in H as (_ & -> & _ & -> & _ & _ & _ & ->); [|done]. cbn. lia.
    + apply tclaim_step in H as (H0 & Hh & Hs & -> & ->). cbn [tev_in tev_out lsum t_claims t_bals].
      rewrite claims_of_insert. destruct (a1 =? a)%N eqn:E.
      * apply N.eqb_eq in E. subst. destruct (decide (a = a)); [|done].
        pose proof (lsum_filter_split cl_amount (mature b1) (claims_of (t_claims s1) a)). lia.
      * apply N.eqb_neq in E. destruct (decide (a = a1)); [done|]. lia.
    + apply tquiet_step in H as (_ & -> & _ & -> & _ & _ & _ & ->); [|done]. cbn. lia.
    + apply tquiet_step in H as (_ & -> & _ & -> & _ & _ & _ & ->); [|done]. cbn. lia.
    + apply tquiet_step in H as (_ & -> & _ & -> & _ & _ & _ & ->); [|done]. cbn. lia.
    + apply tdonate_step in H as (H0 & H1 & -> & ->). cbn. lia.
  - intros b1 s1 l1 x IH. unfold tput_in, ttaken_out in *. rewrite !lsum_app. cbn. lia.
  - eauto.
  - unfold t_instantiate in Hi. res_inv Hi. unfold twaiting, claims_of. cbn. done.
Qed.
Lemma c72_once b s l a :
  treached b s l -> tcreated a l ≡ₚ treleased a l ++ claims_of (t_claims s) a.
Proof.
  intros (b0 & dao & denom & src & d & thr & s0 & _ & _ & Hi & HL). revert HL.
  apply (leads_ind t_handle (fun b s l => tcreated a l ≡ₚ treleased a l ++ claims_of (t_claims s) a)).
  - intros b1 s1 l1 a1 m s' subs IH H. unfold tcreated, treleased in *.
    rewrite !flat_map_app, IH. cbn [flat_map]. rewrite !app_nil_r.
    destruct m as [funds|x|d1| |t sup|h|h|x].
    + apply tstake_step in H as (n & -> & Hn & Hh & H1 & H2 & -> & ->). cbn. by rewrite !app_nil_r.
    + apply tunstake_step in H as (Hx & Hs & Ht & _ & Et & _ & _ & _ & _ & _ & Hc).
      cbn [tev_created tev_released]. rewrite app_nil_r.
      destruct Hc as [(-> & _ & _ & -> & _)|(d2 & -> & _ & _ & -> & _)].
      * destruct (a1 =? a)%N; by rewrite app_nil_r.
      * unfold create_claim. rewrite claims_of_insert. destruct (a1 =? a)%N eqn:E.
        { apply N.eqb_eq in E. subst. destruct (decide (a = a)); [|done]. by rewrite <-(assoc_L (++)). }
        { apply N.eqb_neq in E. destruct (decide (a = a1)); [done|]. by rewrite app_nil_r. }
    + apply tquiet_step in H as (_ & E1 & E2 & -> & _); [|done]. cbn. by rewrite !app_nil_r.
    + apply tclaim_step in H as (H0 & Hh & Hs & -> & _). cbn [tev_created tev_released t_claims].
      rewrite app_nil_r, claims_of_insert. destruct (a1 =? a)%N eqn:E.
      * apply N.eqb_eq in E. subst. destruct (decide (a = a)); [|done].
        rewrite <-(assoc_L (++)). f_equiv. symmetry. apply filter_perm.
      * apply N.eqb_neq in E. destruct (decide (a = a1)); [done|]. by rewrite app_nil_r.
    + apply tquiet_step in H as (_ & E1 & E2 & -> & _); [|done]. cbn. by rewrite !app_nil_r.
    + apply tquiet_step in H as (_ & E1 & E2 & -> & _); [|done]. cbn. by rewrite !app_nil_r.
    + apply tquiet_step in H as (_ & E1 & E2 & -> & _); [|done]. cbn. by rewrite !app_nil_r.
    + apply tdonate_step in H as (H0 & H1 & _ & ->). cbn. by rewrite !app_nil_r.
  - intros b1 s1 l1 x IH. unfold tcreated, treleased in *. rewrite !flat_map_app. cbn.
    by rewrite !app_nil_r.
  - eauto.
  - unfold t_instantiate in Hi. res_inv Hi. cbn. unfold claims_of. by rewrite lookup_empty.
Qed.
(** Coins leave only by an unstake without an unbonding period or by collecting
    matured claims, always to the caller. *)
Lemma c72_payments b s l pre b1 a m post subs to n :
  treached b s l -> ECall pre b1 a m post subs ∈ l -> TPay to n ∈ subs ->
  to = a /\ t_held post = t_held pre - n /\
  ((m = TUnstake n /\ t_dur pre = None /\ n <= tstaked pre a) \/
   (m = TClaim /\ exists out, claims_of (t_claims pre) a ≡ₚ out ++ claims_of (t_claims post) a /\
      (forall c, c ∈ out -> is_expired (cl_release c) b1 = true) /\
      (forall c, c ∈ claims_of (t_claims post) a -> is_expired (cl_release c) b1 = false) /\
      n = lsum cl_amount out)).
Proof.
  intros HR Hin Hp. destruct (treached_call _ _ _ HR _ _ _ _ _ _ Hin) as (HI & H & _).
  assert (forall x k j, TPay to n ∈ map (fun h => THook h x k j) (t_hooks pre) -> False) as Hno.
  { intros x k j (h & ? & _)%elem_of_list_fmap. done. }
  destruct m as [funds|x|d1| |t sup|h|h|x].
  - apply tstake_step in H as (k & -> & Hn & Hh & H1 & H2 & -> & ->). by apply Hno in Hp.
  - apply tunstake_step in H as (Hx & Hs & Ht & _ & Et & _ & _ & _ & _ & _ & Hc).
    destruct Hc as [(Hd & _ & -> & _ & ->)|(d2 & _ & _ & _ & _ & ->)]; [|by apply Hno in Hp].
    apply elem_of_cons in Hp as [[= -> ->]|Hp]; [|by apply Hno in Hp].
    split; [done|]. split; [done|]. left. done.
  - apply tquiet_step in H as (_ & _ & _ & _ & _ & _ & _ & ->); [|done]. by apply elem_of_nil in Hp.
  - apply tclaim_step in H as (H0 & Hh & Hs & -> & ->).
    apply elem_of_list_singleton in Hp as [= -> ->]. split; [done|]. split; [done|]. right. split; [done|].
    exists (List.filter (mature b1) (claims_of (t_claims pre) a)). cbn.
    rewrite claims_of_insert. destruct (decide (a = a)); [|done].
    split; [symmetry; apply filter_perm|].
    split. { by intros c [_ ?]%elem_of_filter_b. }
    split; [|done]. intros c [_ Hc]%elem_of_filter_b. unfold mature in Hc. by destruct (is_expired _ _).
  - apply tquiet_step in H as (_ & _ & _ & _ & _ & _ & _ & ->); [|done]. by apply elem_of_nil in Hp.
  - apply tquiet_step in H as (_ & _ & _ & _ & _ & _ & _ & ->); [|done]. by apply elem_of_nil in Hp.
  - apply tquiet_step in H as (_ & _ & _ & _ & _ & _ & _ & ->); [|done]. by apply elem_of_nil in Hp.
  - apply tdonate_step in H as (_ & _ & -> & _). by apply elem_of_nil in Hp.
Qed.
(** Nobody else's call changes a member's stake or claims. *)
Lemma c72_others b s l pre b1 a m post subs a' :
  treached b s l -> ECall pre b1 a m post subs ∈ l -> a' <> a ->
  tstaked post a' = tstaked pre a' /\ claims_of (t_claims post) a' = claims_of (t_claims pre) a'.
Proof.
  intros HR Hin Ha. destruct (treached_call _ _ _ HR _ _ _ _ _ _ Hin) as (HI & H & _).
  rewrite !tstaked_get. destruct m as [funds|x|d1| |t sup|h|h|x].
  - apply tstake_step in H as (k & -> & Hn & Hh & H1 & H2 & -> & ->). cbn. rewrite smap_get_save.
    by destruct (decide (a' = a)).
  - apply tunstake_step in H as (_ & _ & _ & -> & _ & _ & _ & _ & _ & _ & Hc). rewrite smap_get_save.
    destruct (decide (a' = a)); [done|]. split; [done|].
    destruct Hc as [(_ & _ & _ & -> & _)|(d2 & _ & _ & _ & -> & _)]; [done|].
    unfold create_claim. rewrite claims_of_insert. by destruct (decide (a' = a)).
  - apply tquiet_step in H as (_ & -> & _ & -> & _); done.
  - apply tclaim_step in H as (_ & _ & _ & -> & _). cbn. rewrite claims_of_insert.
    by destruct (decide (a' = a)).
  - apply tquiet_step in H as (_ & -> & _ & -> & _); done.
  - apply tquiet_step in H as (_ & -> & _ & -> & _); done.
  - apply tquiet_step in H as (_ & -> & _ & -> & _); done.
  - apply tdonate_step in H as (_ & _ & _ & ->). done.
Qed.
(** A member can always unstake, and can collect when something is due. *)
Lemma c72_can_unstake b s l a x :
  treached b s l -> 0 < x <= tstaked s a ->
  (t_dur s <> None -> Z.of_nat (length (claims_of (t_claims s) a)) < 100) ->
  exists s' subs, t_handle s b a (TUnstake x) = Ok (s', subs).
Proof.
  intros HR Hx Hc. pose proof (treached_inv _ _ _ HR) as HI.
  pose proof (ledger_le _ _ _ a (ti_led _ _ HI)) as Hle. pose proof (lg_max _ _ _ (ti_led _ _ HI)).
  pose proof (ti_held _ _ HI). pose proof (ti_cpos _ _ HI) as Hcp. rewrite tstaked_get, ttotal_get in *.
  assert (0 <= claims_sum (t_claims s)).
  { apply msum_nonneg. intros k v Hk. apply lsum_nonneg. intros c Hin. apply (Hcp k).
    unfold claims_of. by rewrite Hk. }
  cbn [t_handle]. rewrite (proj2 (fits_ok x)) by lia. unfold t_unstake.
  destruct (x =? 0) eqn:E0; [lia|]. cbn [negb]. rewrite !sub128_eq by lia. destruct (t_dur s) as [d|].
  - unfold TOK_MAX_CLAIMS. rewrite (proj2 (Z.ltb_lt _ _)) by (specialize (Hc ltac:(done)); lia). eauto.
  - unfold t_leave. cbn. rewrite (proj2 (Z.leb_le _ _)) by lia. eauto.
Qed.
Lemma c72_can_collect b s l a c :
  treached b s l -> c ∈ claims_of (t_claims s) a -> is_expired (cl_release c) b = true ->
  0 < cl_amount c -> exists s' subs, t_handle s b a TClaim = Ok (s', subs).
Proof.
  intros HR Hc Hdue Hpos. pose proof (treached_inv _ _ _ HR) as HI.
  pose proof (ti_cpos _ _ HI) as Hcp.
  assert (cl_amount c <= lsum cl_amount (List.filter (mature b) (claims_of (t_claims s) a))).
  { assert (c ∈ List.filter (mature b) (claims_of (t_claims s) a)) as Hin.
    { apply elem_of_filter_b. done. }
    assert (forall c, c ∈ List.filter (mature b) (claims_of (t_claims s) a) -> 0 <= cl_amount c) as Hp.
    { intros c' [Hc' _]%elem_of_filter_b. by apply (Hcp a). }
    revert Hin Hp. generalize (List.filter (mature b) (claims_of (t_claims s) a)).
    intros L Hin Hp. apply elem_of_list_split in Hin as (L1 & L2 & ->).
    rewrite lsum_app. cbn.
    assert (0 <= lsum cl_amount L1) by (apply lsum_nonneg; intros; apply Hp, elem_of_app; by left).
    assert (0 <= lsum cl_amount L2)
      by (apply lsum_nonneg; intros; apply Hp, elem_of_app; right; by right). lia. }
  assert (lsum cl_amount (List.filter (mature b) (claims_of (t_claims s) a)) <= t_held s).
  { pose proof (lsum_filter_split cl_amount (mature b) (claims_of (t_claims s) a)).
    pose proof (claims_sum_ge _ a Hcp). pose proof (ti_held _ _ HI).
    pose proof (ledger_le _ _ _ a (ti_led _ _ HI)). rewrite ttotal_get in *.
    assert (0 <= lsum cl_amount (List.filter (fun c => negb (mature b c)) (claims_of (t_claims s) a))).
    { apply lsum_nonneg. intros c' [Hc' _]%elem_of_filter_b. by apply (Hcp a). }
    lia. }
  pose proof (ti_max _ _ HI).
  cbn [t_handle]. unfold t_claim, claim_tokens. rewrite (proj2 (Z.leb_le _ _)) by lia.
  set (n := lsum _ _) in *. destruct (n =? 0) eqn:E; [lia|]. cbn. unfold t_leave. cbn.
  rewrite (proj2 (Z.leb_le _ _)) by lia. eauto.
Qed.

(** ** C73 *)
Lemma c73_tok b s l pre b1 a m post subs :
  treached b s l -> ECall pre b1 a m post subs ∈ l ->
  t_dao post = t_dao pre /\ t_denom post = t_denom pre /\
  (t_dur post <> t_dur pre \/ t_thr post <> t_thr pre \/ t_hooks post <> t_hooks pre -> a = t_dao pre).
Proof.
  intros HR Hin. destruct (treached_call _ _ _ HR _ _ _ _ _ _ Hin) as (HI & H & _).
  destruct m as [funds|x|d1| |t sup|h|h|x].
  - apply tstake_step in H as (k & _ & _ & _ & _ & _ & -> & _). cbn. naive_solver.
  - apply tunstake_step in H as (_ & _ & _ & _ & _ & -> & -> & -> & -> & -> & _). naive_solver.
  - apply tquiet_step in H as (-> & _ & _ & _ & _ & -> & -> & _); done.
  - apply tclaim_step in H as (_ & _ & _ & -> & _). cbn. naive_solver.
  - apply tquiet_step in H as (-> & _ & _ & _ & _ & -> & -> & _); done.
  - apply tquiet_step in H as (-> & _ & _ & _ & _ & -> & -> & _); done.
  - apply tquiet_step in H as (-> & _ & _ & _ & _ & -> & -> & _); done.
  - apply tdonate_step in H as (_ & _ & _ & ->). cbn. naive_solver.
Qed.
