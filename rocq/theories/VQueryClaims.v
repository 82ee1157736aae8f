(** Lemmas about the queries of cw-vesting. *)
From Verif Require Import Base BaseProofs Exec ExecProofs Plain StoreModel WormModel
  VestModel VestSpec VestProofs VestClaims VQueryModel.

Lemma canceled_const i b s l :
  vreached i b s l -> is_canceled s -> exists y, 0 <= y /\ ve_curve (vs_vest s) = CConst y.
Proof.
  intros HR [ow Ho]. apply vreached_inv in HR. pose proof (I_phase _ _ _ _ HR) as P. unfold phase in P.
  rewrite Ho in P. destruct P as (y & P1 & _). exists y. split; [|done].
  pose proof (I_curve _ _ _ _ HR) as Hc. by rewrite P1 in Hc.
Qed.
Lemma q_total_top i b s l : vreached i b s l -> q_total s = top_y (ve_curve (vs_vest s)).
Proof. intros HR. apply vreached_inv in HR. apply cgood_range, (I_curve _ _ _ _ HR). Qed.
Lemma total_before i b s l : vreached i b s l -> ~ is_canceled s -> q_total s = vi_total i.
Proof.
  intros HR Hc. rewrite (q_total_top _ _ _ _ HR), (not_canceled_curve _ _ _ _ HR Hc).
  apply vreached_inv in HR. by destruct (I_total _ _ _ _ HR) as (_ & _ & ->).
Qed.
Lemma total_after i b s l pre b1 a post subs :
  vreached i b s l -> ECall pre b1 a VCancel post subs ∈ l ->
  q_total s = q_vested pre b1 None /\ (forall b' t, q_vested s b' t = q_total s) /\ q_duration s = None.
Proof.
  intros HR Hin. pose proof (q_total_top _ _ _ _ HR) as HT. apply vreached_inv in HR.
  destruct (I_cancel _ _ _ _ HR _ _ _ _ _ Hin) as [_ HC]. rewrite HC in HT.
  rewrite HT. split; [done|]. split; [|unfold q_duration; by rewrite HC].
  intros b' t. unfold q_vested, vested at 1. by rewrite HC.
Qed.
Lemma q_some s b t :
  q_vested s b (Some t) =
  curve_value (ve_curve (vs_vest s)) (Z.max 0 (sec t - sec (ve_start (vs_vest s)))).
Proof. done. Qed.
(** [TotalToVest] is the largest value of [Vested]. *)
Lemma vested_most i b s l b' t :
  vreached i b s l ->
  0 <= q_vested s b' t <= q_total s /\
  (forall u, default (time b') t <= u -> q_vested s b' t <= q_vested s b' (Some u)) /\
  exists u, forall u', u <= u' -> q_vested s b' (Some u') = q_total s.
Proof.
  intros HR. rewrite (q_total_top _ _ _ _ HR). apply vreached_inv in HR. pose proof (I_curve _ _ _ _ HR) as Hc.
  split; [by apply cgood_bounds|]. split; [intros u Hu; by apply vested_mono|].
  set (c := ve_curve (vs_vest s)) in *. set (st := sec (ve_start (vs_vest s))).
  exists ((st + Z.max 0 (top_x c)) * NANOS). intros u' Hu.
  apply cgood_end; [done|]. change (top_x c <= Z.max 0 (sec u' - st)).
  assert (st + Z.max 0 (top_x c) <= sec u') as H.
  { unfold sec. apply Z.div_le_lower_bound; [done|]. lia. }
  lia.
Qed.
Lemma vested_start i b s l b' t :
  vreached i b s l -> ~ is_canceled s -> t <= ve_start (vs_vest s) -> q_vested s b' (Some t) = 0.
Proof.
  intros HR Hc Ht. pose proof (not_canceled_curve _ _ _ _ HR Hc) as HC.
  destruct (reached_curve _ _ _ _ HR) as [_ Hi]. apply vreached_inv in HR. pose proof (I_curve _ _ _ _ HR) as Hg.
  rewrite q_some. pose proof (sec_le _ _ Ht).
  assert (Z.max 0 (sec t - sec (ve_start (vs_vest s))) = 0) as -> by lia. pose proof (cgood_start _ Hg) as H0. rewrite HC in *.
  unfold into_curve in Hi. destruct (curve0 i) eqn:E; [|done|done].
  destruct (vi_schedule i); [|destruct (2 <=? _); [|done]].
  - destruct (validate_increasing _); [|done]. by case_bool_decide.
  - destruct (validate_increasing _); [|done]. by case_bool_decide.
Qed.
(** The answer for the present or a later time is what will be paid then. *)
Lemma distributable_now i b s l b' d a :
  vreached i b s l -> block_le b b' -> q_distributable s b (Some (time b')) = Ok d -> d <= holds s b' ->
  (0 < d -> exists s', v_handle s b' a (VDistribute None) = Ok (s', [VPayVestee (vi_recipient i) d])) /\
  (forall r, fits128 r = true ->
     (0 < r <= d -> exists s', v_handle s b' a (VDistribute (Some r)) = Ok (s', [VPayVestee (vi_recipient i) r])) /\
     (r = 0 \/ d < r -> is_ok (v_handle s b' a (VDistribute (Some r))) = false)) /\
  (d = 0 -> is_ok (v_handle s b' a (VDistribute None)) = false).
Proof.
  intros HR0 Hb Hd Hh.
  assert (vreached i b' s l) as HR.
  { destruct HR0 as (b0 & s0 & subs0 & F1 & F2 & F3 & F4). exists b0, s0, subs0.
    split; [done|]. split; [done|]. split; [done|]. destruct F4 as (h & G1 & G2 & G3). exists h.
    split; [done|]. split; [done|]. unfold block_le in *. lia. }
  clear HR0. change (v_distributable s b' = Ok d) in Hd.
  assert (forall r, v_handle s b' a (VDistribute (Some r)) =
    (check! fits128 r else "parse"; v_distribute (settle s b') b' (Some r))) as HE by done.
  pose proof (total_fits _ _ _ _ HR) as HF. pose proof (c45_paid _ _ _ _ HR) as (C1 & C2 & C3).
  split; [intros H0; by eapply distribute_ok|].
  pose proof (vreached_inv _ _ _ _ HR) as [A1 A2 A3 A4 A5 A6 A7 A8 A9 A10 A11 A12].
  unfold v_distributable in Hd. pose proof Hd as Hd'.
  unfold distributable in Hd'. destruct (liquid _ _) as [lq|] eqn:E1; [|done].
  destruct (sub128 _ _) as [c|] eqn:E2; [|done]. injection Hd' as Hd'. apply sub128_ok in E2 as [-> E2].
  unfold vested_at, sat_sub in *.
  split.
  - intros r Hr. rewrite HE, Hr. cbv beta iota. unfold v_distribute, p_distribute. cbn [vs_vest vs_tr settle put].
    rewrite Hd. change (default d (Some r)) with r. split.
    + intros Hrd. rewrite add128_eq by lia.
      replace (d <? r) with false by lia. replace (r =? 0) with false by lia. cbn [negb orb].
      unfold ch_pay. cbn [vs_chain put settle]. unfold holds in Hh.
      destruct (r <=? _) eqn:E; [|lia]. destruct A3 as [_ A3]. eexists. rewrite <-A3. done.
    + intros Hrd. destruct (add128 _ _); [|done].
      replace (negb ((d <? r) || (r =? 0))) with false; [done|].
      symmetry. apply negb_false_iff, orb_true_iff. destruct Hrd; [right|left]; lia.
  - intros ->. cbn [v_handle fits_opt]. unfold v_distribute, p_distribute. cbn [vs_vest vs_tr settle put].
    rewrite Hd. change (default 0 None) with 0. by destruct (add128 _ _).
Qed.
(** [VestDuration]. *)
Lemma duration_none i b s l : vreached i b s l -> q_duration s = None <-> is_canceled s.
Proof.
  intros HR. split.
  - intros H. destruct (ve_status (vs_vest s)) as [| |ow] eqn:E; [| |by exists ow].
    all: assert (~ is_canceled s) as Hc by (intros [ow Ho]; by rewrite E in Ho).
    all: unfold q_duration in H; rewrite (not_canceled_curve _ _ _ _ HR Hc) in H.
    all: destruct (reached_curve _ _ _ _ HR) as [_ Hi]; unfold into_curve in Hi.
    all: destruct (curve0 i) eqn:E0; [|done|done].
    all: destruct (vi_schedule i); [|destruct (2 <=? _); [|done]].
    all: destruct (validate_increasing _); [|done]; by case_bool_decide.
  - intros Hc. destruct (canceled_const _ _ _ _ HR Hc) as (y & _ & Hy). unfold q_duration. by rewrite Hy.
Qed.
Lemma linear_curve i b s l :
  vreached i b s l -> ~ is_canceled s -> vi_schedule i = SLinear ->
  ve_curve (vs_vest s) = CLinear 0 0 (vi_dur i) (vi_total i) /\ 0 < vi_dur i.
Proof.
  intros HR Hc Hs. rewrite (not_canceled_curve _ _ _ _ HR Hc). destruct (reached_curve _ _ _ _ HR) as [Hd Hi].
  split; [|done]. rewrite Hs in Hi. unfold into_curve in Hi. destruct (validate_increasing _); [|done].
  case_bool_decide; [|done]. by injection Hi.
Qed.
Lemma duration_linear i b s l :
  vreached i b s l -> ~ is_canceled s -> vi_schedule i = SLinear ->
  q_duration s = Some (vi_dur i) /\
  forall t, q_vested s b (Some t) = q_total s <-> vi_dur i <= sec t - sec (ve_start (vs_vest s)).
Proof.
  intros HR Hc Hs. destruct (linear_curve _ _ _ _ HR Hc Hs) as [HC Hd].
  rewrite (total_before _ _ _ _ HR Hc). apply vreached_inv in HR. destruct (I_total _ _ _ _ HR) as (T1 & _).
  split; [unfold q_duration; rewrite HC; cbn; f_equal; lia|]. intros t.
  rewrite q_some, HC. set (x := Z.max 0 _).
  assert (0 <= x) as Hx by (unfold x; lia).
  assert (vi_dur i <= sec t - sec (ve_start (vs_vest s)) <-> vi_dur i <= x) as -> by (unfold x; lia).
  clearbody x. split.
  - intros H. destruct (Z.lt_ge_cases x (vi_dur i)) as [Hlt|]; [|done]. exfalso. revert H.
    cbn [curve_value]. replace (x <? 0) with false by lia. replace (vi_dur i <? x) with false by lia.
    rewrite interp_eq by lia. rewrite !Z.sub_0_r, Z.add_0_l. intros H. pose proof DEC_pos as HD.
    assert (x * DEC / vi_dur i < DEC) as H1 by (apply Z.div_lt_upper_bound; nia).
    assert (0 <= x * DEC / vi_dur i) as H2 by (apply Z.div_pos; nia).
    assert (vi_total i * (x * DEC / vi_dur i) / DEC < vi_total i) as H3; [|lia].
    apply Z.div_lt_upper_bound; [done|]. nia.
  - intros H. apply (cgood_end (CLinear 0 0 (vi_dur i) (vi_total i)) x); [|done]. cbn. lia.
Qed.
Lemma duration_piecewise i b s l p steps :
  vreached i b s l -> ~ is_canceled s -> vi_schedule i = SPiece (p :: steps) ->
  0 < p.1 /\
  exists d, q_duration s = Some d /\ 0 <= d /\
    forall t, p.1 + d <= sec t - sec (ve_start (vs_vest s)) -> q_vested s b (Some t) = q_total s.
Proof.
  intros HR Hc Hs. pose proof (not_canceled_curve _ _ _ _ HR Hc) as HC.
  rewrite (q_total_top _ _ _ _ HR). destruct (reached_curve _ _ _ _ HR) as [_ Hi].
  apply vreached_inv in HR. pose proof (I_curve _ _ _ _ HR) as Hg. rewrite Hs in Hi. unfold into_curve in Hi.
  destruct (2 <=? _); [|done]. destruct (validate_increasing _); [|done]. case_bool_decide; [|done].
  injection Hi as Hi. rewrite <-Hi in HC. rewrite HC in Hg. pose proof Hg as (G1 & G2 & G3 & G4).
  split; [done|]. exists (end_x p steps - p.1). pose proof (steps_endx_le _ _ G3).
  split; [unfold q_duration; rewrite HC; done|]. split; [lia|]. intros t Ht.
  rewrite q_some. rewrite HC. apply cgood_end; [done|]. cbn [top_x]. lia.
Qed.
(** A vest that is made now and starts now or later. *)
Lemma new_nothing b i s subs :
  fits_vinit i = true -> 0 <= time b -> v_instantiate b i = Ok (s, subs) ->
  time b <= default (time b) (vi_start i) -> vested_at s b = 0.
Proof.
  intros Hf Hb Hi Ht.
  assert (vreached i b s []) as HR.
  { exists b, s, subs. split; [done|]. split; [done|]. split; [done|]. exists []. split; [done|].
    split; [done|]. cbn. unfold block_le. lia. }
  assert (ve_start (vs_vest s) = default (time b) (vi_start i) /\ ~ is_canceled s) as [Hs Hc].
  { unfold v_instantiate in Hi. destruct (_ <=? U64_MAX); [|done]. destruct (time b <? _); [|done].
    destruct (vest_new _ _ _ _ _ _) as [v|] eqn:E; [|done]. unfold vest_new in E.
    destruct (negb _); [|done]. destruct (negb _); [|done]. destruct (into_curve _ _ _); [|done].
    injection E as <-. destruct (vi_denom i).
    - destruct (must_pay _ _); [|done]. destruct (_ =? _); [|done]. injection Hi as <- _.
      split; [done|]. by intros [ow Ho].
    - destruct (vi_funds i); [|done]. injection Hi as <- _. split; [done|]. by intros [ow Ho]. }
  apply (vested_start _ _ _ _ b (time b) HR Hc). by rewrite Hs.
Qed.
