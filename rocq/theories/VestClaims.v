(** The statements about cw-vesting. *)
From Verif Require Import Base BaseProofs Exec ExecProofs Plain PlainProofs StoreModel WormModel
  WormSpec WormProofs WormClaims VestModel VestSpec VestProofs.

Lemma brought_cases i b s l : vreached i b s l -> brought i l = 0 \/ brought i l = vi_total i.
Proof.
  intros (b0 & s0 & subs0 & Hf & Ht & Hi & HL).
  enough (vinv i b s l /\ (brought i l = 0 \/ brought i l = vi_total i)) by tauto. revert HL.
  apply (leads_ind v_handle (fun b s l => vinv i b s l /\ (brought i l = 0 \/ brought i l = vi_total i))).
  - intros b1 s1 l1 a m s' subs [HI HB] H. split; [by eapply vinv_call|].
    assert ((exists n, m = VReceive n) \/ brought i (l1 ++ [ECall s1 b1 a m s' subs]) = brought i l1) as [[n ->]|Hq].
    { destruct m; eauto; right; unfold brought; rewrite lsum_snoc; cbn [ev_msgs]; lia. }
    2: by rewrite Hq.
    pose proof (vinv_call _ _ _ _ _ _ _ _ HI H) as HI'. pose proof (I_phase _ _ _ _ HI') as P.
    cbn [v_handle] in H. destruct (fits128 n); [|done]. unfold v_receive in H.
    destruct (_ =? n); [|done]. case_bool_decide; [|done].
    destruct (ve_status (vs_vest (settle s1 b1))); try done. injection H as <- <-.
    right. apply P.
  - intros b1 s1 l1 x [HI HB]. split; [by apply vinv_sub|]. unfold brought in *. rewrite lsum_snoc. cbn [ev_msgs]. lia.
  - intros b1 b' s1 l1 [HI HB] Hb. split; [by eapply vinv_time|done].
  - split; [by eapply vinv_init|]. unfold brought. cbn. destruct (vi_denom i); lia.
Qed.
Lemma holds_eq s b : holds s b = held_at (vs_chain s) (sec (time b)).
Proof. unfold holds, ch_settle, held_at. cbn. by rewrite lsum_filter. Qed.

(** ** C45 *)
Lemma c45_paid i b s l :
  vreached i b s l ->
  ve_claimed (vs_vest s) = paid_vestee l /\ 0 <= paid_vestee l <= vested_at s b /\
  vested_at s b <= vi_total i.
Proof.
  intros HR. pose proof (brought_cases _ _ _ _ HR) as HB.
  apply vreached_inv in HR as [A1 A2 A3 A4 A5 A6 A7 A8 A9 A10 A11 A12]. unfold vested_at.
  destruct A7 as [C1 C2]. split; [done|].
  assert (0 <= vested (vs_vest s) (time b) <= top_y (ve_curve (vs_vest s))) as HV by by apply cgood_bounds.
  destruct A1 as (T1 & T2 & T3). unfold phase in A11.
  destruct (ve_status (vs_vest s)) as [| |ow].
  - destruct A11 as (P1 & P2 & _). rewrite P1 in HV. lia.
  - destruct A11 as (P1 & P2 & _). rewrite P1 in HV. lia.
  - destruct A11 as (y & P1 & P2 & P3 & P4 & P5).
    assert (vested (vs_vest s) (time b) = y) as Hy by (unfold vested; by rewrite P1).
    lia.
Qed.

Lemma total_fits i b s l : vreached i b s l -> vi_total i <= U128_MAX.
Proof.
  intros (b0 & s0 & subs0 & Hf & _). unfold fits_vinit in Hf. repeat setoid_rewrite andb_true_iff in Hf.
  destruct Hf as ((((F1 & _) & _) & _) & _). unfold fits128 in F1. lia.
Qed.
Lemma staked_nonneg_step k k' :
  (forall u, 0 <= total_staked k u) -> tgood k ->
  ((exists t v n, 0 <= n /\ on_delegate k t v n = Ok k') \/
   (exists t v w n, on_redelegate k t v w n = Ok k') \/
   (exists t v n d, on_undelegate k t v n d = Ok k') \/
   (exists t v n, on_bonded_slash k t v n = Ok k') \/
   (exists t v n, on_unbonding_slash k t v n = Ok k')) ->
  forall u, 0 <= total_staked k' u.
Proof.
  intros Hp (G1 & _) Hc u. change (total_staked k' u) with (val (tr_total k') u).
  change (forall u, 0 <= val (tr_total k) u) in Hp.
  assert (forall t n w x, w_dec (tr_total k) t n = Ok (w, x) -> 0 <= val w u) as Hd.
  { intros t n w x H. apply (w_nonneg sub128 (tr_total k) t n (- n) w x u); try done.
    - apply sub128_adds.
    - intros y Hy z Hz. apply sub128_ok in Hz. lia. }
  destruct Hc as [(t & v & n & Hn & H)|[(t & v & w & n & H)|[(t & v & n & d & H)|[(t & v & n & H)|(t & v & n & H)]]]].
  - unfold on_delegate in H. destruct (w_inc (tr_total k) t n) as [[tot ?]|] eqn:E; [|done].
    destruct ((_ : result whole)) in H; [|done]. destruct (wm_inc _ _ _ _) as [[? ?]|]; [|done].
    injection H as <-. cbn [tr_total]. apply (w_nonneg add128 (tr_total k) t n n tot z u); try done.
    + apply add128_adds.
    + intros y Hy q Hq. apply add128_ok in Hq. lia.
  - unfold on_redelegate in H. destruct (wm_dec _ _ _ _) as [[? ?]|]; [|done].
    destruct ((_ : result whole)) in H; [|done]. destruct (wm_inc _ _ _ _) as [[? ?]|]; [|done].
    destruct ((_ : result whole)) in H; [|done]. injection H as <-. apply Hp.
  - unfold on_undelegate in H. destruct (add64 t d); [|done].
    destruct (w_dec (tr_total k) _ n) as [[tot ?]|] eqn:E; [|done].
    destruct (wm_dec _ _ _ _) as [[? ?]|]; [|done].
    destruct ((_ : result whole)) in H; [|done]. injection H as <-. cbn [tr_total]. by eapply Hd.
  - unfold on_bonded_slash in H. destruct (w_dec (tr_total k) _ n) as [[tot ?]|] eqn:E; [|done].
    destruct (w_update _ _ _ _) as [[[? ?] [? ?]]|]; [|done].
    destruct (apply_changes _ _); [|done]. injection H as <-. cbn [tr_total]. by eapply Hd.
  - unfold on_unbonding_slash, w_update_one in H.
    destruct (sub128 (default 0 (w_load (tr_total k) t)) n) as [a|] eqn:E1; [|done].
    destruct (sub128 (default 0 (w_load (wm_get (tr_vals k) v) t)) n) as [c|] eqn:E2; [|done].
    destruct ((_ : result whole)) as [card|] eqn:E3 in H; [|done].
    injection H as <-. unfold val. cbn [tr_total]. rewrite save_one_load by done. rewrite val_eq in E1.
    destruct ((t <=? u) && _); [|apply Hp]. cbn. specialize (Hp t). apply sub128_ok in E1. lia.
Qed.
Lemma vreached_staked i b s l : vreached i b s l -> forall u, 0 <= total_staked (vs_tr s) u.
Proof.
  intros (b0 & s0 & subs0 & Hf & Ht & Hi & HL).
  enough (tgood (vs_tr s) /\ forall u, 0 <= total_staked (vs_tr s) u) by tauto. revert HL.
  apply (leads_ind v_handle (fun b s l => tgood (vs_tr s) /\ forall u, 0 <= total_staked (vs_tr s) u)); try done.
  - intros b1 s1 l1 a m s' subs [HG HP] H.
    enough (vs_tr s' = vs_tr s1 \/ (tgood (vs_tr s') /\
      ((exists t v n, 0 <= n /\ on_delegate (vs_tr s1) t v n = Ok (vs_tr s')) \/
       (exists t v w n, on_redelegate (vs_tr s1) t v w n = Ok (vs_tr s')) \/
       (exists t v n d, on_undelegate (vs_tr s1) t v n d = Ok (vs_tr s')) \/
       (exists t v n, on_bonded_slash (vs_tr s1) t v n = Ok (vs_tr s')) \/
       (exists t v n, on_unbonding_slash (vs_tr s1) t v n = Ok (vs_tr s'))))) as [Hq|[HG' Hq]].
    { by rewrite Hq. }
    { split; [done|]. by eapply staked_nonneg_step. }
    unfold v_handle in H.
    destruct m as [n| |r|r|act|v n|v w n can|v n|x self|v|v t n u|n|v n|j n].
    + unfold v_receive in H. left. res_inv H. destruct (ve_status _); [res_inv H; done|done|done].
    + left. unfold v_cancel in H. destruct (is_owner _ _); [|done].
      destruct (p_cancel _ _ _) as [[[? ?] ?]|]; [|done].
      destruct ((_ : result chain)) in H; [|done]. destruct ((_ : result chain)) in H; [|done]. by injection H as <- <-.
    + left. unfold v_distribute in H. destruct (fits_opt r); [|done]. destruct (p_distribute _ _ _ _) as [[? ?]|]; [|done].
      destruct (ch_pay _ _); [|done]. by injection H as <- <-.
    + left. unfold v_withdraw in H. destruct (fits_opt r); [|done]. destruct (o_owner _); [|done].
      destruct (p_withdraw _ _ _ _) as [[? ?]|]; [|done].
      destruct (ch_pay _ _); [|done]. by injection H as <- <-.
    + left. unfold v_ownership in H. destruct (negb _); [|done]. destruct (update_ownership _ _ _ _); [|done].
      by injection H as <- <-.
    + right. destruct (fits128 n) eqn:En; [|done]. unfold v_delegate in H. destruct (may_delegate _ _); [|done].
      case_bool_decide; [|done]. destruct (on_delegate _ _ _ _) as [k|] eqn:E; [|done].
      destruct (ch_delegate _ _ _); [|done]. injection H as <- <-. cbn. split; [by apply k_delegate in E as [? _]|].
      left. unfold fits128 in En. eexists _, _, _. split; [|exact E]. lia.
    + right. destruct (fits128 n && _); [|done]. unfold v_redelegate in H. destruct (may_delegate _ _); [|done].
      case_bool_decide; [|done]. destruct can; [|done]. destruct (_ <=? _); [|done].
      destruct (on_redelegate _ _ _ _ _) as [k|] eqn:E; [|done].
      destruct (ch_redelegate _ _ _ _); [|done]. injection H as <- <-. cbn. split; [by apply k_redelegate in E as [? _]|].
      right; left. eauto.
    + right. destruct (fits128 n); [|done]. unfold v_undelegate in H. destruct ((_ : result unit)) in H; [|done].
      destruct (on_undelegate _ _ _ _ _) as [k|] eqn:E; [|done].
      destruct (ch_undelegate _ _ _ _); [|done]. injection H as <- <-. cbn. split; [by apply k_undelegate in E as [? _]|].
      right; right; left. eauto.
    + left. unfold v_set_withdraw in H. destruct (match ve_status _ with Canceled _ => _ | _ => _ end); [|done].
      destruct (negb self); [|done]. by injection H as <- <-.
    + left. by injection H as <- <-.
    + right. destruct (fits128 n && (0 <=? t)) eqn:En; [|done]. unfold v_register_slash in H.
      destruct (is_owner _ _); [|done]. destruct (t <=? _); [|done]. unfold p_register_slash in H.
      destruct (negb _); [|done]. destruct ((_ : result vest)) in H; [|done].
      destruct ((_ : result tracker)) as [k|] eqn:E in H; [|done]. injection H as <- <-. cbn.
      unfold fits128 in En. destruct u.
      * split; [by apply k_unbonding_slash in E as [? _]; [| |lia]|]. right; right; right; right. eauto.
      * split; [by apply k_bonded_slash in E as [? _]|]. right; right; right; left. eauto.
    + left. destruct (0 <=? n); [|done]. by injection H as <- <-.
    + left. destruct (ch_slash _ _ _); [|done]. by injection H as <- <-.
    + left. destruct (ch_slash_unb _ _ _); [|done]. by injection H as <- <-.
  - assert (vs_tr s0 = tr_new) as ->.
    { unfold v_instantiate in Hi. destruct (_ <=? U64_MAX); [|done]. destruct (time b0 <? _); [|done].
      destruct (vest_new _ _ _ _ _ _); [|done]. destruct (vi_denom i).
      - destruct (must_pay _ _); [|done]. destruct (_ =? _); [|done]. by injection Hi as <- _.
      - destruct (vi_funds i); [|done]. by injection Hi as <- _. }
    split; [apply tgood_new|]. intros u. done.
Qed.
(** Payments to the recipient. *)
Lemma c45_payment i b s l a m s' subs r n :
  vreached i b s l -> v_handle s b a m = Ok (s', subs) -> VPayVestee r n ∈ subs ->
  r = vi_recipient i /\ 0 < n /\ paid_vestee l + n + slashes s <= vested_at s b.
Proof.
  intros HR H Hin. apply vreached_inv in HR. apply vinv_settle in HR.
  destruct HR as [A1 A2 A3 A4 A5 A6 A7 A8 A9 A10 A11 A12]. unfold slashes, vested_at.
  change (vs_vest s) with (vs_vest (settle s b)). unfold v_handle in H. set (s1 := settle s b) in *.
  destruct A7 as [<- A7]. destruct A3 as [_ <-].
  assert (forall lq, liquid (vs_vest s1) (total_staked (vs_tr s1) (sec (time b))) = Ok lq -> 0 <= lq) as Hlq.
  { intros lq E. unfold liquid in E. unfold phase in A11. destruct (ve_status (vs_vest s1)).
    - injection E as <-. lia.
    - res_inv E. apply sub128_ok in E. lia.
    - res_inv E. apply sub128_ok in E. lia. }
  destruct m as [x| |q|q|act|v x|v w x can|v x|x self|v|v t x u|x|v x|j x].
  - unfold v_receive in H. res_inv H. destruct (ve_status _); [|done|done]. res_inv H. by apply elem_of_nil in Hin.
  - unfold v_cancel in H. destruct (is_owner _ _); [|done]. unfold p_cancel in H.
    destruct (match ve_status (vs_vest s1) with Canceled _ => false | _ => true end); [|done].
    destruct (liquid _ _) as [lq|] eqn:E1; [|done]. specialize (Hlq _ eq_refl).
    destruct (sub128 (vested (vs_vest s1) (time b)) (ve_claimed (vs_vest s1))) as [c|] eqn:E2; [|done].
    set (tv := Z.min (sat_sub c (ve_slashed (vs_vest s1))) lq) in *.
    destruct (sub128 lq tv) as [own|] eqn:E3; [|done].
    destruct (add128 _ tv) as [cl|] eqn:E4; [|done].
    destruct (sub128 _ cl) as [rest|] eqn:E5; [|done].
    destruct (sub128 (total_staked _ _) _) as [ow|] eqn:E6; [|done].
    destruct ((_ : result chain)) in H; [|done]. destruct ((_ : result chain)) in H; [|done].
    injection H as <- <-. apply elem_of_cons in Hin as [Hin|Hin]; [done|].
    apply elem_of_app in Hin as [Hin|Hin].
    { destruct (own =? 0); [by apply elem_of_nil in Hin|]. apply elem_of_list_singleton in Hin. done. }
    destruct (tv =? 0) eqn:Ez; [by apply elem_of_nil in Hin|]. apply elem_of_list_singleton in Hin.
    injection Hin as -> ->. apply sub128_ok in E2 as [-> E2]. cbn [ve_recipient]. split; [done|].
    unfold tv, sat_sub in *. lia.
  - destruct (fits_opt q) eqn:Hf; [|done]. unfold v_distribute, p_distribute, distributable in H.
    destruct (liquid _ _) as [lq|] eqn:E1; [|done]. specialize (Hlq _ eq_refl).
    destruct (sub128 (vested (vs_vest s1) (time b)) (ve_claimed (vs_vest s1))) as [c|] eqn:E2; [|done].
    set (d := Z.min lq (sat_sub c (ve_slashed (vs_vest s1)))) in H.
    destruct (add128 (ve_claimed (vs_vest s1)) (default d q)) as [c2|] eqn:E3; [|done].
    destruct (negb ((d <? default d q) || (default d q =? 0))) eqn:E4; [|done].
    destruct (ch_pay _ _) as [ch|] eqn:E5; [|done]. injection H as <- <-.
    apply sub128_ok in E2 as [-> E2]. apply negb_true_iff, orb_false_iff in E4 as [E4 E6].
    apply elem_of_list_singleton in Hin. injection Hin as -> ->. split; [done|].
    assert (0 <= default d q) as Hp.
    { destruct q as [x|]; cbn in *; [unfold fits128 in Hf; lia|]. unfold d, sat_sub in *. lia. }
    unfold d, sat_sub in *. lia.
  - destruct (fits_opt q); [|done]. unfold v_withdraw in H. destruct (o_owner _); [|done].
    destruct (p_withdraw _ _ _ _) as [[? ?]|]; [|done]. destruct (ch_pay _ _); [|done].
    injection H as <- <-. apply elem_of_list_singleton in Hin. done.
  - unfold v_ownership in H. destruct (negb _); [|done]. destruct (update_ownership _ _ _ _); [|done].
    injection H as <- <-. by apply elem_of_nil in Hin.
  - destruct (fits128 x); [|done]. unfold v_delegate in H. res_inv H. apply elem_of_list_singleton in Hin. done.
  - destruct (fits128 x && fits_opt can); [|done]. unfold v_redelegate in H. res_inv H. apply elem_of_list_singleton in Hin. done.
  - destruct (fits128 x); [|done]. unfold v_undelegate in H. destruct ((_ : result unit)) in H; [|done]. res_inv H.
    apply elem_of_list_singleton in Hin. done.
  - unfold v_set_withdraw in H. destruct (match ve_status _ with Canceled _ => _ | _ => _ end); [|done].
    destruct (negb self); [|done]. injection H as <- <-. apply elem_of_list_singleton in Hin. done.
  - injection H as <- <-. apply elem_of_list_singleton in Hin. done.
  - destruct (fits128 x && (0 <=? t)); [|done]. unfold v_register_slash in H.
    destruct (is_owner _ _); [|done]. destruct (t <=? _); [|done].
    destruct (p_register_slash _ _ _ _ _ _) as [[? ?]|]; [|done]. injection H as <- <-. by apply elem_of_nil in Hin.
  - destruct (0 <=? x); [|done]. injection H as <- <-. by apply elem_of_nil in Hin.
  - destruct (ch_slash _ _ _); [|done]. injection H as <- <-. by apply elem_of_nil in Hin.
  - destruct (ch_slash_unb _ _ _); [|done]. injection H as <- <-. by apply elem_of_nil in Hin.
Qed.
(** A distribution for everything distributable succeeds if the balance covers it. *)
Lemma distribute_ok i b s l a d :
  vreached i b s l -> v_distributable s b = Ok d -> 0 < d -> d <= holds s b ->
  exists s', v_handle s b a (VDistribute None) = Ok (s', [VPayVestee (vi_recipient i) d]).
Proof.
  intros HR Hd Hp Hh. pose proof (total_fits _ _ _ _ HR) as HF. pose proof (c45_paid _ _ _ _ HR) as (C1 & C2 & C3).
  apply vreached_inv in HR as [A1 A2 A3 A4 A5 A6 A7 A8 A9 A10 A11 A12].
  cbn [v_handle fits_opt]. unfold v_distribute, p_distribute. cbn [vs_vest vs_tr settle put].
  unfold v_distributable in Hd. rewrite Hd. cbn [default].
  unfold distributable in Hd. destruct (liquid _ _) as [lq|] eqn:E1; [|done].
  destruct (sub128 _ _) as [c|] eqn:E2; [|done]. injection Hd as Hd. apply sub128_ok in E2 as [-> E2].
  unfold vested_at, sat_sub in *. rewrite add128_eq by lia.
  replace (d <? d) with false by lia. replace (d =? 0) with false by lia. cbn [negb orb].
  unfold ch_pay. cbn [vs_chain put settle]. unfold holds in Hh.
  destruct (d <=? _) eqn:E; [|lia]. destruct A3 as [_ A3]. eexists. rewrite <-A3. done.
Qed.
Lemma c45_full i b s l a :
  vreached i b s l -> ve_status (vs_vest s) = Funded ->
  vested_at s b = vi_total i -> slashes s = 0 -> booked_staked s b = 0 -> slashed_unbonding l = 0 ->
  v_distributable s b = Ok (vi_total i - paid_vestee l) /\
  (paid_vestee l < vi_total i ->
   exists s', v_handle s b a (VDistribute None) =
     Ok (s', [VPayVestee (vi_recipient i) (vi_total i - paid_vestee l)])).
Proof.
  intros HR Hst Hv Hs Hk Hu. pose proof (c45_paid _ _ _ _ HR) as (C1 & C2 & C3).
  pose proof (vreached_inv _ _ _ _ HR) as [A1 A2 A3 A4 A5 A6 A7 A8 A9 A10 A11 A12].
  unfold phase in A11. rewrite Hst in A11. destruct A11 as (P1 & P2 & P3 & P4 & P5 & P6).
  assert (v_distributable s b = Ok (vi_total i - paid_vestee l)) as Hd.
  { unfold v_distributable, distributable, liquid. rewrite Hst. unfold booked_staked in Hk. rewrite Hk.
    unfold ve_total. rewrite cgood_range, P1 by done. destruct A1 as (_ & _ & ->).
    unfold slashes in Hs. rewrite Hs. rewrite !sub128_eq by (unfold vested_at in *; lia).
    unfold vested_at in Hv. rewrite Hv. unfold sat_sub. f_equal. lia. }
  split; [done|]. intros Hlt. eapply distribute_ok; try done; [lia|].
  rewrite holds_eq. specialize (P5 (sec (time b)) ltac:(lia)). unfold booked_staked, slashes in *. lia.
Qed.
(** The schedules. *)
Definition elapsed (s : vstate) (b : block) : Z := Z.max 0 (sec (time b) - sec (ve_start (vs_vest s))).
Lemma not_canceled_curve i b s l :
  vreached i b s l -> ~ is_canceled s -> ve_curve (vs_vest s) = curve0 i.
Proof.
  intros HR Hc. apply vreached_inv in HR. pose proof (I_phase _ _ _ _ HR) as P. unfold phase in P.
  destruct (ve_status (vs_vest s)) as [| |ow] eqn:E.
  - by destruct P as (P1 & _).
  - by destruct P as (P1 & _).
  - destruct Hc. by eexists.
Qed.
Lemma reached_curve i b s l :
  vreached i b s l -> 0 < vi_dur i /\ into_curve (vi_schedule i) (vi_total i) (vi_dur i) = Ok (curve0 i).
Proof.
  intros (b0 & s0 & subs0 & Hf & Ht & Hi & _). unfold fits_vinit in Hf. repeat setoid_rewrite andb_true_iff in Hf.
  destruct Hf as ((((F1 & F2) & F3) & F4) & F5).
  unfold v_instantiate in Hi. destruct (_ <=? U64_MAX); [|done]. destruct (time b0 <? _); [|done].
  unfold vest_new in Hi. destruct (negb (vi_total i =? 0)); [|done].
  destruct (negb (vi_dur i =? 0)) eqn:E; [|done].
  unfold curve0. destruct (into_curve _ _ _); [|done]. split; [lia|done].
Qed.
Lemma c45_linear i b s l :
  vreached i b s l -> ~ is_canceled s -> vi_schedule i = SLinear ->
  (vi_dur i <= elapsed s b -> vested_at s b = vi_total i) /\
  (elapsed s b <= vi_dur i ->
   vested_at s b * vi_dur i <= vi_total i * elapsed s b /\
   vi_total i * elapsed s b * 10 ^ 18 <
     (vested_at s b + 1) * vi_dur i * 10 ^ 18 + vi_total i * vi_dur i).
Proof.
  intros HR Hc Hs. pose proof (not_canceled_curve _ _ _ _ HR Hc) as HC.
  destruct (reached_curve _ _ _ _ HR) as [Hd Hi]. apply vreached_inv in HR.
  destruct (I_total _ _ _ _ HR) as (T1 & T2 & T3).
  unfold vested_at, vested. fold (elapsed s b). rewrite HC. rewrite Hs in Hi.
  assert (curve0 i = CLinear 0 0 (vi_dur i) (vi_total i)) as E0.
  { unfold into_curve in Hi. destruct (validate_increasing _); [|done]. case_bool_decide; [|done]. by injection Hi. }
  rewrite E0 in *. split.
  - intros H. by apply cgood_end.
  - intros H. cbn [curve_value]. assert (0 <= elapsed s b) as Hx by (unfold elapsed; lia).
    replace (elapsed s b <? 0) with false by lia. replace (vi_dur i <? elapsed s b) with false by lia.
    rewrite interp_eq by lia. rewrite !Z.sub_0_r, Z.add_0_l. change (10 ^ 18) with DEC.
    set (x := elapsed s b) in *. set (T := vi_total i) in *. set (D := vi_dur i) in *.
    set (r := x * DEC / D). assert (r * D <= x * DEC < (r + 1) * D) as [R1 R2].
    { unfold r. pose proof (Z.div_mod (x * DEC) D ltac:(lia)). pose proof (Z.mod_pos_bound (x * DEC) D ltac:(lia)). nia. }
    set (q := T * r / DEC). assert (q * DEC <= T * r < (q + 1) * DEC) as [Q1 Q2].
    { unfold q. pose proof (Z.div_mod (T * r) DEC ltac:(done)). pose proof (Z.mod_pos_bound (T * r) DEC ltac:(done)). lia. }
    pose proof DEC_pos as HD. split.
    + apply (Z.mul_le_mono_pos_r _ _ DEC); [done|]. nia.
    + nia.
Qed.
Lemma piece_at p steps x y :
  steps_in_order p.1 steps = true -> steps_increase p.2 steps = true -> (x, y) ∈ p :: steps ->
  curve_value (CPiece (p :: steps)) x = y.
Proof.
  intros Ho Hi Hin. rewrite piece_value. apply elem_of_cons in Hin as [<-|Hin].
  { cbn. replace (x <? x) with false by lia. by destruct steps. }
  destruct steps as [|q steps]; [by apply elem_of_nil in Hin|]. cbn in Ho, Hi.
  apply andb_true_iff in Ho as [O1 O2], Hi as [I1 I2].
  assert (forall z r : Z * Z, z.1 < r.1 -> forall st, steps_in_order r.1 st = true -> (x, y) ∈ r :: st -> z.1 < x) as Hlt.
  { intros z r Hz st. revert z r Hz. induction st as [|g st IH]; intros z r Hz Hst Hx;
      apply elem_of_cons in Hx as [<-|Hx]; try done; [by apply elem_of_nil in Hx|].
    cbn in Hst. apply andb_true_iff in Hst as [S1 S2]. apply (IH z g); [lia|done|done]. }
  pose proof (Hlt p q ltac:(lia) steps O2 Hin) as Hpx. replace (p.1 <? x) with true by lia.
  assert (p.1 < q.1) as H1 by lia. assert (p.2 <= q.2) as H2 by lia. clear O1 I1.
  revert p q H1 H2 O2 I2 Hin Hpx. induction steps as [|g steps IH]; intros p q H1 H2 O2 I2 Hin Hpx.
  - apply elem_of_list_singleton in Hin. subst q. cbn [piece_find]. apply pval_two; cbn in *; try done; lia.
  - cbn in O2, I2. apply andb_true_iff in O2 as [O2 O3], I2 as [I2 I3]. cbn [piece_find].
    apply elem_of_cons in Hin as [<-|Hin].
    + cbn [fst]. replace (x <? x) with false by lia. apply pval_two; cbn in *; try done; lia.
    + pose proof (Hlt q g ltac:(lia) steps O3 Hin) as Hq. replace (q.1 <? x) with true by lia.
      apply IH; try done; lia.
Qed.
Lemma c45_piecewise i b s l steps y :
  vreached i b s l -> ~ is_canceled s -> vi_schedule i = SPiece steps ->
  (elapsed s b, y) ∈ steps -> vested_at s b = y.
Proof.
  intros HR Hc Hs Hin. pose proof (not_canceled_curve _ _ _ _ HR Hc) as HC.
  destruct (reached_curve _ _ _ _ HR) as [Hd Hi].
  unfold vested_at, vested. fold (elapsed s b). rewrite HC. rewrite Hs in Hi.
  unfold into_curve in Hi. destruct (2 <=? _); [|done].
  destruct steps as [|p steps]; [by apply elem_of_nil in Hin|]. cbn [validate_increasing] in Hi.
  destruct (steps_in_order 0 (p :: steps)) eqn:E1; [|done].
  destruct (steps_increase p.2 steps) eqn:E2; [|done]. case_bool_decide; [|done]. injection Hi as <-.
  cbn in E1. apply andb_true_iff in E1 as [_ E1]. by apply piece_at.
Qed.
Lemma c45_grows i b s l b' :
  vreached i b s l -> block_le b b' -> vested_at s b <= vested_at s b'.
Proof.
  intros HR [_ Hb]. apply vreached_inv in HR. apply vested_mono; [apply (I_curve _ _ _ _ HR)|done].
Qed.

(** ** C46 *)
Lemma c46_adds_up i b s l :
  vreached i b s l ->
  paid_vestee l + paid_owner l + bonded s + unbonding s b + slashed_bonded l + slashed_unbonding l +
    holds s b = brought i l + donated l /\
  (brought i l = 0 \/ brought i l = vi_total i).
Proof.
  intros HR. pose proof (brought_cases _ _ _ _ HR) as HB. split; [|done].
  apply vreached_inv, vinv_settle in HR. pose proof (I_worth _ _ _ _ HR) as W.
  unfold worth in W. unfold bonded, unbonding, holds in *. cbn [vs_chain settle put] in W.
  change (ch_bonded (ch_settle (vs_chain s) (sec (time b)))) with (ch_bonded (vs_chain s)) in W. lia.
Qed.
Lemma c46_covered i b s l d :
  vreached i b s l -> ~ is_canceled s -> v_distributable s b = Ok d ->
  d + donated l <= holds s b + slashed_unbonding l.
Proof.
  intros HR Hc Hd. apply vreached_inv in HR as [A1 A2 A3 A4 A5 A6 A7 A8 A9 A10 A11 A12].
  rewrite holds_eq. unfold v_distributable, distributable in Hd. destruct (liquid _ _) as [lq|] eqn:E1; [|done].
  destruct (sub128 _ _) as [c|] eqn:E2; [|done]. injection Hd as <-.
  unfold phase in A11. unfold liquid in E1. destruct (ve_status (vs_vest s)) as [| |ow] eqn:E.
  - injection E1 as <-. destruct A11 as (P1 & P2 & P3 & P4 & P5 & P6 & P7 & P8 & P9). unfold held_at.
    rewrite P8. cbn [lsum]. lia.
  - res_inv E1. apply sub128_ok in E0 as [-> ?], E3 as [-> ?], E1 as [-> ?].
    unfold ve_total in *. rewrite cgood_range in * by done.
    destruct A11 as (P1 & P2 & P3 & P4 & P5 & P6). rewrite P1 in *. destruct A1 as (_ & _ & T3). rewrite T3 in *.
    specialize (P5 (sec (time b)) ltac:(lia)). lia.
  - destruct Hc. by eexists.
Qed.
Lemma c46_exact i b s l :
  vreached i b s l -> ve_status (vs_vest s) = Funded -> vi_chain_ub i = vi_ub i ->
  forallb no_unb l = true ->
  paid_vestee l + booked_staked s b + slashes s + holds s b = vi_total i + donated l.
Proof.
  intros HR Hst Hu Hn. apply vreached_inv in HR as [A1 A2 A3 A4 A5 A6 A7 A8 A9 A10 A11 A12].
  rewrite holds_eq. unfold phase in A11. rewrite Hst in A11. destruct A11 as (P1 & P2 & P3 & P4 & P5 & P6).
  specialize (P6 Hu Hn (sec (time b)) ltac:(lia)). unfold booked_staked, slashes. lia.
Qed.

(** ** C47 *)
Lemma c47_bounds i b s l pre b1 a post subs :
  vreached i b s l -> ECall pre b1 a VCancel post subs ∈ l ->
  paid_vestee l <= vested_at pre b1 /\ paid_owner l <= vi_total i - vested_at pre b1 /\
  forall b', vested_at s b' = vested_at pre b1.
Proof.
  intros HR Hin. pose proof (brought_cases _ _ _ _ HR) as HB.
  apply vreached_inv in HR as [A1 A2 A3 A4 A5 A6 A7 A8 A9 A10 A11 A12].
  destruct (A12 _ _ _ _ _ Hin) as [[ow Ho] Hc]. unfold phase in A11. rewrite Ho in A11.
  destruct A11 as (y & P1 & P2 & P3 & P4 & P5). rewrite Hc in P1. injection P1 as P1.
  unfold vested_at. rewrite P1. split; [lia|]. split; [lia|]. intros b'. unfold vested. rewrite Hc. done.
Qed.
Lemma c47_settles i b s l a :
  vreached i b s l -> is_canceled s -> booked_staked s b = 0 -> slashed_unbonding l = 0 ->
  let owed := vested_at s b - paid_vestee l - slashes s in
  0 < owed ->
  exists s', v_handle s b a (VDistribute None) = Ok (s', [VPayVestee (vi_recipient i) owed]).
Proof.
  intros HR [ow Ho] Hk Hl owed Hp. pose proof (c45_paid _ _ _ _ HR) as (C1 & C2 & C3).
  pose proof (total_fits _ _ _ _ HR) as HF. pose proof (brought_cases _ _ _ _ HR) as HB.
  pose proof (vreached_inv _ _ _ _ HR) as [A1 A2 A3 A4 A5 A6 A7 A8 A9 A10 A11 A12].
  unfold phase in A11. rewrite Ho in A11. destruct A11 as (y & P1 & P2 & P3 & P4 & P5).
  assert (vested_at s b = y) as Hy by (unfold vested_at, vested; by rewrite P1).
  specialize (P5 (sec (time b)) ltac:(lia)). unfold booked_staked in Hk.
  eapply distribute_ok; [done| |done|].
  - unfold v_distributable, distributable, liquid. rewrite Ho, Hk. unfold ve_total. rewrite P1. cbn [curve_range snd].
    rewrite sub128_eq by lia. rewrite add128_eq by lia. rewrite sub128_eq by lia.
    fold (vested_at s b). rewrite Hy. rewrite sub128_eq by lia. f_equal. unfold sat_sub, owed, slashes in *. lia.
  - rewrite holds_eq. unfold owed, slashes in *. lia.
Qed.
Lemma c47_timeless s b b' :
  is_canceled s -> (exists y, ve_curve (vs_vest s) = CConst y) ->
  booked_staked s b = booked_staked s b' -> v_distributable s b = v_distributable s b'.
Proof.
  intros [ow Ho] [y Hy] Hk. unfold v_distributable, distributable, vested. unfold booked_staked in Hk.
  rewrite Hk, Hy. done.
Qed.
Lemma c47_no_clock i b s l b1 b2 :
  vreached i b s l -> is_canceled s -> booked_staked s b1 = booked_staked s b2 ->
  v_distributable s b1 = v_distributable s b2.
Proof.
  intros HR Hc. apply vreached_inv in HR. pose proof (I_phase _ _ _ _ HR) as P. unfold phase in P.
  pose proof Hc as [ow Ho]. rewrite Ho in P. destruct P as (y & P1 & _). apply c47_timeless; eauto.
Qed.
(** ** C48 *)
Lemma c48_covered i b s l ow d :
  vreached i b s l -> ve_status (vs_vest s) = Canceled ow -> v_distributable s b = Ok d ->
  slashes s = 0 \/ booked_staked s b <= ow ->
  d <= holds s b + slashed_unbonding l.
Proof.
  intros HR Ho Hd Hc. apply vreached_inv in HR as [A1 A2 A3 A4 A5 A6 A7 A8 A9 A10 A11 A12].
  rewrite holds_eq. unfold phase in A11. rewrite Ho in A11. destruct A11 as (y & P1 & P2 & P3 & P4 & P5).
  specialize (P5 (sec (time b)) ltac:(lia)). destruct A5 as (H0 & _ & H1).
  assert (0 <= held_at (vs_chain s) (sec (time b))) as Hh.
  { unfold held_at. rewrite Forall_forall in H1.
    enough (0 <= lsum (fun e => if e_done e <=? sec (time b) then e_amt e else 0) (ch_unb (vs_chain s))) by lia.
    apply lsum_nonneg. intros e He. specialize (H1 e He). destruct (_ <=? _); lia. }
  unfold v_distributable, distributable, liquid in Hd. rewrite Ho in Hd. unfold ve_total in Hd.
  rewrite P1 in Hd. cbn [curve_range snd] in Hd.
  destruct (sub128 y _) as [x1|] eqn:E1; [|done]. destruct (add128 ow x1) as [x2|] eqn:E2; [|done].
  destruct (sub128 x2 _) as [x3|] eqn:E3; [|done].
  destruct (sub128 (vested _ _) _) as [c|] eqn:E4; [|done]. injection Hd as <-.
  apply sub128_ok in E1 as [-> ?], E3 as [-> ?], E4 as [-> ?]. apply add128_ok in E2 as [-> ?].
  assert (vested (vs_vest s) (time b) = y) as Hy by (unfold vested; by rewrite P1).
  unfold booked_staked, slashes, sat_sub in *. rewrite Hy. lia.
Qed.
(** ** C76: cancelling *)
Lemma c76_cancel i b s l a :
  vreached i b s l -> ve_status (vs_vest s) = Funded -> is_owner (vs_own s) a = true ->
  vi_chain_ub i = vi_ub i -> forallb no_unb l = true -> donated l = 0 ->
  exists s' subs, v_handle s b a VCancel = Ok (s', subs).
Proof.
  intros HR Hst Hw Hub Hn Hdo. pose proof (c46_exact _ _ _ _ HR Hst Hub Hn) as HX.
  pose proof (c45_paid _ _ _ _ HR) as (C1 & C2 & C3). pose proof (total_fits _ _ _ _ HR) as HF.
  pose proof (vreached_staked _ _ _ _ HR (sec (time b))) as HS.
  apply vreached_inv, vinv_settle in HR as [A1 A2 A3 A4 A5 A6 A7 A8 A9 A10 A11 A12].
  unfold phase in A11. cbn [vs_vest settle put] in *. rewrite Hst in A11.
  destruct A11 as (P1 & P2 & P3 & P4 & P5 & P6). destruct A1 as (T1 & T2 & T3).
  cbn [v_handle]. unfold v_cancel. cbn [vs_own settle put]. rewrite Hw. unfold p_cancel, settle, put. cbn [vs_vest vs_tr vs_chain].
  rewrite Hst. unfold liquid, booked_staked, vested_at, slashes, holds in *. rewrite Hst. unfold ve_total.
  rewrite cgood_range, P1, T3 by done. destruct A5 as (H0 & _).
  cbn [vs_chain] in H0. rewrite C1 in *.
  set (S := total_staked (vs_tr s) (sec (time b))) in *. set (V := vested (vs_vest s) (time b)) in *.
  set (h := ch_held (ch_settle (vs_chain s) (sec (time b)))) in *. set (sl := ve_slashed (vs_vest s)) in *.
  set (p := paid_vestee l) in *. set (T := vi_total i) in *.
  change (0 <= h) in H0.   rewrite (sub128_eq T p) by lia. rewrite (sub128_eq (T - p) S) by lia.
  rewrite (sub128_eq (T - p - S) sl) by lia. rewrite (sub128_eq V p) by lia.
  set (tv := Z.min (sat_sub (V - p) sl) (T - p - S - sl)).
  assert (0 <= tv <= T - p - S - sl) as Htv by (unfold tv, sat_sub; lia).
  assert (tv <= V - p) as Htv2 by (unfold tv, sat_sub; lia).
  rewrite (sub128_eq _ tv) by lia. rewrite (add128_eq p tv) by lia. rewrite (sub128_eq V) by lia.
  rewrite (sub128_eq S) by (unfold tv, sat_sub in *; lia).
  assert (T - p - S - sl = h) as Hh by lia.
  set (c := ch_settle (vs_chain s) (sec (time b))) in *.
  assert (exists c1, (if T - p - S - sl - tv =? 0 then Ok c else ch_pay c (T - p - S - sl - tv)) = Ok c1 /\
    tv <= ch_held c1) as (c1 & -> & Hc1).
  { destruct (_ =? 0) eqn:E.
    - exists c. fold h. split; [done|]. lia.
    - unfold ch_pay. fold h. destruct (_ <=? h) eqn:E2; [|lia]. eexists. split; [done|]. cbn [ch_held]. change (ch_held c) with h. lia. }
  destruct (tv =? 0); [by eauto|]. unfold ch_pay. destruct (tv <=? ch_held c1) eqn:E; [|lia]. eauto.
Qed.
