(** Statements about cw20-stake-reward-distributor. *)
From Verif Require Import Base BaseProofs Exec ExecProofs Plain PlainProofs StoreModel StoreProofs
  DistModel DistSpec DistProofs.

(** An interval without interventions of the owner. *)
Lemma interval_inv b0 s0 b s l :
  dinv b0 s0 -> leads d_handle b0 s0 b s l -> forallb hands_off l = true ->
  let t := d_token s0 in let k := d_staking s0 in
  dinv b s /\ d_token s = t /\ d_staking s = k /\ d_rate s = d_rate s0 /\ d_last s0 <= d_last s /\
  forwarded t k l <= d_rate s0 * (d_last s - d_last s0) /\
  d_bal s t = d_bal s0 t + received t l - forwarded t k l /\ 0 <= received t l /\
  (forallb no_gift l = true -> received t l = 0) /\
  (forwarded t k l = d_rate s0 * (d_last s - d_last s0) \/ d_bal s0 t <= forwarded t k l).
Proof.
  intros HI HL Ho t k. revert Ho.
  revert HL. apply (leads_ind d_handle (fun b s l => forallb hands_off l = true ->
    dinv b s /\ d_token s = t /\ d_staking s = k /\ d_rate s = d_rate s0 /\ d_last s0 <= d_last s /\
    forwarded t k l <= d_rate s0 * (d_last s - d_last s0) /\
    d_bal s t = d_bal s0 t + received t l - forwarded t k l /\ 0 <= received t l /\
    (forallb no_gift l = true -> received t l = 0) /\
    (forwarded t k l = d_rate s0 * (d_last s - d_last s0) \/ d_bal s0 t <= forwarded t k l))).
  - intros b1 s1 l1 a m s' subs IH Hh Ho. rewrite forallb_app in Ho. apply andb_prop in Ho as [Ho1 Ho2].
    cbn [forallb] in Ho2. rewrite andb_true_r in Ho2.
    destruct (IH Ho1) as (A1 & A2 & A3 & A4 & A5 & A6 & A7 & A8 & A9 & A10).
    destruct (step_off _ _ _ _ _ _ A1 Hh Ho2) as (B1 & B2 & B3 & B4 & B5 & B6 & B7 & B8 & B9).
    rewrite A2, A3, A4 in *.
    unfold forwarded, received in *. rewrite !lsum_app. cbn [lsum]. rewrite !Z.add_0_r.
    split; [by eapply dinv_call|]. split; [done|]. split; [done|]. split; [done|].
    cbn [ev_sum]. replace (d_rate s0 * (d_last s' - d_last s0)) with
      (d_rate s0 * (d_last s1 - d_last s0) + d_rate s0 * (d_last s' - d_last s1)) by ring.
    split; [lia|]. split; [lia|]. split; [lia|]. split; [lia|]. split; [|lia].
    intros Hg. rewrite forallb_app in Hg. apply andb_prop in Hg as [Hg1 Hg2].
    rewrite (A9 Hg1). cbn in Hg2. destruct m; try done.
  - intros b1 s1 l1 x IH Ho. rewrite forallb_app in Ho. apply andb_prop in Ho as [Ho1 _].
    unfold forwarded, received. rewrite !lsum_app, forallb_app. cbn.
    rewrite !Z.add_0_r, andb_true_r. by apply IH.
  - intros b1 b2 s1 l1 IH Hb Ho. destruct (IH Ho) as (A1 & A2). split; [by eapply dinv_time|done].
  - intros _. unfold forwarded, received. cbn. rewrite Z.sub_diag, Z.mul_0_r.
    repeat split; try done; try lia; apply HI.
Qed.

Lemma c52_rate b0 s0 l0 b s l :
  dreached b0 s0 l0 -> leads d_handle b0 s0 b s l -> forallb hands_off l = true ->
  0 <= d_last s0 <= height b0 /\
  forwarded (d_token s0) (d_staking s0) l <= d_rate s0 * (height b - d_last s0).
Proof.
  intros HR HL Ho. apply dreached_inv in HR as HI.
  destruct (interval_inv _ _ _ _ _ HI HL Ho) as ([A _ _] & _ & _ & _ & B & C & _).
  split; [apply HI|]. etrans; [exact C|]. apply Z.mul_le_mono_nonneg_l; [apply HI|lia].
Qed.
Lemma rate_split s0 (h l l0 r : Z) : r = d_rate s0 ->
  r * (h - l0) = r * (l - l0) + r * (h - l).
Proof. intros. ring. Qed.
(** Without gifts: what has been forwarded and what is due now make up what would have
    been due now without any call. *)
Lemma c52_schedule b0 s0 l0 b s l :
  dreached b0 s0 l0 -> leads d_handle b0 s0 b s l -> forallb hands_off l = true ->
  forallb no_gift l = true ->
  forwarded (d_token s0) (d_staking s0) l + due_at s b = due_at s0 b.
Proof.
  intros HR HL Ho Hg. apply dreached_inv in HR as HI.
  destruct (interval_inv _ _ _ _ _ HI HL Ho) as (A1 & A2 & A3 & A4 & A5 & A6 & A7 & A8 & A9 & A10).
  specialize (A9 Hg). unfold due_at. rewrite A2, A4.
  rewrite (rate_split s0 (height b) (d_last s) (d_last s0)) by done. pose proof (di_rate _ _ HI).
  pose proof (di_last _ _ A1). pose proof (di_bal _ _ A1 (d_token s0)).
  pose proof (Z.mul_nonneg_nonneg (d_rate s0) (height b - d_last s) ltac:(done) ltac:(lia)). lia.
Qed.
(** A balance that suffices from the start: the rate exactly, gifts or not. *)
Lemma c52_enough b0 s0 l0 b s l :
  dreached b0 s0 l0 -> leads d_handle b0 s0 b s l -> forallb hands_off l = true ->
  d_rate s0 * (height b - d_last s0) <= d_bal s0 (d_token s0) ->
  forwarded (d_token s0) (d_staking s0) l = d_rate s0 * (d_last s - d_last s0) /\
  due_at s b = d_rate s0 * (height b - d_last s).
Proof.
  intros HR HL Ho Hb. apply dreached_inv in HR as HI.
  destruct (interval_inv _ _ _ _ _ HI HL Ho) as (A1 & A2 & A3 & A4 & A5 & A6 & A7 & A8 & A9 & A10).
  unfold due_at. rewrite A2, A4. rewrite (rate_split s0 (height b) (d_last s) (d_last s0)) in Hb by done.
  pose proof (di_rate _ _ HI). pose proof (di_last _ _ A1).
  pose proof (Z.mul_nonneg_nonneg (d_rate s0) (height b - d_last s) ltac:(done) ltac:(lia)). lia.
Qed.
(** A call of distribute, by anybody, pays what is due and starts a new count. *)
Lemma c52_distribute b s l a :
  dreached b s l -> d_rate s * (height b - d_last s) <= U128_MAX ->
  if due_at s b =? 0 then exists e, d_handle s b a DDistribute = Err e
  else exists s', d_handle s b a DDistribute = Ok (s', [DFund (d_token s) (d_staking s) (due_at s b)]) /\
    d_last s' = height b /\ due_at s' b = 0.
Proof.
  intros HR Hm. apply dreached_inv in HR as [A1 A2 A3]. cbn.
  assert (d_amount s b = if due_at s b =? 0 then d_amount s b else Ok (due_at s b)) as Ha.
  { destruct (due_at s b =? 0) eqn:E; [done|]. unfold d_amount, due_at in *.
    destruct (height b <=? d_last s) eqn:El.
    - assert (height b = d_last s) as Eh by lia. rewrite Eh, Z.sub_diag, Z.mul_0_r in E.
      pose proof (A3 (d_token s)). lia.
    - cbn [negb]. unfold mul128. destruct (U128_MAX <? _) eqn:Eu; [lia|]. cbn zeta. by rewrite E. }
  destruct (due_at s b =? 0) eqn:E.
  - destruct (d_amount s b) as [n|e] eqn:En; [|eauto]. apply amount_ok in En as (_ & -> & H & _). lia.
  - rewrite Ha. eexists. split; [done|]. split; [done|]. unfold due_at. cbn.
    rewrite Z.sub_diag, Z.mul_0_r. rewrite send_bal. cbn. rewrite N.eqb_refl.
    pose proof (A3 (d_token s)). unfold due_at, d_bal in *. cbn. lia.
Qed.
(** Balances; the owner alone intervenes, and withdraws to themselves. *)
Lemma c52_balance b s l t : dreached b s l -> d_bal s t = received t l - spent t l /\ 0 <= d_bal s t.
Proof.
  intros HR. split; [|by apply dreached_inv in HR as []].
  destruct HR as (b0 & o & k & t0 & r & v & s0 & Hb & Hi & HL). revert HL.
  apply (leads_ind d_handle (fun b s l => d_bal s t = received t l - spent t l)).
  - intros b1 s1 l1 a m s' subs IH H. unfold received, spent in *. rewrite !lsum_app. cbn [lsum].
    destruct m as [k1 r1 t1 v1| | |act|t1 n]; cbn in H.
    + destruct (fits128 _); [|done]. destruct (is_owner _ _); [|done]. destruct v1; [|done].
      rewrite amount_config in H. simplify_eq. cbn. unfold d_bal in *. cbn. lia.
    + destruct (d_amount s1 b1) as [n|] eqn:E; [|done]. simplify_eq. cbn. rewrite send_bal. cbn.
      unfold d_bal in *. cbn. destruct (d_token s1 =? t)%N eqn:Et; [apply N.eqb_eq in Et as <-|]; lia.
    + destruct (is_owner _ _); [|done]. simplify_eq. cbn. rewrite send_bal.
      destruct (d_token s1 =? t)%N eqn:Et; [apply N.eqb_eq in Et as <-|]; lia.
    + destruct (update_ownership _ _ _ _); [|done]. simplify_eq. cbn. unfold d_bal in *. cbn. lia.
    + destruct (fits128 _); [|done]. destruct (_ <=? _) in H; [|done]. simplify_eq. cbn.
      unfold d_bal at 1. cbn. rewrite bal_insert by done.
      destruct (t1 =? t)%N eqn:Et; [apply N.eqb_eq in Et as ->|]; lia.
  - intros b1 s1 l1 x IH. unfold received, spent in *. rewrite !lsum_app. cbn. lia.
  - intros; done.
  - unfold d_instantiate in Hi. destruct (fits128 _); [|done]. destruct v; [|done]. simplify_eq.
    unfold received, spent, d_bal. cbn. by rewrite lookup_empty.
Qed.
Lemma c52_owner s b a m s' subs :
  d_handle s b a m = Ok (s', subs) ->
  (hands_off (ECall s b a m s' subs) = false -> o_owner (d_own s) = Some a) /\
  forall t to n, DTransfer t to n ∈ subs -> to = a /\ o_owner (d_own s) = Some a.
Proof.
  intros H. assert (forall o, is_owner o a = true -> o_owner o = Some a) as Ho.
  { intros o. unfold is_owner. destruct (o_owner o); [|done]. intros E. by apply N.eqb_eq in E as ->. }
  destruct m as [k r t v| | |act|t n]; cbn in H |- *.
  - destruct (fits128 _); [|done]. destruct (is_owner _ _) eqn:E; [|done]. destruct v; [|done].
    rewrite amount_config in H. simplify_eq. split; [by auto|]. intros ? ? ? Hin. by apply elem_of_nil in Hin.
  - destruct (d_amount s b) as [n|]; [|done]. simplify_eq. split; [done|].
    intros t to n' Hin. by apply elem_of_list_singleton in Hin.
  - destruct (is_owner _ _) eqn:E; [|done]. simplify_eq. split; [by auto|].
    intros t to n' Hin. apply elem_of_list_singleton in Hin. simplify_eq. auto.
  - destruct (update_ownership _ _ _ _); [|done]. simplify_eq. split; [done|].
    intros ? ? ? Hin. by apply elem_of_nil in Hin.
  - destruct (fits128 _); [|done]. destruct (_ <=? _) in H; [|done]. simplify_eq. split; [done|].
    intros ? ? ? Hin. by apply elem_of_nil in Hin.
Qed.
