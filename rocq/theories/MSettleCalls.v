(** Deposits of multiple-choice proposals are settled: calls. *)
From Verif Require Import Base BaseProofs Exec ExecProofs ExecFrame VotingModel HooksModel PreModel
  PreSpec PreProofs PreJoint PreClaims SettleModel SettleSpec SettleOwed SettlePre.
From Verif Require Import MultModel MultSpec MultProofs MultLife PreMultModel PreMultSpec PreMultDone
  PreMultJoint MSettleModel MSettleSpec MSettleMult MSettleProofs.

(** ** The pre-propose module's half *)
Lemma mjpre_inv2 O j b a e0 m j' subs :
  mjinv b j -> mjhandle O j b a (MPre e0 m) = Ok (j', subs) ->
  exists m' q' xs ss rest,
    let e := PEnv (e_funds e0) (e_power e0) (e_balance e0) (s_count (mj_s j) + 1) in
    to_base m = Ok m' /\
    a <> q_module (mj_q j) /\ pre_handle (mj_q j) e a m' = Ok (q', xs) /\ mj_q j' = q' /\
    mj_self j' = mj_self j /\ subs = map FromMult ss ++ map FromBase rest /\
    (forall x, x ∈ rest -> x ∈ xs) /\
    ((exists pm pm', xs = XPropose pm :: rest /\
        handle O (mj_s j) b (mj_self j) (Propose pm') = Ok (mj_s j', ss)) \/
     ((forall pm rest, xs <> XPropose pm :: rest) /\ mj_s j' = mj_s j /\ ss = [])).
Proof.
  intros HI H. apply mjpre_inv in H; [|done].
  destruct H as (Ea & m' & q' & xs & Em & Eh & Hq & Hself & Hpaid & Htaken & Hcase).
  destruct Hcase as [(pm & pm0 & rest & ss & -> & -> & Hp & ->)|(_ & Hno & Es & ->)].
  - exists m', q', (XPropose pm0 :: rest), ss, rest. cbn zeta. do 6 (split; [done|]).
    split; [intros x Hx; by right|]. left. eauto.
  - exists m', q', xs, [], xs. cbn zeta. do 6 (split; [done|]). split; [done|]. right. done.
Qed.
(** Messages of the base. *)
Lemma base_withdraw m d : to_base m = Ok (PWithdraw d) -> m = MOther (PWithdraw d).
Proof. intros H. destruct m as [|m]; [done|]. by destruct (to_base_other _ _ H) as [-> _]. Qed.
Lemma base_config m d p : to_base m = Ok (PUpdateConfig d p) -> m = MOther (PUpdateConfig d p).
Proof. intros H. destruct m as [|m]; [done|]. by destruct (to_base_other _ _ H) as [-> _]. Qed.

(** ** The proposal module's half *)
Lemma handle_count O s b a m s' subs :
  handle O s b a m = Ok (s', subs) -> (forall pm, m <> Propose pm) -> s_count s' = s_count s.
Proof.
  intros H Hm.
  assert (is_admin m -> s_count s' = s_count s) as Hadm.
  { intros Ha. by destruct (admin_shape O s b a m s' subs Ha H) as (_ & _ & _ & _ & E & _). }
  destruct m; try (apply Hadm; exact I); clear Hadm; cbn [handle] in H.
  - by destruct (Hm pm).
  - by apply execute_vote_shape in H as (p & votes1 & st & _ & _ & _ & _ & _ & _ & -> & _).
  - unfold execute_update_rationale in H. by res_inv H.
  - by apply execute_execute_shape in H as (p & st & c & _ & _ & _ & _ & -> & _).
  - by apply execute_veto_shape in H as (p & st & vc & _ & _ & _ & _ & _ & -> & _).
  - by apply execute_close_shape in H as (p & _ & _ & -> & _).
Qed.
Lemma stranger_cannot_propose O s b a pm r s' subs :
  s_policy s = Module r -> a <> r -> handle O s b a (Propose pm) = Ok (s', subs) -> False.
Proof.
  intros Hp Ha H. cbn [handle] in H. apply execute_propose_shape in H as (? & ? & ? & ? & ? & H & _).
  rewrite Hp in H. cbn [is_permitted] in H. apply Ha. apply N.eqb_eq in H. congruence.
Qed.

Lemma mjstep_refl b j : mjinv b j -> mjstep_ok b j j [].
Proof.
  intros HI. constructor; try done.
  - apply mjle_refl.
  - intros x Hx. by apply elem_of_nil in Hx.
  - intros k. cbn [lsum]. lia.
  - intros k. cbn [lsum]. lia.
  - intros id. cbn [lsum]. lia.
Qed.

Lemma alone_1 x pre b a m post subs :
  mleft_alone x [ECall pre b a m post subs] ->
  forall f v d, m = MZPre f v (MOther (PWithdraw d)) ->
    match d with
    | Some d => d <> Native x
    | None => forall e, q_deposit (mj_q (mz_j pre)) = Some e -> d_denom e <> Native x
    end.
Proof. intros H f v d ->. apply (H pre b a f v d post subs). left. Qed.
Lemma kept_1 pre b a m post subs :
  mkept [ECall pre b a m post subs] ->
    match m with
    | MZPre _ _ (MOther (PWithdraw _)) => False
    | MZPre _ _ (MOther (PUpdateConfig (Some d) _)) => exists x, d_denom d = Native x
    | MZMult (UpdatePreProposeInfo _) => False
    | _ => True
    end.
Proof. intros H. apply (H pre b a m post subs). left. Qed.

Lemma gap_step n0 b s s' subs :
  mzinv b s -> mjle (mz_j s) (mz_j s') -> mzq n0 s -> mzq n0 s' -> mj_paid (mz_j s') = mj_paid (mz_j s) ->
  (forall id, lsum (mjcompleted id) subs = finished (mj_s (mz_j s')) id - finished (mj_s (mz_j s)) id) ->
  forall id, gap s' id = gap s id + lsum (mjcompleted id) subs * hd (mz_j s') id.
Proof.
  intros HI HL HQ HQ' Ep Hc id. unfold gap, cnt. rewrite Ep, Hc.
  destruct (Z.le_gt_cases id (s_count (mj_s (mz_j s)))) as [Hle|Hgt].
  - rewrite (hd_same n0 b s s' id HI HL HQ HQ' Hle). lia.
  - assert (finished (mj_s (mz_j s)) id = 0) as ->; [|lia]. unfold finished.
    destruct (s_props (mj_s (mz_j s)) !! id) as [p|] eqn:E; [|done].
    pose proof (proj1 (wi_ids _ _ (mji_w _ _ (mzi_j _ _ HI)) id) (mk_is_Some _ _ E)). lia.
Qed.

Lemma in_single y ss rest :
  FromMult y ∈ map FromMult ss ++ map FromBase rest -> y ∈ ss.
Proof.
  intros Hx. apply elem_of_app in Hx as [Hx|Hx];
    apply elem_of_list_In, in_map_iff in Hx as (z & E & Hz); [|done].
  injection E as ->. by apply elem_of_list_In.
Qed.
Lemma in_pre y ss rest : FromBase y ∈ map FromMult ss ++ map FromBase rest -> y ∈ rest.
Proof.
  intros Hx. apply elem_of_app in Hx as [Hx|Hx];
    apply elem_of_list_In, in_map_iff in Hx as (z & E & Hz); [done|].
  injection E as ->. by apply elem_of_list_In.
Qed.
Lemma lsum_completed id ss rest :
  lsum (mjcompleted id) (map FromMult ss ++ map FromBase rest) = lsum (sub_completed id) ss.
Proof.
  rewrite lsum_app, (lsum_map_single _ (sub_completed id)), (lsum_map_pre _ (fun _ => 0)) by done.
  rewrite (lsum_zero (fun _ => 0)) by done. lia.
Qed.

Lemma mzhandle_step O n0 b s a m s' subs :
  mzinv b s -> mzhandle O s b a m = Ok (s', subs) ->
  mzinv b s' /\ mzpend n0 b s [ECall s b a m s' subs] s' subs.
Proof.
  intros HI H.
  assert (mjstep_ok b (mz_j s) (mz_j s') subs -> coins_pos (mj_q (mz_j s')) ->
    (forall x, solv x s -> solv x s') ->
    (forall x to n, mleft_alone x [ECall s b a m s' subs] ->
       FromBase (XPay RWithdraw (Native x) to n) ∉ subs) ->
    (mkept [ECall s b a m s' subs] -> mzq n0 s ->
     mzq n0 s' /\
     (forall r id st, FromMult (SCompleted r id st) ∈ subs -> r = mj_self (mz_j s')) /\
     (forall x, FromMult x ∈ subs -> no_inst x) /\
     (forall id, lsum (mjcompleted id) subs = finished (mj_s (mz_j s')) id - finished (mj_s (mz_j s)) id)) ->
    mzinv b s' /\ mzpend n0 b s [ECall s b a m s' subs] s' subs) as Hgen.
  { intros SO Hpos Hsolv Hnw Hk.
    assert (forall w, w <> RWithdraw ->
      cnt w (mz_j s') - cnt w (mz_j s) + lsum (sends w) subs <= due w (mz_j s') - due w (mz_j s)) as Hc.
    { intros [id|i|] Hw; [..|done]; unfold cnt; cbn [due]; rewrite (mjs_paid _ _ _ _ SO).
      - change (sends (RCompleted id)) with (mjcompleted id). pose proof (mjs_completed _ _ _ _ SO id). lia.
      - pose proof (mjs_reject _ _ _ _ SO i) as Hr. unfold mgap_reject in Hr.
        rewrite (mjs_paid _ _ _ _ SO) in Hr. change (sends (RRejected i)) with (mjreject i). lia. }
    split.
    - constructor; [apply SO|done|]. intros w Hw. specialize (Hc w Hw).
      pose proof (mzi_cnt _ _ HI w Hw).
      assert (0 <= lsum (sends w) subs) by (apply lsum_nonneg; intros; apply sends_nonneg). lia.
    - split; [apply SO|]. split; [apply SO|]. split; [|split].
      + intros w Hw. split; [by apply HI|auto].
      + intros x Hl Hs. split; [auto|]. split; [apply Forall_singleton; exact I|]. intros to n. by apply Hnw.
      + intros Hkk HQ. destruct (Hk Hkk HQ) as (K1 & K2 & K3 & K4).
        split; [done|]. split; [done|]. split; [done|].
        eapply gap_step; try done; apply SO. }
  destruct m as [m|f v m|d n]; cbn [mzhandle] in H.
  - destruct (a =? mj_self (mz_j s))%N eqn:Ea; [discriminate|]. apply N.eqb_neq in Ea. cbn [negb] in H.
    destruct (mjhandle O (mz_j s) b a (MMult m)) as [[j' sb]|] eqn:Ej; [|discriminate].
    injection H as <- <-.
    pose proof (mjhandle_step O b (mz_j s) a _ j' sb (mzi_j _ _ HI) Ej) as SO.
    cbn [mjhandle] in Ej. destruct (handle O (mj_s (mz_j s)) b a m) as [[s1 ss]|] eqn:Eh; [|discriminate].
    injection Ej as <- <-. cbn [mz_j] in *. apply Hgen; cbn [mz_j]; clear Hgen.
    + done.
    + apply HI.
    + intros x Hs. exact Hs.
    + intros x to n _ Hx. rewrite <- (app_nil_r (map FromMult ss)) in Hx.
      apply (in_pre _ ss []) in Hx. by apply elem_of_nil in Hx.
    + intros Hk HQ. pose proof (kept_1 _ _ _ _ _ _ Hk) as Hm.
      assert (forall i, m <> UpdatePreProposeInfo i) as Hni by (intros i ->; done).
      assert (forall pm, m <> Propose pm) as Hnp.
      { intros pm ->. eapply stranger_cannot_propose; [apply HQ|exact Ea|exact Eh]. }
      destruct (handle_policy O _ b a m s1 ss Eh Hni) as [Epol Hinst].
      pose proof (handle_count O _ b a m s1 ss Eh Hnp) as Ec.
      destruct HQ as [Q1 Q2 Q3 Q4 Q5 Q6 Q7]. split; [|split; [|split]].
      * constructor; cbn [mz_j mj_s mj_q mj_self mz_held]; rewrite ?Epol, ?Ec; try done.
      * intros r id st Hx. rewrite <- (app_nil_r (map FromMult ss)) in Hx.
        apply (in_single _ ss []) in Hx.
        destruct (handle_completed_at O b _ a m s1 ss r id st Eh Hx) as [_ E]. cbn [mj_self]. congruence.
      * intros x Hx. rewrite <- (app_nil_r (map FromMult ss)) in Hx.
        apply (in_single _ ss []) in Hx. rewrite Forall_forall in Hinst. auto.
      * intros id. rewrite (lsum_map_single _ (sub_completed id)) by done. cbn [mj_s].
        eapply handle_completed_exact; [apply HI|exact Q2|exact Eh].
  - destruct (a =? mj_self (mz_j s))%N eqn:Ea; [discriminate|]. apply N.eqb_neq in Ea. cbn [negb] in H.
    destruct (forallb _ f) eqn:Ef; [|discriminate].
    assert (Forall (fun c : N * Z => 0 <= c.2) f) as Hf.
    { apply Forall_forall. intros c Hc. apply elem_of_list_In in Hc.
      rewrite forallb_forall in Ef. specialize (Ef c Hc). lia. }
    destruct (mjhandle O (mz_j s) b a _) as [[j' sb]|] eqn:Ej; [|discriminate].
    injection H as <- <-.
    pose proof (mjhandle_step O b (mz_j s) a _ j' sb (mzi_j _ _ HI) Ej) as SO.
    destruct (mjpre_inv2 O (mz_j s) b a _ m j' sb (mzi_j _ _ HI) Ej)
      as (m' & q' & xs & ss & rest & Em & Ha & Hh & Eq & Eself & -> & Hrest & Hs). cbn [e_funds e_power e_balance] in Hh.
    set (e := PEnv f v _ _) in Hh.
    assert (q_deposits (mj_q (mz_j s)) !! e_next e = None) as Hnew.
    { destruct (q_deposits (mj_q (mz_j s)) !! e_next e) eqn:E; [|done].
      pose proof (mji_ids _ _ (mzi_j _ _ HI) (e_next e) ltac:(eauto)). cbn [e e_next] in *. lia. }
    destruct (pre_handle_owed _ e a m' q' xs (mj_paid (mz_j s)) (mji_q _ _ (mzi_j _ _ HI)) (mzi_pos _ _ HI) Hf
      Hnew Hh) as [Hpos Howed].
    pose proof (pre_step (mj_q (mz_j s)) e a m' q' xs (mji_q _ _ (mzi_j _ _ HI)) Hnew Hh) as ST.
    assert (forall x, solv x s -> solv x (MZState j' (receive_coins (mz_held s) f))) as Hsolv.
    { intros x. unfold solv. cbn [mz_j mz_held]. rewrite (mjs_paid _ _ _ _ SO), Eq.
      rewrite (receive_coins_add f (mz_held s)). specialize (Howed x). cbn [e e_funds] in Howed.
      pose proof (receive_coins_nonneg f (Native x) Hf). destruct (asks m'); lia. }
    apply Hgen; cbn [mz_j]; clear Hgen.
    + done.
    + by rewrite Eq.
    + done.
    + intros x to n Hl Hx. apply in_pre in Hx. apply Hrest in Hx.
      destruct (withdraw_denom _ e a m' q' xs _ _ _ (mji_q _ _ (mzi_j _ _ HI)) Ha Hh Hx) as (d & -> & Hd).
      apply base_withdraw in Em as ->.
      pose proof (alone_1 _ _ _ _ _ _ _ Hl f v d eq_refl) as Hn. destruct d as [d|]; [done|].
      destruct Hd as (c & E1 & E2). by apply (Hn c E1).
    + intros Hk HQ. pose proof (kept_1 _ _ _ _ _ _ Hk) as Hm.
      assert (s_policy (mj_s j') = s_policy (mj_s (mz_j s)) /\ Forall no_inst ss) as [Epol Hinst].
      { destruct Hs as [(pm & pm' & -> & Hp)|(_ & -> & ->)]; [|done].
        by eapply (handle_policy O); [exact Hp|]. }
      destruct HQ as [Q1 Q2 Q3 Q4 Q5 Q6 Q7].
      destruct (pre_handle_recs _ e a m' q' xs (mji_q _ _ (mzi_j _ _ HI)) Hh) as (R1 & R2 & R3); try done.
      { destruct m' as [|[dd|] pp| | | | | | | | |]; try done. apply base_config in Em as ->. done. }
      split; [|split; [|split]].
      * constructor; cbn [mz_j]; rewrite ?Epol, ?Eself, ?Eq; try done; [intros x; by apply Hsolv|intros id|].
        2:{ pose proof (mjl_count _ _ (mjs_le _ _ _ _ SO)). lia. }
         destruct Hs as [(pm & pm' & -> & Hp)|(Hno & -> & ->)].
        -- rewrite (propose_counts _ _ _ _ _ _ _ Hp). split.
           ++ intros Hi. destruct (so_new _ _ _ _ _ _ ST id Hi) as [Ho|[-> _]].
              ** apply Q6 in Ho. lia.
              ** cbn [e e_next]. lia.
           ++ intros Hi. destruct (Z.eq_dec id (s_count (mj_s (mz_j s)) + 1)) as [->|Hne].
              ** exact (pre_handle_new _ e a m' q' pm rest (mji_q _ _ (mzi_j _ _ HI)) Hh Ha).
              ** destruct (proj2 (Q6 id) ltac:(lia)) as [r Hr].
                 exists r. by apply (ql_deposits _ _ (so_le _ _ _ _ _ _ ST)).
        -- split.
           ++ intros Hi. destruct (so_new _ _ _ _ _ _ ST id Hi) as [Ho|[_ (pm & rs & ->)]].
              ** by apply Q6.
              ** by destruct (Hno pm rs).
           ++ intros Hi. destruct (proj2 (Q6 id) Hi) as [r Hr].
              exists r. by apply (ql_deposits _ _ (so_le _ _ _ _ _ _ ST)).
      * intros r id st Hx. apply in_single in Hx.
        destruct Hs as [(pm & pm' & -> & Hp)|(_ & _ & ->)]; [|by apply elem_of_nil in Hx].
        destruct (handle_completed_at O b _ _ _ _ ss r id st Hp Hx) as [_ E]. congruence.
      * intros x Hx. apply in_single in Hx. rewrite Forall_forall in Hinst. auto.
      * intros id. rewrite lsum_completed.
        destruct Hs as [(pm & pm' & -> & Hp)|(_ & -> & ->)]; [|cbn [lsum]; lia].
        eapply handle_completed_exact; [apply HI|exact Q2|exact Hp].
  - destruct (0 <=? n) eqn:En; [|discriminate]. injection H as <- <-. apply Hgen; cbn [mz_j]; clear Hgen.
    + apply mjstep_refl, HI.
    + apply HI.
    + intros x. unfold solv. cbn [mz_j mz_held]. unfold receive. destruct (decide _); lia.
    + intros x to k _ Hx. by apply elem_of_nil in Hx.
    + intros _ [Q1 Q2 Q3 Q4 Q5 Q6 Q7]. split; [|split; [|split]].
      * constructor; cbn [mz_j mz_held]; try done. intros x. specialize (Q1 x). unfold solv in *.
        cbn [mz_j mz_held]. unfold receive. destruct (decide _); lia.
      * intros r id st Hx. by apply elem_of_nil in Hx.
      * intros x Hx. by apply elem_of_nil in Hx.
      * intros id. cbn [lsum]. lia.
Qed.
