(** Deposits are settled: calls, and histories. *)
From Verif Require Import Base BaseProofs Exec ExecProofs ExecFrame VotingModel HooksModel SingleModel
  SingleSpec SingleProofs SingleLife PreModel PreSpec PreSingle PreProofs PreJoint PreClaims
  SettleModel SettleSpec SettleSingle SettleOwed SettlePre SettleProofs.

(** ** The pre-propose module's half *)
Lemma jpre_inv2 O j b a e0 m j' subs :
  jhandle O j b a (JPre e0 m) = Ok (j', subs) ->
  exists q' xs ss rest,
    let e := PEnv (e_funds e0) (e_power e0) (e_balance e0) (s_count (j_s j) + 1) in
    a <> q_module (j_q j) /\ pre_handle (j_q j) e a m = Ok (q', xs) /\ j_q j' = q' /\
    j_self j' = j_self j /\ subs = map FromSingle ss ++ map FromPre rest /\
    (forall x, x ∈ rest -> x ∈ xs) /\
    ((exists pm, xs = XPropose pm :: rest /\
        handle O (j_s j) b (j_self j) (Propose pm) = Ok (j_s j', ss)) \/
     ((forall pm rest, xs <> XPropose pm :: rest) /\ j_s j' = j_s j /\ ss = [])).
Proof.
  intros H. cbn [jhandle] in H.
  destruct (a =? q_module (j_q j))%N eqn:Ea; [discriminate|]. apply N.eqb_neq in Ea.
  cbn [negb] in H. set (e := PEnv _ _ _ _) in *.
  destruct (pre_handle (j_q j) e a m) as [[q' xs]|] eqn:Eh; [|discriminate].
  assert ((exists pm rest, xs = XPropose pm :: rest) \/
          (forall pm rest, xs <> XPropose pm :: rest)) as [(pm & rest & ->)|Hno].
  { destruct xs as [|[]]; naive_solver. }
  - destruct (handle O (j_s j) b (j_self j) (Propose pm)) as [[s' ss]|] eqn:Es; [|discriminate].
    injection H as <- <-. exists q', (XPropose pm :: rest), ss, rest. cbn zeta.
    split; [done|]. split; [done|]. split; [done|]. split; [done|]. split; [done|].
    split; [intros x Hx; by right|]. left. eauto.
  - assert (j_q j' = q' /\ j_self j' = j_self j /\ j_s j' = j_s j /\ subs = map FromPre xs)
      as (E1 & E2 & E3 & E4).
    { destruct xs as [|[pm| | |] rest]; try (by injection H as <- <-). by destruct (Hno pm rest). }
    exists q', xs, [], xs. cbn zeta. split; [done|]. split; [done|]. split; [done|].
    split; [done|]. split; [done|]. split; [done|]. right. done.
Qed.

(** ** The proposal module's half *)
Lemma handle_count O s b a m s' subs :
  handle O s b a m = Ok (s', subs) -> (forall pm, m <> Propose pm) -> s_count s' = s_count s.
Proof.
  intros H Hm.
  assert (is_admin m -> s_count s' = s_count s) as Hadm.
  { intros Ha. by destruct (admin_shape O s b a m s' subs Ha H) as (_ & _ & _ & _ & E & _). }
  destruct m; try (apply Hadm; exact I); clear Hadm; cbn [handle] in H.
  - by destruct (Hm pm).
  - by apply execute_vote_shape in H as (p & votes1 & st & _ & _ & _ & _ & _ & -> & _).
  - unfold execute_update_rationale in H. by res_inv H.
  - by apply execute_execute_shape in H as (p & st & _ & _ & _ & -> & _).
  - by apply execute_veto_shape in H as (p & st & vc & _ & _ & _ & _ & _ & -> & _).
  - by apply execute_close_shape in H as (p & _ & _ & -> & _).
Qed.
Lemma stranger_cannot_propose O s b a pm r s' subs :
  s_policy s = Module r -> a <> r -> handle O s b a (Propose pm) = Ok (s', subs) -> False.
Proof.
  intros Hp Ha H. cbn [handle] in H. apply execute_propose_shape in H as (? & ? & ? & ? & H & _).
  rewrite Hp in H. cbn [is_permitted] in H. apply Ha. apply N.eqb_eq in H. congruence.
Qed.

Lemma jstep_refl b j : jinv b j -> jstep_ok b j j [].
Proof.
  intros HI. constructor; try done.
  - apply jle_refl.
  - intros x Hx. by apply elem_of_nil in Hx.
  - intros k. cbn [lsum]. lia.
  - intros k. cbn [lsum]. lia.
  - intros id. cbn [lsum]. lia.
Qed.

Lemma alone_1 x pre b a m post subs :
  left_alone x [ECall pre b a m post subs] ->
  forall f v d, m = ZPre f v (PWithdraw d) ->
    match d with
    | Some d => d <> Native x
    | None => forall e, q_deposit (j_q (z_j pre)) = Some e -> d_denom e <> Native x
    end.
Proof. intros H f v d ->. apply (H pre b a f v d post subs). left. Qed.
Lemma kept_1 pre b a m post subs :
  kept [ECall pre b a m post subs] ->
    match m with
    | ZPre _ _ (PWithdraw _) => False
    | ZPre _ _ (PUpdateConfig (Some d) _) => exists x, d_denom d = Native x
    | ZSingle (UpdatePreProposeInfo _) => False
    | _ => True
    end.
Proof. intros H. apply (H pre b a m post subs). left. Qed.

Lemma gap_step n0 b s s' subs :
  zinv b s -> jle (z_j s) (z_j s') -> zq n0 s -> zq n0 s' -> j_paid (z_j s') = j_paid (z_j s) ->
  (forall id, lsum (jcompleted id) subs = finished (j_s (z_j s')) id - finished (j_s (z_j s)) id) ->
  forall id, gap s' id = gap s id + lsum (jcompleted id) subs * hd (z_j s') id.
Proof.
  intros HI HL HQ HQ' Ep Hc id. unfold gap, cnt. rewrite Ep, Hc.
  destruct (Z.le_gt_cases id (s_count (j_s (z_j s)))) as [Hle|Hgt].
  - rewrite (hd_same n0 b s s' id HI HL HQ HQ' Hle). lia.
  - assert (finished (j_s (z_j s)) id = 0) as ->; [|lia]. unfold finished.
    destruct (s_props (j_s (z_j s)) !! id) as [p|] eqn:E; [|done].
    pose proof (proj1 (wi_ids _ _ (ji_w _ _ (zi_j _ _ HI)) id) (mk_is_Some _ _ E)). lia.
Qed.

Lemma in_single y ss rest :
  FromSingle y ∈ map FromSingle ss ++ map FromPre rest -> y ∈ ss.
Proof.
  intros Hx. apply elem_of_app in Hx as [Hx|Hx];
    apply elem_of_list_In, in_map_iff in Hx as (z & E & Hz); [|done].
  injection E as ->. by apply elem_of_list_In.
Qed.
Lemma in_pre y ss rest : FromPre y ∈ map FromSingle ss ++ map FromPre rest -> y ∈ rest.
Proof.
  intros Hx. apply elem_of_app in Hx as [Hx|Hx];
    apply elem_of_list_In, in_map_iff in Hx as (z & E & Hz); [done|].
  injection E as ->. by apply elem_of_list_In.
Qed.
Lemma lsum_completed id ss rest :
  lsum (jcompleted id) (map FromSingle ss ++ map FromPre rest) = lsum (sub_completed id) ss.
Proof.
  rewrite lsum_app, (lsum_map_single _ (sub_completed id)), (lsum_map_pre _ (fun _ => 0)) by done.
  rewrite (lsum_zero (fun _ => 0)) by done. lia.
Qed.

Lemma zhandle_step O n0 b s a m s' subs :
  zinv b s -> zhandle O s b a m = Ok (s', subs) ->
  zinv b s' /\ zpend n0 b s [ECall s b a m s' subs] s' subs.
Proof.
  intros HI H.
  assert (jstep_ok b (z_j s) (z_j s') subs -> coins_pos (j_q (z_j s')) ->
    (forall x, solv x s -> solv x s') ->
    (forall x to n, left_alone x [ECall s b a m s' subs] ->
       FromPre (XPay RWithdraw (Native x) to n) ∉ subs) ->
    (kept [ECall s b a m s' subs] -> zq n0 s ->
     zq n0 s' /\
     (forall r id st, FromSingle (SCompleted r id st) ∈ subs -> r = j_self (z_j s')) /\
     (forall x, FromSingle x ∈ subs -> no_inst x) /\
     (forall id, lsum (jcompleted id) subs = finished (j_s (z_j s')) id - finished (j_s (z_j s)) id)) ->
    zinv b s' /\ zpend n0 b s [ECall s b a m s' subs] s' subs) as Hgen.
  { intros SO Hpos Hsolv Hnw Hk.
    assert (forall w, w <> RWithdraw ->
      cnt w (z_j s') - cnt w (z_j s) + lsum (sends w) subs <= due w (z_j s') - due w (z_j s)) as Hc.
    { intros [id|i|] Hw; [..|done]; unfold cnt; cbn [due]; rewrite (js_paid _ _ _ _ SO).
      - change (sends (RCompleted id)) with (jcompleted id). pose proof (js_completed _ _ _ _ SO id). lia.
      - pose proof (js_reject _ _ _ _ SO i) as Hr. unfold gap_reject in Hr.
        rewrite (js_paid _ _ _ _ SO) in Hr. change (sends (RRejected i)) with (jreject i). lia. }
    split.
    - constructor; [apply SO|done|]. intros w Hw. specialize (Hc w Hw).
      pose proof (zi_cnt _ _ HI w Hw).
      assert (0 <= lsum (sends w) subs) by (apply lsum_nonneg; intros; apply sends_nonneg). lia.
    - split; [apply SO|]. split; [apply SO|]. split; [|split].
      + intros w Hw. split; [by apply HI|auto].
      + intros x Hl Hs. split; [auto|]. split; [apply Forall_singleton; exact I|]. intros to n. by apply Hnw.
      + intros Hkk HQ. destruct (Hk Hkk HQ) as (K1 & K2 & K3 & K4).
        split; [done|]. split; [done|]. split; [done|].
        eapply gap_step; try done; apply SO. }
  destruct m as [m|f v m|d n]; cbn [zhandle] in H.
  - destruct (a =? j_self (z_j s))%N eqn:Ea; [discriminate|]. apply N.eqb_neq in Ea. cbn [negb] in H.
    destruct (jhandle O (z_j s) b a (JSingle m)) as [[j' sb]|] eqn:Ej; [|discriminate].
    injection H as <- <-.
    pose proof (jhandle_step O b (z_j s) a _ j' sb (zi_j _ _ HI) Ej) as SO.
    cbn [jhandle] in Ej. destruct (handle O (j_s (z_j s)) b a m) as [[s1 ss]|] eqn:Eh; [|discriminate].
    injection Ej as <- <-. cbn [z_j] in *. apply Hgen; cbn [z_j]; clear Hgen.
    + done.
    + apply HI.
    + intros x Hs. exact Hs.
    + intros x to n _ Hx. rewrite <- (app_nil_r (map FromSingle ss)) in Hx.
      apply (in_pre _ ss []) in Hx. by apply elem_of_nil in Hx.
    + intros Hk HQ. pose proof (kept_1 _ _ _ _ _ _ Hk) as Hm.
      assert (forall i, m <> UpdatePreProposeInfo i) as Hni by (intros i ->; done).
      assert (forall pm, m <> Propose pm) as Hnp.
      { intros pm ->. eapply stranger_cannot_propose; [apply HQ|exact Ea|exact Eh]. }
      destruct (handle_policy O _ b a m s1 ss Eh Hni) as [Epol Hinst].
      pose proof (handle_count O _ b a m s1 ss Eh Hnp) as Ec.
      destruct HQ as [Q1 Q2 Q3 Q4 Q5 Q6 Q7]. split; [|split; [|split]].
      * constructor; cbn [z_j j_s j_q j_self z_held]; rewrite ?Epol, ?Ec; try done.
      * intros r id st Hx. rewrite <- (app_nil_r (map FromSingle ss)) in Hx.
        apply (in_single _ ss []) in Hx.
        destruct (handle_completed_at O b _ a m s1 ss r id st Eh Hx) as [_ E]. cbn [j_self]. congruence.
      * intros x Hx. rewrite <- (app_nil_r (map FromSingle ss)) in Hx.
        apply (in_single _ ss []) in Hx. rewrite Forall_forall in Hinst. auto.
      * intros id. rewrite (lsum_map_single _ (sub_completed id)) by done. cbn [j_s].
        eapply handle_completed_exact; [apply HI|exact Q2|exact Eh].
  - destruct (a =? j_self (z_j s))%N eqn:Ea; [discriminate|]. apply N.eqb_neq in Ea. cbn [negb] in H.
    destruct (forallb _ f) eqn:Ef; [|discriminate].
    assert (Forall (fun c : N * Z => 0 <= c.2) f) as Hf.
    { apply Forall_forall. intros c Hc. apply elem_of_list_In in Hc.
      rewrite forallb_forall in Ef. specialize (Ef c Hc). lia. }
    destruct (jhandle O (z_j s) b a _) as [[j' sb]|] eqn:Ej; [|discriminate].
    injection H as <- <-.
    pose proof (jhandle_step O b (z_j s) a _ j' sb (zi_j _ _ HI) Ej) as SO.
    destruct (jpre_inv2 O (z_j s) b a _ m j' sb Ej)
      as (q' & xs & ss & rest & Ha & Hh & Eq & Eself & -> & Hrest & Hs). cbn [e_funds e_power e_balance] in Hh.
    set (e := PEnv f v _ _) in Hh.
    assert (q_deposits (j_q (z_j s)) !! e_next e = None) as Hnew.
    { destruct (q_deposits (j_q (z_j s)) !! e_next e) eqn:E; [|done].
      pose proof (ji_ids _ _ (zi_j _ _ HI) (e_next e) ltac:(eauto)). cbn [e e_next] in *. lia. }
    destruct (pre_handle_owed _ e a m q' xs (j_paid (z_j s)) (ji_q _ _ (zi_j _ _ HI)) (zi_pos _ _ HI) Hf
      Hnew Hh) as [Hpos Howed].
    pose proof (pre_step (j_q (z_j s)) e a m q' xs (ji_q _ _ (zi_j _ _ HI)) Hnew Hh) as ST.
    assert (forall x, solv x s -> solv x (ZState j' (receive_coins (z_held s) f))) as Hsolv.
    { intros x. unfold solv. cbn [z_j z_held]. rewrite !unreturned_owed, (js_paid _ _ _ _ SO), Eq.
      rewrite (receive_coins_add f (z_held s)). specialize (Howed x). cbn [e e_funds] in Howed.
      pose proof (receive_coins_nonneg f (Native x) Hf). destruct (asks m); lia. }
    apply Hgen; cbn [z_j]; clear Hgen.
    + done.
    + by rewrite Eq.
    + done.
    + intros x to n Hl Hx. apply in_pre in Hx. apply Hrest in Hx.
      destruct (withdraw_denom _ e a m q' xs _ _ _ (ji_q _ _ (zi_j _ _ HI)) Ha Hh Hx) as (d & -> & Hd).
      pose proof (alone_1 _ _ _ _ _ _ _ Hl f v d eq_refl) as Hn. destruct d as [d|]; [done|].
      destruct Hd as (c & E1 & E2). by apply (Hn c E1).
    + intros Hk HQ. pose proof (kept_1 _ _ _ _ _ _ Hk) as Hm.
      assert (s_policy (j_s j') = s_policy (j_s (z_j s)) /\ Forall no_inst ss) as [Epol Hinst].
      { destruct Hs as [(pm & -> & Hp)|(_ & -> & ->)]; [|done].
        by eapply (handle_policy O); [exact Hp|]. }
      destruct HQ as [Q1 Q2 Q3 Q4 Q5 Q6 Q7].
      destruct (pre_handle_recs _ e a m q' xs (ji_q _ _ (zi_j _ _ HI)) Hh) as (R1 & R2 & R3); try done.
      { destruct m as [|[]| | | | | | | | |]; done. }
      split; [|split; [|split]].
      * constructor; cbn [z_j]; rewrite ?Epol, ?Eself, ?Eq; try done; [intros x; by apply Hsolv|intros id|].
        2:{ pose proof (jl_count _ _ (js_le _ _ _ _ SO)). lia. }
         destruct Hs as [(pm & -> & Hp)|(Hno & -> & ->)].
        -- rewrite (propose_counts _ _ _ _ _ _ _ Hp). split.
           ++ intros Hi. destruct (so_new _ _ _ _ _ _ ST id Hi) as [Ho|[-> _]].
              ** apply Q6 in Ho. lia.
              ** cbn [e e_next]. lia.
           ++ intros Hi. destruct (Z.eq_dec id (s_count (j_s (z_j s)) + 1)) as [->|Hne].
              ** exact (pre_handle_new _ e a m q' pm rest (ji_q _ _ (zi_j _ _ HI)) Hh Ha).
              ** destruct (proj2 (Q6 id) ltac:(lia)) as [r Hr].
                 exists r. by apply (ql_deposits _ _ (so_le _ _ _ _ _ _ ST)).
        -- split.
           ++ intros Hi. destruct (so_new _ _ _ _ _ _ ST id Hi) as [Ho|[_ (pm & rs & ->)]].
              ** by apply Q6.
              ** by destruct (Hno pm rs).
           ++ intros Hi. destruct (proj2 (Q6 id) Hi) as [r Hr].
              exists r. by apply (ql_deposits _ _ (so_le _ _ _ _ _ _ ST)).
      * intros r id st Hx. apply in_single in Hx.
        destruct Hs as [(pm & -> & Hp)|(_ & _ & ->)]; [|by apply elem_of_nil in Hx].
        destruct (handle_completed_at O b _ _ _ _ ss r id st Hp Hx) as [_ E]. congruence.
      * intros x Hx. apply in_single in Hx. rewrite Forall_forall in Hinst. auto.
      * intros id. rewrite lsum_completed.
        destruct Hs as [(pm & -> & Hp)|(_ & -> & ->)]; [|cbn [lsum]; lia].
        eapply handle_completed_exact; [apply HI|exact Q2|exact Hp].
  - destruct (0 <=? n) eqn:En; [|discriminate]. injection H as <- <-. apply Hgen; cbn [z_j]; clear Hgen.
    + apply jstep_refl, HI.
    + apply HI.
    + intros x. unfold solv. cbn [z_j z_held]. unfold receive. destruct (decide _); lia.
    + intros x to k _ Hx. by apply elem_of_nil in Hx.
    + intros _ [Q1 Q2 Q3 Q4 Q5 Q6 Q7]. split; [|split; [|split]].
      * constructor; cbn [z_j z_held]; try done. intros x. specialize (Q1 x). unfold solv in *.
        cbn [z_j z_held]. unfold receive. destruct (decide _); lia.
      * intros r id st Hx. by apply elem_of_nil in Hx.
      * intros x Hx. by apply elem_of_nil in Hx.
      * intros id. cbn [lsum]. lia.
Qed.
