(** A pre-propose module joined to a multiple-choice module: invariants over histories. *)
From Verif Require Import Base BaseProofs Exec ExecProofs VotingModel HooksModel PreModel
  PreSpec PreProofs PreJoint.
From Verif Require Import MultModel MultSpec MultProofs MultLife PreMultModel PreMultSpec
  PreMultDone.

(** A payment agrees with the record it settles. *)
Definition mpaid_ok (j : mjstate) (p : paid) : Prop :=
  match pd_why p with
  | RCompleted id => exists d a st,
      q_deposits (mj_q j) !! id = Some (Some d, a) /\ completed_at (mj_s j) id st /\
      pd_denom p = d_denom d /\ pd_amount p = d_amount d /\
      pd_to p = (if should_refund st (d_refund d) then a else q_dao (mj_q j))
  | RRejected i => exists r d,
      q_completed (mj_q j) !! i = Some r /\ a_status r = ARejected /\ a_deposit r = Some d /\
      pd_denom p = d_denom d /\ pd_amount p = d_amount d /\
      pd_to p = (if decide (d_refund d = Always) then a_proposer r else q_dao (mj_q j))
  | RWithdraw => pd_to p = q_dao (mj_q j)
  end.
Definition mtaken_ok (j : mjstate) (t : taken) : Prop :=
  exists d a, rec (mj_q j) (tk_key t) = Some (Some d, a) /\
    t = Taken (tk_key t) (d_denom d) a (d_amount d).

Record mjinv (b : block) (j : mjstate) : Prop := {
  mji_w : winv b (mj_s j);
  mji_q : qinv (mj_q j);
  mji_kind : q_kind (mj_q j) = Plain;
  mji_ids : forall id, is_Some (q_deposits (mj_q j) !! id) -> 1 <= id <= s_count (mj_s j);
  mji_taken : forall t, t ∈ mj_taken j -> mtaken_ok j t;
  mji_paid : forall p, p ∈ mj_paid j -> mpaid_ok j p }.
Definition mjpend (b : block) (j : mjstate) (x : mjsub) : Prop :=
  match x with
  | FromMult x =>
      pend b (mj_s j) x /\
      forall r id st, x = SCompleted r id st -> completed_at (mj_s j) id st
  | FromBase x =>
      xpend (mj_q j) x /\
      (forall dn to n, x = XPay RWithdraw dn to n -> to = q_dao (mj_q j))
  end.

(** What only grows along a history. *)
Record mjle (j j' : mjstate) : Prop := {
  mjl_q : qle (mj_q j) (mj_q j');
  mjl_self : mj_self j' = mj_self j;
  mjl_count : s_count (mj_s j) <= s_count (mj_s j');
  mjl_comp : forall id st, completed_at (mj_s j) id st -> completed_at (mj_s j') id st;
  mjl_done : forall id, done_at (mj_s j) id -> done_at (mj_s j') id }.
Lemma mjle_refl j : mjle j j.
Proof. constructor; eauto using qle_refl; lia. Qed.
Lemma mjle_trans a b c : mjle a b -> mjle b c -> mjle a c.
Proof.
  intros [A1 A2 A3 A4 A5] [B1 B2 B3 B4 B5].
  constructor; eauto using qle_trans; [congruence|lia].
Qed.

Lemma mpaid_ok_mono j j' p : mjle j j' -> mpaid_ok j p -> mpaid_ok j' p.
Proof.
  intros [HL _ _ HC _]. unfold mpaid_ok. rewrite (ql_dao _ _ HL). destruct (pd_why p); [..|done].
  - intros (d & a & st & H1 & H2 & H3). exists d, a, st.
    split; [by apply (ql_deposits _ _ HL)|]. split; [by apply HC|done].
  - intros (r & d & H1 & H2). exists r, d. split; [by apply (ql_completed _ _ HL)|done].
Qed.
Lemma mtaken_ok_mono j j' t : qinv (mj_q j') -> mjle j j' -> mtaken_ok j t -> mtaken_ok j' t.
Proof.
  intros Hq [HL _ _ _ _] (d & a & H1 & H2). exists d, a. split; [by eapply rec_stable|done].
Qed.
Lemma mjpend_mono b j j' x : qinv (mj_q j') -> mjle j j' -> mjpend b j x -> mjpend b j' x.
Proof.
  intros Hq [HL _ _ HC HD]. destruct x as [x|x]; simpl.
  - intros [HP H]. split.
    + intros d id ms c ->. apply HD. by eapply HP.
    + intros r id st ->. apply HC. by eapply H.
  - intros [HP H]. split; [by eapply xpend_stable|].
    intros dn to n ->. rewrite (ql_dao _ _ HL). by eapply H.
Qed.

(** ** Accounts *)
Definition mjtake (k : key) (x : mjsub) : Z :=
  match x with FromBase x => is_take k x | FromMult _ => 0 end.
Definition mjreject (i : Z) (x : mjsub) : Z :=
  match x with FromBase x => is_reject_pay i x | FromMult _ => 0 end.
Definition mjcompleted (id : Z) (x : mjsub) : Z :=
  match x with FromMult x => sub_completed id x | FromBase _ => 0 end.
Definition mgap_taken (k : key) (j : mjstate) : Z :=
  count_key k (mj_taken j) - has_deposit (rec (mj_q j) k).
Definition mgap_reject (i : Z) (j : mjstate) : Z :=
  count_why (RRejected i) (mj_paid j) - rejected_deposit (mj_q j) i.

Lemma lsum_map_single (f : mjsub -> Z) (g : psub ovote -> Z) l :
  (forall x, f (FromMult x) = g x) -> lsum f (map FromMult l) = lsum g l.
Proof. intros H. induction l as [|x l IH]; simpl; [done|]. by rewrite H, IH. Qed.
Lemma lsum_map_pre (f : mjsub -> Z) (g : xsub -> Z) l :
  (forall x, f (FromBase x) = g x) -> lsum f (map FromBase l) = lsum g l.
Proof. intros H. induction l as [|x l IH]; simpl; [done|]. by rewrite H, IH. Qed.

Lemma single_count O s b a m s' subs :
  winv b s -> handle O s b a m = Ok (s', subs) -> s_count s <= s_count s'.
Proof.
  intros HI H. apply handle_prims in H. clear a m subs.
  induction H as [|s1 s2 s3 Hp Hr IH]; [lia|].
  specialize (IH (prim_winv _ _ _ _ Hp HI)).
  destruct Hp; simpl in *; try lia.
Qed.

Record mjstep_ok (b : block) (j j' : mjstate) (subs : list mjsub) : Prop := {
  mjs_inv : mjinv b j';
  mjs_le : mjle j j';
  mjs_pend : forall x, x ∈ subs -> mjpend b j' x;
  mjs_taken : forall k, mgap_taken k j' - mgap_taken k j = - lsum (mjtake k) subs;
  mjs_reject : forall i, mgap_reject i j' - mgap_reject i j = - lsum (mjreject i) subs;
  mjs_paid : mj_paid j' = mj_paid j;
  mjs_completed : forall id,
    lsum (mjcompleted id) subs <= finished (mj_s j') id - finished (mj_s j) id }.


Lemma mjle_intro O b j j' :
  winv b (mj_s j) -> rtc (prim O b) (mj_s j) (mj_s j') -> qle (mj_q j) (mj_q j') ->
  mj_self j' = mj_self j -> mjle j j'.
Proof.
  intros Hw Hr HL Hs. constructor; [done|done|..].
  - clear HL Hs. induction Hr as [|s1 s2 s3 Hp Hr IH]; [lia|].
    specialize (IH (prim_winv _ _ _ _ Hp Hw)). destruct Hp; simpl in *; lia.
  - intros id st. by apply (completed_at_prims O b).
  - intros id. by apply (done_at_prims O b).
Qed.

Lemma single_step O b j a m s' subs :
  mjinv b j -> handle O (mj_s j) b a m = Ok (s', subs) ->
  mjstep_ok b j (MJState (mj_self j) s' (mj_q j) (mj_taken j) (mj_paid j)) (map FromMult subs).
Proof.
  intros HI H. set (j' := MJState _ _ _ _ _).
  assert (mjle j j') as HL.
  { apply (mjle_intro O b); [apply HI|by eapply handle_prims|apply qle_refl|done]. }
  constructor.
  - constructor; simpl.
    + eapply handle_winv; [|exact H]. apply HI.
    + apply HI.
    + apply HI.
    + intros id Hid. pose proof (mji_ids _ _ HI id Hid) as Hb. pose proof (mjl_count _ _ HL) as Hc. unfold j' in Hc. simpl in Hc. lia.
    + intros t Ht. eapply (mtaken_ok_mono j j'); [apply HI|done|by apply HI].
    + intros p Hp. eapply (mpaid_ok_mono j j'); [done|by apply HI].
  - done.
  - intros x Hx. apply elem_of_list_In, in_map_iff in Hx as (y & <- & Hy).
    apply elem_of_list_In in Hy. simpl. split; [by eapply handle_pend|].
    intros r id st ->. by eapply handle_completed_at.
  - intros k. unfold mgap_taken. simpl. rewrite (lsum_map_single _ (fun _ => 0)) by done.
    rewrite lsum_zero by done. lia.
  - intros i. unfold mgap_reject. simpl. rewrite (lsum_map_single _ (fun _ => 0)) by done.
    rewrite lsum_zero by done. lia.
  - done.
  - intros id. simpl. rewrite (lsum_map_single _ (sub_completed id)) by done.
    eapply handle_completed; [|exact H]. apply HI.
Qed.

Lemma propose_counts O s b a pm s' subs :
  handle O s b a (Propose pm) = Ok (s', subs) -> s_count s' = s_count s + 1.
Proof.
  simpl. intros H. apply execute_propose_shape in H
    as (proposer & st & s1 & subs2 & cs & _ & _ & _ & _ & _ & Hst & -> & -> & Hv).
  destruct (pm_vote pm) as [[v r]|]; [|by destruct Hv as [-> _]].
  apply execute_vote_shape in Hv as (p & votes1 & st2 & _ & _ & _ & _ & _ & _ & -> & _). done.
Qed.

Lemma elem_map_pre x l : x ∈ map FromBase l -> exists y, x = FromBase y /\ y ∈ l.
Proof.
  intros Hx. apply elem_of_list_In, in_map_iff in Hx as (y & <- & Hy).
  apply elem_of_list_In in Hy. eauto.
Qed.


(** The pre-propose half of a step, before its propose message runs. *)
Lemma pre_half b j e a m q' subs :
  mjinv b j -> a <> q_module (mj_q j) -> e_next e = s_count (mj_s j) + 1 ->
  pre_handle (mj_q j) e a m = Ok (q', subs) ->
  step_ok (mj_q j) e a m q' subs.
Proof.
  intros HI Ha He H. apply pre_step; [apply HI| |done].
  destruct (q_deposits (mj_q j) !! e_next e) eqn:E; [|done].
  pose proof (mji_ids _ _ HI (e_next e) ltac:(eauto)). lia.
Qed.

(** Only a submission makes the plain module send a proposal. *)
Lemma plain_quiet q e a m q' subs pm rest :
  q_kind q = Plain -> a <> q_module q -> to_base (MOther m) = Ok m ->
  pre_handle q e a m = Ok (q', subs) -> subs <> XPropose pm :: rest.
Proof.
  intros Hk Ha Hm H ->.
  assert (quiet_msg m \/ ~ quiet_msg m) as [Hq|Hq] by (destruct m; simpl; tauto).
  - destruct (quiet_shape q e a m q' _ Hq H) as (_ & _ & _ & Hs).
    destruct (Hs (XPropose pm)) as [(dn & n & ?)|(? & _)]; [by left|done|done].
  - destruct m; simpl in Hq; try tauto; [done|..]; simpl in H; by rewrite Hk in H.
Qed.
Lemma to_base_other m m' : to_base (MOther m) = Ok m' -> m' = m /\ to_base (MOther m) = Ok m.
Proof.
  intros H. assert (m' = m) as -> by (destruct m; simpl in H; congruence). done.
Qed.

Lemma mjpre_inv O b j a e0 m j' subs :
  mjinv b j -> mjhandle O j b a (MPre e0 m) = Ok (j', subs) ->
  let e := PEnv (e_funds e0) (e_power e0) (e_balance e0) (s_count (mj_s j) + 1) in
  a <> q_module (mj_q j) /\
  exists m' q' xs, to_base m = Ok m' /\ pre_handle (mj_q j) e a m' = Ok (q', xs) /\
  mj_q j' = q' /\ mj_self j' = mj_self j /\ mj_paid j' = mj_paid j /\
  mj_taken j' = mj_taken j ++ native_taken (mj_q j) e a m' /\
  ((exists pm pm0 rest ssubs, m = MPropose pm /\ xs = XPropose pm0 :: rest /\
      handle O (mj_s j) b (mj_self j) (Propose (with_sender pm a)) = Ok (mj_s j', ssubs) /\
      subs = map FromMult ssubs ++ map FromBase rest) \/
   ((forall pm, m <> MPropose pm) /\ (forall pm rest, xs <> XPropose pm :: rest) /\
    mj_s j' = mj_s j /\ subs = map FromBase xs)).
Proof.
  intros HI H. cbn [mjhandle] in H.
  destruct (a =? q_module (mj_q j))%N eqn:Ea; [discriminate|]. apply N.eqb_neq in Ea.
  cbn [negb] in H. set (e := PEnv _ _ _ _) in *. simpl. split; [done|].
  destruct (to_base m) as [m'|] eqn:Em; [|discriminate].
  destruct (pre_handle (mj_q j) e a m') as [[q' xs]|] eqn:Eh; [|discriminate].
  exists m', q', xs. split; [done|]. split; [done|].
  destruct m as [pm|m].
  - injection Em as <-. pose proof Eh as Eh'. simpl in Eh'. rewrite (mji_kind _ _ HI) in Eh'.
    destruct (pre_propose_shape (mj_q j) e a stub q' xs) as (takes & _ & _ & _ & Exs);
      [apply HI|done|].
    rewrite Exs in H.
    destruct (handle O (mj_s j) b (mj_self j) _) as [[s' ssubs]|] eqn:Es; [|discriminate].
    injection H as <- <-. simpl. do 4 (split; [done|]). left.
    eexists pm, _, _, ssubs. split; [done|]. split; [exact Exs|]. split; [done|]. done.
  - destruct (to_base_other m m' Em) as [-> Hm]. injection H as <- <-. simpl.
    do 4 (split; [done|]). right. split; [done|]. split; [|done].
    intros pm rest. eapply plain_quiet; [apply HI|exact Ea|exact Hm|exact Eh].
Qed.

Lemma mjpre_step O b j a e0 m j' subs :
  mjinv b j -> mjhandle O j b a (MPre e0 m) = Ok (j', subs) -> mjstep_ok b j j' subs.
Proof.
  intros HI H. apply mjpre_inv in H; [|done]. cbv zeta in H.
  set (e := PEnv _ _ _ _) in H.
  destruct H as (Ea & m' & q' & xs & Em & Eh & Hq & Hself & Hpaid & Htaken & Hcase).
  pose proof (pre_half b j e a m' q' xs HI Ea eq_refl Eh) as SO.
  assert (forall x dn to n, x ∈ xs -> x = XPay RWithdraw dn to n -> to = q_dao q') as Hwd.
  { intros x dn to n Hx ->. rewrite (ql_dao _ _ (so_le _ _ _ _ _ _ SO)).
    eapply withdraw_to_dao; [apply HI|exact Eh|exact Hx]. }
  assert (forall s' ssubs rest,
      rtc (prim O b) (mj_s j) s' -> winv b s' ->
      (forall id, is_Some (q_deposits q' !! id) -> 1 <= id <= s_count s') ->
      (forall x, x ∈ rest -> x ∈ xs) ->
      (forall k, lsum (is_take k) rest = lsum (is_take k) xs) ->
      (forall i, lsum (is_reject_pay i) rest = lsum (is_reject_pay i) xs) ->
      (forall x, x ∈ ssubs -> pend b s' x) ->
      (forall r id st, SCompleted r id st ∈ ssubs -> completed_at s' id st) ->
      (forall id, lsum (sub_completed id) ssubs <= finished s' id - finished (mj_s j) id) ->
      mjstep_ok b j
        (MJState (mj_self j) s' q' (mj_taken j ++ native_taken (mj_q j) e a m') (mj_paid j))
        (map FromMult ssubs ++ map FromBase rest)) as Hgen.
  { intros s' ssubs rest Hr Hw Hids Hin Htk Hrj Hpd Hcm Hfin.
    set (j1 := MJState _ _ _ _ _).
    assert (mjle j j1) as HL.
    { apply (mjle_intro O b); [apply HI|done|apply SO|done]. }
    constructor.
    - constructor; simpl.
      + done.
      + apply SO.
      + rewrite (ql_kind _ _ (so_le _ _ _ _ _ _ SO)). apply HI.
      + done.
      + intros t Ht. apply elem_of_app in Ht as [Ht|Ht].
        * eapply (mtaken_ok_mono j j1); [apply SO|done|by apply HI].
        * destruct (so_native _ _ _ _ _ _ SO t Ht) as (d & pr & H1 & H2). by exists d, pr.
      + intros p Hp. eapply (mpaid_ok_mono j j1); [done|by apply HI].
    - done.
    - intros x Hx. apply elem_of_app in Hx as [Hx|Hx].
      + apply elem_of_list_In, in_map_iff in Hx as (y & <- & Hy).
        apply elem_of_list_In in Hy. simpl. split; [auto|].
        intros r id st ->. eauto.
      + apply elem_map_pre in Hx as (y & -> & Hy). simpl. split.
        * apply (so_pend _ _ _ _ _ _ SO Ea). auto.
        * intros dn to n ->. eauto.
    - intros k. unfold mgap_taken. simpl. rewrite lsum_app.
      rewrite (lsum_map_single _ (fun _ => 0)) by done. rewrite lsum_zero by done.
      rewrite (lsum_map_pre _ (is_take k)) by done. rewrite Htk, count_key_app.
      pose proof (so_take _ _ _ _ _ _ SO k). lia.
    - intros i. unfold mgap_reject. simpl. rewrite lsum_app.
      rewrite (lsum_map_single _ (fun _ => 0)) by done. rewrite lsum_zero by done.
      rewrite (lsum_map_pre _ (is_reject_pay i)) by done. rewrite Hrj.
      pose proof (so_reject _ _ _ _ _ _ SO i). lia.
    - done.
    - intros id. simpl. rewrite lsum_app.
      rewrite (lsum_map_single _ (sub_completed id)) by done.
      rewrite (lsum_map_pre _ (fun _ => 0)) by done. rewrite (lsum_zero (fun _ => 0)) by done.
      specialize (Hfin id). lia. }
  destruct j' as [self1 s1 q1 tk1 pd1]. cbn [mj_self mj_s mj_q mj_taken mj_paid] in Hq, Hself, Hpaid, Htaken, Hcase. subst self1 q1 tk1 pd1.
  destruct Hcase as [(pm & pm0 & rest & ssubs & -> & -> & Es & ->)|(_ & Hno & -> & ->)].
  - apply Hgen.
    + by eapply handle_prims.
    + eapply handle_winv; [|exact Es]. apply HI.
    + intros id Hid. rewrite (propose_counts _ _ _ _ _ _ _ Es).
      destruct (so_new _ _ _ _ _ _ SO id Hid) as [Ho|[-> _]].
      * pose proof (mji_ids _ _ HI _ Ho). lia.
      * simpl. pose proof (wi_count _ _ (mji_w _ _ HI)). lia.
    + intros x Hx. by right.
    + intros k. done.
    + intros i. done.
    + intros x Hx. by eapply handle_pend.
    + intros r id st Hx. by eapply handle_completed_at.
    + intros id. eapply handle_completed; [|exact Es]. apply HI.
  - apply (Hgen (mj_s j) [] xs); simpl; try done.
    + apply HI.
    + intros id Hid. destruct (so_new _ _ _ _ _ _ SO id Hid) as [Ho|[-> (pm & rest & ->)]].
      * by apply (mji_ids _ _ HI).
      * exfalso. by eapply Hno.
    + intros x Hx. by apply elem_of_nil in Hx.
    + intros r id st Hx. by apply elem_of_nil in Hx.
    + intros id. lia.
Qed.

Lemma mjhandle_step O b j a m j' subs :
  mjinv b j -> mjhandle O j b a m = Ok (j', subs) -> mjstep_ok b j j' subs.
Proof.
  intros HI H. destruct m as [m|e m]; [|by eapply mjpre_step].
  cbn [mjhandle] in H. destruct (handle O (mj_s j) b a m) as [[s' ss]|] eqn:E; [|discriminate].
  injection H as <- <-. by eapply single_step.
Qed.

(** ** Sub-messages *)
Lemma prims_winv O b s s' : rtc (prim O b) s s' -> winv b s -> winv b s'.
Proof. induction 1 as [|s1 s2 s3 Hp _ IH]; [done|]. intros W. apply IH. by eapply prim_winv. Qed.

Lemma mjfail_step b j x j' :
  mjinv b j -> mjpend b j x -> mjon_fail j b x = Ok j' ->
  mjinv b j' /\ mjle j j' /\ (exists y, x = FromMult y) /\
  mj_q j' = mj_q j /\ mj_taken j' = mj_taken j /\ mj_paid j' = mj_paid j /\
  forall id, finished (mj_s j') id = finished (mj_s j) id.
Proof.
  intros HI HP H. destruct x as [x|x]; simpl in H; [|discriminate].
  destruct (on_fail (mj_s j) b x) as [s'|] eqn:E; [|discriminate]. injection H as <-.
  destruct HP as [HP _].
  set (j' := MJState _ _ _ _ _).
  assert (s_count s' = s_count (mj_s j)) as Hc.
  { destruct (on_fail_shape _ _ _ _ E) as [(d & i & ms & p & -> & Hp & ->)|(_ & _ & _ & E3 & _)];
      done. }
  assert (mjle j j') as HL.
  { constructor; simpl; [apply qle_refl|done|lia|..].
    - intros id st. by apply (completed_at_fail b _ x).
    - intros id. by apply (on_fail_done _ b x). }
  split; [|split; [done|]].
  - constructor; simpl.
    + eapply on_fail_winv; [apply HI|done|done].
    + apply HI.
    + apply HI.
    + intros id Hid. rewrite Hc. by apply (mji_ids _ _ HI).
    + intros t Ht. eapply (mtaken_ok_mono j j'); [apply HI|done|by apply HI].
    + intros p Hp. eapply (mpaid_ok_mono j j'); [done|by apply HI].
  - split; [eauto|]. repeat split; eauto. intros id. simpl. by eapply finished_fail.
Qed.

Definition is_single (x : mjsub) : Prop := exists y, x = FromMult y.


Lemma mjok_step (O : oracle) b j x d j' :
  mjinv b j -> mjpend b j x -> mjon_ok j b x d = Ok j' ->
  mjinv b j' /\ mjle j j' /\ mj_q j' = mj_q j /\
  (forall k, count_key k (mj_taken j') - count_key k (mj_taken j) = mjtake k x) /\
  (forall i, count_why (RRejected i) (mj_paid j') - count_why (RRejected i) (mj_paid j)
     = mjreject i x) /\
  (forall id, count_why (RCompleted id) (mj_paid j') - count_why (RCompleted id) (mj_paid j)
     <= mjcompleted id x) /\
  forall id, finished (mj_s j') id = finished (mj_s j) id.
Proof.
  intros HI HP H.
  assert (forall s' q' tk pd, s_count s' = s_count (mj_s j) -> rtc (prim O b) (mj_s j) s' ->
    q' = mj_q j ->
    (forall t, t ∈ tk -> t ∈ mj_taken j \/ mtaken_ok j t) ->
    (forall p, p ∈ pd -> p ∈ mj_paid j \/ mpaid_ok j p) ->
    mjinv b (MJState (mj_self j) s' q' tk pd) /\ mjle j (MJState (mj_self j) s' q' tk pd)) as Hgen.
  { intros s' q' tk pd Hc Hr -> Htk Hpd. set (j1 := MJState _ _ _ _ _).
    assert (mjle j j1) as HL.
    { apply (mjle_intro O b); [apply HI|done|apply qle_refl|done]. }
    split; [|done]. constructor; simpl.
    - eapply prims_winv; [exact Hr|apply HI].
    - apply HI.
    - apply HI.
    - intros id Hid. rewrite Hc. by apply (mji_ids _ _ HI).
    - intros t Ht. apply (mtaken_ok_mono j j1); [apply HI|done|].
      destruct (Htk t Ht) as [?|?]; [by apply HI|done].
    - intros p Hp. apply (mpaid_ok_mono j j1); [done|].
      destruct (Hpd p Hp) as [?|?]; [by apply HI|done]. }
  destruct x as [x|x].
  - cbn [mjon_ok] in H. destruct (on_ok (mj_s j) b x d) as [s'|] eqn:E; [|discriminate].
    assert (s_count s' = s_count (mj_s j)) as Hc by (destruct x; simpl in E; by injection E as <-).
    assert (rtc (prim O b) (mj_s j) s') as Hr by (apply rtc_once; by eapply on_ok_prims).
    assert (forall id, finished s' id = finished (mj_s j) id) as Hf
      by (intros; by eapply finished_ok).
    destruct HP as [_ HP].
    assert (j' = MJState (mj_self j) s' (mj_q j) (mj_taken j) (mj_paid j) \/
            exists a id st q' subs, x = SCompleted a id st /\
              pre_completed (mj_q j) (q_module (mj_q j)) id st = Ok (q', subs) /\
              j' = MJState (mj_self j) s' q' (mj_taken j) (mj_paid j ++ pays subs)) as Hcase.
    { destruct x as [| | |r id st|]; try (left; by injection H as <-).
      destruct (r =? mj_self j)%N; [|left; by injection H as <-].
      cbn [pre_handle] in H.
      destruct (pre_completed _ _ _ _) as [[q' subs]|] eqn:Ep; [|discriminate].
      injection H as <-. right. eauto 10. }
    destruct Hcase as [->|(r & id & st & q' & subs & -> & Ep & ->)].
    + destruct (Hgen s' (mj_q j) (mj_taken j) (mj_paid j)) as [A B]; eauto.
      split; [done|]. split; [done|]. simpl. split; [done|].
      split; [intros; lia|]. split; [intros; lia|]. split; [|done].
      intros id. destruct x; simpl; try lia. destruct (_ =? _); lia.
    + destruct (pays_completed (mj_q j) _ id st q' subs (mji_q _ _ HI) Ep) as (-> & Hp).
      assert (forall p, p ∈ pays subs -> mpaid_ok j p) as Hpk.
      { intros p Hin. destruct Hp as [Eq|(dd & pr & Hd & Hst & Eq)]; rewrite Eq in Hin;
          [by apply elem_of_nil in Hin|].
        apply elem_of_list_singleton in Hin as ->. simpl.
        exists dd, pr, st. eauto 10. }
      destruct (Hgen s' (mj_q j) (mj_taken j) (mj_paid j ++ pays subs)) as [A B]; eauto.
      { intros p Hin. apply elem_of_app in Hin as [Hin|Hin]; eauto. }
      split; [done|]. split; [done|]. simpl. split; [done|].
      split; [intros; lia|]. split; [|split; [|done]].
      * intros i. rewrite count_why_app.
        destruct Hp as [->|(dd & pr & Hd & Hst & ->)]; unfold count_why; simpl; lia.
      * intros id'. rewrite count_why_app.
        destruct Hp as [->|(dd & pr & Hd & Hst & ->)]; unfold count_why; simpl.
        -- destruct (_ =? _); lia.
        -- destruct (decide _) as [[= ->]|]; [rewrite Z.eqb_refl; lia|].
           destruct (_ =? _); lia.
  - destruct HP as [HP Hwd].
    destruct x as [pm|r m|k t o n|w dn to n]; cbn [mjon_ok] in H; injection H as <-.
    + split; [done|]. split; [apply mjle_refl|]. simpl.
      repeat split; intros; try lia; done.
    + split; [done|]. split; [apply mjle_refl|]. simpl.
      repeat split; intros; try lia; done.
    + destruct HP as (dd & Hrec & Hdn & Ham).
      destruct (Hgen (mj_s j) (mj_q j) (mj_taken j ++ [Taken k (Cw20 t) o n]) (mj_paid j)) as [A B];
        eauto.
      { apply rtc_refl. }
      { intros y Hy. apply elem_of_app in Hy as [Hy|Hy]; [eauto|].
        apply elem_of_list_singleton in Hy as ->. right. exists dd, o. simpl.
        split; [done|]. by rewrite Hdn, Ham. }
      split; [done|]. split; [done|]. simpl. split; [done|].
      split; [|repeat split; intros; try lia; done].
      intros k'. rewrite count_key_app. unfold count_key. simpl. lia.
    + destruct (Hgen (mj_s j) (mj_q j) (mj_taken j) (mj_paid j ++ [Paid w dn to n])) as [A B]; eauto.
      { apply rtc_refl. }
      { intros y Hy. apply elem_of_app in Hy as [Hy|Hy]; [eauto|].
        apply elem_of_list_singleton in Hy as ->. right. unfold mpaid_ok. simpl.
        destruct w as [id|i|]; simpl in HP; [done|exact HP|eauto]. }
      split; [done|]. split; [done|]. simpl. split; [done|].
      split; [intros; lia|]. split; [|split; [|done]].
      * intros i. rewrite count_why_app. unfold count_why. simpl. lia.
      * intros id. rewrite count_why_app. unfold count_why. simpl.
        destruct w as [id'|i|]; simpl in HP; [done|..]; simpl; lia.
Qed.

(** ** Histories *)
Notation mjtrace O := (trace (mjhandle O) mjon_fail mjon_ok any_msg mjinv mjpend).
Lemma joint_trace O b0 j h j' l :
  mjinv b0 j -> hist_ok b0 h -> mjrun O j h = (j', l) ->
  mjinv (hist_end b0 h) j' /\ mjtrace O b0 j l (hist_end b0 h) j'.
Proof.
  intros HI Hh Hr.
  eapply run_hist_trace; try done; [..|apply hist_all_any].
  - intros b j1 a m j2 subs HI1 _ H. destruct (mjhandle_step O b j1 a m j2 subs HI1 H). done.
  - intros b j1 x j2 HI1 HP H. by eapply mjfail_step.
  - intros b j1 x d j2 HI1 HP H. by eapply (mjok_step O).
  - intros b j1 a m j2 subs x HI1 _ H HP. destruct (mjhandle_step O b j1 a m j2 subs HI1 H).
    eapply (mjpend_mono b j1 j2); [apply mjs_inv0|done..].
  - intros b j1 x j2 y HI1 HP H HPy. destruct (mjfail_step b j1 x j2 HI1 HP H) as (A & B & _).
    eapply (mjpend_mono b j1 j2); [apply A|done..].
  - intros b j1 x d j2 y HI1 HP H HPy. destruct (mjok_step O b j1 x d j2 HI1 HP H) as (A & B & _).
    eapply (mjpend_mono b j1 j2); [apply A|done..].
  - intros b b' j1 Hle [A B C D E F]. constructor; eauto using winv_time.
Qed.

(** Telescoping. *)


Lemma mgap_taken_const O b0 j h j' l k :
  mjinv b0 j -> hist_ok b0 h -> mjrun O j h = (j', l) -> mgap_taken k j' = mgap_taken k j.
Proof.
  intros HI Hh Hr. destruct (joint_trace O b0 j h j' l HI Hh Hr) as [_ Ht].
  assert (mgap_taken k j' - mgap_taken k j =
    lsum (fun e => ev_done (mjtake k) e - ev_sent (mjtake k) e) l) as E.
  { eapply (trace_sum_eq _ _ _ _ _ _ (mgap_taken k)); [|exact Ht].
    intros e (HI1 & _ & He). destruct e as [pre b a m post subs|pre b x ok post]; simpl in *.
    - destruct He as [_ He]. destruct (mjhandle_step O b pre a m post subs HI1 He).
      rewrite mjs_taken0. lia.
    - destruct ok.
      + destruct He as [HP [d He]].
        destruct (mjok_step O b pre x d post HI1 HP He) as (_ & _ & Eq & Hk & _).
        unfold mgap_taken. rewrite Eq. specialize (Hk k). lia.
      + destruct He as [HP He].
        destruct (mjfail_step b pre x post HI1 HP He) as (_ & _ & [y ->] & Eq & Et & _).
        unfold mgap_taken. rewrite Eq, Et. simpl. lia. }
  rewrite lsum_minus, (run_hist_count _ _ _ (mjtake k) h j j' l Hr) in E. lia.
Qed.
Lemma mgap_reject_const O b0 j h j' l i :
  mjinv b0 j -> hist_ok b0 h -> mjrun O j h = (j', l) -> mgap_reject i j' = mgap_reject i j.
Proof.
  intros HI Hh Hr. destruct (joint_trace O b0 j h j' l HI Hh Hr) as [_ Ht].
  assert (mgap_reject i j' - mgap_reject i j =
    lsum (fun e => ev_done (mjreject i) e - ev_sent (mjreject i) e) l) as E.
  { eapply (trace_sum_eq _ _ _ _ _ _ (mgap_reject i)); [|exact Ht].
    intros e (HI1 & _ & He). destruct e as [pre b a m post subs|pre b x ok post]; simpl in *.
    - destruct He as [_ He]. destruct (mjhandle_step O b pre a m post subs HI1 He).
      rewrite mjs_reject0. lia.
    - destruct ok.
      + destruct He as [HP [d He]].
        destruct (mjok_step O b pre x d post HI1 HP He) as (_ & _ & Eq & _ & Hk & _).
        unfold mgap_reject. rewrite Eq. specialize (Hk i). lia.
      + destruct He as [HP He].
        destruct (mjfail_step b pre x post HI1 HP He) as (_ & _ & [y ->] & Eq & _ & Ep & _).
        unfold mgap_reject. rewrite Eq, Ep. simpl. lia. }
  rewrite lsum_minus, (run_hist_count _ _ _ (mjreject i) h j j' l Hr) in E. lia.
Qed.
(** Completion payouts are bounded by the completions. *)
Lemma completed_once O b0 j h j' l id :
  mjinv b0 j -> hist_ok b0 h -> mjrun O j h = (j', l) ->
  count_why (RCompleted id) (mj_paid j') - count_why (RCompleted id) (mj_paid j) <=
  finished (mj_s j') id - finished (mj_s j) id.
Proof.
  intros HI Hh Hr. destruct (joint_trace O b0 j h j' l HI Hh Hr) as [_ Ht].
  assert (count_why (RCompleted id) (mj_paid j') - count_why (RCompleted id) (mj_paid j) <=
    lsum (ev_done (mjcompleted id)) l) as E1.
  { eapply (trace_sum _ _ _ _ _ _ (fun j => count_why (RCompleted id) (mj_paid j)));
      [|exact Ht].
    intros e (HI1 & _ & He). destruct e as [pre b a m post subs|pre b x ok post]; simpl in *.
    - destruct He as [_ He]. destruct (mjhandle_step O b pre a m post subs HI1 He).
      rewrite mjs_paid0. lia.
    - destruct ok.
      + destruct He as [HP [d He]].
        destruct (mjok_step O b pre x d post HI1 HP He) as (_ & _ & _ & _ & _ & Hk & _).
        specialize (Hk id). lia.
      + destruct He as [HP He].
        destruct (mjfail_step b pre x post HI1 HP He) as (_ & _ & [y ->] & _ & _ & Ep & _).
        rewrite Ep. simpl. destruct y; simpl; try lia. destruct (_ =? _); lia. }
  assert (- (finished (mj_s j') id) - - (finished (mj_s j) id) <=
    lsum (fun e => - ev_sent (mjcompleted id) e) l) as E2.
  { eapply (trace_sum _ _ _ _ _ _ (fun j => - finished (mj_s j) id)); [|exact Ht].
    intros e (HI1 & _ & He). destruct e as [pre b a m post subs|pre b x ok post]; simpl in *.
    - destruct He as [_ He]. destruct (mjhandle_step O b pre a m post subs HI1 He).
      specialize (mjs_completed0 id). lia.
    - destruct ok.
      + destruct He as [HP [d He]].
        destruct (mjok_step O b pre x d post HI1 HP He) as (_ & _ & _ & _ & _ & _ & Hk).
        rewrite Hk. lia.
      + destruct He as [HP He].
        destruct (mjfail_step b pre x post HI1 HP He) as (_ & _ & _ & _ & _ & _ & Hk).
        rewrite Hk. lia. }
  assert (lsum (fun e => - ev_sent (mjcompleted id) e) l = - lsum (ev_sent (mjcompleted id)) l) as E3.
  { clear. induction l as [|e l IH]; cbn [lsum] in *; lia. }
  rewrite (run_hist_count _ _ _ (mjcompleted id) h j j' l Hr) in E1. lia.
Qed.
