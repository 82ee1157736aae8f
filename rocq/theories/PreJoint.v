(** A pre-propose module joined to its proposal module: invariants over histories. *)
From Verif Require Import Base BaseProofs Exec ExecProofs VotingModel HooksModel SingleModel
  SingleSpec SingleProofs SingleLife PreModel PreSpec PreSingle PreProofs.

(** A payment agrees with the record it settles. *)
Definition paid_ok (j : jstate) (p : paid) : Prop :=
  match pd_why p with
  | RCompleted id => exists d a st,
      q_deposits (j_q j) !! id = Some (Some d, a) /\ completed_at (j_s j) id st /\
      pd_denom p = d_denom d /\ pd_amount p = d_amount d /\
      pd_to p = (if should_refund st (d_refund d) then a else q_dao (j_q j))
  | RRejected i => exists r d,
      q_completed (j_q j) !! i = Some r /\ a_status r = ARejected /\ a_deposit r = Some d /\
      pd_denom p = d_denom d /\ pd_amount p = d_amount d /\
      pd_to p = (if decide (d_refund d = Always) then a_proposer r else q_dao (j_q j))
  | RWithdraw => pd_to p = q_dao (j_q j)
  end.
Definition taken_ok (j : jstate) (t : taken) : Prop :=
  exists d a, rec (j_q j) (tk_key t) = Some (Some d, a) /\
    t = Taken (tk_key t) (d_denom d) a (d_amount d).

Record jinv (b : block) (j : jstate) : Prop := {
  ji_w : winv b (j_s j);
  ji_q : qinv (j_q j);
  ji_ids : forall id, is_Some (q_deposits (j_q j) !! id) -> 1 <= id <= s_count (j_s j);
  ji_taken : forall t, t ∈ j_taken j -> taken_ok j t;
  ji_paid : forall p, p ∈ j_paid j -> paid_ok j p }.
Definition jpend (b : block) (j : jstate) (x : jsub) : Prop :=
  match x with
  | FromSingle x =>
      pend b (j_s j) x /\
      forall r id st, x = SCompleted r id st -> completed_at (j_s j) id st
  | FromPre x =>
      xpend (j_q j) x /\
      (forall dn to n, x = XPay RWithdraw dn to n -> to = q_dao (j_q j))
  end.

(** What only grows along a history. *)
Record jle (j j' : jstate) : Prop := {
  jl_q : qle (j_q j) (j_q j');
  jl_self : j_self j' = j_self j;
  jl_count : s_count (j_s j) <= s_count (j_s j');
  jl_comp : forall id st, completed_at (j_s j) id st -> completed_at (j_s j') id st;
  jl_done : forall id, done_at (j_s j) id -> done_at (j_s j') id }.
Lemma jle_refl j : jle j j.
Proof. constructor; eauto using qle_refl; lia. Qed.
Lemma jle_trans a b c : jle a b -> jle b c -> jle a c.
Proof.
  intros [A1 A2 A3 A4 A5] [B1 B2 B3 B4 B5].
  constructor; eauto using qle_trans; [congruence|lia].
Qed.

Lemma paid_ok_mono j j' p : jle j j' -> paid_ok j p -> paid_ok j' p.
Proof.
  intros [HL _ _ HC _]. unfold paid_ok. rewrite (ql_dao _ _ HL). destruct (pd_why p); [..|done].
  - intros (d & a & st & H1 & H2 & H3). exists d, a, st.
    split; [by apply (ql_deposits _ _ HL)|]. split; [by apply HC|done].
  - intros (r & d & H1 & H2). exists r, d. split; [by apply (ql_completed _ _ HL)|done].
Qed.
Lemma taken_ok_mono j j' t : qinv (j_q j') -> jle j j' -> taken_ok j t -> taken_ok j' t.
Proof.
  intros Hq [HL _ _ _ _] (d & a & H1 & H2). exists d, a. split; [by eapply rec_stable|done].
Qed.
Lemma jpend_mono b j j' x : qinv (j_q j') -> jle j j' -> jpend b j x -> jpend b j' x.
Proof.
  intros Hq [HL _ _ HC HD]. destruct x as [x|x]; simpl.
  - intros [HP H]. split.
    + intros d id ms c ->. apply HD. by eapply HP.
    + intros r id st ->. apply HC. by eapply H.
  - intros [HP H]. split; [by eapply xpend_stable|].
    intros dn to n ->. rewrite (ql_dao _ _ HL). by eapply H.
Qed.

(** ** Accounts *)
Definition jtake (k : key) (x : jsub) : Z :=
  match x with FromPre x => is_take k x | FromSingle _ => 0 end.
Definition jreject (i : Z) (x : jsub) : Z :=
  match x with FromPre x => is_reject_pay i x | FromSingle _ => 0 end.
Definition jcompleted (id : Z) (x : jsub) : Z :=
  match x with FromSingle x => sub_completed id x | FromPre _ => 0 end.
Definition count_why (w : reason) (l : list paid) : Z :=
  lsum (fun p => if decide (pd_why p = w) then 1 else 0) l.

Definition gap_taken (k : key) (j : jstate) : Z :=
  count_key k (j_taken j) - has_deposit (rec (j_q j) k).
Definition gap_reject (i : Z) (j : jstate) : Z :=
  count_why (RRejected i) (j_paid j) - rejected_deposit (j_q j) i.

Lemma lsum_map_single (f : jsub -> Z) (g : psub vote -> Z) l :
  (forall x, f (FromSingle x) = g x) -> lsum f (map FromSingle l) = lsum g l.
Proof. intros H. induction l as [|x l IH]; simpl; [done|]. by rewrite H, IH. Qed.
Lemma lsum_map_pre (f : jsub -> Z) (g : xsub -> Z) l :
  (forall x, f (FromPre x) = g x) -> lsum f (map FromPre l) = lsum g l.
Proof. intros H. induction l as [|x l IH]; simpl; [done|]. by rewrite H, IH. Qed.
Lemma lsum_zero {A} (f : A -> Z) l : (forall x, f x = 0) -> lsum f l = 0.
Proof. intros H. induction l as [|x l IH]; simpl; [done|]. by rewrite H, IH. Qed.

Lemma single_count O s b a m s' subs :
  winv b s -> handle O s b a m = Ok (s', subs) -> s_count s <= s_count s'.
Proof.
  intros HI H. apply handle_prims in H. clear a m subs.
  induction H as [|s1 s2 s3 Hp Hr IH]; [lia|].
  specialize (IH (prim_winv _ _ _ _ Hp HI)).
  destruct Hp; simpl in *; try lia.
Qed.

Record jstep_ok (b : block) (j j' : jstate) (subs : list jsub) : Prop := {
  js_inv : jinv b j';
  js_le : jle j j';
  js_pend : forall x, x ∈ subs -> jpend b j' x;
  js_taken : forall k, gap_taken k j' - gap_taken k j = - lsum (jtake k) subs;
  js_reject : forall i, gap_reject i j' - gap_reject i j = - lsum (jreject i) subs;
  js_paid : j_paid j' = j_paid j;
  js_completed : forall id,
    lsum (jcompleted id) subs <= finished (j_s j') id - finished (j_s j) id }.

Lemma count_key_app k l l' : count_key k (l ++ l') = count_key k l + count_key k l'.
Proof. unfold count_key. by rewrite lsum_app. Qed.
Lemma count_why_app w l l' : count_why w (l ++ l') = count_why w l + count_why w l'.
Proof. unfold count_why. by rewrite lsum_app. Qed.

Lemma jle_intro O b j j' :
  winv b (j_s j) -> rtc (prim O b) (j_s j) (j_s j') -> qle (j_q j) (j_q j') ->
  j_self j' = j_self j -> jle j j'.
Proof.
  intros Hw Hr HL Hs. constructor; [done|done|..].
  - clear HL Hs. induction Hr as [|s1 s2 s3 Hp Hr IH]; [lia|].
    specialize (IH (prim_winv _ _ _ _ Hp Hw)). destruct Hp; simpl in *; lia.
  - intros id st. by apply (completed_at_prims O b).
  - intros id. by apply (done_at_prims O b).
Qed.

Lemma single_step O b j a m s' subs :
  jinv b j -> handle O (j_s j) b a m = Ok (s', subs) ->
  jstep_ok b j (JState (j_self j) s' (j_q j) (j_taken j) (j_paid j)) (map FromSingle subs).
Proof.
  intros HI H. set (j' := JState _ _ _ _ _).
  assert (jle j j') as HL.
  { apply (jle_intro O b); [apply HI|by eapply handle_prims|apply qle_refl|done]. }
  constructor.
  - constructor; simpl.
    + eapply handle_winv; [|exact H]. apply HI.
    + apply HI.
    + intros id Hid. pose proof (ji_ids _ _ HI id Hid) as Hb. pose proof (jl_count _ _ HL) as Hc. unfold j' in Hc. simpl in Hc. lia.
    + intros t Ht. eapply (taken_ok_mono j j'); [apply HI|done|by apply HI].
    + intros p Hp. eapply (paid_ok_mono j j'); [done|by apply HI].
  - done.
  - intros x Hx. apply elem_of_list_In, in_map_iff in Hx as (y & <- & Hy).
    apply elem_of_list_In in Hy. simpl. split; [by eapply handle_pend|].
    intros r id st ->. by eapply handle_completed_at.
  - intros k. unfold gap_taken. simpl. rewrite (lsum_map_single _ (fun _ => 0)) by done.
    rewrite lsum_zero by done. lia.
  - intros i. unfold gap_reject. simpl. rewrite (lsum_map_single _ (fun _ => 0)) by done.
    rewrite lsum_zero by done. lia.
  - done.
  - intros id. simpl. rewrite (lsum_map_single _ (sub_completed id)) by done.
    eapply handle_completed; [|exact H]. apply HI.
Qed.

Lemma propose_counts O s b a pm s' subs :
  handle O s b a (Propose pm) = Ok (s', subs) -> s_count s' = s_count s + 1.
Proof.
  simpl. intros H. apply execute_propose_shape in H
    as (proposer & st & s1 & subs2 & _ & _ & _ & _ & Hst & -> & -> & Hv).
  destruct (pm_vote pm) as [[v r]|]; [|by destruct Hv as [-> _]].
  apply execute_vote_shape in Hv as (p & votes1 & st2 & _ & _ & _ & _ & _ & -> & _). done.
Qed.

Lemma elem_map_pre x l : x ∈ map FromPre l -> exists y, x = FromPre y /\ y ∈ l.
Proof.
  intros Hx. apply elem_of_list_In, in_map_iff in Hx as (y & <- & Hy).
  apply elem_of_list_In in Hy. eauto.
Qed.

Lemma takes_only q e k a takes x :
  deposit_part q e k a = Ok takes -> x ∈ takes -> exists t n, x = XTake k t a n.
Proof.
  unfold deposit_part. destruct (q_deposit q) as [d|].
  - destruct (check_native_deposit_paid _ _); [|discriminate]. intros [= <-].
    unfold take_messages. destruct (d_denom d); [intros Hx; by apply elem_of_nil in Hx|].
    destruct (_ =? _); intros Hx; [by apply elem_of_nil in Hx|].
    apply elem_of_list_singleton in Hx. eauto.
  - intros [= <-] Hx. by apply elem_of_nil in Hx.
Qed.
Lemma returns_only w d a x : x ∈ return_messages w d a -> x = XPay w (d_denom d) a (d_amount d).
Proof.
  unfold return_messages. destruct (_ =? _); intros Hx; [by apply elem_of_nil in Hx|].
  by apply elem_of_list_singleton in Hx.
Qed.
Lemma withdraw_to_dao q e a m q' subs dn to n :
  qinv q -> pre_handle q e a m = Ok (q', subs) -> XPay RWithdraw dn to n ∈ subs -> to = q_dao q.
Proof.
  intros Hq H Hx.
  assert (quiet_msg m \/ ~ quiet_msg m) as [Hm|Hm] by (destruct m; simpl; tauto).
  - destruct (quiet_shape q e a m q' subs Hm H) as (_ & _ & _ & Hs).
    destruct (Hs _ Hx) as [(dn' & n' & E)|(_ & id & st & ->)]; [by injection E|].
    simpl in H. unfold pre_completed in H. destruct (_ =? _)%N; [|discriminate].
    destruct (bool_decide _); [|discriminate].
    destruct (q_deposits q !! id) as [[[d|] pr]|]; injection H as <- <-;
      try (by apply elem_of_nil in Hx).
    apply returns_only in Hx. discriminate.
  - destruct m; simpl in Hm; try tauto; simpl in H; destruct (q_kind q) eqn:Ek; try discriminate.
    + apply pre_propose_shape in H as (takes & _ & Hd & _ & ->); [|done].
      apply elem_of_cons in Hx as [?|Hx]; [done|]. apply elem_of_app in Hx as [Hx|Hx].
      * apply elem_of_list_In, in_map_iff in Hx as (? & ? & _). done.
      * eapply takes_only in Hx as (? & ? & ?); [|exact Hd]. done.
    + apply appr_propose_shape in H as (takes & _ & Hd & _ & ->).
      apply elem_of_app in Hx as [Hx|Hx].
      * eapply takes_only in Hx as (? & ? & ?); [|exact Hd]. done.
      * apply elem_of_list_In, in_map_iff in Hx as (? & ? & _). done.
    + unfold appr_approve in H. destruct (_ =? _)%N; [|discriminate].
      destruct (q_pending q !! id); [|discriminate]. injection H as <- <-.
      by apply elem_of_list_singleton in Hx.
    + unfold appr_reject in H. destruct (_ =? _)%N; [|discriminate].
      destruct (q_pending q !! id) as [p|]; [|discriminate]. injection H as <- <-.
      destruct (a_deposit p) as [d|]; [|by apply elem_of_nil in Hx].
      apply returns_only in Hx. discriminate.
Qed.

(** The pre-propose half of a step, before its propose message runs. *)
Lemma pre_half b j e a m q' subs :
  jinv b j -> a <> q_module (j_q j) -> e_next e = s_count (j_s j) + 1 ->
  pre_handle (j_q j) e a m = Ok (q', subs) ->
  step_ok (j_q j) e a m q' subs.
Proof.
  intros HI Ha He H. apply pre_step; [apply HI| |done].
  destruct (q_deposits (j_q j) !! e_next e) eqn:E; [|done].
  pose proof (ji_ids _ _ HI (e_next e) ltac:(eauto)). lia.
Qed.

Lemma jpre_step O b j a e0 m j' subs :
  jinv b j -> jhandle O j b a (JPre e0 m) = Ok (j', subs) -> jstep_ok b j j' subs.
Proof.
  intros HI H. cbn [jhandle] in H.
  destruct (a =? q_module (j_q j))%N eqn:Ea; [discriminate|]. apply N.eqb_neq in Ea.
  cbn [negb] in H. set (e := PEnv _ _ _ _) in H.
  destruct (pre_handle (j_q j) e a m) as [[q' xs]|] eqn:Eh; [|discriminate].
  pose proof (pre_half b j e a m q' xs HI Ea eq_refl Eh) as SO.
  assert (forall x dn to n, x ∈ xs -> x = XPay RWithdraw dn to n -> to = q_dao q') as Hwd.
  { intros x dn to n Hx ->. rewrite (ql_dao _ _ (so_le _ _ _ _ _ _ SO)).
    eapply withdraw_to_dao; [apply HI|exact Eh|exact Hx]. }
  assert (forall s' ssubs rest,
      rtc (prim O b) (j_s j) s' -> winv b s' ->
      (forall id, is_Some (q_deposits q' !! id) -> 1 <= id <= s_count s') ->
      (forall x, x ∈ rest -> x ∈ xs) ->
      (forall k, lsum (is_take k) rest = lsum (is_take k) xs) ->
      (forall i, lsum (is_reject_pay i) rest = lsum (is_reject_pay i) xs) ->
      (forall x, x ∈ ssubs -> pend b s' x) ->
      (forall r id st, SCompleted r id st ∈ ssubs -> completed_at s' id st) ->
      (forall id, lsum (sub_completed id) ssubs <= finished s' id - finished (j_s j) id) ->
      jstep_ok b j
        (JState (j_self j) s' q' (j_taken j ++ native_taken (j_q j) e a m) (j_paid j))
        (map FromSingle ssubs ++ map FromPre rest)) as Hgen.
  { intros s' ssubs rest Hr Hw Hids Hin Htk Hrj Hpd Hcm Hfin.
    set (j1 := JState _ _ _ _ _).
    assert (jle j j1) as HL.
    { apply (jle_intro O b); [apply HI|done|apply SO|done]. }
    constructor.
    - constructor; simpl.
      + done.
      + apply SO.
      + done.
      + intros t Ht. apply elem_of_app in Ht as [Ht|Ht].
        * eapply (taken_ok_mono j j1); [apply SO|done|by apply HI].
        * destruct (so_native _ _ _ _ _ _ SO t Ht) as (d & pr & H1 & H2). by exists d, pr.
      + intros p Hp. eapply (paid_ok_mono j j1); [done|by apply HI].
    - done.
    - intros x Hx. apply elem_of_app in Hx as [Hx|Hx].
      + apply elem_of_list_In, in_map_iff in Hx as (y & <- & Hy).
        apply elem_of_list_In in Hy. simpl. split; [auto|].
        intros r id st ->. eauto.
      + apply elem_map_pre in Hx as (y & -> & Hy). simpl. split.
        * apply (so_pend _ _ _ _ _ _ SO Ea). auto.
        * intros dn to n ->. eauto.
    - intros k. unfold gap_taken. simpl. rewrite lsum_app.
      rewrite (lsum_map_single _ (fun _ => 0)) by done. rewrite lsum_zero by done.
      rewrite (lsum_map_pre _ (is_take k)) by done. rewrite Htk, count_key_app.
      pose proof (so_take _ _ _ _ _ _ SO k). lia.
    - intros i. unfold gap_reject. simpl. rewrite lsum_app.
      rewrite (lsum_map_single _ (fun _ => 0)) by done. rewrite lsum_zero by done.
      rewrite (lsum_map_pre _ (is_reject_pay i)) by done. rewrite Hrj.
      pose proof (so_reject _ _ _ _ _ _ SO i). lia.
    - done.
    - intros id. simpl. rewrite lsum_app.
      rewrite (lsum_map_single _ (sub_completed id)) by done.
      rewrite (lsum_map_pre _ (fun _ => 0)) by done. rewrite (lsum_zero (fun _ => 0)) by done.
      specialize (Hfin id). lia. }
  assert ((exists pm rest, xs = XPropose pm :: rest) \/
          ~ (exists pm rest, xs = XPropose pm :: rest)) as [(pm & rest & ->)|Hno].
  { destruct xs as [|[]]; naive_solver. }
  - destruct (handle O (j_s j) b (j_self j) (Propose pm)) as [[s' ssubs]|] eqn:Es; [|discriminate].
    injection H as <- <-. apply Hgen.
    + by eapply handle_prims.
    + eapply handle_winv; [|exact Es]. apply HI.
    + intros id Hid. rewrite (propose_counts _ _ _ _ _ _ _ Es).
      destruct (so_new _ _ _ _ _ _ SO id Hid) as [Ho|[-> _]].
      * pose proof (ji_ids _ _ HI _ Ho). lia.
      * simpl. pose proof (wi_count _ _ (ji_w _ _ HI)). lia.
    + intros x Hx. by right.
    + intros k. done.
    + intros i. done.
    + intros x Hx. by eapply handle_pend.
    + intros r id st Hx. by eapply handle_completed_at.
    + intros id. eapply handle_completed; [|exact Es]. apply HI.
  - assert (Ok (JState (j_self j) (j_s j) q' (j_taken j ++ native_taken (j_q j) e a m) (j_paid j),
              map FromPre xs) = Ok (j', subs)) as H'.
    { rewrite <- H. destruct xs as [|[pm| | |] rest]; try done. exfalso. eauto. }
    injection H' as <- <-. apply (Hgen (j_s j) [] xs); simpl; try done.
    + apply HI.
    + intros id Hid. destruct (so_new _ _ _ _ _ _ SO id Hid) as [Ho|[-> Hx]].
      * by apply (ji_ids _ _ HI).
      * exfalso. by apply Hno.
    + intros x Hx. by apply elem_of_nil in Hx.
    + intros r id st Hx. by apply elem_of_nil in Hx.
    + intros id. lia.
Qed.

Lemma jhandle_step O b j a m j' subs :
  jinv b j -> jhandle O j b a m = Ok (j', subs) -> jstep_ok b j j' subs.
Proof.
  intros HI H. destruct m as [m|e m]; [|by eapply jpre_step].
  cbn [jhandle] in H. destruct (handle O (j_s j) b a m) as [[s' ss]|] eqn:E; [|discriminate].
  injection H as <- <-. by eapply single_step.
Qed.

(** ** Sub-messages *)
Lemma prims_winv O b s s' : rtc (prim O b) s s' -> winv b s -> winv b s'.
Proof. induction 1 as [|s1 s2 s3 Hp _ IH]; [done|]. intros W. apply IH. by eapply prim_winv. Qed.

Lemma jfail_step b j x j' :
  jinv b j -> jpend b j x -> jon_fail j b x = Ok j' ->
  jinv b j' /\ jle j j' /\ (exists y, x = FromSingle y) /\
  j_q j' = j_q j /\ j_taken j' = j_taken j /\ j_paid j' = j_paid j /\
  forall id, finished (j_s j') id = finished (j_s j) id.
Proof.
  intros HI HP H. destruct x as [x|x]; simpl in H; [|discriminate].
  destruct (on_fail (j_s j) b x) as [s'|] eqn:E; [|discriminate]. injection H as <-.
  destruct HP as [HP _].
  set (j' := JState _ _ _ _ _).
  assert (s_count s' = s_count (j_s j)) as Hc.
  { destruct (on_fail_shape _ _ _ _ E) as [(d & i & ms & p & -> & Hp & ->)|(_ & _ & _ & E3 & _)];
      done. }
  assert (jle j j') as HL.
  { constructor; simpl; [apply qle_refl|done|lia|..].
    - intros id st. by apply (completed_at_fail b _ x).
    - intros id. by apply (on_fail_done _ b x). }
  split; [|split; [done|]].
  - constructor; simpl.
    + eapply on_fail_winv; [apply HI|done|done].
    + apply HI.
    + intros id Hid. rewrite Hc. by apply (ji_ids _ _ HI).
    + intros t Ht. eapply (taken_ok_mono j j'); [apply HI|done|by apply HI].
    + intros p Hp. eapply (paid_ok_mono j j'); [done|by apply HI].
  - split; [eauto|]. repeat split; eauto. intros id. simpl. by eapply finished_fail.
Qed.

Definition is_single (x : jsub) : Prop := exists y, x = FromSingle y.

Lemma pays_completed q a id st q' subs :
  qinv q -> pre_completed q a id st = Ok (q', subs) ->
  q' = q /\
  (pays subs = [] \/ exists d pr, q_deposits q !! id = Some (Some d, pr) /\
     (st = Closed \/ st = Executed \/ st = Vetoed) /\
     pays subs = [Paid (RCompleted id) (d_denom d)
                    (if should_refund st (d_refund d) then pr else q_dao q) (d_amount d)]).
Proof.
  intros Hq H. unfold pre_completed in H. destruct (_ =? _)%N; [|discriminate].
  destruct (bool_decide _) eqn:Eb; [|discriminate]. apply bool_decide_eq_true in Eb.
  destruct (q_deposits q !! id) as [[[d|] pr]|] eqn:Ed; injection H as <- <-; eauto.
  split; [done|]. unfold return_messages.
  pose proof (qi_deposits _ Hq _ _ _ Ed) as Hn. simpl in Hn.
  destruct (d_amount d =? 0) eqn:E0; [lia|]. right. exists d, pr. eauto.
Qed.

Lemma jok_step (O : oracle) b j x d j' :
  jinv b j -> jpend b j x -> jon_ok j b x d = Ok j' ->
  jinv b j' /\ jle j j' /\ j_q j' = j_q j /\
  (forall k, count_key k (j_taken j') - count_key k (j_taken j) = jtake k x) /\
  (forall i, count_why (RRejected i) (j_paid j') - count_why (RRejected i) (j_paid j)
     = jreject i x) /\
  (forall id, count_why (RCompleted id) (j_paid j') - count_why (RCompleted id) (j_paid j)
     <= jcompleted id x) /\
  forall id, finished (j_s j') id = finished (j_s j) id.
Proof.
  intros HI HP H.
  assert (forall s' q' tk pd, s_count s' = s_count (j_s j) -> rtc (prim O b) (j_s j) s' ->
    q' = j_q j ->
    (forall t, t ∈ tk -> t ∈ j_taken j \/ taken_ok j t) ->
    (forall p, p ∈ pd -> p ∈ j_paid j \/ paid_ok j p) ->
    jinv b (JState (j_self j) s' q' tk pd) /\ jle j (JState (j_self j) s' q' tk pd)) as Hgen.
  { intros s' q' tk pd Hc Hr -> Htk Hpd. set (j1 := JState _ _ _ _ _).
    assert (jle j j1) as HL.
    { apply (jle_intro O b); [apply HI|done|apply qle_refl|done]. }
    split; [|done]. constructor; simpl.
    - eapply prims_winv; [exact Hr|apply HI].
    - apply HI.
    - intros id Hid. rewrite Hc. by apply (ji_ids _ _ HI).
    - intros t Ht. apply (taken_ok_mono j j1); [apply HI|done|].
      destruct (Htk t Ht) as [?|?]; [by apply HI|done].
    - intros p Hp. apply (paid_ok_mono j j1); [done|].
      destruct (Hpd p Hp) as [?|?]; [by apply HI|done]. }
  destruct x as [x|x].
  - cbn [jon_ok] in H. destruct (on_ok (j_s j) b x d) as [s'|] eqn:E; [|discriminate].
    assert (s_count s' = s_count (j_s j)) as Hc by (destruct x; simpl in E; by injection E as <-).
    assert (rtc (prim O b) (j_s j) s') as Hr by (apply rtc_once; by eapply on_ok_prims).
    assert (forall id, finished s' id = finished (j_s j) id) as Hf
      by (intros; by eapply finished_ok).
    destruct HP as [_ HP].
    assert (j' = JState (j_self j) s' (j_q j) (j_taken j) (j_paid j) \/
            exists a id st q' subs, x = SCompleted a id st /\
              pre_completed (j_q j) (q_module (j_q j)) id st = Ok (q', subs) /\
              j' = JState (j_self j) s' q' (j_taken j) (j_paid j ++ pays subs)) as Hcase.
    { destruct x as [| | |r id st|]; try (left; by injection H as <-).
      destruct (r =? j_self j)%N; [|left; by injection H as <-].
      cbn [pre_handle] in H.
      destruct (pre_completed _ _ _ _) as [[q' subs]|] eqn:Ep; [|discriminate].
      injection H as <-. right. eauto 10. }
    destruct Hcase as [->|(r & id & st & q' & subs & -> & Ep & ->)].
    + destruct (Hgen s' (j_q j) (j_taken j) (j_paid j)) as [A B]; eauto.
      split; [done|]. split; [done|]. simpl. split; [done|].
      split; [intros; lia|]. split; [intros; lia|]. split; [|done].
      intros id. destruct x; simpl; try lia. destruct (_ =? _); lia.
    + destruct (pays_completed (j_q j) _ id st q' subs (ji_q _ _ HI) Ep) as (-> & Hp).
      assert (forall p, p ∈ pays subs -> paid_ok j p) as Hpk.
      { intros p Hin. destruct Hp as [Eq|(dd & pr & Hd & Hst & Eq)]; rewrite Eq in Hin;
          [by apply elem_of_nil in Hin|].
        apply elem_of_list_singleton in Hin as ->. simpl.
        exists dd, pr, st. eauto 10. }
      destruct (Hgen s' (j_q j) (j_taken j) (j_paid j ++ pays subs)) as [A B]; eauto.
      { intros p Hin. apply elem_of_app in Hin as [Hin|Hin]; eauto. }
      split; [done|]. split; [done|]. simpl. split; [done|].
      split; [intros; lia|]. split; [|split; [|done]].
      * intros i. rewrite count_why_app.
        destruct Hp as [->|(dd & pr & Hd & Hst & ->)]; unfold count_why; simpl; lia.
      * intros id'. rewrite count_why_app.
        destruct Hp as [->|(dd & pr & Hd & Hst & ->)]; unfold count_why; simpl.
        -- destruct (_ =? _); lia.
        -- destruct (decide _) as [[= ->]|]; [rewrite Z.eqb_refl; lia|].
           destruct (_ =? _); lia.
  - destruct HP as [HP Hwd].
    destruct x as [pm|r m|k t o n|w dn to n]; cbn [jon_ok] in H; injection H as <-.
    + split; [done|]. split; [apply jle_refl|]. simpl.
      repeat split; intros; try lia; done.
    + split; [done|]. split; [apply jle_refl|]. simpl.
      repeat split; intros; try lia; done.
    + destruct HP as (dd & Hrec & Hdn & Ham).
      destruct (Hgen (j_s j) (j_q j) (j_taken j ++ [Taken k (Cw20 t) o n]) (j_paid j)) as [A B];
        eauto.
      { apply rtc_refl. }
      { intros y Hy. apply elem_of_app in Hy as [Hy|Hy]; [eauto|].
        apply elem_of_list_singleton in Hy as ->. right. exists dd, o. simpl.
        split; [done|]. by rewrite Hdn, Ham. }
      split; [done|]. split; [done|]. simpl. split; [done|].
      split; [|repeat split; intros; try lia; done].
      intros k'. rewrite count_key_app. unfold count_key. simpl. lia.
    + destruct (Hgen (j_s j) (j_q j) (j_taken j) (j_paid j ++ [Paid w dn to n])) as [A B]; eauto.
      { apply rtc_refl. }
      { intros y Hy. apply elem_of_app in Hy as [Hy|Hy]; [eauto|].
        apply elem_of_list_singleton in Hy as ->. right. unfold paid_ok. simpl.
        destruct w as [id|i|]; simpl in HP; [done|exact HP|eauto]. }
      split; [done|]. split; [done|]. simpl. split; [done|].
      split; [intros; lia|]. split; [|split; [|done]].
      * intros i. rewrite count_why_app. unfold count_why. simpl. lia.
      * intros id. rewrite count_why_app. unfold count_why. simpl.
        destruct w as [id'|i|]; simpl in HP; [done|..]; simpl; lia.
Qed.

(** ** Histories *)
Notation jtrace O := (trace (jhandle O) jon_fail jon_ok any_msg jinv jpend).
Lemma joint_trace O b0 j h j' l :
  jinv b0 j -> hist_ok b0 h -> jrun O j h = (j', l) ->
  jinv (hist_end b0 h) j' /\ jtrace O b0 j l (hist_end b0 h) j'.
Proof.
  intros HI Hh Hr.
  eapply run_hist_trace; try done; [..|apply hist_all_any].
  - intros b j1 a m j2 subs HI1 _ H. destruct (jhandle_step O b j1 a m j2 subs HI1 H). done.
  - intros b j1 x j2 HI1 HP H. by eapply jfail_step.
  - intros b j1 x d j2 HI1 HP H. by eapply (jok_step O).
  - intros b j1 a m j2 subs x HI1 _ H HP. destruct (jhandle_step O b j1 a m j2 subs HI1 H).
    eapply (jpend_mono b j1 j2); [apply js_inv0|done..].
  - intros b j1 x j2 y HI1 HP H HPy. destruct (jfail_step b j1 x j2 HI1 HP H) as (A & B & _).
    eapply (jpend_mono b j1 j2); [apply A|done..].
  - intros b j1 x d j2 y HI1 HP H HPy. destruct (jok_step O b j1 x d j2 HI1 HP H) as (A & B & _).
    eapply (jpend_mono b j1 j2); [apply A|done..].
  - intros b b' j1 Hle [A B C D E]. constructor; eauto using winv_time.
Qed.

(** Telescoping. *)
Lemma trace_sum {State Msg Sub} (hd : State -> block -> addr -> Msg -> result (State * list Sub))
    onf ono M Inv Pend (phi : State -> Z) (w : event State Msg Sub -> Z) b0 s l b1 s' :
  (forall e, legit hd onf ono M Inv Pend e -> phi (ev_post e) - phi (ev_pre e) <= w e) ->
  trace hd onf ono M Inv Pend b0 s l b1 s' -> phi s' - phi s <= lsum w l.
Proof.
  intros Hw. induction 1 as [b0 b1 s Hle|b0 s e l b1 s' Hle Hpre Hleg Htr IH]; simpl; [lia|].
  specialize (Hw e Hleg). subst s. lia.
Qed.
Lemma trace_sum_eq {State Msg Sub} (hd : State -> block -> addr -> Msg -> result (State * list Sub))
    onf ono M Inv Pend (phi : State -> Z) (w : event State Msg Sub -> Z) b0 s l b1 s' :
  (forall e, legit hd onf ono M Inv Pend e -> phi (ev_post e) - phi (ev_pre e) = w e) ->
  trace hd onf ono M Inv Pend b0 s l b1 s' -> phi s' - phi s = lsum w l.
Proof.
  intros Hw. induction 1 as [b0 b1 s Hle|b0 s e l b1 s' Hle Hpre Hleg Htr IH]; simpl; [lia|].
  specialize (Hw e Hleg). subst s. lia.
Qed.

Lemma lsum_minus {A} (f g : A -> Z) l : lsum (fun x => f x - g x) l = lsum f l - lsum g l.
Proof. induction l as [|x l IH]; simpl; [done|]. lia. Qed.

Lemma gap_taken_const O b0 j h j' l k :
  jinv b0 j -> hist_ok b0 h -> jrun O j h = (j', l) -> gap_taken k j' = gap_taken k j.
Proof.
  intros HI Hh Hr. destruct (joint_trace O b0 j h j' l HI Hh Hr) as [_ Ht].
  assert (gap_taken k j' - gap_taken k j =
    lsum (fun e => ev_done (jtake k) e - ev_sent (jtake k) e) l) as E.
  { eapply (trace_sum_eq _ _ _ _ _ _ (gap_taken k)); [|exact Ht].
    intros e (HI1 & _ & He). destruct e as [pre b a m post subs|pre b x ok post]; simpl in *.
    - destruct He as [_ He]. destruct (jhandle_step O b pre a m post subs HI1 He).
      rewrite js_taken0. lia.
    - destruct ok.
      + destruct He as [HP [d He]].
        destruct (jok_step O b pre x d post HI1 HP He) as (_ & _ & Eq & Hk & _).
        unfold gap_taken. rewrite Eq. specialize (Hk k). lia.
      + destruct He as [HP He].
        destruct (jfail_step b pre x post HI1 HP He) as (_ & _ & [y ->] & Eq & Et & _).
        unfold gap_taken. rewrite Eq, Et. simpl. lia. }
  rewrite lsum_minus, (run_hist_count _ _ _ (jtake k) h j j' l Hr) in E. lia.
Qed.
Lemma gap_reject_const O b0 j h j' l i :
  jinv b0 j -> hist_ok b0 h -> jrun O j h = (j', l) -> gap_reject i j' = gap_reject i j.
Proof.
  intros HI Hh Hr. destruct (joint_trace O b0 j h j' l HI Hh Hr) as [_ Ht].
  assert (gap_reject i j' - gap_reject i j =
    lsum (fun e => ev_done (jreject i) e - ev_sent (jreject i) e) l) as E.
  { eapply (trace_sum_eq _ _ _ _ _ _ (gap_reject i)); [|exact Ht].
    intros e (HI1 & _ & He). destruct e as [pre b a m post subs|pre b x ok post]; simpl in *.
    - destruct He as [_ He]. destruct (jhandle_step O b pre a m post subs HI1 He).
      rewrite js_reject0. lia.
    - destruct ok.
      + destruct He as [HP [d He]].
        destruct (jok_step O b pre x d post HI1 HP He) as (_ & _ & Eq & _ & Hk & _).
        unfold gap_reject. rewrite Eq. specialize (Hk i). lia.
      + destruct He as [HP He].
        destruct (jfail_step b pre x post HI1 HP He) as (_ & _ & [y ->] & Eq & _ & Ep & _).
        unfold gap_reject. rewrite Eq, Ep. simpl. lia. }
  rewrite lsum_minus, (run_hist_count _ _ _ (jreject i) h j j' l Hr) in E. lia.
Qed.
(** Completion payouts are bounded by the completions. *)
Lemma completed_once O b0 j h j' l id :
  jinv b0 j -> hist_ok b0 h -> jrun O j h = (j', l) ->
  count_why (RCompleted id) (j_paid j') - count_why (RCompleted id) (j_paid j) <=
  finished (j_s j') id - finished (j_s j) id.
Proof.
  intros HI Hh Hr. destruct (joint_trace O b0 j h j' l HI Hh Hr) as [_ Ht].
  assert (count_why (RCompleted id) (j_paid j') - count_why (RCompleted id) (j_paid j) <=
    lsum (ev_done (jcompleted id)) l) as E1.
  { eapply (trace_sum _ _ _ _ _ _ (fun j => count_why (RCompleted id) (j_paid j)));
      [|exact Ht].
    intros e (HI1 & _ & He). destruct e as [pre b a m post subs|pre b x ok post]; simpl in *.
    - destruct He as [_ He]. destruct (jhandle_step O b pre a m post subs HI1 He).
      rewrite js_paid0. lia.
    - destruct ok.
      + destruct He as [HP [d He]].
        destruct (jok_step O b pre x d post HI1 HP He) as (_ & _ & _ & _ & _ & Hk & _).
        specialize (Hk id). lia.
      + destruct He as [HP He].
        destruct (jfail_step b pre x post HI1 HP He) as (_ & _ & [y ->] & _ & _ & Ep & _).
        rewrite Ep. simpl. destruct y; simpl; try lia. destruct (_ =? _); lia. }
  assert (- (finished (j_s j') id) - - (finished (j_s j) id) <=
    lsum (fun e => - ev_sent (jcompleted id) e) l) as E2.
  { eapply (trace_sum _ _ _ _ _ _ (fun j => - finished (j_s j) id)); [|exact Ht].
    intros e (HI1 & _ & He). destruct e as [pre b a m post subs|pre b x ok post]; simpl in *.
    - destruct He as [_ He]. destruct (jhandle_step O b pre a m post subs HI1 He).
      specialize (js_completed0 id). lia.
    - destruct ok.
      + destruct He as [HP [d He]].
        destruct (jok_step O b pre x d post HI1 HP He) as (_ & _ & _ & _ & _ & _ & Hk).
        rewrite Hk. lia.
      + destruct He as [HP He].
        destruct (jfail_step b pre x post HI1 HP He) as (_ & _ & _ & _ & _ & _ & Hk).
        rewrite Hk. lia. }
  assert (lsum (fun e => - ev_sent (jcompleted id) e) l = - lsum (ev_sent (jcompleted id)) l) as E3.
  { clear. induction l as [|e l IH]; cbn [lsum] in *; lia. }
  rewrite (run_hist_count _ _ _ (jcompleted id) h j j' l Hr) in E1. lia.
Qed.
