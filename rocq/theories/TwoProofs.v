(** Invariants of two DAOs of which one approves the proposals of the other. *)
From stdpp Require Import gmap strings.
From Verif Require Import Base BaseProofs Exec ExecProofs VotingModel VotingSpec VotingProofs
  HooksModel SingleModel SingleSpec SingleProofs SingleLife SingleTally SingleFinal PreModel PreSpec
  PreSingle PreProofs PreJoint SettleSingle ApproverModel ApproverClaims DaoProofs TwoModel TwoSpec.

(** ** Calls of the first system *)
Definition is_hook (r : addr) (i : Z) (x : jsub) : Z :=
  match x with
  | FromPre (XHook a (HApproval k)) => if decide (a = r /\ k = i) then 1 else 0
  | _ => 0
  end.
Lemma hooks_single r i l : lsum (is_hook r i) (map FromSingle l) = 0.
Proof. induction l; cbn; [done|]. done. Qed.
Lemma hooks_sent r i k l : NoDup l ->
  lsum (is_hook r i) (map (fun x => FromPre (XHook x (HApproval k))) l) =
  if decide (r ∈ l /\ k = i) then 1 else 0.
Proof.
  induction 1 as [|a l Ha HN IH]; cbn [map lsum is_hook].
  - destruct (decide (r ∈ [] /\ k = i)) as [[H _]|]; [by apply elem_of_nil in H|done].
  - rewrite IH. destruct (decide (a = r /\ k = i)) as [[-> ->]|Hn].
    + destruct (decide (r ∈ l /\ i = i)) as [[H _]|_]; [done|].
      destruct (decide (r ∈ r :: l /\ i = i)) as [_|H]; [done|]. destruct H. split; [left|done].
    + destruct (decide (r ∈ l /\ k = i)) as [[H ->]|H1].
      * destruct (decide (r ∈ a :: l /\ i = i)) as [_|H']; [done|]. destruct H'. split; [by right|done].
      * destruct (decide (r ∈ a :: l /\ k = i)) as [[H' ->]|_]; [|done].
        apply elem_of_cons in H' as [->|H']; [by destruct Hn|by destruct H1].
Qed.
Lemma hooks_zero r i l : (forall x a k, x ∈ l -> x <> XHook a (HApproval k)) ->
  lsum (is_hook r i) (map FromPre l) = 0.
Proof.
  intros H. induction l as [|x l IH]; cbn [map lsum]; [done|]. rewrite IH.
  - destruct x as [|a [|k]| |]; cbn; try done. exfalso. apply (H (XHook a (HApproval k)) a k); [left|done].
  - intros y a k Hy. apply H. by right.
Qed.
Lemma existsb_in (a : addr) l : existsb (N.eqb a) l = true <-> a ∈ l.
Proof.
  rewrite existsb_exists. split.
  - intros (x & Hx & E%N.eqb_eq). subst x. by apply elem_of_list_In.
  - intros H. exists a. split; [by apply elem_of_list_In|apply N.eqb_refl].
Qed.
Lemma remove_first_in a x l : x ∈ remove_first a l -> x ∈ l.
Proof.
  induction l as [|y l IH]; cbn; [done|]. destruct (a =? y)%N; [by right|].
  intros [->|H]%elem_of_cons; [left|right; by apply IH].
Qed.
Lemma remove_first_nodup a l : NoDup l -> NoDup (remove_first a l).
Proof.
  induction 1 as [|y l Hy HN IH]; cbn; [constructor|]. destruct (a =? y)%N; [done|].
  constructor; [|done]. intros H. by apply Hy, (remove_first_in a).
Qed.
Lemma remove_first_other a x l : x <> a -> x ∈ l -> x ∈ remove_first a l.
Proof.
  intros Hn. induction l as [|y l IH]; cbn; [done|]. intros [->|H]%elem_of_cons.
  - destruct (a =? y)%N eqn:E; [apply N.eqb_eq in E; congruence|left].
  - destruct (a =? y)%N; [done|]. right. by apply IH.
Qed.

Lemma quiet_more q e a m q' xs :
  quiet_msg m -> q_kind q = Approval -> pre_handle q e a m = Ok (q', xs) ->
  (q_approver q' = q_approver q \/ (a = q_approver q /\ exists x, m = PUpdateApprover x)) /\
  (NoDup (q_hooks q) -> NoDup (q_hooks q')) /\
  (forall r, r ∈ q_hooks q -> r ∈ q_hooks q' \/ m = PRemoveHook r).
Proof.
  intros Hq Hk Ep. split; [|split].
  - destruct m; cbn [pre_handle] in Ep; try done.
    + unfold pre_update_config in Ep. res_inv Ep; by left.
    + unfold pre_update_policy in Ep. res_inv Ep; by left.
    + unfold pre_withdraw in Ep. res_inv Ep; by left.
    + unfold pre_add_hook in Ep. res_inv Ep; by left.
    + unfold pre_remove_hook in Ep. res_inv Ep; by left.
    + unfold pre_completed in Ep. res_inv Ep; by left.
    + rewrite Hk in Ep. unfold appr_update_approver in Ep.
      destruct (q_approver q =? a)%N eqn:Ea; [|done]. injection Ep as <- <-.
      right. split; [by apply N.eqb_eq in Ea|]. by exists a0.
    + by rewrite Hk in Ep.
  - intros HN. destruct m; cbn [pre_handle] in Ep; try done.
    + unfold pre_update_config in Ep. res_inv Ep; done.
    + unfold pre_update_policy in Ep. res_inv Ep; done.
    + unfold pre_withdraw in Ep. res_inv Ep; done.
    + unfold pre_add_hook, add_hook in Ep. destruct (hook_admin _ _); [|done].
      destruct (existsb _ _) eqn:Ex; [done|]. injection Ep as <- <-. cbn.
      apply NoDup_app. split; [done|]. split; [|apply NoDup_singleton].
      intros x Hx ->%elem_of_list_singleton. apply existsb_in in Hx. congruence.
    + unfold pre_remove_hook, remove_hook in Ep. destruct (hook_admin _ _); [|done].
      destruct (existsb _ _) eqn:Ex; [|done]. injection Ep as <- <-. cbn.
      by apply remove_first_nodup.
    + unfold pre_completed in Ep. res_inv Ep; done.
    + rewrite Hk in Ep. unfold appr_update_approver in Ep. res_inv Ep; done.
    + by rewrite Hk in Ep.
  - intros r Hr. destruct m; cbn [pre_handle] in Ep; try done.
    + left. unfold pre_update_config in Ep. res_inv Ep; done.
    + left. unfold pre_update_policy in Ep. res_inv Ep; done.
    + left. unfold pre_withdraw in Ep. res_inv Ep; done.
    + left. unfold pre_add_hook, add_hook in Ep. destruct (hook_admin _ _); [|done].
      destruct (existsb _ _) eqn:Ex; [done|]. injection Ep as <- <-. cbn.
      apply elem_of_app. by left.
    + unfold pre_remove_hook, remove_hook in Ep. destruct (hook_admin _ _); [|done].
      destruct (existsb _ _) eqn:Ex; [|done]. injection Ep as <- <-. cbn.
      destruct (decide (r = a0)) as [->|Hn]; [by right|]. left. by apply remove_first_other.
    + left. unfold pre_completed in Ep. res_inv Ep; done.
    + left. rewrite Hk in Ep. unfold appr_update_approver in Ep. res_inv Ep; done.
    + by rewrite Hk in Ep.
Qed.
(** What a call does to the approval contract. *)
Inductive jcase (j : jstate) (a : addr) (m : jmsg) (j' : jstate) (subs : list jsub) : Prop :=
| jc_quiet :
    (forall e i, m <> JPre e (PApprove i) /\ m <> JPre e (PReject i)) ->
    q_completed (j_q j') = q_completed (j_q j) -> q_current (j_q j') = q_current (j_q j) ->
    (forall r i, lsum (is_hook r i) subs = 0) ->
    (q_approver (j_q j') = q_approver (j_q j) \/
     (a = q_approver (j_q j) /\ exists e x, m = JPre e (PUpdateApprover x))) ->
    (NoDup (q_hooks (j_q j)) -> NoDup (q_hooks (j_q j'))) ->
    (forall r, r ∈ q_hooks (j_q j) -> r ∈ q_hooks (j_q j') \/ exists e, m = JPre e (PRemoveHook r)) ->
    jcase j a m j' subs
| jc_submit e pm :
    m = JPre e (PPropose pm) ->
    q_completed (j_q j') = q_completed (j_q j) -> q_current (j_q j') = q_current (j_q j) + 1 ->
    (forall r i, NoDup (q_hooks (j_q j)) -> lsum (is_hook r i) subs =
       if decide (r ∈ q_hooks (j_q j) /\ q_current (j_q j) + 1 = i) then 1 else 0) ->
    q_approver (j_q j') = q_approver (j_q j) -> q_hooks (j_q j') = q_hooks (j_q j) ->
    jcase j a m j' subs
| jc_decide e i p st :
    (m = JPre e (PApprove i) /\ st = AApproved (s_count (j_s j) + 1)) \/
    (m = JPre e (PReject i) /\ st = ARejected) ->
    a = q_approver (j_q j) -> q_pending (j_q j) !! i = Some p ->
    q_completed (j_q j') = <[i := resolved p st]> (q_completed (j_q j)) ->
    q_current (j_q j') = q_current (j_q j) ->
    (forall r i, lsum (is_hook r i) subs = 0) ->
    q_approver (j_q j') = q_approver (j_q j) -> q_hooks (j_q j') = q_hooks (j_q j) ->
    jcase j a m j' subs.
Lemma jcall_cases O b j a m j' subs :
  q_kind (j_q j) = Approval -> jhandle O j b a m = Ok (j', subs) -> jcase j a m j' subs.
Proof.
  intros Hk H. destruct m as [m|e0 m]; cbn [jhandle] in H.
  { destruct (handle O (j_s j) b a m) as [[s' ss]|]; [|done]. injection H as <- <-.
    apply jc_quiet; cbn.
    { intros e1 i. split; discriminate. }
    all: auto. intros r i. apply hooks_single. }
  destruct (a =? q_module _)%N eqn:Em; [done|]. cbn [negb] in H.
  set (e := PEnv _ _ _ _) in H.
  destruct (pre_handle (j_q j) e a m) as [[q' xs]|] eqn:Ep; [|done].
  assert (forall pm rest, xs = XPropose pm :: rest ->
    exists s' ss, handle O (j_s j) b (j_self j) (Propose pm) = Ok (s', ss) /\
      j_q j' = q' /\ subs = map FromSingle ss ++ map FromPre rest) as H1.
  { intros pm rest ->. destruct (handle O (j_s j) b (j_self j) (Propose pm)) as [[s' ss]|]; [|done].
    injection H as <- <-. by exists s', ss. }
  assert ((forall pm rest, xs <> XPropose pm :: rest) -> j_q j' = q' /\ subs = map FromPre xs) as H2.
  { intros Hn. destruct xs as [|[pm| | |] rest]; try (by injection H as <- <-).
    by destruct (Hn pm rest). }
  clear H. assert (quiet_msg m \/ ~ quiet_msg m) as [Hq|Hq].
  { destruct m; cbn; tauto. }
  { destruct (quiet_shape _ _ _ _ _ _ Hq Ep) as (HF & _ & _ & Hs).
    assert (forall x, x ∈ xs -> exists dn n, x = XPay RWithdraw dn (q_dao (j_q j)) n) as Hs'.
    { intros x Hx. destruct (Hs x Hx) as [?|[-> _]]; [done|]. by rewrite N.eqb_refl in Em. }
    destruct H2 as [Eq ->].
    { intros pm rest ->. destruct (Hs' (XPropose pm)) as (dn & n & ?); [left|done]. }
    destruct HF as (_ & _ & _ & _ & _ & Ec & _ & En).
    apply jc_quiet; rewrite ?Eq; [|done..| | | |].
    - intros e1 i. split; intros [= -> ->]; done.
    - intros r i. apply hooks_zero. intros x y k Hx. destruct (Hs' x Hx) as (dn & n & ->). done.
    - destruct (quiet_more _ _ _ _ _ _ Hq Hk Ep) as ([?|[? [x ->]]] & _); [by left|right; eauto].
    - by destruct (quiet_more _ _ _ _ _ _ Hq Hk Ep) as (_ & ? & _).
    - intros r Hr. destruct (quiet_more _ _ _ _ _ _ Hq Hk Ep) as (_ & _ & Hh).
      destruct (Hh r Hr) as [?| ->]; eauto. }
  destruct m; try (by destruct Hq); cbn [pre_handle] in Ep; rewrite Hk in Ep.
  - destruct (appr_propose_shape _ _ _ _ _ _ Ep) as (takes & _ & Hd & -> & ->).
    assert (forall x, x ∈ takes -> exists t n, x = XTake (KAppr (q_current (j_q j) + 1)) t a n) as Ht.
    { intros x Hx. by eapply takes_only. }
    destruct H2 as [Eq ->].
    { intros p rest E. destruct takes as [|x takes].
      - destruct (q_hooks (j_q j)); done.
      - injection E as -> _. destruct (Ht (XPropose p)) as (t & n & ?); [left|done]. }
    apply (jc_submit _ _ _ _ _ e0 pm); rewrite ?Eq; try done.
    intros r i HN. rewrite map_app, lsum_app, hooks_zero, map_map, hooks_sent; [lia|done|].
    intros x y k Hx. destruct (Ht x Hx) as (t & n & ->). done.
  - unfold appr_approve in Ep. destruct (q_approver (j_q j) =? a)%N eqn:Ea; [|done].
    destruct (q_pending (j_q j) !! id) as [p|] eqn:E; [|done]. injection Ep as <- <-.
    destruct (H1 _ _ eq_refl) as (s' & ss & _ & Eq & ->).
    apply (jc_decide _ _ _ _ _ e0 id p (AApproved (s_count (j_s j) + 1))); rewrite ?Eq; try done.
    + by left.
    + by apply N.eqb_eq in Ea.
    + intros r i. rewrite lsum_app, hooks_single. done.
  - unfold appr_reject in Ep. destruct (q_approver (j_q j) =? a)%N eqn:Ea; [|done].
    destruct (q_pending (j_q j) !! id) as [p|] eqn:E; [|done]. injection Ep as <- <-.
    assert (forall x, x ∈ match a_deposit p with
      | Some d => return_messages (RRejected id) d
            (if decide (d_refund d = Always) then a_proposer p else q_dao (j_q j))
      | None => [] end -> exists w d t n, x = XPay w d t n) as Hx.
    { destruct (a_deposit p) as [d|]; [|intros x Hx; by apply elem_of_nil in Hx].
      intros x ->%returns_only. eauto. }
    destruct H2 as [Eq ->].
    { intros pm rest E2. rewrite E2 in Hx. destruct (Hx (XPropose pm)) as (w & d & t & n & ?); [left|done]. }
    apply (jc_decide _ _ _ _ _ e0 id p ARejected); rewrite ?Eq; try done.
    + by right.
    + by apply N.eqb_eq in Ea.
    + intros r i. apply hooks_zero. intros x y k Hin. destruct (Hx x Hin) as (w & d & t & n & ->). done.
Qed.

(** ** Steps of the approver's proposal module *)
Definition failed_at (s : state) (id : Z) : Prop := status_is s id ExecutionFailed.
Lemma ef_current p b : current_status p b = Ok ExecutionFailed -> p_status p = ExecutionFailed.
Proof.
  intros H. assert (terminalb (p_status p) = true) as E by (by rewrite <- (current_finished _ _ _ H)).
  apply terminalb_spec in E. symmetry. by eapply terminal_current.
Qed.
Lemma failed_prims O b s s' id : rtc (prim O b) s s' -> failed_at s' id -> failed_at s id.
Proof.
  induction 1 as [|s1 s2 s3 Hp _ IH]; [done|]. intros H. specialize (IH H). clear H s3.
  destruct IH as (p & Hp2 & E).
  destruct Hp as [s pr ms st Hst|s i a p0 v r votes1 st Hp0 _ _ _ Hst|s i p0 st fin Hp0 Hst Ha|s i a cur r|s s' E1];
    cbn in Hp2.
  - apply lookup_insert_Some in Hp2 as [[<- <-]|[_ Hp2]]; [|by exists p]. cbn in E. subst st.
    apply ef_current in Hst. done.
  - apply lookup_insert_Some in Hp2 as [[<- <-]|[_ Hp2]]; [|by exists p]. cbn in E. subst st.
    apply ef_current in Hst. by exists p0.
  - apply lookup_insert_Some in Hp2 as [[<- <-]|[_ Hp2]]; [|by exists p]. cbn in E. subst fin.
    destruct Ha as [[? _]|[[? _]|[? _]]]; discriminate.
  - by exists p.
  - rewrite E1 in Hp2. by exists p.
Qed.
Record s2step (b : block) (s s' : state) (ss : list sub) (r : addr) : Prop := {
  st_count : s_count s <= s_count s';
  st_msgs : forall id p, s_props s !! id = Some p ->
    exists p', s_props s' !! id = Some p' /\ p_msgs p' = p_msgs p;
  st_comp : forall id st, completed_at s id st -> completed_at s' id st;
  st_exec : forall id ms, exec_ok s id ms -> exec_ok s' id ms;
  st_failed : forall id p, s_props s !! id = Some p -> p_msgs p = [] ->
    failed_at s' id -> failed_at s id;
  st_execs : forall d id ms c, SExec d id ms c ∈ ss -> exec_ok s' id ms /\ ms <> [];
  st_comps : forall q id st, SCompleted q id st ∈ ss ->
    completed_at s' id st /\ (s_policy s' = Module r -> q = r);
  st_policy : s_policy s' = Module r -> s_policy s = Module r /\
    forall id, lsum (sub_completed id) ss = finished s' id - finished s id }.
Lemma exec_nonempty O s b a m s' subs d id ms c :
  handle O s b a m = Ok (s', subs) -> SExec d id ms c ∈ subs -> ms <> [].
Proof.
  intros H Hx. assert ((exists i, m = Execute i) \/ (forall i, m <> Execute i)) as [[i ->]|Hne].
  { destruct m; try (by right); eauto. }
  - simpl in H. apply execute_execute_shape in H as (p & st & Hp & Hst & Hal & -> & ->).
    rewrite !elem_of_app in Hx.
    destruct Hx as [Hin|[Hin|Hin]];
      [|by apply no_exec_changed in Hin|by apply no_exec_completed in Hin].
    destruct (p_msgs p) eqn:Em; [by apply elem_of_nil in Hin|].
    apply elem_of_list_singleton in Hin. by injection Hin as -> -> -> ->.
  - by apply (handle_no_exec _ _ _ _ _ _ _ H Hne) in Hx.
Qed.
Lemma handle_s2 O b s a m s' ss r :
  winv b s -> handle O s b a m = Ok (s', ss) -> s2step b s s' ss r.
Proof.
  intros HW H. pose proof (handle_prims _ _ _ _ _ _ _ H) as Hr.
  pose proof (prims_same_terms O b s s' HW Hr) as HT.
  assert (s_policy s' = Module r -> s_policy s = Module r) as Hpol.
  { intros Hp.
    assert ((exists i, m = UpdatePreProposeInfo i) \/ (forall i, m <> UpdatePreProposeInfo i))
      as [[i ->]|Hn] by (destruct m; eauto; right; done).
    - cbn [handle] in H. unfold execute_update_policy in H.
      destruct (_ =? _)%N; [|done]. destruct i; cbn in H; injection H as <- <-; done.
    - destruct (handle_policy _ _ _ _ _ _ _ H Hn) as [E _]. congruence. }
  split.
  - by destruct HT.
  - intros id p Hp. by eapply same_terms_msgs.
  - intros id st. by apply (completed_at_prims O b).
  - intros id ms. by apply (exec_ok_prims O b).
  - intros id p _ _. by apply (failed_prims O b).
  - intros d id ms c Hx. split; [by eapply handle_exec|by eapply exec_nonempty].
  - intros q id st Hx. destruct (handle_completed_at _ _ _ _ _ _ _ _ _ _ H Hx) as [H1 H2].
    split; [done|]. intros Hp. apply Hpol in Hp. congruence.
  - intros Hp. split; [by apply Hpol|]. intros id. eapply handle_completed_exact; [done| |done].
    by apply Hpol.
Qed.
Lemma fail_s2 b s x s' r :
  pend b s x -> (forall d id ms c, x = SExec d id ms c -> exec_ok s id ms /\ ms <> []) ->
  on_fail s b x = Ok s' -> s2step b s s' [] r.
Proof.
  intros HP Hx H. split.
  - destruct (on_fail_shape _ _ _ _ H) as [(d & i & ms & p & -> & Hp & ->)|(_ & _ & _ & E3 & _)];
      [done|lia].
  - intros id p Hp.
    destruct (on_fail_shape _ _ _ _ H) as [(d & i & ms & p0 & -> & Hp0 & ->)|(_ & E & _)].
    + cbn. destruct (decide (i = id)) as [->|Hn].
      * rewrite lookup_insert. eexists. split; [done|]. cbn. congruence.
      * rewrite lookup_insert_ne by done. eauto.
    + rewrite E. eauto.
  - intros id st. by apply (completed_at_fail b s x).
  - intros id ms. by apply (exec_ok_fail s b x).
  - intros id p Hp Em (p' & Hp' & E).
    destruct (on_fail_shape _ _ _ _ H) as [(d & i & ms & p0 & -> & Hp0 & ->)|(_ & E1 & _)].
    + cbn in Hp'. apply lookup_insert_Some in Hp' as [[-> _]|[_ Hp']]; [|by exists p'].
      destruct (Hx d id ms true eq_refl) as [(p1 & Hp1 & _ & E1) E2]. congruence.
    + rewrite E1 in Hp'. by exists p'.
  - intros d id ms c []%elem_of_nil.
  - intros q id st []%elem_of_nil.
  - intros Hp. assert (s_policy s = Module r) as Hp0.
    { assert ((exists q id st, x = SCompleted q id st) \/ (forall q id st, x <> SCompleted q id st))
        as [(q & id & st & ->)|Hn] by (destruct x; eauto; right; done).
      - cbn in H. destruct (s_policy s); [done|]. by injection H as <-.
      - by rewrite <- (fail_policy _ _ _ _ H Hn). }
    split; [done|]. intros id. cbn [lsum]. rewrite (finished_fail b s x s' id HP H). lia.
Qed.
Lemma same_s2 b s r : s2step b s s [] r.
Proof.
  split; eauto; try lia.
  - intros d id ms c []%elem_of_nil.
  - intros q id st []%elem_of_nil.
  - intros Hp. split; [done|]. intros id. cbn. lia.
Qed.
Lemma ok_s2 b s x d s' r : d <> r -> on_ok s b x d = Ok s' -> s2step b s s' [] r.
Proof.
  intros Hd H. assert (no_inst x \/ exists i, x = SInstantiate i) as [Hn|[i ->]]
    by (destruct x; try (by left); right; eauto).
  - rewrite (ok_policy _ _ _ _ _ H Hn). apply same_s2.
  - cbn in H. injection H as <-. split; cbn; eauto; try lia.
    + intros d' id ms c []%elem_of_nil.
    + intros q id st []%elem_of_nil.
    + intros [= ?]. done.
Qed.

(** ** Calls of the second system *)
Inductive vcase (O : oracle) (b : block) (v : ajstate) (a : addr) (m : ajmsg) (v' : ajstate)
    (subs : list ajsub) : Prop :=
| vc_single m0 s' ss :
    m = AJSingle m0 -> handle O (aj_s v) b a m0 = Ok (s', ss) ->
    v' = AJState (aj_self v) s' (aj_v v) -> subs = map AFromSingle ss -> vcase O b v a m v' subs
| vc_propose e i act fits s' ss :
    m = AJAppr e (VPropose i act fits) -> a = v_approval (aj_v v) ->
    handle O (aj_s v) b (aj_self v) (Propose (ProposeMsg [] (Some a) None act fits)) = Ok (s', ss) ->
    v' = AJState (aj_self v) s'
           (VState (v_base (aj_v v)) (v_approval (aj_v v))
              (<[s_count (aj_s v) + 1 := i]> (v_by_prop (aj_v v)))
              (<[i := s_count (aj_s v) + 1]> (v_by_pre (aj_v v)))) ->
    subs = map AFromSingle ss -> vcase O b v a m v' subs
| vc_other q ys :
    v' = AJState (aj_self v) (aj_s v)
           (VState q (v_approval (aj_v v)) (v_by_prop (aj_v v)) (v_by_pre (aj_v v))) ->
    subs = map AFromAppr ys ->
    (forall y, y ∈ ys -> (exists x, y = VSBase x) \/ exists e, m = AJAppr e VReset) ->
    (forall y, y ∈ ys -> y = VSRemoveHook (aj_self v) \/ (forall a, y <> VSRemoveHook a)) ->
    (forall y i, y ∈ ys -> y <> VSApprove i /\ y <> VSReject i) ->
    (forall e i act fits, m <> AJAppr e (VPropose i act fits)) ->
    vcase O b v a m v' subs.
Lemma vcall_cases O b v a m v' subs :
  ajhandle O v b a m = Ok (v', subs) -> vcase O b v a m v' subs.
Proof.
  intros H. destruct m as [m|e0 m]; cbn [ajhandle] in H.
  { destruct (handle O (aj_s v) b a m) as [[s' ss]|] eqn:E; [|done]. injection H as <- <-.
    by eapply vc_single. }
  destruct (a =? q_module _)%N eqn:Em; [done|]. cbn [negb] in H. set (e := PEnv _ _ _ _) in H.
  destruct m as [i act fits|id st| |m]; cbn [v_handle] in H.
  - unfold v_propose in H. destruct (a =? v_approval _)%N eqn:Ea; [|done]. apply N.eqb_eq in Ea.
    destruct (handle O (aj_s v) b (aj_self v) _) as [[s' ss]|] eqn:E; [|done]. injection H as <- <-.
    refine (vc_propose O b v a _ _ _ e0 i act fits s' ss eq_refl Ea E eq_refl _).
    cbn. by rewrite app_nil_r.
  - unfold v_completed in H. by rewrite Em in H.
  - unfold v_reset in H. destruct (a =? q_dao (v_base (aj_v v)))%N; [|done]. injection H as <- <-.
    eapply (vc_other _ _ _ _ _ _ _ (v_base (aj_v v))
      [VSRemoveHook (aj_self v); VSSetApprover (q_dao (v_base (aj_v v)))]); [by destruct (aj_v v)|done|..].
    + intros y _. right. by exists e0.
    + intros y [->|[->|[]%elem_of_nil]%elem_of_cons]%elem_of_cons; [by left|right; done].
    + intros y i [->|[->|[]%elem_of_nil]%elem_of_cons]%elem_of_cons; done.
    + done.
  - assert (exists q' xs, v' = AJState (aj_self v) (aj_s v)
        (VState q' (v_approval (aj_v v)) (v_by_prop (aj_v v)) (v_by_pre (aj_v v))) /\
        subs = map AFromAppr (map VSBase xs)) as (q' & xs & -> & ->).
    { destruct m; try done;
        (destruct (pre_handle (v_base (aj_v v)) e a _) as [[q' xs]|]; [|done]); exists q', xs;
        (assert (match map VSBase xs with VSPropose pm :: rest => False | _ => True end) as Hn
          by (by destruct xs)); destruct (map VSBase xs) as [|[] ?]; try done; by injection H as <- <-. }
    eapply vc_other; [done..| | | |]; [intros y Hy|intros y Hy|intros y i Hy|done];
      apply elem_of_list_fmap in Hy as (x & -> & _); eauto; right; done.
Qed.

(** ** Steps of the whole *)
Inductive tstep (O1 O2 : oracle) (A P : addr) (b : block) (e : tevent) (j : jstate) (v : ajstate)
    : list titem -> jstate -> ajstate -> list titem -> Prop :=
| t_joint a m j' l todo :
    e = TJoint a m -> a <> A -> a <> P -> jhandle O1 j b a m = Ok (j', l) ->
    tstep O1 O2 A P b e j v todo j' v (map TJ l ++ todo)
| t_told y pm j' l rest :
    v_call y = Some pm -> jhandle O1 j b P (JPre env0 pm) = Ok (j', l) ->
    tstep O1 O2 A P b e j v (TV (AFromAppr y) :: rest) j' v (map TJ l ++ rest)
| t_appro a m v' l todo :
    e = TAppr a m -> a <> A -> a <> P -> ajhandle O2 v b a m = Ok (v', l) ->
    tstep O1 O2 A P b e j v todo j v' (map TV l ++ todo)
| t_hooked i act fits v' l rest :
    ajhandle O2 v b A (AJAppr env0 (VPropose i act fits)) = Ok (v', l) ->
    tstep O1 O2 A P b e j v (TJ (FromPre (XHook P (HApproval i))) :: rest) j v' (map TV l ++ rest)
| t_completed id st i y rest :
    v_by_prop (aj_v v) !! id = Some i ->
    (st = Closed /\ y = VSReject i) \/ (st = Executed /\ y = VSApprove i) ->
    tstep O1 O2 A P b e j v (TV (AFromSingle (SCompleted P id st)) :: rest) j v
      (TV (AFromAppr y) :: TVEnd (AFromSingle (SCompleted P id st)) :: rest)
| t_jrun x rest :
    (forall i, is_hook P i x = 0) ->
    tstep O1 O2 A P b e j v (TJ x :: rest) j v (TJEnd x :: rest)
| t_vrun x rest :
    (forall id st, x <> AFromSingle (SCompleted P id st)) ->
    (forall y, x = AFromAppr y -> v_call y = None) ->
    tstep O1 O2 A P b e j v (TV x :: rest) j v (TVEnd x :: rest)
| t_jfail x j' rest :
    jon_fail j b x = Ok j' -> tstep O1 O2 A P b e j v (TJ x :: rest) j' v rest
| t_jok x d j' rest :
    d <> A -> d <> P -> jon_ok j b x d = Ok j' ->
    tstep O1 O2 A P b e j v (TJEnd x :: rest) j' v rest
| t_vfail x s' rest :
    on_fail (aj_s v) b x = Ok s' ->
    tstep O1 O2 A P b e j v (TV (AFromSingle x) :: rest) j (AJState (aj_self v) s' (aj_v v)) rest
| t_vok x d s' rest :
    d <> A -> d <> P -> on_ok (aj_s v) b x d = Ok s' ->
    tstep O1 O2 A P b e j v (TVEnd (AFromSingle x) :: rest) j (AJState (aj_self v) s' (aj_v v)) rest
| t_vok' y rest :
    tstep O1 O2 A P b e j v (TVEnd (AFromAppr y) :: rest) j v rest.
Lemma t_event_step O1 O2 s b e s' :
  t_event O1 O2 s b e = Ok s' ->
  tstep O1 O2 (t_appr s) (t_boss s) b e (t_j s) (t_v s) (t_todo s) (t_j s') (t_v s') (t_todo s').
Proof.
  assert (forall a, t_outside s a = true -> a <> t_appr s /\ a <> t_boss s) as Ho.
  { unfold t_outside. intros a H. split; intros ->; rewrite N.eqb_refl in H; [done|].
    by rewrite andb_false_r in H. }
  intros H. destruct e as [a m|a m|act fits| |d]; cbn [t_event] in H.
  - destruct (t_outside s a) eqn:Ea; [|done]. apply Ho in Ea as [E1 E2]. unfold to_j in H.
    destruct (jhandle O1 (t_j s) b a m) as [[j l]|] eqn:E; [|done]. injection H as <-. cbn.
    by eapply t_joint.
  - destruct (t_outside s a) eqn:Ea; [|done]. apply Ho in Ea as [E1 E2]. unfold to_v in H.
    destruct (ajhandle O2 (t_v s) b a m) as [[v l]|] eqn:E; [|done]. injection H as <-. cbn.
    by eapply t_appro.
  - unfold t_run in H. destruct (t_todo s) as [|[x|x|x|x] t] eqn:Et; [done| |done| |done].
    + assert ((exists i, x = FromPre (XHook (t_boss s) (HApproval i))) \/
        ((forall i, is_hook (t_boss s) i x = 0) /\ Ok (Two (t_j s) (t_v s) (TJEnd x :: t)) = Ok s'))
        as [[i ->]|[Hn H']].
      { destruct x as [x|[pm|r [pm|i]|k tk o n|w dn tt0 n]]; try (by right).
        destruct (r =? t_boss s)%N eqn:Er; [apply N.eqb_eq in Er as ->; left; eauto|].
        right. split; [|done]. intros k. cbn. apply N.eqb_neq in Er.
        destruct (decide _) as [[? _]|]; done. }
      * rewrite N.eqb_refl in H. unfold to_v in H.
        destruct (ajhandle _ _ _ _ _) as [[v l]|] eqn:E; [|done]. injection H as <-. cbn.
        by eapply t_hooked.
      * injection H' as <-. cbn. by apply t_jrun.
    + destruct x as [x|y].
      * assert ((exists id st, x = SCompleted (t_boss s) id st) \/
          ((forall id st, AFromSingle x <> AFromSingle (SCompleted (t_boss s) id st)) /\
           Ok (Two (t_j s) (t_v s) (TVEnd (AFromSingle x) :: t)) = Ok s')) as [(id & st & ->)|[Hn H']].
        { destruct x as [| | |r id st|]; try (by right).
          destruct (r =? t_boss s)%N eqn:Er; [apply N.eqb_eq in Er as ->; left; eauto|].
          right. split; [|done]. intros id' st' [= -> -> ->]. by rewrite N.eqb_refl in Er. }
        -- rewrite N.eqb_refl in H. cbn [v_handle] in H. unfold v_completed in H.
           rewrite N.eqb_refl in H.
           destruct (v_by_prop (aj_v (t_v s)) !! id) as [i|] eqn:Ei; [|done].
           assert (exists y, ((st = Closed /\ y = VSReject i) \/ (st = Executed /\ y = VSApprove i)) /\
             Ok (Two (t_j s) (AJState (t_boss s) (aj_s (t_v s)) (aj_v (t_v s)))
                   (TV (AFromAppr y) :: TVEnd (AFromSingle (SCompleted (t_boss s) id st)) :: t)) = Ok s')
             as (y & Hy & H').
           { destruct st; try done; eexists; (split; [|exact H]); eauto. }
           injection H' as <-. cbn [t_j t_v t_todo].
           replace (AJState (t_boss s) (aj_s (t_v s)) (aj_v (t_v s))) with (t_v s)
             by (unfold t_boss; by destruct (t_v s)).
           by eapply t_completed.
        -- injection H' as <-. cbn. by apply t_vrun.
      * destruct (v_call y) as [pm|] eqn:Ey.
        -- unfold to_j in H. destruct (jhandle _ _ _ _ _) as [[j l]|] eqn:E; [|done]. injection H as <-.
           by eapply t_told.
        -- injection H as <-. cbn. apply t_vrun; [done|]. by intros y' [= <-].
  - destruct (t_todo s) as [|[x|x|x|x] t] eqn:Et; [done| |done| |done].
    + destruct (jon_fail _ _ _) as [j|] eqn:E; [|done]. injection H as <-. by eapply t_jfail.
    + destruct x as [x|x]; cbn [ajon_fail] in H; [|done].
      destruct (on_fail _ _ _) as [s2|] eqn:E; [|done]. injection H as <-. by eapply t_vfail.
  - destruct (t_outside s d) eqn:Ea; [|done]. apply Ho in Ea as [E1 E2].
    destruct (t_todo s) as [|[x|x|x|x] t] eqn:Et; [done|done| |done|].
    + destruct (jon_ok _ _ _ _) as [j|] eqn:E; [|done]. injection H as <-. by eapply t_jok.
    + destruct x as [x|y]; cbn [ajon_ok] in H; [|injection H as <-; apply t_vok'].
      destruct (on_ok (aj_s (t_v s)) b x d) as [s2|] eqn:E; [|done].
      assert (Ok (Two (t_j s) (AJState (aj_self (t_v s)) s2 (aj_v (t_v s))) t) = Ok s') as H'.
      { destruct x as [| | |r id st|]; try done.
        destruct (r =? aj_self (t_v s))%N; [|done].
        cbn [v_handle] in H. unfold v_completed in H. rewrite N.eqb_refl in H.
        destruct (v_by_prop (aj_v (t_v s)) !! id); [|done]. destruct st; done. }
      injection H' as <-. by eapply t_vok.
Qed.
