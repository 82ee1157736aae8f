(** Pre-propose modules: invariants of one module. *)
From Verif Require Import Base BaseProofs Exec ExecProofs VotingModel HooksModel SingleModel
  SingleSpec StoreModel PreModel PreSpec.

(** ** Submission policy *)
Lemma contains_spec l a : contains l a = true <-> a ∈ l.
Proof.
  unfold contains. rewrite existsb_exists. split.
  - intros (x & Hx & E). apply N.eqb_eq in E as ->. by apply elem_of_list_In.
  - intros H. exists a. split; [by apply elem_of_list_In|apply N.eqb_refl].
Qed.
Lemma contains_false l a : contains l a = false <-> a ∉ l.
Proof. rewrite <- contains_spec. destruct (contains l a); naive_solver. Qed.

Lemma can_submit_iff p who power :
  check_can_submit p who power = Ok tt <-> may_submit p who power.
Proof.
  destruct p as [deny|members allow deny]; simpl.
  - destruct (contains deny who) eqn:E; simpl.
    + apply contains_spec in E. split; [discriminate|]. intros H. by destruct H.
    + apply contains_false in E. done.
  - destruct (contains deny who) eqn:E; simpl.
    + apply contains_spec in E. split; [discriminate|]. intros [H _]. by destruct H.
    + apply contains_false in E. destruct (contains allow who) eqn:E2.
      * apply contains_spec in E2. naive_solver.
      * apply contains_false in E2. destruct members; [|naive_solver].
        destruct (power =? 0) eqn:E3; simpl; naive_solver lia.
Qed.

Lemma validate_submission_iff p :
  validate_submission p = Ok tt <->
  match p with
  | SAnyone _ => True
  | SSpecific members allow deny =>
      (forall a, a ∈ allow -> a ∈ deny -> False) /\ (members = true \/ allow <> [])
  end.
Proof.
  destruct p as [deny|members allow deny]; simpl; [done|].
  destruct (existsb (contains allow) deny) eqn:E; simpl.
  - split; [discriminate|]. intros [H _]. apply existsb_exists in E as (a & Ha & Hc).
    exfalso. apply (H a); [by apply contains_spec|by apply elem_of_list_In].
  - assert (forall a, a ∈ allow -> a ∈ deny -> False).
    { intros a Ha Hd. assert (existsb (contains allow) deny = true); [|congruence].
      apply existsb_exists. exists a. split; [by apply elem_of_list_In|by apply contains_spec]. }
    destruct members, allow; simpl; naive_solver.
Qed.

Lemma dedup_elem l a : a ∈ dedup l <-> a ∈ l.
Proof.
  induction l as [|x l IH]; [done|]. cbn [dedup].
  destruct (dedup l) as [|y t]; [|destruct (x =? y)%N eqn:Exy].
  - rewrite !elem_of_cons. naive_solver.
  - apply N.eqb_eq in Exy as ->. rewrite IH, elem_of_cons. split; [by right|].
    intros [->|H]; [apply IH; left|done].
  - rewrite elem_of_cons, IH, <- elem_of_cons. done.
Qed.
Lemma filter_elem {A} (f : A -> bool) l a : a ∈ List.filter f l <-> a ∈ l /\ f a = true.
Proof. rewrite !elem_of_list_In. apply filter_In. Qed.
Lemma add_and_remove_elem l add rem a :
  a ∈ add_and_remove l add rem <->
  (a ∈ l \/ exists x, add = Some x /\ a ∈ x) /\ ~ (exists x, rem = Some x /\ a ∈ x).
Proof.
  unfold add_and_remove.
  set (l1 := match add with Some x => _ | None => l end).
  assert (a ∈ l1 <-> a ∈ l \/ exists x, add = Some x /\ a ∈ x) as H1.
  { unfold l1. destruct add as [x|].
    - rewrite dedup_elem, sorting.merge_sort_Permutation, elem_of_app. naive_solver.
    - naive_solver. }
  destruct rem as [x|].
  - rewrite filter_elem, H1, negb_true_iff, contains_false. naive_solver.
  - rewrite H1. naive_solver.
Qed.

(** ** Records *)

(** The deposit recorded under a key, with its depositor. *)
Definition rec (q : pstate) (k : key) : option (option deposit * addr) :=
  match k with
  | KProp id => match q_kind q with Plain => q_deposits q !! id | Approval => None end
  | KAppr id => option_map (fun r => (a_deposit r, a_proposer r)) (submission_of q id)
  end.
Definition has_deposit (r : option (option deposit * addr)) : Z :=
  match r with Some (Some _, _) => 1 | _ => 0 end.
(** 1 if submission [i] was rejected and had a deposit. *)
Definition rejected_deposit (q : pstate) (i : Z) : Z :=
  match q_completed q !! i with
  | Some r => match a_status r, a_deposit r with ARejected, Some _ => 1 | _, _ => 0 end
  | None => 0
  end.

Definition resolved (r : appr) (st : appr_status) : appr :=
  Appr st (a_id r) (a_proposer r) (a_msg r) (a_deposit r).

Definition nonzero (o : option deposit) : Prop :=
  match o with Some d => d_amount d <> 0 | None => True end.

Record qinv (q : pstate) : Prop := {
  qi_cfg : nonzero (q_deposit q);
  qi_policy : validate_submission (q_policy q) = Ok tt;
  qi_deposits : forall id o a, q_deposits q !! id = Some (o, a) -> nonzero o;
  qi_plain : q_kind q = Plain ->
    q_pending q = ∅ /\ q_completed q = ∅ /\ q_created q = ∅ /\ q_current q = 0;
  qi_pending : forall i r, q_pending q !! i = Some r ->
    1 <= i <= q_current q /\ a_status r = APending /\ a_id r = i /\ nonzero (a_deposit r) /\
    pm_proposer (a_msg r) = Some (a_proposer r) /\ q_completed q !! i = None;
  qi_completed : forall i r, q_completed q !! i = Some r ->
    1 <= i <= q_current q /\ a_status r <> APending /\ a_id r = i /\ nonzero (a_deposit r);
  qi_created : forall pid i, q_created q !! pid = Some i ->
    exists r, q_completed q !! i = Some r /\ a_status r = AApproved pid /\
      q_deposits q !! pid = Some (a_deposit r, a_proposer r);
  qi_approved : forall i r pid, q_completed q !! i = Some r -> a_status r = AApproved pid ->
    q_created q !! pid = Some i;
  qi_from : q_kind q = Approval -> forall pid, is_Some (q_deposits q !! pid) ->
    is_Some (q_created q !! pid);
  qi_current : 0 <= q_current q;
  qi_all : forall i, 1 <= i <= q_current q -> is_Some (submission_of q i) }.

(** What never changes, or only grows. *)
Record qle (q q' : pstate) : Prop := {
  ql_kind : q_kind q' = q_kind q;
  ql_module : q_module q' = q_module q;
  ql_dao : q_dao q' = q_dao q;
  ql_deposits : forall id r, q_deposits q !! id = Some r -> q_deposits q' !! id = Some r;
  ql_completed : forall i r, q_completed q !! i = Some r -> q_completed q' !! i = Some r;
  ql_pending : forall i r, q_pending q !! i = Some r ->
    q_pending q' !! i = Some r \/
    exists st, q_completed q' !! i = Some (resolved r st);
  ql_created : forall pid i, q_created q !! pid = Some i -> q_created q' !! pid = Some i;
  ql_current : q_current q <= q_current q' }.

Lemma qle_refl q : qle q q.
Proof. constructor; eauto; lia. Qed.
Lemma qle_trans a b c : qle a b -> qle b c -> qle a c.
Proof.
  intros [A1 A2 A3 A4 A5 A6 A7 A8] [B1 B2 B3 B4 B5 B6 B7 B8].
  constructor; eauto; try congruence; try lia.
  intros i r Hp. destruct (A6 i r Hp) as [H|(st & Hc)]; eauto.
Qed.
Lemma rec_stable q q' k r : qinv q' -> qle q q' -> rec q k = Some r -> rec q' k = Some r.
Proof.
  intros Hq' HL. unfold rec. destruct k as [id|i].
  - rewrite (ql_kind _ _ HL). destruct (q_kind q); [|done]. apply HL.
  - unfold submission_of.
    destruct (q_pending q !! i) as [x|] eqn:Ep; simpl.
    + intros [= <-]. destruct (ql_pending _ _ HL i x Ep) as [H|(st & Hc)].
      * by rewrite H.
      * destruct (q_pending q' !! i) as [y|] eqn:Ey.
        -- apply (qi_pending _ Hq') in Ey as (_ & _ & _ & _ & _ & Hn). congruence.
        -- by rewrite Hc.
    + destruct (q_completed q !! i) as [x|] eqn:Ec; simpl; [|done]. intros [= <-].
      apply (ql_completed _ _ HL) in Ec.
      destruct (q_pending q' !! i) as [y|] eqn:Ey.
      * apply (qi_pending _ Hq') in Ey as (_ & _ & _ & _ & _ & Hn). congruence.
      * by rewrite Ec.
Qed.

(** ** Handlers *)
Definition is_take (k : key) (x : xsub) : Z :=
  match x with XTake k' _ _ _ => if decide (k' = k) then 1 else 0 | _ => 0 end.
Definition is_reject_pay (i : Z) (x : xsub) : Z :=
  match x with XPay w _ _ _ => if decide (w = RRejected i) then 1 else 0 | _ => 0 end.
Definition count_key (k : key) (l : list taken) : Z :=
  lsum (fun t => if decide (tk_key t = k) then 1 else 0) l.

(** Known of every message a handler emits, in the state it leaves. *)
Definition xpend (q : pstate) (x : xsub) : Prop :=
  match x with
  | XTake k t o n =>
      exists d, rec q k = Some (Some d, o) /\ d_denom d = Cw20 t /\ d_amount d = n
  | XPay (RRejected i) dn to n =>
      exists r d, q_completed q !! i = Some r /\ a_status r = ARejected /\
        a_deposit r = Some d /\ dn = d_denom d /\ n = d_amount d /\
        to = (if decide (d_refund d = Always) then a_proposer r else q_dao q)
  | XPay (RCompleted id) dn to n => False
  | _ => True
  end.
Lemma xpend_stable q q' x : qinv q' -> qle q q' -> xpend q x -> xpend q' x.
Proof.
  intros Hq' HL. destruct x as [pm|r m|k t o n|[id|i|] dn to n]; simpl; try done.
  - intros (d & Hr & H). exists d. split; [by eapply rec_stable|done].
  - intros (r & d & Hc & H). exists r, d. rewrite (ql_dao _ _ HL).
    split; [by apply (ql_completed _ _ HL)|done].
Qed.

Lemma must_pay_ok funds d n : must_pay funds d = Ok n -> funds = [(d, n)] /\ n <> 0.
Proof.
  unfold must_pay. destruct funds as [|[d' n'] [|? ?]]; try discriminate.
  destruct (n' =? 0) eqn:E; [discriminate|]. destruct (d' =? d)%N eqn:E2; [|discriminate].
  intros [= <-]. apply N.eqb_eq in E2 as ->. split; [done|lia].
Qed.
Lemma native_paid d funds x :
  check_native_deposit_paid d funds = Ok tt -> d_denom d = Native x -> funds = [(x, d_amount d)].
Proof.
  unfold check_native_deposit_paid. intros H E. rewrite E in H.
  destruct (must_pay funds x) as [n|] eqn:Em; [|discriminate].
  apply must_pay_ok in Em as [-> _].
  destruct (n =? d_amount d) eqn:En; [|discriminate]. apply Z.eqb_eq in En as ->. done.
Qed.

(** The deposit part: with a deposit configured, exactly one unit of it is taken
    (by coins or by message) under [k]. *)
Lemma deposit_part_ok q e k sender takes :
  nonzero (q_deposit q) -> deposit_part q e k sender = Ok takes ->
  match q_deposit q with
  | None => takes = []
  | Some d =>
      (exists x, d_denom d = Native x /\ e_funds e = [(x, d_amount d)] /\ takes = []) \/
      (exists t, d_denom d = Cw20 t /\ takes = [XTake k t sender (d_amount d)])
  end.
Proof.
  unfold deposit_part. destruct (q_deposit q) as [d|]; simpl; [|by intros _ [= <-]].
  intros Hnz H. destruct (check_native_deposit_paid d (e_funds e)) as [[]|] eqn:E; [|discriminate].
  injection H as <-. unfold take_messages. destruct (d_denom d) as [x|t] eqn:Ed.
  - left. exists x. split; [done|]. split; [|done]. by apply native_paid.
  - right. exists t. split; [done|]. destruct (d_amount d =? 0) eqn:E0; [lia|done].
Qed.

Definition same_flow (q q' : pstate) : Prop :=
  q_kind q' = q_kind q /\ q_module q' = q_module q /\ q_dao q' = q_dao q /\
  q_deposits q' = q_deposits q /\ q_pending q' = q_pending q /\
  q_completed q' = q_completed q /\ q_created q' = q_created q /\
  q_current q' = q_current q.
Definition quiet_msg (m : pmsg) : Prop :=
  match m with PPropose _ | PApprove _ | PReject _ => False | _ => True end.

Ltac quiet_done :=
  simpl; split; [repeat split; simpl; congruence|]; split; [intros; first [done|simpl in *; lia|idtac]|];
  split; [done|]; intros ? Hx; by apply elem_of_nil in Hx.
Lemma quiet_shape q e a m q' subs :
  quiet_msg m -> pre_handle q e a m = Ok (q', subs) ->
  same_flow q q' /\
  (nonzero (q_deposit q) -> nonzero (q_deposit q')) /\
  (validate_submission (q_policy q) = Ok tt -> validate_submission (q_policy q') = Ok tt) /\
  (forall x, x ∈ subs -> (exists dn n, x = XPay RWithdraw dn (q_dao q) n) \/
     (a = q_module q /\ exists id st, m = PCompleted id st)).
Proof.
  unfold same_flow. destruct m; simpl; try done; intros _ H.
  - unfold pre_update_config in H.
    destruct (a =? q_dao q)%N; [|discriminate].
    destruct d as [d|].
    + unfold into_checked in H. destruct (negb (d_amount d =? 0)) eqn:E; [|discriminate].
      destruct p as [p|]; [destruct (validate_submission p) as [[]|] eqn:Ev; [|discriminate]|];
        injection H as <- <-; quiet_done.
    + destruct p as [p|]; [destruct (validate_submission p) as [[]|] eqn:Ev; [|discriminate]|];
        injection H as <- <-; quiet_done.
  - unfold pre_update_policy in H. destruct (a =? q_dao q)%N; [|discriminate].
    match type of H with (match ?e with Ok _ => _ | Err _ => _ end = _) =>
      destruct e as [p|]; [|discriminate] end.
    destruct (validate_submission p) as [[]|] eqn:Ev; [|discriminate].
    injection H as <- <-. quiet_done.
  - unfold pre_withdraw in H. destruct (a =? q_dao q)%N; [|discriminate].
    match type of H with (match ?e with Some _ => _ | None => _ end = _) =>
      destruct e as [dn|]; [|discriminate] end.
    destruct (negb _); [|discriminate]. injection H as <- <-. split; [by repeat split|]. split; [done|]. split; [done|].
    intros x Hx. apply elem_of_list_singleton in Hx. left. eauto.
  - unfold pre_add_hook in H. destruct (hook_admin q a); [|discriminate].
    destruct (add_hook _ _); [|discriminate]. injection H as <- <-. quiet_done.
  - unfold pre_remove_hook in H. destruct (hook_admin q a); [|discriminate].
    destruct (remove_hook _ _); [|discriminate]. injection H as <- <-. quiet_done.
  - unfold pre_completed in H. destruct (a =? q_module q)%N eqn:Ea; [|discriminate].
    apply N.eqb_eq in Ea.
    destruct (bool_decide _); [|discriminate].
    assert (q' = q) as ->.
    { destruct (q_deposits q !! id) as [[[d|] pr]|]; by injection H as <- <-. }
    split; [by repeat split|]. split; [done|]. split; [done|]. eauto.
  - destruct (q_kind q) eqn:Ek; [discriminate|]. unfold appr_update_approver in H.
    destruct (_ =? _)%N; [|discriminate]. injection H as <- <-. quiet_done.
  - destruct (q_kind q) eqn:Ek; [|discriminate]. injection H as <- <-. quiet_done.
Qed.

Lemma same_flow_qle q q' : same_flow q q' -> qle q q'.
Proof.
  intros (A & B & C & D & E & F & G & H).
  constructor; rewrite ?A, ?B, ?C, ?D, ?E, ?F, ?G, ?H; eauto; lia.
Qed.
Lemma same_flow_rec q q' k : same_flow q q' -> rec q' k = rec q k.
Proof.
  intros (A & B & C & D & E & F & G & H). unfold rec, submission_of. by rewrite A, D, E, F.
Qed.
Lemma same_flow_qinv q q' :
  qinv q -> same_flow q q' -> nonzero (q_deposit q') ->
  validate_submission (q_policy q') = Ok tt -> qinv q'.
Proof.
  intros [I1 I2 I3 I4 I5 I6 I7 I8 I9 I10 I11] (A & B & C & D & E & F & G & H) Hn Hv.
  constructor; rewrite ?A, ?B, ?C, ?D, ?E, ?F, ?G, ?H; eauto.
  intros i Hi. unfold submission_of. rewrite E, F. by apply I11.
Qed.

Lemma pre_propose_shape q e a pm q' subs :
  qinv q -> pre_propose q e a pm = Ok (q', subs) ->
  exists takes,
    may_submit (q_policy q) a (e_power e) /\
    deposit_part q e (KProp (e_next e)) a = Ok takes /\
    q' = q_with_deposits q (<[e_next e := (q_deposit q, a)]> (q_deposits q)) /\
    subs = XPropose (with_proposer pm a) ::
           map (fun h => XHook h (HPropose (with_proposer pm a))) (q_hooks q) ++ takes.
Proof.
  unfold pre_propose. intros Hq H.
  destruct (check_can_submit _ _ _) as [[]|] eqn:E; [|discriminate].
  apply can_submit_iff in E.
  destruct (deposit_part _ _ _ _) as [takes|] eqn:Ed; [|discriminate].
  injection H as <- <-. eauto 10.
Qed.
Lemma appr_propose_shape q e a pm q' subs :
  appr_propose q e a pm = Ok (q', subs) ->
  exists takes,
    may_submit (q_policy q) a (e_power e) /\
    deposit_part q e (KAppr (q_current q + 1)) a = Ok takes /\
    q' = q_with_flow q
           (<[q_current q + 1 := Appr APending (q_current q + 1) a (with_proposer pm a)
                                   (q_deposit q)]> (q_pending q))
           (q_completed q) (q_created q) (q_current q + 1) /\
    subs = takes ++ map (fun h => XHook h (HApproval (q_current q + 1))) (q_hooks q).
Proof.
  unfold appr_propose. intros H.
  destruct (check_can_submit _ _ _) as [[]|] eqn:E; [|discriminate].
  apply can_submit_iff in E.
  destruct (deposit_part _ _ _ _) as [takes|] eqn:Ed; [|discriminate].
  injection H as <- <-. eauto 10.
Qed.

Lemma lsum_hooks_zero (f : xsub -> Z) (g : addr -> xsub) l :
  (forall a, f (g a) = 0) -> lsum f (map g l) = 0.
Proof. intros H. induction l as [|a l IH]; simpl; [done|]. by rewrite H, IH. Qed.

(** ** Invariant, growth, and accounting, for every message *)
Record step_ok (q : pstate) (e : penv) (a : addr) (m : pmsg) (q' : pstate)
    (subs : list xsub) : Prop := {
  so_inv : qinv q';
  so_le : qle q q';
  so_take : forall k, lsum (is_take k) subs + count_key k (native_taken q e a m) =
              has_deposit (rec q' k) - has_deposit (rec q k);
  so_native : forall t, t ∈ native_taken q e a m -> exists d pr,
      rec q' (tk_key t) = Some (Some d, pr) /\
      t = Taken (tk_key t) (d_denom d) pr (d_amount d);
  so_reject : forall i, lsum (is_reject_pay i) subs =
              rejected_deposit q' i - rejected_deposit q i;
  so_pend : a <> q_module q -> forall x, x ∈ subs -> xpend q' x;
  so_new : forall id, is_Some (q_deposits q' !! id) ->
      is_Some (q_deposits q !! id) \/
      (id = e_next e /\ exists pm rest, subs = XPropose pm :: rest);
  so_head : forall pm rest, subs = XPropose pm :: rest -> forall pm', XPropose pm' ∉ rest;
  so_tail : forall pm, XPropose pm ∈ subs -> exists rest, subs = XPropose pm :: rest }.

Lemma take_count_native q e a pm k d x :
  q_deposit q = Some d -> d_denom d = Native x -> e_funds e = [(x, d_amount d)] ->
  native_taken q e a (PPropose pm) =
    [Taken (match q_kind q with Plain => KProp (e_next e) | Approval => KAppr (q_current q + 1) end)
       (d_denom d) a (d_amount d)] /\
  count_key k (native_taken q e a (PPropose pm)) =
    if decide (match q_kind q with Plain => KProp (e_next e)
               | Approval => KAppr (q_current q + 1) end = k) then 1 else 0.
Proof.
  intros Hd Hx Hf. unfold native_taken. rewrite Hd, Hx, Hf. simpl. split; [done|].
  unfold count_key. simpl. lia.
Qed.
Lemma take_count_cw20 q e a pm d t :
  q_deposit q = Some d -> d_denom d = Cw20 t -> native_taken q e a (PPropose pm) = [].
Proof. intros Hd Hx. unfold native_taken. by rewrite Hd, Hx. Qed.
Lemma take_count_none q e a pm :
  q_deposit q = None -> native_taken q e a (PPropose pm) = [].
Proof. intros Hd. unfold native_taken. by rewrite Hd. Qed.

Lemma quiet_step q e a m q' subs :
  qinv q -> quiet_msg m -> pre_handle q e a m = Ok (q', subs) -> step_ok q e a m q' subs.
Proof.
  intros Hq Hm H. destruct (quiet_shape q e a m q' subs Hm H) as (HF & Hn & Hv & Hs).
  assert (native_taken q e a m = []) as Hnt by (destruct m; done).
  assert (forall (f : xsub -> Z), (forall w dn to n, (forall i, w <> RRejected i) ->
            f (XPay w dn to n) = 0) -> lsum f subs = 0) as Hz.
  { intros f Hf. destruct m; simpl in H; try done.
    1-2,4-5,7-8: assert (subs = []) as ->; [|done];
      destruct subs as [|x subs]; [done|]; exfalso;
      destruct (Hs x ltac:(left)) as [(dn & n & ->)|(_ & id & st & ?)]; [|discriminate].
    - unfold pre_update_config in H. res_inv H; try done; congruence.
    - unfold pre_update_policy in H. res_inv H; try done; congruence.
    - unfold pre_add_hook in H. res_inv H; try done; congruence.
    - unfold pre_remove_hook in H. res_inv H; try done; congruence.
    - destruct (q_kind q); [discriminate|]. unfold appr_update_approver in H. res_inv H; try done; congruence.
    - destruct (q_kind q); [|discriminate]. res_inv H; try done; congruence.
    - unfold pre_withdraw in H. res_inv H. simpl. rewrite Hf; [done|]. intros i; discriminate.
    - unfold pre_completed in H. destruct (_ =? _)%N; [|discriminate].
      destruct (bool_decide _); [|discriminate].
      destruct (q_deposits q !! id) as [[[d|] pr]|]; injection H as <- <-; try done.
      unfold return_messages. destruct (_ =? 0); [done|]. simpl.
      rewrite Hf; [done|]. intros i; discriminate. }
  constructor.
  - eapply same_flow_qinv; [done..|apply Hn, Hq|apply Hv, Hq].
  - by apply same_flow_qle.
  - intros k. rewrite Hnt, (same_flow_rec q q' k HF), Hz; [unfold count_key; simpl; lia|]. done.
  - rewrite Hnt. intros t Ht. by apply elem_of_nil in Ht.
  - intros i. rewrite Hz.
    + unfold rejected_deposit. destruct HF as (_ & _ & _ & _ & _ & -> & _). lia.
    + intros w dn to n Hw. simpl. destruct (decide _) as [E|]; [by destruct (Hw i)|done].
  - intros Ha x Hx. destruct (Hs x Hx) as [(dn & n & ->)|(? & _)]; done.
  - intros id. destruct HF as (_ & _ & _ & -> & _). eauto.
  - intros pm rest -> pm' Hin.
    destruct (Hs (XPropose pm) ltac:(left)) as [(dn & n & ?)|(_ & id & st & ->)]; [done|].
    simpl in H. unfold pre_completed in H. destruct (_ =? _)%N; [|discriminate].
    destruct (bool_decide _); [|discriminate].
    destruct (q_deposits q !! id) as [[[d|] pr]|]; try discriminate.
    unfold return_messages in H. destruct (_ =? 0); discriminate.
  - intros pm Hin.
    destruct (Hs (XPropose pm) Hin) as [(dn & n & ?)|(_ & id & st & ->)]; [done|].
    simpl in H. unfold pre_completed in H. destruct (_ =? _)%N; [|discriminate].
    destruct (bool_decide _); [|discriminate].
    destruct (q_deposits q !! id) as [[[d|] pr]|]; injection H as _ <-;
      try (by apply elem_of_nil in Hin).
    unfold return_messages in Hin. destruct (_ =? 0); [by apply elem_of_nil in Hin|].
    by apply elem_of_list_singleton in Hin.
Qed.

Lemma take_is_take k k' t a n :
  lsum (is_take k) [XTake k' t a n] = if decide (k' = k) then 1 else 0.
Proof. simpl. lia. Qed.

Lemma not_in_hooks (g : addr -> xsub) l pm :
  (forall a, g a <> XPropose pm) -> XPropose pm ∉ map g l.
Proof.
  intros Hg Hin. apply elem_of_list_In, in_map_iff in Hin as (a & E & _). by destruct (Hg a).
Qed.
Lemma not_in_takes q e k a takes pm :
  deposit_part q e k a = Ok takes -> nonzero (q_deposit q) -> XPropose pm ∉ takes.
Proof.
  intros H Hn Hin. pose proof (deposit_part_ok q e k a takes Hn H) as Hd.
  destruct (q_deposit q) as [d|]; [destruct Hd as [(x & _ & _ & ->)|(t & _ & ->)]|subst takes].
  - by apply elem_of_nil in Hin.
  - by apply elem_of_list_singleton in Hin.
  - by apply elem_of_nil in Hin.
Qed.

(** The accounting of one submission: what is taken under its key. *)
Lemma deposit_part_count q e a pm k0 takes q' :
  nonzero (q_deposit q) ->
  k0 = match q_kind q with Plain => KProp (e_next e) | Approval => KAppr (q_current q + 1) end ->
  deposit_part q e k0 a = Ok takes ->
  rec q k0 = None -> rec q' k0 = Some (q_deposit q, a) ->
  (forall k, k <> k0 -> rec q' k = rec q k) ->
  (forall k, lsum (is_take k) takes + count_key k (native_taken q e a (PPropose pm)) =
     has_deposit (rec q' k) - has_deposit (rec q k)) /\
  (forall t, t ∈ native_taken q e a (PPropose pm) -> exists d pr,
     rec q' (tk_key t) = Some (Some d, pr) /\ t = Taken (tk_key t) (d_denom d) pr (d_amount d)) /\
  (forall x, x ∈ takes -> xpend q' x).
Proof.
  intros Hn Hk0 Hd Hr Hr' Ho. pose proof (deposit_part_ok q e k0 a takes Hn Hd) as H.
  assert (forall k, has_deposit (rec q' k) - has_deposit (rec q k) =
    if decide (k0 = k) then match q_deposit q with Some _ => 1 | None => 0 end else 0) as Hdiff.
  { intros k. destruct (decide (k0 = k)) as [<-|Hne].
    - rewrite Hr, Hr'. simpl. destruct (q_deposit q); lia.
    - rewrite Ho by done. lia. }
  destruct (q_deposit q) as [d|] eqn:Eq.
  - destruct H as [(x & Ex & Ef & ->)|(t & Et & ->)].
    + split; [|split].
      * intros k. rewrite Hdiff. rewrite (proj2 (take_count_native q e a pm k d x Eq Ex Ef)).
        rewrite <- Hk0. simpl. done.
      * intros t Ht. rewrite (proj1 (take_count_native q e a pm k0 d x Eq Ex Ef)) in Ht.
        rewrite <- Hk0 in Ht. apply elem_of_list_singleton in Ht as ->. simpl. eauto.
      * intros y Hy. by apply elem_of_nil in Hy.
    + rewrite (take_count_cw20 q e a pm d t Eq Et). split; [|split].
      * intros k. rewrite Hdiff, take_is_take. unfold count_key. simpl. lia.
      * intros y Hy. by apply elem_of_nil in Hy.
      * intros y Hy. apply elem_of_list_singleton in Hy as ->. simpl. eauto.
  - subst takes. rewrite (take_count_none q e a pm Eq). split; [|split].
    + intros k. rewrite Hdiff. unfold count_key. simpl. destruct (decide _); done.
    + intros y Hy. by apply elem_of_nil in Hy.
    + intros y Hy. by apply elem_of_nil in Hy.
Qed.

Lemma plain_step q e a pm q' subs :
  qinv q -> q_kind q = Plain -> q_deposits q !! e_next e = None ->
  pre_propose q e a pm = Ok (q', subs) -> step_ok q e a (PPropose pm) q' subs.
Proof.
  intros Hq Hk Hfresh H.
  destruct (pre_propose_shape q e a pm q' subs Hq H) as (takes & Hmay & Hd & -> & ->).
  set (q' := q_with_deposits _ _).
  pose proof (qi_plain _ Hq Hk) as (P1 & P2 & P3 & P4).
  assert (qle q q') as HL.
  { constructor; simpl; eauto; try lia. intros id r Hr.
    rewrite lookup_insert_ne; [done|]. intros <-. congruence. }
  assert (qinv q') as Hq'.
  { destruct Hq as [I1 I2 I3 I4 I5 I6 I7 I8 I9 I10 I11].
    constructor; simpl; rewrite ?Hk; eauto; try done.
    - intros id o ad Hl. apply lookup_insert_Some in Hl as [[<- [= <- <-]]|[_ Hl]]; eauto.
    - intros pid i Hc. rewrite P3, lookup_empty in Hc. done. }
  destruct (deposit_part_count q e a pm (KProp (e_next e)) takes q') as (C1 & C2 & C3).
  - apply Hq.
  - by rewrite Hk.
  - done.
  - simpl. by rewrite Hk.
  - simpl. by rewrite Hk, lookup_insert.
  - intros [id|i] Hne; simpl; [|done]. rewrite Hk. apply lookup_insert_ne. congruence.
  - assert (forall i, lsum (is_reject_pay i) takes = 0) as Hrej.
    { intros i. pose proof (deposit_part_ok q e _ a takes (qi_cfg _ Hq) Hd) as Hdp.
      destruct (q_deposit q); [destruct Hdp as [(x & _ & _ & ->)|(t & _ & ->)]|subst takes]; done. }
    constructor.
    + done.
    + done.
    + intros k. rewrite <- C1. cbn [lsum is_take]. rewrite lsum_app, lsum_hooks_zero by done. lia.
    + done.
    + intros i. simpl. rewrite lsum_app, lsum_hooks_zero by done. rewrite Hrej.
      unfold rejected_deposit. simpl. lia.
    + intros _ x Hx. rewrite elem_of_cons, elem_of_app in Hx. destruct Hx as [->|[Hx|Hx]]; [done| |auto].
      apply elem_of_list_In, in_map_iff in Hx as (h & <- & _). done.
    + intros id Hs. simpl in Hs. destruct (decide (id = e_next e)) as [->|Hne].
      * right. split; [done|]. eauto.
      * rewrite lookup_insert_ne in Hs by done. eauto.
    + intros pm0 rest [= <- <-] pm'. rewrite elem_of_app. intros [Hx|Hx].
      * by eapply not_in_hooks in Hx.
      * eapply not_in_takes; [exact Hd|apply Hq|exact Hx].
    + intros pm0. rewrite elem_of_cons, elem_of_app. intros [[= ->]|[Hx|Hx]]; [eauto|..].
      * by eapply not_in_hooks in Hx.
      * exfalso. eapply not_in_takes; [exact Hd|apply Hq|exact Hx].
Qed.

Lemma appr_step q e a pm q' subs :
  qinv q -> q_kind q = Approval ->
  appr_propose q e a pm = Ok (q', subs) -> step_ok q e a (PPropose pm) q' subs.
Proof.
  intros Hq Hk H.
  destruct (appr_propose_shape q e a pm q' subs H) as (takes & Hmay & Hd & -> & ->).
  set (id := q_current q + 1) in *.
  set (r0 := Appr APending id a (with_proposer pm a) (q_deposit q)).
  set (q' := q_with_flow _ _ _ _ _).
  assert (q_pending q !! id = None) as Hpn.
  { destruct (q_pending q !! id) eqn:E; [|done]. apply (qi_pending _ Hq) in E. unfold id in *. lia. }
  assert (q_completed q !! id = None) as Hcn.
  { destruct (q_completed q !! id) eqn:E; [|done]. apply (qi_completed _ Hq) in E. unfold id in *. lia. }
  assert (qle q q') as HL.
  { constructor; simpl; eauto; try (unfold id; lia). intros i r Hr. left.
    rewrite lookup_insert_ne; [done|]. intros <-. congruence. }
  assert (qinv q') as Hq'.
  { destruct Hq as [I1 I2 I3 I4 I5 I6 I7 I8 I9 I10 I11].
    constructor; simpl; rewrite ?Hk; eauto; try done.
    - intros i r Hl. apply lookup_insert_Some in Hl as [[<- <-]|[Hne Hl]].
      + simpl. repeat split; eauto; unfold id in *; lia.
      + destruct (I5 i r Hl) as (? & ? & ? & ? & ? & ?). repeat split; eauto; unfold id in *; lia.
    - intros i r Hl. destruct (I6 i r Hl) as (? & ? & ? & ?). repeat split; eauto; unfold id in *; lia.
    - unfold id; lia.
    - intros i Hi. unfold submission_of. simpl. destruct (decide (i = id)) as [->|Hne].
      + rewrite lookup_insert. eauto.
      + rewrite lookup_insert_ne by done. apply I11. unfold id in *; lia. }
  destruct (deposit_part_count q e a pm (KAppr id) takes q') as (C1 & C2 & C3).
  - apply Hq.
  - by rewrite Hk.
  - done.
  - simpl. unfold submission_of. by rewrite Hpn, Hcn.
  - simpl. unfold submission_of. simpl. by rewrite lookup_insert.
  - intros [i|i] Hne; simpl; [done|]. unfold submission_of. simpl.
    rewrite lookup_insert_ne; [done|congruence].
  - assert (forall i, lsum (is_reject_pay i) takes = 0) as Hrej.
    { intros i. pose proof (deposit_part_ok q e _ a takes (qi_cfg _ Hq) Hd) as Hdp.
      destruct (q_deposit q); [destruct Hdp as [(x & _ & _ & ->)|(t & _ & ->)]|subst takes]; done. }
    constructor.
    + done.
    + done.
    + intros k. rewrite lsum_app, lsum_hooks_zero by done. rewrite <- C1. lia.
    + done.
    + intros i. rewrite lsum_app, lsum_hooks_zero by done. rewrite Hrej.
      unfold rejected_deposit. simpl. lia.
    + intros _ x Hx. rewrite elem_of_app in Hx. destruct Hx as [Hx|Hx]; [auto|].
      apply elem_of_list_In, in_map_iff in Hx as (h & <- & _). done.
    + intros i Hs. simpl in Hs. eauto.
    + intros pm0 rest E pm'. exfalso.
      assert (XPropose pm0 ∈ takes ++ map (fun h => XHook h (HApproval id)) (q_hooks q)) as Hx
        by (rewrite E; left).
      apply elem_of_app in Hx as [Hx|Hx].
      * eapply not_in_takes; [exact Hd|apply Hq|exact Hx].
      * by eapply not_in_hooks in Hx.
    + intros pm0. rewrite elem_of_app. intros [Hx|Hx]; exfalso.
      * eapply not_in_takes; [exact Hd|apply Hq|exact Hx].
      * by eapply not_in_hooks in Hx.
Qed.

(** Moving a submission out of pending. *)
Lemma resolve_rec q q' i p st k :
  qinv q -> q_kind q' = Approval -> q_kind q = Approval ->
  q_pending q !! i = Some p -> q_pending q' = delete i (q_pending q) ->
  q_completed q' = <[i := resolved p st]> (q_completed q) -> rec q' k = rec q k.
Proof.
  intros Hq Hk' Hk Hp E1 E2. destruct k as [id|i']; simpl; [by rewrite Hk, Hk'|].
  unfold submission_of. rewrite E1, E2. destruct (decide (i' = i)) as [->|Hne].
  - by rewrite lookup_delete, lookup_insert, Hp.
  - by rewrite lookup_delete_ne, lookup_insert_ne by done.
Qed.

Lemma approve_step q e a i q' subs :
  qinv q -> q_kind q = Approval -> q_deposits q !! e_next e = None ->
  appr_approve q e a i = Ok (q', subs) ->
  step_ok q e a (PApprove i) q' subs /\
  exists p, q_pending q !! i = Some p /\ a = q_approver q /\ subs = [XPropose (a_msg p)] /\
    q_completed q' !! i = Some (resolved p (AApproved (e_next e))) /\
    q_deposits q' !! e_next e = Some (a_deposit p, a_proposer p).
Proof.
  intros Hq Hk Hfresh H. unfold appr_approve in H.
  destruct (q_approver q =? a)%N eqn:Ea; [|discriminate]. apply N.eqb_eq in Ea.
  destruct (q_pending q !! i) as [p|] eqn:Ep; [|discriminate].
  set (pid := e_next e) in *.
  change (Appr (AApproved pid) (a_id p) (a_proposer p) (a_msg p) (a_deposit p))
    with (resolved p (AApproved pid)) in H.
  injection H as E <-. set (q'' := q_with_flow _ _ _ _ _) in E. subst q'.
  assert (q_created q !! pid = None) as Hcr.
  { destruct (q_created q !! pid) eqn:E; [|done].
    apply (qi_created _ Hq) in E as (r & _ & _ & Hd). congruence. }
  destruct (qi_pending _ Hq i p Ep) as (R1 & R2 & R3 & R4 & R5 & R6).
  split; [|exists p; simpl; rewrite !lookup_insert; eauto 10].
  assert (qle q q'') as HL.
  { constructor; simpl; eauto; try lia.
    - intros id r Hr. rewrite lookup_insert_ne; [done|]. intros <-. congruence.
    - intros i' r Hr. rewrite lookup_insert_ne; [done|]. intros <-. congruence.
    - intros i' r Hr. destruct (decide (i' = i)) as [->|Hne].
      + right. exists (AApproved pid). rewrite lookup_insert. congruence.
      + left. by rewrite lookup_delete_ne.
    - intros pid' i' Hr. rewrite lookup_insert_ne; [done|]. intros <-. congruence. }
  assert (qinv q'') as Hq'.
  { destruct Hq as [I1 I2 I3 I4 I5 I6 I7 I8 I9 I10 I11].
    constructor; simpl; eauto.
    - intros id o ad Hl. apply lookup_insert_Some in Hl as [[<- [= <- <-]]|[_ Hl]]; eauto.
    - intros Hk'. congruence.
    - intros i' r Hl. apply lookup_delete_Some in Hl as [Hne Hl].
      destruct (I5 i' r Hl) as (? & ? & ? & ? & ? & ?). repeat split; eauto; try lia.
      by rewrite lookup_insert_ne.
    - intros i' r Hl. apply lookup_insert_Some in Hl as [[<- <-]|[Hne Hl]]; [|eauto].
      simpl. repeat split; eauto; lia.
    - intros pid' i' Hl. apply lookup_insert_Some in Hl as [[<- <-]|[Hne Hl]].
      + exists (resolved p (AApproved pid)). rewrite !lookup_insert. eauto.
      + destruct (I7 pid' i' Hl) as (r & Hr & Hs & Hd). exists r.
        assert (i' <> i) by (intros ->; congruence).
        rewrite !lookup_insert_ne by done. eauto.
    - intros i' r pid' Hl Hs. apply lookup_insert_Some in Hl as [[<- <-]|[Hne Hl]].
      + simpl in Hs. injection Hs as <-. by rewrite lookup_insert.
      + pose proof (I8 i' r pid' Hl Hs) as Hc.
        rewrite lookup_insert_ne; [done|]. intros <-. congruence.
    - intros _ pid' Hs. destruct (decide (pid' = pid)) as [->|Hne].
      + rewrite lookup_insert. eauto.
      + rewrite lookup_insert_ne by done. rewrite lookup_insert_ne in Hs by done. auto.
    - intros i' Hi. specialize (I11 i' Hi). unfold submission_of in *. simpl.
      destruct (decide (i' = i)) as [->|Hne].
      + rewrite lookup_delete, lookup_insert. eauto.
      + by rewrite lookup_delete_ne, lookup_insert_ne. }
  constructor.
  - done.
  - done.
  - intros k. rewrite (resolve_rec q q'' i p (AApproved pid) k) by done.
    unfold count_key. simpl. lia.
  - intros t Ht. by apply elem_of_nil in Ht.
  - intros i'. simpl. unfold rejected_deposit. simpl.
    destruct (decide (i' = i)) as [->|Hne].
    + rewrite lookup_insert, R6. simpl. lia.
    + rewrite lookup_insert_ne by done. lia.
  - intros _ x Hx. apply elem_of_list_singleton in Hx as ->. done.
  - intros id Hs. simpl in Hs. destruct (decide (id = pid)) as [->|Hne].
    + right. eauto.
    + rewrite lookup_insert_ne in Hs by done. eauto.
  - intros pm rest [= <- <-] pm' Hx. by apply elem_of_nil in Hx.
  - intros pm Hx. apply elem_of_list_singleton in Hx as [= ->]. eauto.
Qed.

Lemma reject_step q e a i q' subs :
  qinv q -> q_kind q = Approval -> appr_reject q a i = Ok (q', subs) ->
  step_ok q e a (PReject i) q' subs /\
  exists p, q_pending q !! i = Some p /\ a = q_approver q /\
    q_completed q' !! i = Some (resolved p ARejected).
Proof.
  intros Hq Hk H. unfold appr_reject in H.
  destruct (q_approver q =? a)%N eqn:Ea; [|discriminate]. apply N.eqb_eq in Ea.
  destruct (q_pending q !! i) as [p|] eqn:Ep; [|discriminate].
  change (Appr ARejected (a_id p) (a_proposer p) (a_msg p) (a_deposit p))
    with (resolved p ARejected) in H.
  injection H as E <-. set (q'' := q_with_flow _ _ _ _ _) in E. subst q'.
  destruct (qi_pending _ Hq i p Ep) as (R1 & R2 & R3 & R4 & R5 & R6).
  split; [|exists p; simpl; rewrite !lookup_insert; eauto 10].
  assert (qle q q'') as HL.
  { constructor; simpl; eauto; try lia.
    - intros i' r Hr. rewrite lookup_insert_ne; [done|]. intros <-. congruence.
    - intros i' r Hr. destruct (decide (i' = i)) as [->|Hne].
      + right. exists ARejected. rewrite lookup_insert. congruence.
      + left. by rewrite lookup_delete_ne. }
  assert (qinv q'') as Hq'.
  { destruct Hq as [I1 I2 I3 I4 I5 I6 I7 I8 I9 I10 I11].
    constructor; simpl; eauto.
    - intros Hk'. congruence.
    - intros i' r Hl. apply lookup_delete_Some in Hl as [Hne Hl].
      destruct (I5 i' r Hl) as (? & ? & ? & ? & ? & ?). repeat split; eauto; try lia.
      by rewrite lookup_insert_ne.
    - intros i' r Hl. apply lookup_insert_Some in Hl as [[<- <-]|[Hne Hl]]; [|eauto].
      simpl. repeat split; eauto; lia.
    - intros pid' i' Hl.
      destruct (I7 pid' i' Hl) as (r & Hr & Hs & Hd). exists r.
      assert (i' <> i) by (intros ->; congruence).
      rewrite !lookup_insert_ne by done. eauto.
    - intros i' r pid' Hl Hs. apply lookup_insert_Some in Hl as [[<- <-]|[Hne Hl]];
        [discriminate|eauto].
    - intros i' Hi. specialize (I11 i' Hi). unfold submission_of in *. simpl.
      destruct (decide (i' = i)) as [->|Hne].
      + rewrite lookup_delete, lookup_insert. eauto.
      + by rewrite lookup_delete_ne, lookup_insert_ne. }
  set (subs := match a_deposit p with Some d => _ | None => [] end).
  assert (subs = [] /\ a_deposit p = None \/ exists d, a_deposit p = Some d /\
    subs = [XPay (RRejected i) (d_denom d)
              (if decide (d_refund d = Always) then a_proposer p else q_dao q) (d_amount d)])
    as Hsubs.
  { unfold subs. destruct (a_deposit p) as [d|]; [|by left]. right. exists d. split; [done|].
    unfold return_messages. simpl in R4. destruct (d_amount d =? 0) eqn:E0; [lia|done]. }
  constructor.
  - done.
  - done.
  - intros k. rewrite (resolve_rec q q'' i p ARejected k) by done.
    destruct Hsubs as [[-> _]|(d & _ & ->)]; unfold count_key; simpl; lia.
  - intros t Ht. by apply elem_of_nil in Ht.
  - intros i'. unfold rejected_deposit. simpl.
    destruct (decide (i' = i)) as [->|Hne].
    + rewrite lookup_insert, R6. simpl.
      destruct Hsubs as [[-> ->]|(d & -> & ->)]; simpl; [lia|].
      destruct (decide _); [lia|done].
    + rewrite lookup_insert_ne by done.
      destruct Hsubs as [[-> _]|(d & _ & ->)]; simpl; [lia|].
      destruct (decide _) as [[= E]|]; [congruence|lia].
  - intros _ x Hx. destruct Hsubs as [[E _]|(d & Hd & E)]; rewrite E in Hx.
    + by apply elem_of_nil in Hx.
    + apply elem_of_list_singleton in Hx as ->. simpl. exists (resolved p ARejected), d.
      rewrite lookup_insert. eauto 10.
  - intros id Hs. simpl in Hs. eauto.
  - intros pm rest E. destruct Hsubs as [[E' _]|(d & Hd & E')]; rewrite E' in E; discriminate.
  - intros pm Hx. destruct Hsubs as [[E _]|(d & Hd & E)]; rewrite E in Hx.
    + by apply elem_of_nil in Hx.
    + by apply elem_of_list_singleton in Hx.
Qed.

Lemma pre_step q e a m q' subs :
  qinv q -> q_deposits q !! e_next e = None ->
  pre_handle q e a m = Ok (q', subs) -> step_ok q e a m q' subs.
Proof.
  intros Hq Hf H.
  destruct m; try (apply quiet_step; [done|exact I|done]); simpl in H;
    destruct (q_kind q) eqn:Ek; try discriminate.
  - by apply plain_step.
  - by apply appr_step.
  - by apply approve_step.
  - by apply reject_step.
Qed.
