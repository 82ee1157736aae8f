(** Statements about the pre-propose modules, proved from the joint invariants. *)
From Verif Require Import Base BaseProofs Exec ExecProofs VotingModel HooksModel SingleModel
  SingleSpec SingleProofs SingleLife SingleFinal PreModel PreSpec PreSingle PreProofs PreJoint.

(** ** The starting point *)
Lemma start_qinv k pm dao d p approver q :
  pre_instantiate k pm dao d p approver = Ok q -> qinv q.
Proof.
  unfold pre_instantiate. intros H.
  assert (exists d', q = PState k pm dao d' p ∅ [] approver ∅ ∅ ∅ 0 /\ nonzero d' /\
    validate_submission p = Ok tt) as (d' & -> & Hn & Hv).
  { destruct d as [d|]; simpl in H.
    - unfold into_checked in H. destruct (negb (d_amount d =? 0)) eqn:E; [|discriminate].
      destruct (validate_submission p) as [[]|]; [|discriminate]. injection H as <-.
      exists (Some d). split; [done|]. simpl. split; [lia|done].
    - destruct (validate_submission p) as [[]|]; [|discriminate]. injection H as <-.
      exists None. done. }
  constructor; simpl; try done; try (intros *; rewrite lookup_empty; done).
  - intros _ pid. rewrite lookup_empty. by intros [? ?].
  - intros i Hi. lia.
Qed.

Lemma start_jinv O b s l q self k pm d p approver :
  reached O b s l -> pre_instantiate k pm (c_dao (s_cfg s)) d p approver = Ok q ->
  jinv b (JState self s q [] []) /\
  (forall k, gap_taken k (JState self s q [] []) = 0) /\
  (forall i, gap_reject i (JState self s q [] []) = 0).
Proof.
  intros HR HQ. pose proof (start_qinv _ _ _ _ _ _ _ HQ) as Hq.
  assert (q_deposits q = ∅ /\ q_completed q = ∅ /\ q_pending q = ∅) as (E1 & E2 & E3).
  { unfold pre_instantiate in HQ. destruct d as [d|]; simpl in HQ.
    - destruct (into_checked d); [|discriminate].
      destruct (validate_submission p) as [[]|]; [|discriminate]. by injection HQ as <-.
    - destruct (validate_submission p) as [[]|]; [|discriminate]. by injection HQ as <-. }
  split; [|split].
  - constructor; simpl.
    + by eapply reached_winv.
    + done.
    + intros id. rewrite E1, lookup_empty. by intros [? ?].
    + intros t Ht. by apply elem_of_nil in Ht.
    + intros t Ht. by apply elem_of_nil in Ht.
  - intros k'. unfold gap_taken. simpl. unfold count_key. simpl. unfold rec, submission_of.
    destruct k'; rewrite ?E1, ?E2, ?E3, ?lookup_empty; [by destruct (q_kind q)|done].
  - intros i. unfold gap_reject, rejected_deposit. simpl. by rewrite E2, lookup_empty.
Qed.

Lemma jinv_time b b' j : block_le b b' -> jinv b j -> jinv b' j.
Proof. intros Hle [A B C D E]. constructor; eauto using winv_time. Qed.

Lemma jreached_inv O b j l :
  jreached O b j l ->
  jinv b j /\ (forall k, gap_taken k j = 0) /\ (forall i, gap_reject i j = 0) /\
  (forall id, count_why (RCompleted id) (j_paid j) <= finished (j_s j) id).
Proof.
  intros (b0 & s0 & l0 & self & k & pm & d & p & ap & q0 & h & HR & HQ & Hh & Hr & Hb).
  destruct (start_jinv O b0 s0 l0 q0 self k pm d p ap HR HQ) as (HI & HT & HJ).
  destruct (joint_trace O b0 _ h j l HI Hh Hr) as [HI' _].
  split; [by eapply jinv_time|]. split; [|split].
  - intros k'. rewrite (gap_taken_const O b0 _ h j l k' HI Hh Hr). apply HT.
  - intros i. rewrite (gap_reject_const O b0 _ h j l i HI Hh Hr). apply HJ.
  - intros id. pose proof (completed_once O b0 _ h j l id HI Hh Hr) as H. simpl in H.
    pose proof (finished_range s0 id). unfold count_why in H at 2. simpl in H. lia.
Qed.

Lemma jlater_trace O b j b' j' l :
  jinv b j -> jlater O b j b' j' l -> jinv b' j' /\ jtrace O b j l b' j'.
Proof.
  intros HI (h & Hh & Hr & Hb).
  destruct (joint_trace O b j h j' l HI Hh Hr) as [A B].
  split; [by eapply jinv_time|].
  rewrite <- (app_nil_r l). eapply trace_app; [exact B|]. by constructor.
Qed.
Lemma jreached_trace O b j l :
  jreached O b j l -> exists b0 j0, jtrace O b0 j0 l b j.
Proof.
  intros (b0 & s0 & l0 & self & k & pm & d & p & ap & q0 & h & HR & HQ & Hh & Hr & Hb).
  destruct (start_jinv O b0 s0 l0 q0 self k pm d p ap HR HQ) as (HI & _).
  exists b0, (JState self s0 q0 [] []).
  apply (jlater_trace O b0 _ b j l HI). by exists h.
Qed.
Lemma jreached_legit O b j l e :
  jreached O b j l -> e ∈ l -> legit (jhandle O) jon_fail jon_ok any_msg jinv jpend e.
Proof.
  intros HR He. destruct (jreached_trace O b j l HR) as (b0 & j0 & Ht).
  apply trace_forall in Ht. rewrite Forall_forall in Ht. by apply Ht.
Qed.

Definition paid_le (j j' : jstate) : Prop := exists l, j_paid j' = j_paid j ++ l.
Definition taken_le (j j' : jstate) : Prop := exists l, j_taken j' = j_taken j ++ l.
Definition grows (j j' : jstate) : Prop := jle j j' /\ paid_le j j'.
Lemma grows_refl j : grows j j.
Proof. split; [apply jle_refl|]. exists []. by rewrite app_nil_r. Qed.
Lemma grows_trans a b c : grows a b -> grows b c -> grows a c.
Proof.
  intros [A [l1 E1]] [B [l2 E2]]. split; [by eapply jle_trans|].
  exists (l1 ++ l2). by rewrite E2, E1, app_assoc.
Qed.
Lemma jon_ok_paid j b x d j' : jon_ok j b x d = Ok j' -> paid_le j j'.
Proof.
  destruct x as [x|x]; simpl.
  - destruct (on_ok (j_s j) b x d) as [s'|]; [|discriminate].
    destruct x as [| | |r id st|]; try (intros [= <-]; exists []; by rewrite app_nil_r).
    destruct (r =? j_self j)%N; [|intros [= <-]; exists []; by rewrite app_nil_r].
    destruct (pre_completed _ _ _ _) as [[q' subs]|]; [|discriminate].
    intros [= <-]. by eexists.
  - destruct x; intros [= <-]; try (exists []; by rewrite app_nil_r). by eexists.
Qed.
Lemma legit_grows O e :
  legit (jhandle O) jon_fail jon_ok any_msg jinv jpend e -> grows (ev_pre e) (ev_post e).
Proof.
  intros (HI & _ & He). destruct e as [pre b a m post subs|pre b x ok post].
  - destruct He as [_ He]. destruct (jhandle_step O b pre a m post subs HI He).
    split; [done|]. exists []. simpl. by rewrite app_nil_r.
  - destruct ok.
    + destruct He as [HP [d He]].
      destruct (jok_step O b pre x d post HI HP He) as (_ & A & _).
      split; [done|]. by eapply jon_ok_paid.
    + destruct He as [HP He].
      destruct (jfail_step b pre x post HI HP He) as (_ & A & _ & _ & _ & Ep & _).
      split; [done|]. exists []. simpl. by rewrite app_nil_r.
Qed.
Lemma trace_grows O b0 j l b1 j' : jtrace O b0 j l b1 j' -> grows j j'.
Proof.
  induction 1 as [b0 b1 s Hle|b0 s e l b1 s' Hle Hpre Hleg Htr IH]; [apply grows_refl|].
  subst s. eapply grows_trans; [by eapply legit_grows|done].
Qed.
Lemma jreached_after O b j l e :
  jreached O b j l -> e ∈ l ->
  legit (jhandle O) jon_fail jon_ok any_msg jinv jpend e /\ grows (ev_post e) j.
Proof.
  intros HR He. split; [by eapply jreached_legit|].
  destruct (jreached_trace O b j l HR) as (b0 & j0 & Ht).
  apply elem_of_list_split in He as (l1 & l2 & ->).
  apply trace_split in Ht as (bm & jm & _ & Ht). inversion Ht; subst.
  by eapply trace_grows.
Qed.

(** ** Counting *)
Lemma length_count {A} (f : A -> bool) (g : A -> Z) l :
  (forall x, x ∈ l -> f x = true -> 1 <= g x) -> (forall x, 0 <= g x) ->
  Z.of_nat (length (List.filter f l)) <= lsum g l.
Proof.
  intros H Hg. induction l as [|x l IH]; simpl; [lia|].
  assert (Z.of_nat (length (List.filter f l)) <= lsum g l) by (apply IH; intros; apply H; [by right|done]).
  destruct (f x) eqn:E; simpl.
  - pose proof (H x ltac:(left) E). lia.
  - pose proof (Hg x). lia.
Qed.
Lemma length_count_eq {A} (f : A -> bool) l :
  lsum (fun x => if f x then 1 else 0) l = Z.of_nat (length (List.filter f l)).
Proof. induction l as [|x l IH]; simpl; [done|]. destruct (f x); simpl; lia. Qed.
Lemma paid_for_length j w : Z.of_nat (length (paid_for j w)) = count_why w (j_paid j).
Proof.
  unfold paid_for, count_why. rewrite <- length_count_eq. apply lsum_ext. intros p _.
  destruct (decide _), (bool_decide _) eqn:E; try done.
  - by apply bool_decide_eq_false in E.
  - by apply bool_decide_eq_true in E.
Qed.
Lemma taken_for_length j k : Z.of_nat (length (taken_for j k)) = count_key k (j_taken j).
Proof.
  unfold taken_for, count_key. rewrite <- length_count_eq. apply lsum_ext. intros p _.
  destruct (decide _), (bool_decide _) eqn:E; try done.
  - by apply bool_decide_eq_false in E.
  - by apply bool_decide_eq_true in E.
Qed.

Lemma rejected_range q i : 0 <= rejected_deposit q i <= 1.
Proof.
  unfold rejected_deposit. destruct (_ !! _) as [r|]; [|lia].
  destruct (a_status r), (a_deposit r); lia.
Qed.

(** What was taken under a key is what is recorded under it. *)
Lemma taken_exact O b j l k :
  jreached O b j l ->
  taken_for j k = match rec (j_q j) k with
                  | Some (Some d, a) => [Taken k (d_denom d) a (d_amount d)]
                  | _ => []
                  end.
Proof.
  intros HR. destruct (jreached_inv O b j l HR) as (HI & HT & _).
  specialize (HT k). unfold gap_taken in HT. pose proof (taken_for_length j k) as HL.
  assert (forall t, t ∈ taken_for j k -> exists d a, rec (j_q j) k = Some (Some d, a) /\
            t = Taken k (d_denom d) a (d_amount d)) as Hin.
  { intros t Ht. unfold taken_for in Ht. apply filter_elem in Ht as [Ht Hk].
    apply bool_decide_eq_true in Hk. destruct (ji_taken _ _ HI t Ht) as (d & a & H1 & H2).
    rewrite Hk in H1, H2. eauto. }
  destruct (rec (j_q j) k) as [[[d|] a]|] eqn:E; simpl in HT.
  - destruct (taken_for j k) as [|t [|t' tl]] eqn:Et; simpl in HL; try lia.
    destruct (Hin t ltac:(left)) as (d' & a' & [= <- <-] & ->). done.
  - destruct (taken_for j k); simpl in HL; [done|lia].
  - destruct (taken_for j k); simpl in HL; [done|lia].
Qed.

(** * C31 *)
Lemma c31_once O b j l k :
  jreached O b j l -> (length (returned j k) <= 1)%nat.
Proof.
  intros HR. destruct (jreached_inv O b j l HR) as (HI & _ & HJ & HC).
  assert (forall w, (forall p, p ∈ j_paid j -> pay_key (j_q j) (pd_why p) = Some k -> pd_why p = w) ->
    Z.of_nat (length (returned j k)) <= count_why w (j_paid j)) as Hle.
  { intros w Hw. unfold returned, count_why. apply length_count.
    - intros p Hp E. apply bool_decide_eq_true in E. rewrite (Hw p Hp E).
      destruct (decide _); [lia|done].
    - intros p. destruct (decide _); lia. }
  assert (forall id, count_why (RCompleted id) (j_paid j) <= 1) as HC1.
  { intros id. pose proof (HC id). pose proof (finished_range (j_s j) id). lia. }
  assert (forall i, count_why (RRejected i) (j_paid j) = rejected_deposit (j_q j) i) as HJ1.
  { intros i. specialize (HJ i). unfold gap_reject in HJ. lia. }
  destruct k as [id|i].
  - specialize (Hle (RCompleted id)). specialize (HC1 id).
    enough (Z.of_nat (length (returned j (KProp id))) <= count_why (RCompleted id) (j_paid j)) by lia.
    apply Hle. intros p _ E. destruct (pd_why p) as [id'|i|]; simpl in E; try done.
    unfold prop_key in E. destruct (q_kind (j_q j)); [congruence|].
    destruct (q_created (j_q j) !! id'); discriminate.
  - destruct (q_completed (j_q j) !! i) as [r|] eqn:Er.
    + destruct (a_status r) as [|pid|] eqn:Es.
      * by apply (qi_completed _ (ji_q _ _ HI)) in Er as (_ & ? & _).
      * enough (Z.of_nat (length (returned j (KAppr i))) <= count_why (RCompleted pid) (j_paid j))
          by (specialize (HC1 pid); lia).
        apply Hle. intros p Hp E. destruct (pd_why p) as [id'|i'|] eqn:Ew; simpl in E; try done.
        -- unfold prop_key in E. destruct (q_kind (j_q j)); [discriminate|].
           destruct (q_created (j_q j) !! id') as [i'|] eqn:Ec; [|discriminate].
           injection E as ->. apply (qi_created _ (ji_q _ _ HI)) in Ec as (r' & Hr' & Hs' & _).
           congruence.
        -- injection E as ->. pose proof (ji_paid _ _ HI p Hp) as Hpo. unfold paid_ok in Hpo.
           rewrite Ew in Hpo. destruct Hpo as (r' & d & Hr' & Hs' & _). congruence.
      * enough (Z.of_nat (length (returned j (KAppr i))) <= count_why (RRejected i) (j_paid j))
          by (rewrite HJ1 in *; pose proof (rejected_range (j_q j) i); lia).
        apply Hle. intros p Hp E. destruct (pd_why p) as [id'|i'|] eqn:Ew; simpl in E; try done.
        -- unfold prop_key in E. destruct (q_kind (j_q j)); [discriminate|].
           destruct (q_created (j_q j) !! id') as [i'|] eqn:Ec; [|discriminate].
           injection E as ->. apply (qi_created _ (ji_q _ _ HI)) in Ec as (r' & Hr' & Hs' & _).
           congruence.
        -- injection E as ->. done.
    + enough (Z.of_nat (length (returned j (KAppr i))) <= count_why (RRejected i) (j_paid j))
        by (rewrite HJ1 in *; pose proof (rejected_range (j_q j) i); lia).
      apply Hle. intros p Hp E. destruct (pd_why p) as [id'|i'|] eqn:Ew; simpl in E; try done.
      * unfold prop_key in E. destruct (q_kind (j_q j)); [discriminate|].
        destruct (q_created (j_q j) !! id') as [i'|] eqn:Ec; [|discriminate].
        injection E as ->. apply (qi_created _ (ji_q _ _ HI)) in Ec as (r' & Hr' & Hs' & _).
        congruence.
      * injection E as ->. done.
Qed.

Lemma rec_of_prop q id d a :
  qinv q -> q_deposits q !! id = Some (d, a) ->
  exists k, prop_key q id = Some k /\ rec q k = Some (d, a).
Proof.
  intros Hq Hd. unfold prop_key. destruct (q_kind q) eqn:Ek.
  - exists (KProp id). simpl. by rewrite Ek.
  - destruct (qi_from _ Hq Ek id ltac:(eauto)) as [i Hc]. rewrite Hc. simpl.
    exists (KAppr i). split; [done|]. simpl.
    destruct (qi_created _ Hq id i Hc) as (r & Hr & _ & Hd'). unfold submission_of.
    destruct (q_pending q !! i) eqn:Ep.
    { apply (qi_pending _ Hq) in Ep as (_ & _ & _ & _ & _ & ?). congruence. }
    rewrite Hr. simpl. congruence.
Qed.

Lemma c31_right_party O b j l p id :
  jreached O b j l -> p ∈ j_paid j -> pd_why p = RCompleted id ->
  exists d a k st,
    q_deposits (j_q j) !! id = Some (Some d, a) /\
    prop_key (j_q j) id = Some k /\
    taken_for j k = [Taken k (pd_denom p) a (pd_amount p)] /\
    pd_denom p = d_denom d /\ pd_amount p = d_amount d /\
    status_of (j_s j) id = Some st /\
    right_party (d_refund d) st a (q_dao (j_q j)) (pd_to p).
Proof.
  intros HR Hp Hw. destruct (jreached_inv O b j l HR) as (HI & _).
  pose proof (ji_paid _ _ HI p Hp) as H. unfold paid_ok in H. rewrite Hw in H.
  destruct H as (d & a & st & Hd & (pr & Hpr & Hc) & E1 & E2 & E3).
  destruct (rec_of_prop (j_q j) id (Some d) a (ji_q _ _ HI) Hd) as (k & Hk & Hrec).
  exists d, a, k, (p_status pr). split; [done|]. split; [done|]. split.
  { rewrite (taken_exact O b j l k HR), Hrec, E1, E2. done. }
  split; [done|]. split; [done|]. split; [unfold status_of; by rewrite Hpr|].
  rewrite E3. unfold right_party. destruct (d_refund d); simpl; try (by destruct st).
  destruct Hc as [[-> [-> | ->]]|[[-> ->]|[-> ->]]]; simpl; eauto 10.
Qed.

(** A completion the module handled without error was paid out. *)
Lemma c31_paid O b j l pre b' id st post d a :
  jreached O b j l ->
  ESub pre b' (FromSingle (SCompleted (j_self pre) id st)) true post ∈ l ->
  q_deposits (j_q pre) !! id = Some (Some d, a) ->
  length (paid_for j (RCompleted id)) = 1%nat.
Proof.
  intros HR He Hd. destruct (jreached_inv O b j l HR) as (_ & _ & _ & HC).
  destruct (jreached_after O b j l _ HR He) as ((HI & _ & HP & (r & Hok)) & [_ [pl Ep]]).
  cbn [ev_pre ev_post ev_block] in *.
  enough (1 <= count_why (RCompleted id) (j_paid post)) as Hge.
  { pose proof (paid_for_length j (RCompleted id)) as HL. rewrite Ep, count_why_app in HL.
    pose proof (HC id) as Hup. rewrite Ep, count_why_app in Hup.
    pose proof (finished_range (j_s j) id).
    assert (0 <= count_why (RCompleted id) pl)
      by (unfold count_why; apply lsum_nonneg; intros; destruct (decide _); lia).
    lia. }
  cbn [jon_ok] in Hok. destruct (on_ok (j_s pre) b' _ r) as [s'|]; [|discriminate].
  rewrite N.eqb_refl in Hok. cbn [pre_handle] in Hok.
  unfold pre_completed in Hok. rewrite N.eqb_refl in Hok. cbn [negb] in Hok.
  destruct (bool_decide _); [|discriminate]. rewrite Hd in Hok. injection Hok as <-.
  cbn [j_paid]. rewrite count_why_app. unfold return_messages.
  pose proof (qi_deposits _ (ji_q _ _ HI) id _ _ Hd) as Hnz. simpl in Hnz.
  destruct (d_amount d =? 0) eqn:E0; [lia|].
  assert (0 <= count_why (RCompleted id) (j_paid pre))
    by (unfold count_why; apply lsum_nonneg; intros; destruct (decide _); lia).
  unfold count_why at 2. simpl. destruct (decide _); [lia|done].
Qed.
(** The DAO's own withdrawals go to the DAO. *)
Lemma c31_withdraw O b j l p :
  jreached O b j l -> p ∈ j_paid j -> pd_why p = RWithdraw -> pd_to p = q_dao (j_q j).
Proof.
  intros HR Hp Hw. destruct (jreached_inv O b j l HR) as (HI & _).
  pose proof (ji_paid _ _ HI p Hp) as H. unfold paid_ok in H. by rewrite Hw in H.
Qed.

(** * C32 *)
Lemma jpre_inv O j b a e0 m j' subs :
  jhandle O j b a (JPre e0 m) = Ok (j', subs) ->
  exists q' xs,
    let e := PEnv (e_funds e0) (e_power e0) (e_balance e0) (s_count (j_s j) + 1) in
    a <> q_module (j_q j) /\ pre_handle (j_q j) e a m = Ok (q', xs) /\ j_q j' = q' /\
    j_self j' = j_self j /\
    ((exists pm rest s' ss, xs = XPropose pm :: rest /\
        handle O (j_s j) b (j_self j) (Propose pm) = Ok (s', ss) /\ j_s j' = s') \/
     ((forall pm rest, xs <> XPropose pm :: rest) /\ j_s j' = j_s j)).
Proof.
  intros H. cbn [jhandle] in H.
  destruct (a =? q_module (j_q j))%N eqn:Ea; [discriminate|]. apply N.eqb_neq in Ea.
  cbn [negb] in H. set (e := PEnv _ _ _ _) in *.
  destruct (pre_handle (j_q j) e a m) as [[q' xs]|] eqn:Eh; [|discriminate].
  exists q', xs. simpl. split; [done|]. split; [done|].
  assert ((exists pm rest, xs = XPropose pm :: rest) \/
          (forall pm rest, xs <> XPropose pm :: rest)) as [(pm & rest & ->)|Hno].
  { destruct xs as [|[]]; naive_solver. }
  - destruct (handle O (j_s j) b (j_self j) (Propose pm)) as [[s' ss]|] eqn:Es; [|discriminate].
    injection H as <- <-. split; [done|]. split; [done|]. left. eauto 10.
  - assert (j_q j' = q' /\ j_self j' = j_self j /\ j_s j' = j_s j) as (-> & -> & ->).
    { destruct xs as [|[pm| | |] rest]; try (by injection H as <- <-). by destruct (Hno pm rest). }
    eauto.
Qed.

(** Every committed submission: the configured deposit has arrived by the end of
    its transaction (here: in any later state between transactions). *)
Lemma c32_paid O b j l pre b' a e pm post subs :
  jreached O b j l -> ECall pre b' a (JPre e (PPropose pm)) post subs ∈ l ->
  exists k,
    k = match q_kind (j_q pre) with
        | Plain => KProp (s_count (j_s pre) + 1)
        | Approval => KAppr (q_current (j_q pre) + 1)
        end /\
    taken_for j k = match q_deposit (j_q pre) with
                    | Some d => [Taken k (d_denom d) a (d_amount d)]
                    | None => []
                    end /\
    match q_deposit (j_q pre) with
    | Some (Deposit (Native x) n _) => e_funds e = [(x, n)]
    | _ => True
    end.
Proof.
  intros HR He. destruct (jreached_inv O b j l HR) as (HIj & _).
  destruct (jreached_after O b j l _ HR He) as ((HI & HI' & _ & Hok) & [HL _]).
  cbn [ev_pre ev_post ev_block] in *.
  destruct (jpre_inv O pre b' a e _ post subs Hok) as (q' & xs & Ha & Hh & Eq & _).
  eexists. split; [reflexivity|].
  set (k := match q_kind (j_q pre) with Plain => _ | Approval => _ end).
  assert (rec q' k = Some (q_deposit (j_q pre), a) /\
    (exists takes k', deposit_part (j_q pre) (PEnv (e_funds e) (e_power e) (e_balance e)
       (s_count (j_s pre) + 1)) k' a = Ok takes)) as [Hrec (takes & k' & Hdp)].
  { simpl in Hh. unfold k. destruct (q_kind (j_q pre)) eqn:Ek.
    - apply pre_propose_shape in Hh as (takes & _ & Hd & -> & _); [|apply HI].
      simpl. rewrite Ek, lookup_insert. eauto.
    - apply appr_propose_shape in Hh as (takes & _ & Hd & -> & _).
      simpl. unfold submission_of. simpl. rewrite lookup_insert. eauto. }
  split.
  - rewrite (taken_exact O b j l k HR).
    rewrite (rec_stable (j_q post) (j_q j) k (q_deposit (j_q pre), a));
      [by destruct (q_deposit (j_q pre))|apply HIj|apply HL|by rewrite Eq].
  - apply deposit_part_ok in Hdp; [|apply HI].
    destruct (q_deposit (j_q pre)) as [[[x|t] n r]|]; [|done..].
    destruct Hdp as [(x' & Ex & Ef & _)|(t & Et & _)]; simpl in *; congruence.
Qed.

(** A proposal created through the plain module carries the deposit and the
    proposer of its submission. *)
Lemma c32_recorded O b j l pre b' a e pm post subs :
  jreached O b j l -> ECall pre b' a (JPre e (PPropose pm)) post subs ∈ l ->
  q_kind (j_q pre) = Plain ->
  is_Some (s_props (j_s post) !! (s_count (j_s pre) + 1)) /\
  q_deposits (j_q j) !! (s_count (j_s pre) + 1) = Some (q_deposit (j_q pre), a).
Proof.
  intros HR He Hk.
  destruct (jreached_after O b j l _ HR He) as ((HI & HI' & _ & Hok) & [HL _]).
  cbn [ev_pre ev_post ev_block] in *.
  destruct (jpre_inv O pre b' a e _ post subs Hok) as (q' & xs & Ha & Hh & Eq & _ & Hs).
  simpl in Hh. rewrite Hk in Hh.
  apply pre_propose_shape in Hh as (takes & _ & Hd & -> & ->); [|apply HI].
  destruct Hs as [(pm' & rest & s' & ss & Ex & Hp & Es)|[Hno _]]; [|by edestruct Hno].
  split.
  - apply (wi_ids _ _ (ji_w _ _ HI')). rewrite Es, (propose_counts _ _ _ _ _ _ _ Hp).
    pose proof (wi_count _ _ (ji_w _ _ HI)). lia.
  - apply (ql_deposits _ _ (jl_q _ _ HL)). rewrite Eq. simpl. by rewrite lookup_insert.
Qed.

(** No proposal without full payment: wrong coins are refused, and so is a cw20
    deposit that cannot be moved. *)
Lemma c32_wrong_coins O j b a e pm outs d x :
  q_deposit (j_q j) = Some d -> d_denom d = Native x -> e_funds e <> [(x, d_amount d)] ->
  is_ok (jcall O b j (Call a (JPre e (PPropose pm)) outs)) = false.
Proof.
  intros Hd Hx Hf. rewrite run_call_unfold.
  destruct (jhandle O j b a (JPre e (PPropose pm))) as [[j' subs]|] eqn:E; [|done]. exfalso.
  destruct (jpre_inv O j b a e _ j' subs E) as (q' & xs & _ & Hh & _). simpl in Hh.
  assert (check_native_deposit_paid d (e_funds e) = Ok tt) as Hc.
  { destruct (check_native_deposit_paid d (e_funds e)) as [[]|] eqn:Ec; [done|]. exfalso.
    destruct (q_kind (j_q j)).
    - unfold pre_propose, deposit_part in Hh. destruct (check_can_submit _ _ _); [|discriminate].
      rewrite Hd in Hh. simpl in Hh. by rewrite Ec in Hh.
    - unfold appr_propose, deposit_part in Hh. destruct (check_can_submit _ _ _); [|discriminate].
      rewrite Hd in Hh. simpl in Hh. by rewrite Ec in Hh. }
  by apply (native_paid d (e_funds e) x) in Hc.
Qed.
Lemma c32_failed_transfer O b j l pre b' x ok post :
  jreached O b j l -> ESub pre b' (FromPre x) ok post ∈ l -> ok = true.
Proof.
  intros HR He. apply (jreached_legit O b j l _ HR) in He as (_ & _ & He).
  destruct ok; [done|]. destruct He as [_ He]. done.
Qed.
(** What is recorded does not change. *)
Lemma c32_stable O b j l b' j' l' :
  jreached O b j l -> jlater O b j b' j' l' ->
  (forall id r, q_deposits (j_q j) !! id = Some r -> q_deposits (j_q j') !! id = Some r) /\
  (forall i r, submission_of (j_q j) i = Some r -> exists r',
     submission_of (j_q j') i = Some r' /\ a_deposit r' = a_deposit r /\
     a_proposer r' = a_proposer r /\ a_msg r' = a_msg r /\ a_id r' = a_id r).
Proof.
  intros HR HL. destruct (jreached_inv O b j l HR) as (HI & _).
  destruct (jlater_trace O b j b' j' l' HI HL) as [HI' Ht].
  apply trace_grows in Ht as [HG _]. pose proof (jl_q _ _ HG) as Hq.
  split; [apply Hq|]. intros i r. unfold submission_of.
  destruct (q_pending (j_q j) !! i) as [p|] eqn:Ep.
  - intros [= <-]. destruct (ql_pending _ _ Hq i p Ep) as [H|(st & H)].
    + rewrite H. eauto 10.
    + destruct (q_pending (j_q j') !! i) eqn:E.
      { apply (qi_pending _ (ji_q _ _ HI')) in E as (_ & _ & _ & _ & _ & ?). congruence. }
      rewrite H. eexists. split; [reflexivity|]. done.
  - intros Hc. apply (ql_completed _ _ Hq) in Hc.
    destruct (q_pending (j_q j') !! i) eqn:E.
    { apply (qi_pending _ (ji_q _ _ HI')) in E as (_ & _ & _ & _ & _ & ?). congruence. }
    rewrite Hc. eauto 10.
Qed.

(** * C33 *)
Lemma c33_checked O b j l pre b' a e pm post subs :
  jreached O b j l -> ECall pre b' a (JPre e (PPropose pm)) post subs ∈ l ->
  may_submit (q_policy (j_q pre)) a (e_power e) /\ ~ denied (q_policy (j_q pre)) a.
Proof.
  intros HR He. apply (jreached_legit O b j l _ HR) in He as (HI & _ & _ & Hok).
  destruct (jpre_inv O pre b' a e _ post subs Hok) as (q' & xs & _ & Hh & _). simpl in Hh.
  enough (may_submit (q_policy (j_q pre)) a (e_power e)) as Hm.
  { split; [done|]. destruct (q_policy (j_q pre)); simpl in *; tauto. }
  destruct (q_kind (j_q pre)).
  - apply pre_propose_shape in Hh as (takes & Hm & _); [done|apply HI].
  - by apply appr_propose_shape in Hh as (takes & Hm & _).
Qed.
Lemma c33_accepts p who power :
  check_can_submit p who power = Ok tt <-> may_submit p who power.
Proof. apply can_submit_iff. Qed.
(** Nothing but the policy and the deposit stands between a sender and the
    submission. *)
Lemma c33_refused_only q e a pm :
  q_deposit q = None ->
  is_ok (pre_handle q e a (PPropose pm)) = true <-> may_submit (q_policy q) a (e_power e).
Proof.
  intros Hd. rewrite <- can_submit_iff. simpl. destruct (q_kind q).
  - unfold pre_propose, deposit_part. rewrite Hd.
    destruct (check_can_submit _ _ _) as [[]|]; simpl; naive_solver.
  - unfold appr_propose, deposit_part. rewrite Hd.
    destruct (check_can_submit _ _ _) as [[]|]; simpl; naive_solver.
Qed.
(** An accepted update changes the lists as asked. *)
Lemma c33_update q e a da dr mem aa ar q' subs x :
  pre_handle q e a (PUpdatePolicy da dr mem aa ar) = Ok (q', subs) ->
  a = q_dao q /\
  (x ∈ denied_list (q_policy q') <->
     (x ∈ denied_list (q_policy q) \/ exists y, da = Some y /\ x ∈ y) /\
     ~ exists y, dr = Some y /\ x ∈ y) /\
  (x ∈ allowed_list (q_policy q') <->
     (x ∈ allowed_list (q_policy q) \/ exists y, aa = Some y /\ x ∈ y) /\
     ~ exists y, ar = Some y /\ x ∈ y).
Proof.
  simpl. unfold pre_update_policy. intros H.
  destruct (a =? q_dao q)%N eqn:Ea; [|discriminate]. apply N.eqb_eq in Ea. split; [done|].
  destruct (q_policy q) as [deny|m allow deny].
  - destruct mem, aa, ar; try discriminate. cbn [validate_submission] in H. injection H as <- <-.
    simpl. rewrite add_and_remove_elem. split; [done|].
    split; [intros Hx; by apply elem_of_nil in Hx|].
    intros [[Hx|(y & ? & _)] _]; [by apply elem_of_nil in Hx|done].
  - match type of H with context [validate_submission ?p] =>
      destruct (validate_submission p) as [[]|]; [|discriminate] end.
    injection H as <- <-. simpl. by rewrite !add_and_remove_elem.
Qed.
(** In every reachable state the lists are disjoint and somebody can submit. *)
Lemma c33_usable O b j l :
  jreached O b j l ->
  (forall a, a ∈ allowed_list (q_policy (j_q j)) -> ~ denied (q_policy (j_q j)) a) /\
  (exists who power, may_submit (q_policy (j_q j)) who power) /\
  (forall a, denied (q_policy (j_q j)) a -> forall power, ~ may_submit (q_policy (j_q j)) a power).
Proof.
  intros HR. destruct (jreached_inv O b j l HR) as (HI & _).
  pose proof (qi_policy _ (ji_q _ _ HI)) as Hv. apply validate_submission_iff in Hv.
  destruct (q_policy (j_q j)) as [deny|members allow deny]; simpl.
  - split; [intros a Ha; by apply elem_of_nil in Ha|]. split; [|tauto].
    exists (stdpp.base.fresh deny), 0. apply infinite_is_fresh.
  - destruct Hv as [Hdis Hsome]. split; [intros a Ha Hd; by eapply Hdis|]. split; [|tauto].
    destruct Hsome as [->|Hne].
    + exists (stdpp.base.fresh deny), 1. split; [apply infinite_is_fresh|]. right. done.
    + destruct allow as [|x allow]; [done|]. exists x, 0. split; [|left; left].
      intros Hd. apply (Hdis x); [left|done].
Qed.
(** Only the DAO changes the policy. *)
Lemma c33_only_dao O b j l pre b' a m post subs :
  jreached O b j l -> ECall pre b' a m post subs ∈ l ->
  q_policy (j_q post) <> q_policy (j_q pre) ->
  a = q_dao (j_q pre) /\
  exists e, (exists d p, m = JPre e (PUpdateConfig d p)) \/
            (exists da dr mem aa ar, m = JPre e (PUpdatePolicy da dr mem aa ar)).
Proof.
  intros HR He Hne. apply (jreached_legit O b j l _ HR) in He as (HI & _ & _ & Hok).
  cbn [ev_pre ev_post ev_block] in *.
  destruct m as [m|e m].
  { cbn [jhandle] in Hok. destruct (handle O (j_s pre) b' a m) as [[s' ss]|]; [|discriminate].
    by injection Hok as <- <-. }
  destruct (jpre_inv O pre b' a e _ post subs Hok) as (q' & xs & _ & Hh & Eq & _).
  rewrite Eq in Hne. clear Eq Hok.
  destruct m; simpl in Hh.
  - destruct (q_kind (j_q pre)).
    + apply pre_propose_shape in Hh as (takes & _ & _ & -> & _); [done|apply HI].
    + by apply appr_propose_shape in Hh as (takes & _ & _ & -> & _).
  - unfold pre_update_config in Hh. destruct (a =? q_dao _)%N eqn:Ea; [|discriminate].
    apply N.eqb_eq in Ea. eauto 10.
  - unfold pre_update_policy in Hh. destruct (a =? q_dao _)%N eqn:Ea; [|discriminate].
    apply N.eqb_eq in Ea. eauto 15.
  - unfold pre_withdraw in Hh. destruct (a =? q_dao _)%N; [|discriminate].
    destruct (match d with Some d => _ | None => _ end); [|discriminate].
    destruct (negb _); [|discriminate]. by injection Hh as <- <-.
  - unfold pre_add_hook in Hh. destruct (hook_admin _ _); [|discriminate].
    destruct (add_hook _ _); [|discriminate]. by injection Hh as <- <-.
  - unfold pre_remove_hook in Hh. destruct (hook_admin _ _); [|discriminate].
    destruct (remove_hook _ _); [|discriminate]. by injection Hh as <- <-.
  - unfold pre_completed in Hh. destruct (a =? q_module _)%N; [|discriminate].
    destruct (bool_decide _); [|discriminate].
    destruct (q_deposits (j_q pre) !! id) as [[[d|] pr]|]; by injection Hh as <- <-.
  - destruct (q_kind (j_q pre)); [discriminate|]. unfold appr_approve in Hh.
    destruct (_ =? _)%N; [|discriminate]. destruct (_ !! id); [|discriminate].
    by injection Hh as <- <-.
  - destruct (q_kind (j_q pre)); [discriminate|]. unfold appr_reject in Hh.
    destruct (_ =? _)%N; [|discriminate]. destruct (_ !! id); [|discriminate].
    by injection Hh as <- <-.
  - destruct (q_kind (j_q pre)); [discriminate|]. unfold appr_update_approver in Hh.
    destruct (_ =? _)%N; [|discriminate]. by injection Hh as <- <-.
  - destruct (q_kind (j_q pre)); [|discriminate]. by injection Hh as <- <-.
Qed.

(** * C34 *)
Lemma c34_one_state O b j l i :
  jreached O b j l ->
  (1 <= i <= q_current (j_q j) ->
     (exists r, q_pending (j_q j) !! i = Some r /\ a_status r = APending /\ a_id r = i /\
        q_completed (j_q j) !! i = None) \/
     (exists r, q_completed (j_q j) !! i = Some r /\ a_id r = i /\ q_pending (j_q j) !! i = None /\
        (a_status r = ARejected \/ exists pid, a_status r = AApproved pid /\
           q_created (j_q j) !! pid = Some i))) /\
  (~ 1 <= i <= q_current (j_q j) ->
     q_pending (j_q j) !! i = None /\ q_completed (j_q j) !! i = None).
Proof.
  intros HR. destruct (jreached_inv O b j l HR) as (HI & _). pose proof (ji_q _ _ HI) as Hq.
  split.
  - intros Hi. destruct (qi_all _ Hq i Hi) as [r Hr]. unfold submission_of in Hr.
    destruct (q_pending (j_q j) !! i) as [p|] eqn:Ep.
    + left. exists p. destruct (qi_pending _ Hq i p Ep) as (_ & ? & ? & _ & _ & ?). eauto.
    + right. exists r. destruct (qi_completed _ Hq i r Hr) as (_ & Hs & Hid & _).
      split; [done|]. split; [done|]. split; [done|].
      destruct (a_status r) as [|pid|] eqn:Es; [done| |by left].
      right. exists pid. split; [done|]. by eapply qi_approved.
  - intros Hi. split.
    + destruct (q_pending (j_q j) !! i) as [p|] eqn:Ep; [|done].
      by apply (qi_pending _ Hq) in Ep as (? & _).
    + destruct (q_completed (j_q j) !! i) as [p|] eqn:Ep; [|done].
      by apply (qi_completed _ Hq) in Ep as (? & _).
Qed.

(** Submission: stored as sent, pending, with the deposit configured. *)
Lemma c34_submitted O b j l pre b' a e pm post subs :
  jreached O b j l -> ECall pre b' a (JPre e (PPropose pm)) post subs ∈ l ->
  q_kind (j_q pre) = Approval ->
  let i := q_current (j_q pre) + 1 in
  q_current (j_q post) = i /\ j_s post = j_s pre /\
  q_pending (j_q post) !! i = Some (Appr APending i a (with_proposer pm a) (q_deposit (j_q pre))).
Proof.
  intros HR He Hk i. apply (jreached_legit O b j l _ HR) in He as (HI & _ & _ & Hok).
  cbn [ev_pre ev_post ev_block] in *.
  destruct (jpre_inv O pre b' a e _ post subs Hok) as (q' & xs & Ha & Hh & Eq & _ & Hs).
  simpl in Hh. rewrite Hk in Hh. pose proof Hh as Hh0.
  apply appr_propose_shape in Hh as (takes & _ & Hd & -> & ->).
  rewrite Eq. simpl. rewrite lookup_insert. split; [done|]. split; [|done].
  destruct Hs as [(pm' & rest & s' & ss & Ex & _)|[_ ?]]; [|done]. exfalso.
  assert (XPropose pm' ∈ takes ++ map (fun h => XHook h (HApproval (q_current (j_q pre) + 1)))
            (q_hooks (j_q pre))) as Hx by (rewrite Ex; left).
  apply elem_of_app in Hx as [Hx|Hx].
  - eapply not_in_takes; [exact Hd|apply HI|exact Hx].
  - by eapply not_in_hooks in Hx.
Qed.

(** A pending submission changes only by its approval or rejection, called by the
    approver. *)
Lemma c34_only_approver O b j l pre b' a m post subs i r :
  jreached O b j l -> ECall pre b' a m post subs ∈ l ->
  q_pending (j_q pre) !! i = Some r -> q_pending (j_q post) !! i <> Some r ->
  a = q_approver (j_q pre) /\ q_pending (j_q post) !! i = None /\
  exists e, (m = JPre e (PApprove i) /\
             q_completed (j_q post) !! i = Some (resolved r (AApproved (s_count (j_s pre) + 1)))) \/
            (m = JPre e (PReject i) /\ q_completed (j_q post) !! i = Some (resolved r ARejected)).
Proof.
  intros HR He Hp Hne. apply (jreached_legit O b j l _ HR) in He as (HI & HI' & _ & Hok).
  cbn [ev_pre ev_post ev_block] in *.
  destruct m as [m|e m].
  { cbn [jhandle] in Hok. destruct (handle O (j_s pre) b' a m) as [[s' ss]|]; [|discriminate].
    by injection Hok as <- <-. }
  destruct (jpre_inv O pre b' a e _ post subs Hok) as (q' & xs & Ha & Hh & Eq & _).
  rewrite Eq in *. clear Eq Hok.
  assert (quiet_msg m \/ ~ quiet_msg m) as [Hm|Hm] by (destruct m; simpl; tauto).
  { apply quiet_shape in Hh as ((_ & _ & _ & _ & E & _) & _); [|done]. congruence. }
  destruct m; simpl in Hm; try tauto; simpl in Hh.
  - destruct (q_kind (j_q pre)).
    + apply pre_propose_shape in Hh as (takes & _ & _ & -> & _); [done|apply HI].
    + apply appr_propose_shape in Hh as (takes & _ & _ & -> & _). simpl in Hne.
      rewrite lookup_insert_ne in Hne; [done|].
      pose proof (qi_pending _ (ji_q _ _ HI) i r Hp). lia.
  - destruct (q_kind (j_q pre)); [discriminate|]. unfold appr_approve in Hh.
    destruct (_ =? _)%N eqn:Ea; [|discriminate]. apply N.eqb_eq in Ea.
    destruct (q_pending (j_q pre) !! id) as [p|] eqn:Ep; [|discriminate].
    injection Hh as <- <-. simpl in *. destruct (decide (id = i)) as [->|Hi].
    + rewrite Ep in Hp. injection Hp as ->.
      rewrite lookup_delete, lookup_insert. eauto 10.
    + by rewrite lookup_delete_ne in Hne.
  - destruct (q_kind (j_q pre)); [discriminate|]. unfold appr_reject in Hh.
    destruct (_ =? _)%N eqn:Ea; [|discriminate]. apply N.eqb_eq in Ea.
    destruct (q_pending (j_q pre) !! id) as [p|] eqn:Ep; [|discriminate].
    injection Hh as <- <-. simpl in *. destruct (decide (id = i)) as [->|Hi].
    + rewrite Ep in Hp. injection Hp as ->.
      rewrite lookup_delete, lookup_insert. eauto 10.
    + by rewrite lookup_delete_ne in Hne.
Qed.
(** Sub-messages do not touch submissions. *)
Lemma c34_subs O b j l pre b' x ok post :
  jreached O b j l -> ESub pre b' x ok post ∈ l -> j_q post = j_q pre.
Proof.
  intros HR He. apply (jreached_legit O b j l _ HR) in He as (HI & _ & He).
  cbn [ev_pre ev_post ev_block] in *. destruct ok.
  - destruct He as [HP [d He]]. by destruct (jok_step O b' pre x d post HI HP He) as (_ & _ & ? & _).
  - destruct He as [HP He]. by destruct (jfail_step b' pre x post HI HP He) as (_ & _ & _ & ? & _).
Qed.
(** Once resolved, resolved the same way for ever. *)
Lemma c34_once O b j l b' j' l' i r :
  jreached O b j l -> jlater O b j b' j' l' -> q_completed (j_q j) !! i = Some r ->
  q_completed (j_q j') !! i = Some r /\ q_pending (j_q j') !! i = None.
Proof.
  intros HR HL Hc. destruct (jreached_inv O b j l HR) as (HI & _).
  destruct (jlater_trace O b j b' j' l' HI HL) as [HI' Ht].
  apply trace_grows in Ht as [HG _].
  apply (ql_completed _ _ (jl_q _ _ HG)) in Hc. split; [done|].
  destruct (q_pending (j_q j') !! i) eqn:E; [|done].
  apply (qi_pending _ (ji_q _ _ HI')) in E as (_ & _ & _ & _ & _ & ?). congruence.
Qed.
Lemma propose_created O s b a pm s' subs :
  handle O s b a (Propose pm) = Ok (s', subs) ->
  exists p proposer, s_props s' !! (s_count s + 1) = Some p /\
    p_msgs p = pm_msgs pm /\ p_proposer p = proposer /\
    decide_proposer (s_policy s) a (pm_proposer pm) = Ok proposer.
Proof.
  simpl. intros H. apply execute_propose_shape in H
    as (proposer & st & s1 & subs2 & _ & Hdp & _ & _ & Hst & -> & -> & Hv).
  destruct (pm_vote pm) as [[v r]|].
  - apply execute_vote_shape in Hv as (p & votes1 & st2 & Hp & _ & _ & _ & _ & -> & _).
    simpl in Hp. rewrite lookup_insert in Hp. injection Hp as <-.
    simpl. rewrite lookup_insert. eexists _, proposer. split; [reflexivity|]. done.
  - destruct Hv as [-> _]. simpl. rewrite lookup_insert. eexists _, proposer.
    split; [reflexivity|]. done.
Qed.
(** Approval creates exactly the submitted proposal, with the deposit and
    proposer recorded at submission. *)
Lemma c34_approve O b j l pre b' a e i post subs :
  jreached O b j l -> ECall pre b' a (JPre e (PApprove i)) post subs ∈ l ->
  let pid := s_count (j_s pre) + 1 in
  exists r p, q_pending (j_q pre) !! i = Some r /\ a = q_approver (j_q pre) /\
    q_completed (j_q post) !! i = Some (resolved r (AApproved pid)) /\
    q_deposits (j_q post) !! pid = Some (a_deposit r, a_proposer r) /\
    q_created (j_q post) !! pid = Some i /\
    s_count (j_s post) = pid /\ s_props (j_s pre) !! pid = None /\
    s_props (j_s post) !! pid = Some p /\ p_msgs p = pm_msgs (a_msg r) /\
    p_proposer p = a_proposer r.
Proof.
  intros HR He pid. apply (jreached_legit O b j l _ HR) in He as (HI & HI' & _ & Hok).
  cbn [ev_pre ev_post ev_block] in *.
  destruct (jpre_inv O pre b' a e _ post subs Hok) as (q' & xs & Ha & Hh & Eq & _ & Hs).
  simpl in Hh. destruct (q_kind (j_q pre)) eqn:Ek; [discriminate|].
  apply approve_step in Hh as (SO & r & Hr & Happ & -> & Hc & Hd); [|apply HI|done|].
  2: { simpl. destruct (q_deposits (j_q pre) !! (s_count (j_s pre) + 1)) eqn:E; [|done].
       pose proof (ji_ids _ _ HI _ (ltac:(eauto) : is_Some (q_deposits (j_q pre) !! (s_count (j_s pre) + 1)))). lia. }
  destruct Hs as [(pm' & rest & s' & ss & [= <- <-] & Hp & Es)|[Hno _]]; [|by edestruct Hno].
  destruct (propose_created _ _ _ _ _ _ _ Hp) as (p & pr & Hpp & Hm & Hpr & Hdp).
  exists r, p. rewrite Eq. simpl in Hc, Hd.
  pose proof (qi_approved _ (so_inv _ _ _ _ _ _ SO) i _ _ Hc eq_refl) as Hcr.
  split; [done|]. split; [done|]. split; [done|]. split; [done|]. split; [done|].
  split; [rewrite Es; by eapply propose_counts|].
  split.
  { destruct (s_props (j_s pre) !! pid) eqn:E; [|done].
    assert (is_Some (s_props (j_s pre) !! pid)) as Hs by eauto.
    apply (wi_ids _ _ (ji_w _ _ HI)) in Hs. unfold pid in Hs. lia. }
  split; [by rewrite Es|]. split; [done|]. rewrite Hpr.
  destruct (qi_pending _ (ji_q _ _ HI) i r Hr) as (_ & _ & _ & _ & Hprop & _).
  rewrite Hprop in Hdp. unfold decide_proposer in Hdp.
  destruct (s_policy (j_s pre)); [discriminate|]. by injection Hdp as <-.
Qed.
(** A rejected submission's deposit has been paid out exactly once, whole, to the
    proposer if the policy is "always", to the DAO otherwise. *)
Lemma c34_reject O b j l i :
  jreached O b j l ->
  paid_for j (RRejected i) =
    match q_completed (j_q j) !! i with
    | Some (Appr ARejected _ proposer _ (Some d)) =>
        [Paid (RRejected i) (d_denom d)
           (match d_refund d with Always => proposer | _ => q_dao (j_q j) end) (d_amount d)]
    | _ => []
    end.
Proof.
  intros HR. destruct (jreached_inv O b j l HR) as (HI & _ & HJ & _).
  specialize (HJ i). unfold gap_reject in HJ.
  pose proof (paid_for_length j (RRejected i)) as HL.
  assert (forall p, p ∈ paid_for j (RRejected i) -> exists r d,
    q_completed (j_q j) !! i = Some r /\ a_status r = ARejected /\ a_deposit r = Some d /\
    p = Paid (RRejected i) (d_denom d)
          (if decide (d_refund d = Always) then a_proposer r else q_dao (j_q j)) (d_amount d)) as Hin.
  { intros p Hp. unfold paid_for in Hp. apply filter_elem in Hp as [Hp Hw].
    apply bool_decide_eq_true in Hw. pose proof (ji_paid _ _ HI p Hp) as Ho.
    unfold paid_ok in Ho. rewrite Hw in Ho.
    destruct Ho as (r & d & H1 & H2 & H3 & H4 & H5 & H6). exists r, d.
    split; [done|]. split; [done|]. split; [done|].
    destruct p as [w dn to n]. simpl in *. congruence. }
  unfold rejected_deposit in HJ.
  destruct (q_completed (j_q j) !! i) as [[st ai pr ms [d|]]|] eqn:Er; simpl in HJ.
  - destruct st as [|pid|].
    + destruct (paid_for j (RRejected i)); simpl in HL; [done|lia].
    + destruct (paid_for j (RRejected i)); simpl in HL; [done|lia].
    + destruct (paid_for j (RRejected i)) as [|p [|p' pl]] eqn:Ep; simpl in HL; try lia.
      destruct (Hin p ltac:(left)) as (r & d' & [= <-] & _ & [= <-] & ->). simpl.
      destruct (decide _) as [->|Hne]; [done|]. by destruct (d_refund d).
  - destruct st; destruct (paid_for j (RRejected i)); simpl in HL; done || lia.
  - destruct (paid_for j (RRejected i)); simpl in HL; [done|lia].
Qed.
