(** The claims about a DAO with a single-choice module. *)
From stdpp Require Import gmap strings.
From Verif Require Import Base BaseProofs VotingModel VotingSpec HooksModel
  SingleModel SingleSpec SingleProofs SingleTally SingleLife CoreModel CoreSpec CoreProofs
  DaoModel DaoSpec DaoProofs.

(** ** Authority *)
Lemma c103_lawful K O b s l e : dreached K O b s l -> e ∈ l -> dlawful K O e.
Proof.
  intros (b0 & s0 & Hs & HS & Hl) He.
  destruct (dleads_inv K O b0 s0 b s l HS (dstart_inv _ _ _ Hs) Hl) as [_ H].
  destruct (H e He) as (I & Es & _ & _ & Ev). destruct e. cbn in *.
  apply dlawful_event; [by rewrite Es|done|done].
Qed.
Lemma c103_once K O b s l id : dreached K O b s l -> 0 <= lsum (carried id) l <= 1.
Proof.
  intros (b0 & s0 & Hs & HS & Hl). split.
  { apply lsum_nonneg. intros. apply carried_nonneg. }
  assert (d_todo s0 = []) as Et by (by destruct Hs as (_ & _ & _ & _ & ?)).
  destruct (count_leads K O b0 s0 b s l id HS (dstart_inv _ _ _ Hs) Et Hl) as [H _].
  pose proof (item_exec_nonneg id (d_todo s)). lia.
Qed.
Lemma c103_paused K O b s l e id msgs : dreached K O b s l -> e ∈ l -> carries e id msgs ->
  k_admin (d_core (de_pre e)) <> d_at (de_pre e) -> ~ paused (d_core (de_pre e)) (de_block e).
Proof.
  intros (b0 & s0 & Hs & HS & Hl) He [Hr (c & t & Et)] Ha (x & Hx & Hex).
  destruct (dleads_inv K O b0 s0 b s l HS (dstart_inv _ _ _ Hs) Hl) as [_ H].
  destruct (H e He) as (I & Es & Ea & _ & Ev). destruct e as [s1 b1 v s2]. cbn in *. subst v.
  cbn in Ev. rewrite Et in Ev. rewrite N.eqb_refl in Ev. unfold to_core, k_execute, k_shut in Ev.
  rewrite Hx, Hex in Ev.
  assert (d_at s1 <> k_self (d_core s1)) as Hne.
  { destruct Hs as ([lk Hk] & [y Hy] & _). apply kreached_inv in Hk as [[Hk _ _ _ _ _ _] _].
    cbn in Hk. rewrite Ea, Es. intros E. rewrite E in Hy. congruence. }
  destruct (N.eqb_spec (d_at s1) (k_self (d_core s1))); [done|].
  destruct (N.eqb_spec (d_at s1) (k_admin (d_core s1))); [by subst|]. done.
Qed.

(** ** Sovereignty *)
Lemma c104_acts K O b0 s0 b s l :
  dstart b0 s0 -> sane O (k_self (d_core s0)) -> sovereign s0 -> dleads K O b0 s0 b s l ->
  (forall e id msgs a, e ∈ l -> carries e id msgs -> stems a (map (act_of K) msgs) -> retains a) ->
  sovereign s /\
  forall l1 e l2 a, l = l1 ++ e :: l2 -> act e = Some a -> mandated K O l1 a.
Proof.
  intros Hs HS HV Hl Hret.
  assert (d_todo s0 = []) as Et by (by destruct Hs as (_ & _ & _ & _ & ?)).
  destruct (sov_leads K O b0 s0 b s l HS (dstart_inv _ _ _ Hs) Et HV Hl Hret) as (V & _ & L).
  split; [done|]. intros l1 e l2 a El Ha. destruct (L l1 e l2 El) as [_ T].
  unfold act in Ha. destruct (de_ev e); try done;
    destruct (d_todo (de_pre e)) as [|[[i j|[m|k]]|x|x] t] eqn:Ed; try done.
  - destruct (T (KSend (inl m))) as (y & E & Hy); [left|]. congruence.
  - destruct (T (KSend (inr k))) as (y & E & Hy); [left|]. congruence.
Qed.
Lemma c104_changes K O b0 s0 b s l :
  dstart b0 s0 -> sane O (k_self (d_core s0)) -> sovereign s0 -> dleads K O b0 s0 b s l ->
  (forall e id msgs a, e ∈ l -> carries e id msgs -> stems a (map (act_of K) msgs) -> retains a) ->
  forall e, e ∈ l -> act e = None -> governed (de_post e) = governed (de_pre e).
Proof.
  intros Hs HS HV Hl Hret e He E.
  assert (d_todo s0 = []) as Et by (by destruct Hs as (_ & _ & _ & _ & ?)).
  destruct (sov_leads K O b0 s0 b s l HS (dstart_inv _ _ _ Hs) Et HV Hl Hret) as (V & _ & L).
  destruct (dleads_inv K O b0 s0 b s l HS (dstart_inv _ _ _ Hs) Hl) as [_ H].
  destruct (H e He) as (I & Es & Ea & _ & Ev).
  apply elem_of_list_split in He as (l1 & l2 & ->). destruct (L l1 e l2 eq_refl) as [V1 T1].
  destruct e as [s1 b1 v s2].
  apply (change_event K O s1 b1 v s2); try done.
  - intros x Hx. destruct (T1 x Hx) as (a & -> & _). by exists a.
  - destruct Hs as ([lk Hk] & [y Hy] & _). apply kreached_inv in Hk as [[Hk _ _ _ _ _ _] _].
    cbn in Hk, Ea, Es. rewrite Ea, Es. intros E'. rewrite E' in Hy. congruence.
Qed.
(** Nothing happens before a proposal is carried. *)
Lemma same_leads K O b0 s0 b s l : dleads K O b0 s0 b s l ->
  (forall e, e ∈ l -> governed (de_post e) = governed (de_pre e)) -> governed s = governed s0.
Proof.
  intros H. induction H as [|b s l b' e s' H IH Hb Hd Hk He]; intros Hg; [done|].
  rewrite <-IH.
  - apply (Hg (DEntry s b' e s')). apply elem_of_app. right. left.
  - intros x Hx. apply Hg. apply elem_of_app. by left.
Qed.
Lemma c104_nothing_before K O b0 s0 b s l :
  dstart b0 s0 -> sane O (k_self (d_core s0)) -> sovereign s0 -> dleads K O b0 s0 b s l ->
  (forall e id msgs, e ∈ l -> ~ carries e id msgs) ->
  governed s = governed s0 /\ forall e, e ∈ l -> act e = None.
Proof.
  intros Hs HS HV Hl Hno.
  assert (forall e id msgs a, e ∈ l -> carries e id msgs -> stems a (map (act_of K) msgs) ->
    retains a) as Hret by (intros e id msgs a He Hc; destruct (Hno _ _ _ He Hc)).
  assert (forall e, e ∈ l -> act e = None) as Hact.
  { intros e He. destruct (act e) as [a|] eqn:E; [|done].
    apply elem_of_list_split in He as (l1 & l2 & ->).
    destruct (c104_acts K O b0 s0 b s _ Hs HS HV Hl Hret) as [_ L].
    destruct (L l1 e l2 a eq_refl E) as (x & id & msgs & Hx & Hc & _).
    destruct (Hno x id msgs); [|done]. apply elem_of_app. by left. }
  split; [|done]. eapply same_leads; [done|]. intros e He.
  apply (c104_changes K O b0 s0 b s l Hs HS HV Hl Hret e He). by apply Hact.
Qed.

(** ** Execution *)
Lemma c105_executes K O b s l id p a :
  dreached K O b s l -> outside s a = true ->
  s_props (d_prop s) !! id = Some p -> query_status (d_prop s) b id = Ok Passed ->
  p_msgs p <> [] ->
  (c_only_members (s_cfg (d_prop s)) = true -> vp O (k_self (d_core s)) a (p_start p) <> 0) ->
  enabled (d_core s) (d_at s) -> ~ paused (d_core s) b ->
  exists s1 s2 x rest, d_event K O s b (DProp a (Execute id)) = Ok s1 /\
    d_event K O s1 b DRun = Ok s2 /\
    d_todo s1 = DP x :: rest ++ d_todo s /\
    d_todo s2 = acts (map (act_of K) (p_msgs p)) ++ DEnd x :: rest ++ d_todo s /\
    status_of (d_prop s2) id = Some Executed.
Proof.
  intros (b0 & s0 & Hs & HS & Hl) Ho Hp Hq Hm Hmem [pf Hen] Hpau.
  destruct (dleads_inv K O b0 s0 b s l HS (dstart_inv _ _ _ Hs) Hl) as [(I & Es & Ea) _].
  assert (c_dao (s_cfg (d_prop s)) = k_self (d_core s)) as Hdao.
  { destruct I as [_ [_ HT'] _]. apply HT'. }
  unfold query_status in Hq. rewrite Hp in Hq. cbn in Hq.
  set (subs := (proposal_status_changed_hooks (s_phooks (d_prop s)) id Passed Executed ++
               proposal_completed_hooks (s_policy (d_prop s)) id Executed) : list sub).
  set (x := SExec (k_self (d_core s)) id (p_msgs p) (c_close_on_fail (s_cfg (d_prop s))) : sub).
  assert (handle O (d_prop s) b a (Execute id) =
    Ok (save_prop (d_prop s) id (set_status p Executed), x :: subs)) as Hh.
  { cbn. unfold execute_execute. rewrite Hp. unfold update_status. rewrite Hq. cbn.
    assert (sender_can_execute O (d_prop s) a p = true) as ->.
    { unfold sender_can_execute. rewrite Hdao.
      destruct (c_only_members _); [|done]. destruct (Z.eqb_spec (vp O (k_self (d_core s)) a (p_start p)) 0); [|done].
      by destruct Hmem. }
    rewrite Hdao. subst x subs. destruct (p_msgs p) eqn:Em; [done|]. done. }
  eexists. eexists. exists x, (map DP subs).
  split; [cbn; rewrite Ho; unfold to_prop; rewrite Hh; reflexivity|].
  split; [cbn; rewrite N.eqb_refl; unfold to_core, k_execute|].
  { cbn [d_core d_at].
    assert (k_shut (d_core s) b (d_at s) = false) as ->.
    { unfold k_shut. destruct (k_paused (d_core s)) as [e|] eqn:Ep; [|done].
      destruct (is_expired e b) eqn:Ee; [done|]. destruct Hpau. by exists e. }
    cbn. rewrite Hen. cbn. reflexivity. }
  cbn. split; [done|]. split; [by rewrite map_map_acts|].
  unfold status_of. cbn. by rewrite lookup_insert.
Qed.
(** While the DAO is paused, an execution that closes proposals on failure ends them. *)
Lemma c105_pause_ends K O b s l id p a :
  dreached K O b s l -> outside s a = true ->
  s_props (d_prop s) !! id = Some p -> query_status (d_prop s) b id = Ok Passed ->
  p_msgs p <> [] ->
  (c_only_members (s_cfg (d_prop s)) = true -> vp O (k_self (d_core s)) a (p_start p) <> 0) ->
  c_close_on_fail (s_cfg (d_prop s)) = true ->
  paused (d_core s) b -> k_admin (d_core s) <> d_at s ->
  exists s1 s2, d_event K O s b (DProp a (Execute id)) = Ok s1 /\
    d_event K O s1 b DRun = Err "Paused" /\ d_event K O s1 b DFail = Ok s2 /\
    status_of (d_prop s2) id = Some ExecutionFailed /\ d_core s2 = d_core s.
Proof.
  intros (b0 & s0 & Hs & HS & Hl) Ho Hp Hq Hm Hmem Hcl (e & Hpe & Hpx) Hadm.
  destruct (dleads_inv K O b0 s0 b s l HS (dstart_inv _ _ _ Hs) Hl) as [(I & Es & Ea) _].
  assert (c_dao (s_cfg (d_prop s)) = k_self (d_core s)) as Hdao.
  { destruct I as [_ [_ HT'] _]. apply HT'. }
  assert (d_at s <> k_self (d_core s)) as Hne.
  { destruct Hs as ([lk Hk] & [y Hy] & _). apply kreached_inv in Hk as [[Hk _ _ _ _ _ _] _].
    cbn in Hk. rewrite Ea, Es. intros E. rewrite E in Hy. congruence. }
  unfold query_status in Hq. rewrite Hp in Hq. cbn in Hq.
  set (subs := (proposal_status_changed_hooks (s_phooks (d_prop s)) id Passed Executed ++
               proposal_completed_hooks (s_policy (d_prop s)) id Executed) : list sub).
  set (x := SExec (k_self (d_core s)) id (p_msgs p) true : sub).
  assert (handle O (d_prop s) b a (Execute id) =
    Ok (save_prop (d_prop s) id (set_status p Executed), x :: subs)) as Hh.
  { cbn. unfold execute_execute. rewrite Hp. unfold update_status. rewrite Hq. cbn.
    assert (sender_can_execute O (d_prop s) a p = true) as ->.
    { unfold sender_can_execute. rewrite Hdao.
      destruct (c_only_members _); [|done]. destruct (Z.eqb_spec (vp O (k_self (d_core s)) a (p_start p)) 0); [|done].
      by destruct Hmem. }
    rewrite Hdao, Hcl. subst x subs. destruct (p_msgs p) eqn:Em; [done|]. done. }
  eexists. eexists.
  split; [cbn; rewrite Ho; unfold to_prop; rewrite Hh; reflexivity|].
  split; [cbn; rewrite N.eqb_refl; unfold to_core, k_execute|].
  { cbn [d_core d_at].
    assert (k_shut (d_core s) b (d_at s) = true) as ->; [|done].
    unfold k_shut. rewrite Hpe, Hpx.
    destruct (N.eqb_spec (d_at s) (k_self (d_core s))); [done|].
    destruct (N.eqb_spec (d_at s) (k_admin (d_core s))); [by subst|]. done. }
  split; [cbn; rewrite lookup_insert; cbn; reflexivity|].
  cbn. split; [|done]. unfold status_of. cbn. by rewrite lookup_insert.
Qed.
