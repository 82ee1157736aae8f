(** The claims about a DAO with a Condorcet module. *)
From stdpp Require Import gmap strings.
From Verif Require CondMatrix.
From Verif Require Import Base BaseProofs VotingModel VotingSpec
  CondModel CondSpec CondProofs CondLife CondClaims CoreModel CoreSpec CoreProofs
  CDaoModel CDaoSpec CDaoProofs.

(** ** Authority *)
Lemma c125_lawful K O b s l e : dreached K O b s l -> e ∈ l -> dlawful K O e.
Proof.
  intros (b0 & s0 & Hs & HS & Hl) He.
  destruct (dleads_inv K O b0 s0 b s l HS (dstart_inv _ _ _ Hs) Hl) as [_ H].
  destruct (H e He) as (I & Es & _ & Ev). destruct e. cbn in *.
  by apply dlawful_event.
Qed.
Lemma c125_once K O b s l id : dreached K O b s l -> 0 <= lsum (carried id) l <= 1.
Proof.
  intros (b0 & s0 & Hs & HS & Hl). split.
  { apply lsum_nonneg. intros. apply carried_nonneg. }
  assert (d_todo s0 = []) as Et by (by destruct Hs as (_ & _ & _ & _ & ?)).
  destruct (count_leads K O b0 s0 b s l id HS (dstart_inv _ _ _ Hs) Et Hl) as [H _].
  pose proof (item_exec_nonneg id (d_todo s)). lia.
Qed.
Lemma c125_paused K O b s l e id msgs : dreached K O b s l -> e ∈ l -> carries e id msgs ->
  k_admin (d_core (de_pre e)) <> d_at (de_pre e) -> ~ paused (d_core (de_pre e)) (de_block e).
Proof.
  intros (b0 & s0 & Hs & HS & Hl) He [Hr (c & t & Et)] Ha (x & Hx & Hex).
  destruct (dleads_inv K O b0 s0 b s l HS (dstart_inv _ _ _ Hs) Hl) as [_ H].
  destruct (H e He) as (I & Es & Ea & Ev). destruct e as [s1 b1 v s2]. cbn in *. subst v.
  cbn in Ev. rewrite Et in Ev. rewrite N.eqb_refl in Ev. unfold to_core, k_execute, k_shut in Ev.
  rewrite Hx, Hex in Ev.
  assert (d_at s1 <> k_self (d_core s1)) as Hne.
  { destruct Hs as ([lk Hk] & [y Hy] & _). apply kreached_inv in Hk as [[Hk _ _ _ _ _ _] _].
    cbn in Hk. rewrite Ea, Es. intros E. rewrite E in Hy. congruence. }
  destruct (N.eqb_spec (d_at s1) (k_self (d_core s1))); [done|].
  destruct (N.eqb_spec (d_at s1) (k_admin (d_core s1))); [by subst|]. done.
Qed.

(** ** Sovereignty *)
Lemma c126_acts K O b0 s0 b s l :
  dstart b0 s0 -> typed O -> sovereign s0 -> dleads K O b0 s0 b s l ->
  (forall e id msgs a, e ∈ l -> carries e id msgs -> stems a (map (act_of K) msgs) -> retains a) ->
  sovereign s /\
  forall l1 e l2 a, l = l1 ++ e :: l2 -> act e = Some a -> mandated K O l1 a.
Proof.
  intros Hs HS HV Hl Hret.
  assert (d_todo s0 = []) as Et by (by destruct Hs as (_ & _ & _ & _ & ?)).
  destruct (sov_leads K O b0 s0 b s l HS (dstart_inv _ _ _ Hs) Et HV Hl Hret) as (V & _ & L).
  split; [done|]. intros l1 e l2 a El Ha. destruct (L l1 e l2 El) as [_ T].
  unfold act in Ha. destruct (de_ev e); try done;
    destruct (d_todo (de_pre e)) as [|[[i j|[m|k]]|x|x] t] eqn:Ed; try done.
  - destruct (T (KSend (inl m))) as (y & E & Hy); [left|]. congruence.
  - destruct (T (KSend (inr k))) as (y & E & Hy); [left|]. congruence.
Qed.
Lemma c126_changes K O b0 s0 b s l :
  dstart b0 s0 -> typed O -> sovereign s0 -> dleads K O b0 s0 b s l ->
  (forall e id msgs a, e ∈ l -> carries e id msgs -> stems a (map (act_of K) msgs) -> retains a) ->
  forall e, e ∈ l -> act e = None -> governed (de_post e) = governed (de_pre e).
Proof.
  intros Hs HS HV Hl Hret e He E.
  assert (d_todo s0 = []) as Et by (by destruct Hs as (_ & _ & _ & _ & ?)).
  destruct (sov_leads K O b0 s0 b s l HS (dstart_inv _ _ _ Hs) Et HV Hl Hret) as (V & _ & L).
  destruct (dleads_inv K O b0 s0 b s l HS (dstart_inv _ _ _ Hs) Hl) as [_ H].
  destruct (H e He) as (I & Es & Ea & Ev).
  apply elem_of_list_split in He as (l1 & l2 & ->). destruct (L l1 e l2 eq_refl) as [V1 T1].
  destruct e as [s1 b1 v s2].
  apply (change_event K O s1 b1 v s2); try done.
  - intros x Hx. destruct (T1 x Hx) as (a & -> & _). by exists a.
  - destruct Hs as ([lk Hk] & [y Hy] & _). apply kreached_inv in Hk as [[Hk _ _ _ _ _ _] _].
    cbn in Hk, Ea, Es. rewrite Ea, Es. intros E'. rewrite E' in Hy. congruence.
Qed.
(** Nothing happens before a proposal is carried. *)
Lemma same_leads K O b0 s0 b s l : dleads K O b0 s0 b s l ->
  (forall e, e ∈ l -> governed (de_post e) = governed (de_pre e)) -> governed s = governed s0.
Proof.
  intros H. induction H as [|b s l b' e s' H IH Hb Hd He]; intros Hg; [done|].
  rewrite <-IH.
  - apply (Hg (DEntry s b' e s')). apply elem_of_app. right. left.
  - intros x Hx. apply Hg. apply elem_of_app. by left.
Qed.
Lemma stems_nil a : ~ stems a [].
Proof.
  intros H. remember [] as l eqn:El. induction H as [a l Ha|a l msgs H IH Ha]; subst l; [|done].
  by apply elem_of_nil in Ha.
Qed.
Lemma c126_nothing_before K O b0 s0 b s l :
  dstart b0 s0 -> typed O -> sovereign s0 -> dleads K O b0 s0 b s l ->
  (forall e id msgs, e ∈ l -> carries e id msgs -> msgs = []) ->
  governed s = governed s0 /\ forall e, e ∈ l -> act e = None.
Proof.
  intros Hs HS HV Hl Hno.
  assert (forall e id msgs a, e ∈ l -> carries e id msgs -> ~ stems a (map (act_of K) msgs)) as Hst.
  { intros e id msgs a He Hc. rewrite (Hno _ _ _ He Hc). apply stems_nil. }
  assert (forall e id msgs a, e ∈ l -> carries e id msgs -> stems a (map (act_of K) msgs) ->
    retains a) as Hret by (intros e id msgs a He Hc Ha; by destruct (Hst _ _ _ _ He Hc Ha)).
  assert (forall e, e ∈ l -> act e = None) as Hact.
  { intros e He. destruct (act e) as [a|] eqn:E; [|done].
    apply elem_of_list_split in He as (l1 & l2 & ->).
    destruct (c126_acts K O b0 s0 b s _ Hs HS HV Hl Hret) as [_ L].
    destruct (L l1 e l2 a eq_refl E) as (x & id & msgs & Hx & Hc & _ & Ha).
    destruct (Hst x id msgs a); [|done|done]. apply elem_of_app. by left. }
  split; [|done]. eapply same_leads; [done|]. intros e He.
  apply (c126_changes K O b0 s0 b s l Hs HS HV Hl Hret e He). by apply Hact.
Qed.

(** ** Execution *)
Lemma execute_winner O d b s id t p w a :
  typed O -> inv O d b s -> s_tallies s !! id = Some t -> s_props s !! id = Some p ->
  query_status s b id = Ok (CPassed w) -> vp O d a (t_start t) <> 0 ->
  exists ms, p_choices p !! Z.to_nat w = Some ms /\
    share_near (voted_power O s id) (p_total p) (p_quorum p) /\
    beats_all (Z.of_nat (length (p_choices p))) (margin O s id) w /\
    handle O s b a (Execute id) =
      Ok (State (s_dao s) (s_cfg s) (s_tallies s) (<[id := set_status p CExecuted]> (s_props s))
            (s_votes s), [SExec d id ms (p_close_on_fail p)]).
Proof.
  intros HT HI Ht Hp Hq Hv.
  apply query_unfold in Hq as (p' & t' & Hp' & Ht' & Hst). simplify_eq.
  pose proof (status_at_inv _ _ _ _ _ _ _ _ HI Ht Hp Hst) as [HM HJ].
  destruct (pass_carried _ _ _ _ _ _ _ _ HT HI Ht Hp HM HJ) as (_ & Hs & [Hw Hb] & _).
  destruct (p_choices p !! Z.to_nat w) as [ms|] eqn:E.
  2:{ apply lookup_ge_None in E. lia. }
  exists ms. split; [done|]. split; [done|]. split; [done|].
  assert (s_dao s = d) as Hd by apply HI.
  simpl. unfold execute_execute. rewrite Ht, Hd.
  destruct (negb (vp O d a (t_start t) =? 0)) eqn:E1; [|lia].
  rewrite Hp. unfold update_status. rewrite Hst. simpl. rewrite E.
  by destruct (i_props _ _ _ _ HI _ _ _ Ht Hp) as [-> _].
Qed.
Lemma c127_executes K O b s l id t p w a :
  dreached K O b s l -> outside s a = true ->
  s_tallies (d_prop s) !! id = Some t -> s_props (d_prop s) !! id = Some p ->
  query_status (d_prop s) b id = Ok (CPassed w) ->
  vp O (k_self (d_core s)) a (t_start t) <> 0 ->
  enabled (d_core s) (d_at s) -> ~ paused (d_core s) b ->
  exists ms s1 s2 x, p_choices p !! Z.to_nat w = Some ms /\
    share_near (voted_power O (d_prop s) id) (p_total p) (p_quorum p) /\
    beats_all (Z.of_nat (length (p_choices p))) (margin O (d_prop s) id) w /\
    d_event K O s b (DProp a (Execute id)) = Ok s1 /\
    d_event K O s1 b DRun = Ok s2 /\
    d_todo s1 = DP x :: d_todo s /\
    d_todo s2 = acts (map (act_of K) ms) ++ DEnd x :: d_todo s /\
    status_of (d_prop s2) id = Some CExecuted.
Proof.
  intros (b0 & s0 & Hs & HS & Hl) Ho Ht Hp Hq Hv [pf Hen] Hpau.
  destruct (dleads_inv K O b0 s0 b s l HS (dstart_inv _ _ _ Hs) Hl) as [(I & Es & Ea) _].
  destruct I as [_ B _].
  destruct (execute_winner O _ b _ id t p w a HS B Ht Hp Hq Hv) as (ms & Hm & Hsh & Hb & Hh).
  exists ms. eexists. eexists. exists (SExec (k_self (d_core s)) id ms (p_close_on_fail p)).
  do 3 (split; [done|]).
  split; [cbn -[handle]; rewrite Ho; unfold to_prop; rewrite Hh; reflexivity|].
  split; [cbn; rewrite N.eqb_refl; unfold to_core, k_execute|].
  { cbn [d_core d_at].
    assert (k_shut (d_core s) b (d_at s) = false) as ->.
    { unfold k_shut. destruct (k_paused (d_core s)) as [e|] eqn:Ep; [|done].
      destruct (is_expired e b) eqn:Ee; [done|]. destruct Hpau. by exists e. }
    cbn. rewrite Hen. cbn. reflexivity. }
  cbn. split; [done|]. split; [by rewrite map_map_acts|].
  unfold status_of. cbn. by rewrite lookup_insert.
Qed.
(** While the DAO is paused, an execution that closes proposals on failure ends them. *)
Lemma c127_pause_ends K O b s l id t p w a :
  dreached K O b s l -> outside s a = true ->
  s_tallies (d_prop s) !! id = Some t -> s_props (d_prop s) !! id = Some p ->
  query_status (d_prop s) b id = Ok (CPassed w) ->
  vp O (k_self (d_core s)) a (t_start t) <> 0 ->
  paused (d_core s) b -> k_admin (d_core s) <> d_at s ->
  exists s1, d_event K O s b (DProp a (Execute id)) = Ok s1 /\
    d_event K O s1 b DRun = Err "Paused" /\
    (p_close_on_fail p = true -> exists s2, d_event K O s1 b DFail = Ok s2 /\
       status_of (d_prop s2) id = Some CExecutionFailed /\ d_core s2 = d_core s) /\
    (p_close_on_fail p = false -> d_event K O s1 b DFail = Err "sub-message failed").
Proof.
  intros (b0 & s0 & Hs & HS & Hl) Ho Ht Hp Hq Hv (e & Hpe & Hpx) Hadm.
  destruct (dleads_inv K O b0 s0 b s l HS (dstart_inv _ _ _ Hs) Hl) as [(I & Es & Ea) _].
  assert (d_at s <> k_self (d_core s)) as Hne.
  { destruct Hs as ([lk Hk] & [y Hy] & _). apply kreached_inv in Hk as [[Hk _ _ _ _ _ _] _].
    cbn in Hk. rewrite Ea, Es. intros E. rewrite E in Hy. congruence. }
  destruct I as [_ B _].
  destruct (execute_winner O _ b _ id t p w a HS B Ht Hp Hq Hv) as (ms & Hm & Hsh & Hb & Hh).
  eexists.
  split; [cbn -[handle]; rewrite Ho; unfold to_prop; rewrite Hh; reflexivity|].
  split; [cbn; rewrite N.eqb_refl; unfold to_core, k_execute|].
  { cbn [d_core d_at].
    assert (k_shut (d_core s) b (d_at s) = true) as ->; [|done].
    unfold k_shut. rewrite Hpe, Hpx.
    destruct (N.eqb_spec (d_at s) (k_self (d_core s))); [done|].
    destruct (N.eqb_spec (d_at s) (k_admin (d_core s))); [by subst|]. done. }
  split; intros ->; [|done]. eexists.
  split; [cbn; rewrite lookup_insert; cbn; reflexivity|].
  cbn. split; [|done]. unfold status_of. cbn. by rewrite lookup_insert.
Qed.

(** A passed proposal waits. *)
Definition waits (w id h : Z) (b : block) (s : state) : Prop :=
  exists t p, s_tallies s !! id = Some t /\ s_props s !! id = Some p /\ t_start t = h /\
    min_over b p /\ pass_just b p t w /\ (p_status p = COpen \/ p_status p = CPassed w).
Lemma waits_time w id h b b' s : block_le b b' -> waits w id h b s -> waits w id h b' s.
Proof.
  intros Hb (t & p & A & B & T & C & D & E). exists t, p.
  destruct (just_time b b' p t w Hb) as (X & Y & Z). eauto 10.
Qed.
Lemma waits_query O d b s w id h : typed O -> inv O d b s ->
  waits w id h b s -> query_status s b id = Ok (CPassed w).
Proof.
  intros HT HI (t & p & A & B & T & C & D & E). unfold query_status. rewrite A, B. cbn.
  destruct E as [E|E]; [by eapply status_at_passing|]. unfold status_at. by rewrite E.
Qed.
Lemma query_waits O d b s w id : typed O -> inv O d b s ->
  query_status s b id = Ok (CPassed w) -> waits w id (start_of s id) b s.
Proof.
  intros HT HI Hq. apply query_unfold in Hq as (p & t & Hp & Ht & Hst).
  pose proof (status_at_inv _ _ _ _ _ _ _ _ HI Ht Hp Hst) as [HM HJ].
  exists t, p. do 2 (split; [done|]). split; [unfold start_of; by rewrite Ht|]. do 2 (split; [done|]).
  unfold status_at in Hst. destruct (p_status p) eqn:E; try done; [by left|]. injection Hst as ->. tauto.
Qed.
Lemma waits_handle O d s b a m s' subs w id h :
  typed O -> inv O d b s -> handle O s b a m = Ok (s', subs) -> waits w id h b s ->
  waits w id h b s' \/ (m = Execute id /\ vp O d a h <> 0).
Proof.
  intros HT HI H Hw. pose proof (handle_prim O _ _ _ _ _ _ H) as HP.
  assert (s_dao s = d) as Hd by apply HI.
  pose proof (waits_query _ _ _ _ _ _ _ HT HI Hw) as Hq.
  destruct Hw as (t & p & A & B & T & C & D & E).
  assert (m = Execute id \/ m <> Execute id) as [->|Hne].
  { destruct m as [| |i| |]; try (by right). destruct (decide (i = id)) as [->|]; [by left|right; congruence]. }
  { right. split; [done|]. simpl in H.
    apply execute_shape in H as (t' & p' & w' & ms & Ht & Hv & _).
    rewrite A in Ht. injection Ht as <-. by rewrite <-Hd, <-T. }
  left. destruct (prim_get _ _ _ _ _ _ _ _ HI HP A B) as (t2 & p2 & A2 & B2 & Te & Tt & Hc).
  exists t2, p2. do 2 (split; [done|]).
  split; [unfold tally_terms in Tt; congruence|].
  destruct Hc as [[-> ->]|[(-> & Hexp & x & vote & Hnv & Hvp & Hvote & Hadd)|(-> & st & st' & Hst & -> & Hc)]]; [done| |].
  { destruct (vote_keeps _ _ _ _ _ _ _ _ _ _ HI HT A B Hexp Hvp Hvote Hadd) as (X & _). eauto. }
  exfalso. unfold query_status in Hq. rewrite B, A in Hq. cbn in Hq. rewrite Hq in Hst. injection Hst as <-.
  destruct Hc as [[(w' & ms & _ & Hms) ->]|[[? _]|[? _]]]; [|done..].
  assert (p_status p <> CExecuted) as Hst by (destruct E as [->| ->]; done).
  assert (s_props s !! id <> s_props s' !! id) as Hch.
  { rewrite B, B2. intros Heq. injection Heq as Heq. apply Hst. by rewrite Heq. }
  destruct m as [choices|i vote|i|i|c]; simpl in H.
  - apply propose_shape in H as (id' & t' & st & Hid & _ & _ & _ & _ & -> & _). cbn in *.
    destruct (decide (id' = id)) as [->|]; [|by rewrite lookup_insert_ne in Hch].
    destruct (i_ids _ _ _ _ HI) as (k & Hk & Hids).
    unfold next_proposal_id in Hid. apply CondMatrix.u32_ok in Hid as [-> _].
    rewrite (max_key_spec _ k Hk Hids) in B.
    assert (is_Some (s_props s !! (k + 1))) as Hs by eauto. apply Hids in Hs. lia.
  - by apply vote_shape in H as (t' & vote' & t2 & _ & _ & _ & _ & _ & _ & -> & _).
  - apply execute_shape in H as (t' & p' & w2 & ms2 & _ & _ & _ & _ & _ & -> & _).
    destruct (decide (i = id)) as [->|]; [done|]. cbn in Hch. by rewrite lookup_insert_ne in Hch.
  - apply close_shape in H as (t' & p' & Ht & Hp & Hst' & -> & _).
    destruct (decide (i = id)) as [->|]; [|cbn in Hch; by rewrite lookup_insert_ne in Hch].
    congruence.
  - by apply set_config_shape in H as (c' & _ & _ & -> & _).
Qed.
Lemma waits_fail O d b s x s' w id h :
  typed O -> inv O d b s -> pend b s x -> on_fail s b x = Ok s' -> waits w id h b s -> waits w id h b s'.
Proof.
  intros HT HI HP H (t & p & A & B & T & C & D & E).
  apply on_fail_shape in H as (d0 & id0 & ms0 & p0 & -> & Hp0 & ->). cbn in HP.
  destruct (decide (id = id0)) as [->|Hne].
  - unfold status_of in HP. rewrite B in HP. cbn in HP. destruct E as [E|E]; rewrite E in HP; naive_solver.
  - exists t, p. cbn. by rewrite lookup_insert_ne.
Qed.
Lemma waits_event K O s b e s' w id h :
  typed O -> dinv O b s -> d_event K O s b e = Ok s' -> waits w id h b (d_prop s) ->
  waits w id h b (d_prop s') \/
  exists a, heard K s e = Some (a, Execute id) /\ vp O (k_self (d_core s)) a h <> 0.
Proof.
  intros HT HI H Hw. pose proof (di_prop _ _ _ HI) as HP.
  assert (forall a m rest s', to_core s b a m rest = Ok s' -> d_prop s' = d_prop s) as Hc.
  { intros a m rest s2 H2. unfold to_core in H2. destruct (k_execute _ _ _ _) as [[? ?]|]; [|done].
    by injection H2 as <-. }
  assert (forall a m rest, to_prop O s b a m rest = Ok s' -> heard K s e = Some (a, m) ->
    waits w id h b (d_prop s') \/
    exists a, heard K s e = Some (a, Execute id) /\ vp O (k_self (d_core s)) a h <> 0) as Hpr.
  { intros a m rest H2 Hh. unfold to_prop in H2.
    destruct (handle O (d_prop s) b a m) as [[p l]|] eqn:E; [|done]. injection H2 as <-. cbn.
    destruct (waits_handle _ _ _ _ _ _ _ _ _ _ _ HT HP E Hw) as [?|[-> ?]]; eauto. }
  destruct e as [a m|a m| | |a msgs| | |a]; cbn in H.
  - destruct (outside s a) eqn:Eo; [|done]. left. by rewrite (Hc _ _ _ _ H).
  - destruct (outside s a) eqn:Eo; [|done]. by apply (Hpr _ _ _ H).
  - destruct (d_todo s) as [|[[i j|[m|n]]|x|x] t] eqn:Et; try done.
    left. by rewrite (Hc _ _ _ _ H).
  - destruct (d_todo s) as [|[[i j|[m|n]]|x|x] t] eqn:Et; try done.
    destruct (call_of K n) as [m|] eqn:En.
    + apply (Hpr _ _ _ H). cbn. by rewrite Et, En.
    + injection H as <-. by left.
  - left. destruct (d_todo s) as [|[[i j|[m|n]]|x|x] t] eqn:Et; try done.
    destruct (k_mods (d_core s) !! a); [done|]. destruct (outside s a); [|done].
    destruct (k_reply _ _ _ _) as [[? ?]|]; [|done]. by injection H as <-.
  - left. destruct (d_todo s) as [|[[i j|[m|n]]|x|x] t] eqn:Et; try done.
    destruct x as [d i ms c]. destruct (N.eqb d (k_self (d_core s))).
    + by rewrite (Hc _ _ _ _ H).
    + by injection H as <-.
  - left. destruct (d_todo s) as [|[[i j|[m|n]]|x|x] t] eqn:Et; try done.
    destruct (on_fail (d_prop s) b x) as [p|] eqn:E; [|done]. injection H as <-. cbn.
    apply (waits_fail O _ b _ x p w id h HT HP); [|done|done].
    destruct x as [d i ms c].
    destruct (di_todo _ _ _ HI d i ms c) as (_ & t0 & q & w0 & _ & Hq & Hd & _); [rewrite Et; left|].
    cbn. unfold status_of. rewrite Hq. cbn. destruct Hd as [->| ->]; tauto.
  - left. destruct (d_todo s) as [|[[i j|[m|n]]|x|x] t] eqn:Et; try done.
    by injection H as <-.
Qed.
Lemma c127_waits K O b s l id w b' s' l' :
  dreached K O b s l -> query_status (d_prop s) b id = Ok (CPassed w) ->
  dleads K O b s b' s' l' ->
  query_status (d_prop s') b' id = Ok (CPassed w) \/
  exists e a, e ∈ l' /\ heard K (de_pre e) (de_ev e) = Some (a, Execute id) /\
    vp O (k_self (d_core s)) a (start_of (d_prop s) id) <> 0.
Proof.
  intros (b0 & s0 & Hs & HS & Hl) Hq H.
  destruct (dleads_inv K O b0 s0 b s l HS (dstart_inv _ _ _ Hs) Hl) as [(I & Es & Ea) _].
  pose proof (query_waits _ _ _ _ _ _ HS (di_prop _ _ _ I) Hq) as Hw.
  set (h := start_of (d_prop s) id) in *. clearbody h.
  assert (waits w id h b' (d_prop s') \/ exists e a, e ∈ l' /\
    heard K (de_pre e) (de_ev e) = Some (a, Execute id) /\ vp O (k_self (d_core s)) a h <> 0) as HW.
  { clear Hq. induction H as [|b1 s1 l1 b2 e s2 H IH Hb Hd He]; [by left|].
    destruct (dleads_inv K O b s b1 s1 l1 HS I H) as [(I1 & Es1 & Ea1) _].
    destruct IH as [IH|(x & a & Hx & Hh)].
    2:{ right. exists x, a. split; [apply elem_of_app; by left|done]. }
    apply (waits_time _ _ _ _ b2) in IH; [|done]. apply (dinv_time _ _ b2) in I1; [|done].
    destruct (waits_event _ _ _ _ _ _ _ _ _ HS I1 He IH) as [?|(a & Hh & Hv)]; [by left|].
    right. exists (DEntry s1 b2 e s2), a. split; [apply elem_of_app; right; left|].
    split; [done|]. by rewrite <-Es1. }
  destruct HW as [HW|?]; [left|by right].
  destruct (dleads_inv K O b s b' s' l' HS I H) as [(I' & _) _].
  by eapply waits_query; [..|exact HW]; [|apply (di_prop _ _ _ I')].
Qed.
