(** The claims about a DAO with modules of all kinds. *)
From stdpp Require Import gmap strings.
From Verif Require Import Base BaseProofs VotingModel VotingSpec HooksModel CoreModel CoreSpec
  CoreProofs ManyModel ManySpec ManyProofs.
From Verif Require DaoProofs.

Lemma c140_lawful K Q b s l e : qreached K Q b s l -> e ∈ l -> qlawful K Q e.
Proof.
  intros (b0 & s0 & Hs & HS & Hl) He.
  destruct (qleads_inv K Q b0 s0 b s l HS (qstart_inv _ _ _ Hs) Hl) as [_ H].
  destruct (H e He) as (I & Es & _ & _ & Ev). destruct e. cbn in *.
  apply qlawful_event; [by rewrite Es|done|done].
Qed.
Lemma c140_once K Q b s l q id : qreached K Q b s l -> 0 <= lsum (carried q id) l <= 1.
Proof.
  intros (b0 & s0 & Hs & HS & Hl). split.
  { apply lsum_nonneg. intros. apply carried_nonneg. }
  eapply cinv_le. by eapply count_leads.
Qed.
Lemma carries_runs K Q s b e s' q id msgs :
  q_event K Q s b e = Ok s' -> carries (QEntry s b e s') q id msgs ->
  is_Some (q_mods s !! q) /\
  exists x t, to_core s b q (KHook (map (act_of K) msgs)) (QEnd q x :: t) = Ok s'.
Proof.
  intros H [Hr (x & t & Et & Ex)]. cbn in *. subst e. cbn in H. rewrite Et in H.
  destruct (q_mods s !! q) as [p|]; [|done]. cbn in H. destruct (p_sends p x); [|done].
  cbn in H. rewrite Ex, N.eqb_refl in H. split; [by eexists|]. by exists x, t.
Qed.
Lemma c140_paused K Q b s l e q id msgs : qreached K Q b s l -> e ∈ l -> carries e q id msgs ->
  k_admin (q_core (qe_pre e)) <> q -> ~ paused (q_core (qe_pre e)) (qe_block e).
Proof.
  intros (b0 & s0 & Hs & HS & Hl) He Hc Ha (x & Hx & Hex).
  destruct (qleads_inv K Q b0 s0 b s l HS (qstart_inv _ _ _ Hs) Hl) as [_ H].
  destruct (H e He) as (I & Es & _ & _ & Ev). destruct e as [s1 b1 v s2].
  destruct (carries_runs _ _ _ _ _ _ _ _ _ Ev Hc) as ([p Hp] & y & t & Hr).
  cbn in *. unfold to_core, k_execute, k_shut in Hr. rewrite Hx, Hex in Hr.
  destruct (N.eqb_spec q (k_self (q_core s1))) as [->|].
  { destruct I as [_ B _ _]. congruence. }
  destruct (N.eqb_spec q (k_admin (q_core s1))); [by subst|]. done.
Qed.

(** ** Disabled modules *)
Definition off (s : many) (q : addr) : Prop :=
  exists pf, k_mods (q_core s) !! q = Some (KMod false pf).
Lemma off_core s b a m rest s' q : to_core s b a m rest = Ok s' -> off s q -> off s' q.
Proof.
  intros H [pf Hq]. unfold to_core in H.
  destruct (k_execute (q_core s) b a m) as [[c l]|] eqn:E; [|done]. injection H as <-.
  apply k_execute_step in E as [E _]. unfold off. cbn.
  apply k_step_cases in E as [[Em _]|(add & dis & mods & n & -> & -> & -> & Hd & Hn & ->)].
  - unfold modules in Em. exists pf. congruence.
  - cbn. apply disable_all_spec in Hd as (_ & _ & N & D).
    destruct (mods !! q) as [[on py]|] eqn:Ex.
    + destruct (D _ _ Ex) as ([on' py'] & Hy & _ & Hon). cbn in Hon.
      destruct on; [|by exists py]. rewrite Hq in Hy. injection Hy as <- <-.
      specialize (Hon eq_refl). done.
    + apply N in Ex. congruence.
Qed.
Lemma off_event K Q s b e s' q : q_event K Q s b e = Ok s' -> off s q -> off s' q.
Proof.
  intros H Ho. destruct e as [a m|a r m| | |a new msgs| | |a]; cbn [q_event] in H.
  - destruct (outside s a); [|done]. by eapply off_core.
  - destruct (outside s a); [|done]. cbn in H. unfold to_mod in H.
    destruct (q_mods s !! r); [|done]. cbn in H.
    destruct (p_handle _ _ _ _ _) as [[p' l]|]; [|done]. by injection H as <-.
  - destruct (q_todo s) as [|[[id i|[m|n]]|r x|r x] t]; try done. by eapply off_core.
  - destruct (q_todo s) as [|[[id i|[m|n]]|r x|r x] t]; try done.
    destruct (call_of K n) as [[r m]|]; [|by injection H as <-].
    destruct (known s r); [|by injection H as <-]. unfold to_mod in H.
    destruct (q_mods s !! r); [|done]. cbn in H.
    destruct (p_handle _ _ _ _ _) as [[p' l]|]; [|done]. by injection H as <-.
  - destruct (q_todo s) as [|[[id i|[m|n]]|r x|r x] t]; try done.
    destruct (k_mods (q_core s) !! a) eqn:Ea; [done|]. cbv beta iota in H.
    destruct (outside s a); [|done]. cbv beta iota in H.
    destruct (can_be id new msgs); [|done]. cbv beta iota in H.
    destruct (k_reply (q_core s) id a msgs) as [[c l]|] eqn:E; [|done]. injection H as <-.
    destruct Ho as [pf Ho]. exists pf. cbn.
    apply k_reply_cases in E as (_ & _ & _ & _ & _ & [->|[p ->]] & _); [done|].
    rewrite lookup_insert_ne; [done|]. congruence.
  - destruct (q_todo s) as [|[[id i|[m|n]]|r x|r x] t]; try done.
    destruct (q_mods s !! r) as [pr|]; [|done]. cbn in H.
    destruct (p_sends pr x); [|done]. cbn in H.
    destruct (p_exec x) as [[[d i] ms]|]; [|by injection H as <-].
    destruct (d =? _)%N; [|by injection H as <-]. by eapply off_core.
  - destruct (q_todo s) as [|[[id i|[m|n]]|r x|r x] t]; try done.
    destruct (q_mods s !! r) as [pr|]; [|done]. cbn in H.
    destruct (p_fail pr b x) as [p'|]; [|done]. by injection H as <-.
  - destruct (q_todo s) as [|[[id i|[m|n]]|r x|r x] t]; try done.
    destruct (q_mods s !! r) as [pr|]; [|done]. cbn in H.
    destruct (p_ok pr b x a) as [p'|]; [|done]. by injection H as <-.
Qed.
Lemma off_leads K Q b0 s0 b s l q : qleads K Q b0 s0 b s l ->
  forall l1 e l2, l = l1 ++ e :: l2 -> off (qe_pre e) q ->
  off s q /\ forall x, x ∈ e :: l2 -> off (qe_pre x) q.
Proof.
  intros H. induction H as [|b s l b' e s' H IH Hb Hd Hk Hn He]; intros l1 x l2 E Hx.
  { by destruct l1. }
  apply DaoProofs.app_one_split in E as [(-> & <- & <-)|(l2' & -> & ->)].
  - cbn in Hx. split; [by eapply off_event|]. intros y Hy.
    apply elem_of_list_singleton in Hy as ->. done.
  - destruct (IH l1 x l2' eq_refl Hx) as [H1 H2]. split; [by eapply off_event|].
    intros y Hy. rewrite app_comm_cons in Hy. apply elem_of_app in Hy as [Hy|Hy]; [by apply H2|].
    apply elem_of_list_singleton in Hy as ->. done.
Qed.
(** A disabled module never again makes the DAO act. *)
Lemma c140_disabled K Q b s l l1 e l2 q pf :
  qreached K Q b s l -> l = l1 ++ e :: l2 ->
  k_mods (q_core (qe_pre e)) !! q = Some (KMod false pf) ->
  forall e' id msgs, e' ∈ e :: l2 -> ~ carries e' q id msgs.
Proof.
  intros (b0 & s0 & Hs & HS & Hl) El Hoff e' id msgs He' Hc.
  destruct (off_leads K Q b0 s0 b s l q Hl l1 e l2 El) as [_ H1]; [by exists pf|].
  destruct (H1 e' He') as [pf' Ho].
  destruct (qleads_inv K Q b0 s0 b s l HS (qstart_inv _ _ _ Hs) Hl) as [_ H].
  destruct (H e') as (I & Es & _ & _ & Ev).
  { rewrite El. apply elem_of_app. by right. }
  destruct e' as [s1 b1 v s2].
  destruct (carries_runs _ _ _ _ _ _ _ _ _ Ev Hc) as (_ & y & t & Hr).
  destruct (run_hook _ _ _ _ _ _ _ Hr eq_refl) as ([py Hen] & _). cbn in Ho, Hen. congruence.
Qed.

(** ** Sovereignty *)
Lemma c140_acts K Q b0 s0 b s l :
  qstart b0 s0 -> sane Q (k_self (q_core s0)) -> sovereign s0 -> qleads K Q b0 s0 b s l ->
  (forall e, e ∈ l -> homely e) ->
  (forall e q id msgs a, e ∈ l -> carries e q id msgs -> stems a (map (act_of K) msgs) ->
     retains a) ->
  sovereign s /\
  forall l1 e l2 d, l = l1 ++ e :: l2 -> did e = Some d -> meant K Q l1 d.
Proof.
  intros Hs HS HV Hl Hho Hret.
  assert (q_todo s0 = []) as Et by (by destruct Hs as (_ & _ & ?)).
  destruct (sov_leads K Q b0 s0 b s l HS (qstart_inv _ _ _ Hs) Et HV Hl Hho Hret) as (V & _ & L).
  split; [done|]. intros l1 e l2 d El Hd. destruct (L l1 e l2 El) as [_ T].
  unfold did in Hd. destruct (qe_ev e); try done;
    destruct (q_todo (qe_pre e)) as [|[[i j|[m|k]]|r x|r x] t] eqn:Ed; try done;
    injection Hd as <-.
  - destruct (T (KSend (inl m))) as [(y & [= <-] & Hy)|(? & ? & ? & ? & _)]; [left|done|done].
  - destruct (T (KSend (inr k))) as [(y & [= <-] & Hy)|(? & ? & ? & ? & _)]; [left|done|done].
  - destruct (T (KInst i j)) as [(y & ? & _)|(j' & add & dis & [= -> <-] & Hy & Hin)];
      [left|done|]. by exists add, dis.
Qed.
Lemma c140_changes K Q b0 s0 b s l :
  qstart b0 s0 -> sane Q (k_self (q_core s0)) -> sovereign s0 -> qleads K Q b0 s0 b s l ->
  (forall e, e ∈ l -> homely e) ->
  (forall e q id msgs a, e ∈ l -> carries e q id msgs -> stems a (map (act_of K) msgs) ->
     retains a) ->
  forall e, e ∈ l -> did e = None -> governed (qe_post e) = governed (qe_pre e).
Proof.
  intros Hs HS HV Hl Hho Hret e He E.
  assert (q_todo s0 = []) as Et by (by destruct Hs as (_ & _ & ?)).
  destruct (sov_leads K Q b0 s0 b s l HS (qstart_inv _ _ _ Hs) Et HV Hl Hho Hret) as (V & _ & L).
  destruct (qleads_inv K Q b0 s0 b s l HS (qstart_inv _ _ _ Hs) Hl) as [_ H].
  destruct (H e He) as (I & Es & _ & _ & Ev).
  apply elem_of_list_split in He as (l1 & l2 & ->). destruct (L l1 e l2 eq_refl) as [V1 T1].
  destruct e as [s1 b1 v s2]. by apply (change_event K Q s1 b1 v s2).
Qed.
Lemma same_leads K Q b0 s0 b s l : qleads K Q b0 s0 b s l ->
  (forall e, e ∈ l -> governed (qe_post e) = governed (qe_pre e)) -> governed s = governed s0.
Proof.
  intros H. induction H as [|b s l b' e s' H IH Hb Hd Hk Hn He]; intros Hg; [done|].
  rewrite <-IH.
  - apply (Hg (QEntry s b' e s')). apply elem_of_app. right. left.
  - intros x Hx. apply Hg. apply elem_of_app. by left.
Qed.
Lemma c140_nothing_before K Q b0 s0 b s l :
  qstart b0 s0 -> sane Q (k_self (q_core s0)) -> sovereign s0 -> qleads K Q b0 s0 b s l ->
  (forall e, e ∈ l -> homely e) ->
  (forall e q id msgs, e ∈ l -> ~ carries e q id msgs) ->
  governed s = governed s0 /\ forall e, e ∈ l -> did e = None.
Proof.
  intros Hs HS HV Hl Hho Hno.
  assert (forall e q id msgs a, e ∈ l -> carries e q id msgs ->
    stems a (map (act_of K) msgs) -> retains a) as Hret.
  { intros e q id msgs a He Hc. destruct (Hno _ _ _ _ He Hc). }
  assert (forall e, e ∈ l -> did e = None) as Hact.
  { intros e He. destruct (did e) as [d|] eqn:E; [|done].
    apply elem_of_list_split in He as (l1 & l2 & ->).
    destruct (c140_acts K Q b0 s0 b s _ Hs HS HV Hl Hho Hret) as [_ L].
    assert (exists x q id msgs, x ∈ l1 /\ carries x q id msgs) as (x & q & id & msgs & Hx & Hc).
    { pose proof (L l1 e l2 d eq_refl E) as Hm. destruct d; cbn in Hm.
      - destruct Hm as (x & q & id & msgs & Hx & Hc & _). by exists x, q, id, msgs.
      - destruct Hm as (add & dis & (x & q & id & msgs & Hx & Hc & _) & _). by exists x, q, id, msgs. }
    destruct (Hno x q id msgs); [|done]. apply elem_of_app. by left. }
  split; [|done]. eapply same_leads; [done|]. intros e He.
  apply (c140_changes K Q b0 s0 b s l Hs HS HV Hl Hho Hret e He). by apply Hact.
Qed.
