(** The claims about the DAO's ability to act on the decisions of its modules. *)
From stdpp Require Import gmap strings.
From Verif Require Import Base BaseProofs VotingModel VotingSpec HooksModel CoreModel CoreSpec
  CoreProofs CoreClaims ManyModel ManySpec ManyProofs ManyClaims ManyLiveSpec.
From Verif Require SingleModel MultModel CondModel SingleSpec DaoProofs MDaoProofs CDaoProofs MDaoClaims
  CDaoClaims ManySingle ManyMult ManyCond.

(** ** Counting modules *)
Definition pend (l : list qitem) : list ksub :=
  flat_map (fun x => match x with QK y => [y] | _ => [] end) l.
Lemma pend_QK l : pend (map QK l) = l.
Proof. induction l; [done|]. cbn. by f_equal. Qed.
Lemma pend_QP q l : pend (map (QP q) l) = [].
Proof. by induction l. Qed.
Lemma pend_app l l' : pend (l ++ l') = pend l ++ pend l'.
Proof. apply flat_map_app. Qed.
Definition counted (s : many) : Prop := kinv (KState (q_core s) (pend (q_todo s))).
Lemma counted_core s b a m rest s' :
  counted s -> to_core s b a m rest = Ok s' ->
  (forall i, KInst PROPOSAL_ID i ∈ pend (q_todo s) -> KInst PROPOSAL_ID i ∈ pend rest) ->
  counted s'.
Proof.
  intros I H Hr. unfold to_core in H.
  destruct (k_execute (q_core s) b a m) as [[c l]|] eqn:E; [|done]. injection H as <-.
  unfold counted. cbn. rewrite pend_app, pend_QK.
  exact (kinv_execute _ _ _ _ _ _ (pend rest) I E Hr).
Qed.
Lemma counted_same s s' :
  counted s -> q_core s' = q_core s ->
  (forall i, KInst PROPOSAL_ID i ∈ pend (q_todo s) -> KInst PROPOSAL_ID i ∈ pend (q_todo s')) ->
  counted s'.
Proof.
  intros I E Hr. unfold counted. by apply (kinv_same _ _ _ I); rewrite ?E.
Qed.
Lemma counted_event K Q s b e s' : counted s -> q_event K Q s b e = Ok s' -> counted s'.
Proof.
  intros I H. destruct e as [a m|a q m| | |a new msgs| | |a]; cbn [q_event] in H.
  - destruct (outside s a); [|done]. by eapply counted_core.
  - destruct (outside s a); [|done]. cbn in H. unfold to_mod in H.
    destruct (q_mods s !! q); [|done]. cbn in H.
    destruct (p_handle _ _ _ _ _) as [[p' l]|]; [|done]. injection H as <-.
    apply (counted_same s); [done|done|]. cbn. by rewrite pend_app, pend_QP.
  - destruct (q_todo s) as [|[[id i|[m|n]]|r x|r x] t] eqn:Et; try done.
    eapply counted_core; [done|done|]. rewrite Et. cbn. intros i Hi.
    by apply elem_of_cons in Hi as [Hi|Hi].
  - destruct (q_todo s) as [|[[id i|[m|n]]|r x|r x] t] eqn:Et; try done.
    assert (forall i, KInst PROPOSAL_ID i ∈ pend (q_todo s) -> KInst PROPOSAL_ID i ∈ pend t) as Hr.
    { rewrite Et. cbn. intros i Hi. by apply elem_of_cons in Hi as [Hi|Hi]. }
    destruct (call_of K n) as [[r m]|]; [|injection H as <-; by apply (counted_same s)].
    destruct (known s r); [|injection H as <-; by apply (counted_same s)].
    unfold to_mod in H. destruct (q_mods s !! r); [|done]. cbn in H.
    destruct (p_handle _ _ _ _ _) as [[p' l]|]; [|done]. injection H as <-.
    apply (counted_same s); [done|done|]. cbn. by rewrite pend_app, pend_QP.
  - destruct (q_todo s) as [|[[id i|[m|n]]|r x|r x] t] eqn:Et; try done.
    destruct (k_mods (q_core s) !! a) eqn:Ea; [done|]. cbv beta iota in H.
    destruct (outside s a) eqn:Eo; [|done]. cbv beta iota in H.
    destruct (can_be id new msgs); [|done]. cbv beta iota in H.
    destruct (k_reply (q_core s) id a msgs) as [[c l]|] eqn:E; [|done]. injection H as <-.
    unfold counted. cbn. rewrite pend_app, pend_QK.
    apply (kinv_reply (KState (q_core s) (pend (q_todo s))) id i (pend t) a msgs); try done.
    + cbn. by rewrite Et.
    + cbn. intros ->. unfold outside in Eo. by rewrite N.eqb_refl in Eo.
  - destruct (q_todo s) as [|[[id i|[m|n]]|r x|r x] t] eqn:Et; try done.
    assert (forall i, KInst PROPOSAL_ID i ∈ pend (q_todo s) ->
      KInst PROPOSAL_ID i ∈ pend (QEnd r x :: t)) as Hr by (rewrite Et; done).
    destruct (q_mods s !! r) as [pr|]; [|done]. cbn in H.
    destruct (p_sends pr x); [|done]. cbn in H.
    destruct (p_exec x) as [[[d i] ms]|]; [|injection H as <-; by apply (counted_same s)].
    destruct (d =? _)%N; [|injection H as <-; by apply (counted_same s)].
    by eapply counted_core.
  - destruct (q_todo s) as [|[[id i|[m|n]]|r x|r x] t] eqn:Et; try done.
    destruct (q_mods s !! r) as [pr|]; [|done]. cbn in H.
    destruct (p_fail pr b x) as [p'|]; [|done]. injection H as <-.
    apply (counted_same s); [done|done|]. by rewrite Et.
  - destruct (q_todo s) as [|[[id i|[m|n]]|r x|r x] t] eqn:Et; try done.
    destruct (q_mods s !! r) as [pr|]; [|done]. cbn in H.
    destruct (p_ok pr b x a) as [p'|]; [|done]. injection H as <-.
    apply (counted_same s); [done|done|]. by rewrite Et.
Qed.
Lemma counted_reached K Q b s l : qreached K Q b s l -> counted s.
Proof.
  intros (b0 & s0 & ([lk Hk] & _ & Et) & _ & Hl).
  induction Hl as [|b s l b' e s' H IH Hb Hd Hkd Hn He].
  - apply kreached_inv in Hk as [Hk _]. unfold counted. by rewrite Et.
  - by eapply counted_event.
Qed.
(** Between transactions some module is enabled. *)
Lemma c142_some K Q b s l : qreached K Q b s l -> q_todo s = [] ->
  exists a, enabled (q_core s) a.
Proof.
  intros HR Et. apply counted_reached in HR as [_ A _ _ [S|[i S]] _ _].
  - cbn in A, S. rewrite A in S. unfold n_active in S.
    assert (filter on (k_mods (q_core s)) <> ∅) as Hne.
    { intros E. rewrite E, map_size_empty in S. lia. }
    apply map_choose in Hne as (a & [o p] & Ha).
    apply map_filter_lookup_Some in Ha as [Ha Ho]. unfold on in Ho. cbn in Ho. subst o.
    by exists a, p.
  - cbn in S. rewrite Et in S. by apply elem_of_nil in S.
Qed.

(** ** Changing the modules *)
Lemma disable_ok l : forall m, NoDup l -> (forall a, a ∈ l -> exists p, m !! a = Some (KMod true p)) ->
  exists m', disable_all m l = Ok m' /\
    (forall a, a ∈ l -> exists p, m' !! a = Some (KMod false p)) /\
    (forall a, a ∉ l -> m' !! a = m !! a).
Proof.
  induction l as [|a l IH]; intros m Hn Hl.
  { exists m. split; [done|]. split; [|done]. intros a Ha. by apply elem_of_nil in Ha. }
  apply NoDup_cons in Hn as [Ha Hn]. destruct (Hl a) as [p Hp]; [left|].
  destruct (IH (<[a := KMod false p]> m) Hn) as (m' & E & H1 & H2).
  { intros c Hc. rewrite lookup_insert_ne by (intros ->; done). apply Hl. by right. }
  exists m'. cbn. rewrite Hp. cbn. split; [done|]. split.
  - intros c Hc. apply elem_of_cons in Hc as [->|Hc]; [|by apply H1].
    exists p. rewrite H2, lookup_insert by done. done.
  - intros c Hc. apply not_elem_of_cons in Hc as [Hne Hc].
    rewrite H2, lookup_insert_ne by done. done.
Qed.
Lemma active_le (m : gmap addr kmod) : (size (filter on m) <= size m)%nat.
Proof.
  rewrite <-!(size_dom (D := gset addr)). apply subseteq_size. apply dom_filter_subseteq.
Qed.
Lemma counted_bounds s : counted s ->
  k_active (q_core s) = n_active (q_core s) /\ k_total (q_core s) = n_total (q_core s) /\
  0 <= k_active (q_core s) <= U32_MAX /\ n_active (q_core s) <= n_total (q_core s).
Proof.
  intros [_ A B C _ _ _]. cbn in A, B, C. split; [done|]. split; [done|].
  pose proof (active_le (k_mods (q_core s))). unfold n_active, n_total in *. lia.
Qed.
Lemma adds_ok K Q b t add : forall s news,
  counted s -> q_todo s = map (fun i => QK (KInst PROPOSAL_ID i)) add ++ t ->
  length news = length add -> NoDup (map fst news) ->
  (forall a p, (a, p) ∈ news -> unused s a) ->
  n_total (q_core s) + Z.of_nat (length add) <= U32_MAX ->
  exists s', q_events K Q s b (map (fun x : addr * pmodule => QReply x.1 (Some x.2) []) news) = Ok s' /\
    q_todo s' = t /\
    (forall a p, (a, p) ∈ news -> enabled (q_core s') a /\ q_mods s' !! a = Some p) /\
    (forall a, a ∉ map fst news ->
       k_mods (q_core s') !! a = k_mods (q_core s) !! a /\ q_mods s' !! a = q_mods s !! a).
Proof.
  induction add as [|i add IH]; intros s [|[a p] news] HC Et HL Hn Hu Hm; try done.
  { exists s. split; [done|]. split; [done|]. split; [|done].
    intros a p Ha. by apply elem_of_nil in Ha. }
  cbn in HL, Et. apply NoDup_cons in Hn as [Ha Hn].
  destruct (Hu a p) as (U1 & U2 & U3); [left|].
  destruct (counted_bounds s HC) as (B1 & B2 & B3 & B4).
  assert (0 <= k_total (q_core s) < U32_MAX) as Hr.
  { rewrite B2. unfold n_total in *. cbn [length] in Hm. lia. }
  destruct (prefix_defined _ Hr) as [pf Hpf].
  set (c := k_set_mods (q_core s) (<[a := KMod true pf]> (k_mods (q_core s)))
    (k_active (q_core s) + 1) (k_total (q_core s) + 1)).
  set (s1 := Many c (<[a := p]> (q_mods s))
    (map (fun i => QK (KInst PROPOSAL_ID i)) add ++ t)).
  assert (q_event K Q s b (QReply a (Some p) []) = Ok s1) as E1.
  { cbn [q_event]. rewrite Et, U2. cbv beta iota.
    assert (outside s a = true) as ->.
    { unfold outside, known. rewrite U3. destruct (N.eqb_spec a (k_self (q_core s))); done. }
    cbn [can_be]. rewrite Z.eqb_refl. cbv beta iota. unfold k_reply. rewrite Z.eqb_refl, Hpf.
    cbn [length] in Hm.
    destruct (Z.leb_spec (k_active (q_core s) + 1) U32_MAX); [|lia].
    destruct (Z.leb_spec (k_total (q_core s) + 1) U32_MAX); [|lia]. reflexivity. }
  assert (counted s1) as HC1 by (by eapply counted_event).
  destruct (IH s1 news HC1 eq_refl) as (s' & E & Ht & Hi & Ho).
  - lia.
  - done.
  - intros a' p' Hin. destruct (Hu a' p') as (V1 & V2 & V3); [by right|].
    assert (a' <> a) as Hne.
    { intros ->. apply Ha. apply elem_of_list_fmap. by exists (a, p'). }
    split; [done|]. cbn. by rewrite !lookup_insert_ne.
  - unfold n_total in *. cbn. cbn [length] in Hm. rewrite map_size_insert_None by done. lia.
  - exists s'. split; [cbn [map q_events fst snd]; rewrite E1; exact E|]. split; [done|]. split.
    + intros a' p' Hin. apply elem_of_cons in Hin as [[= -> ->]|Hin]; [|by apply Hi].
      destruct (Ho a Ha) as [O1 O2]. split.
      * exists pf. rewrite O1. cbn. by rewrite lookup_insert.
      * rewrite O2. cbn. by rewrite lookup_insert.
    + intros a' Ha'. apply not_elem_of_cons in Ha' as [Hne Ha']. cbn in Hne.
      destruct (Ho a' Ha') as [O1 O2]. rewrite O1, O2. cbn. by rewrite !lookup_insert_ne.
Qed.
(** The DAO changes its modules as its proposals say. *)
Lemma c142_modules K Q b s l add dis t news :
  qreached K Q b s l -> q_todo s = QK (KSend (inl (KModules add dis))) :: t ->
  NoDup dis -> (forall a, a ∈ dis -> enabled (q_core s) a) ->
  (add <> [] \/ exists a, enabled (q_core s) a /\ a ∉ dis) ->
  Z.of_nat (size (k_mods (q_core s))) + Z.of_nat (length add) <= U32_MAX ->
  length news = length add -> NoDup (map fst news) ->
  (forall a p, (a, p) ∈ news -> unused s a) ->
  exists s', q_events K Q s b
      (QSelf :: map (fun x : addr * pmodule => QReply x.1 (Some x.2) []) news) = Ok s' /\
    q_todo s' = t /\
    (forall a p, (a, p) ∈ news -> enabled (q_core s') a /\ q_mods s' !! a = Some p) /\
    (forall a, a ∈ dis -> ~ enabled (q_core s') a) /\
    (forall a, a ∉ dis -> a ∉ map fst news ->
       k_mods (q_core s') !! a = k_mods (q_core s) !! a /\ q_mods s' !! a = q_mods s !! a).
Proof.
  intros HR Et Hnd Hen Hso Hm HL Hnn Hu. pose proof (counted_reached _ _ _ _ _ HR) as HC.
  destruct (counted_bounds s HC) as (B1 & B2 & B3 & B4).
  destruct (disable_ok dis (k_mods (q_core s)) Hnd Hen) as (m' & Hd & D1 & D2).
  destruct (disable_all_spec _ _ _ Hd) as (Z1 & Z2 & Z3 & _).
  assert (Z.of_nat (length dis) mod 2 ^ 32 = Z.of_nat (length dis)) as Emod.
  { apply Z.mod_small. unfold U32_MAX in B3. unfold n_active in B1. lia. }
  assert (exists n, new_active (q_core s) add dis = Ok n) as [n Hn].
  { unfold new_active. rewrite Emod. unfold n_active in B1.
    destruct (Z.leb_spec (Z.of_nat (length dis)) (k_active (q_core s))); [|lia].
    destruct Hso as [Ha|(a & [pa Ha] & Hna)].
    - destruct add; [done|]. rewrite andb_false_r. by eexists.
    - assert (size (filter on m') <> 0%nat) as Hs.
      { intros E. apply map_size_empty_inv in E.
        assert (filter on m' !! a = Some (KMod true pa)) as Hf.
        { apply map_filter_lookup_Some. rewrite D2 by done. done. }
        rewrite E, lookup_empty in Hf. done. }
      destruct (Z.leb_spec (k_active (q_core s)) (Z.of_nat (length dis))); [lia|]. by eexists. }
  set (s1 := Many (k_set_mods (q_core s) m' n (k_total (q_core s))) (q_mods s)
    (map (fun i => QK (KInst PROPOSAL_ID i)) add ++ t)).
  assert (q_event K Q s b QSelf = Ok s1) as E1.
  { cbn [q_event]. rewrite Et. unfold to_core, k_execute.
    assert (k_shut (q_core s) b (k_self (q_core s)) = false) as ->.
    { unfold k_shut. destruct (k_paused _); [|done]. by rewrite N.eqb_refl, andb_false_r. }
    cbn. rewrite N.eqb_refl. cbn. rewrite Hd. cbn. rewrite Hn. cbn. unfold s1.
    do 2 f_equal. by rewrite map_map. }
  assert (counted s1) as HC1 by (by eapply counted_event).
  destruct (adds_ok K Q b t add s1 news HC1 eq_refl HL Hnn) as (s' & E & Ht & Hi & Ho).
  - intros a p Ha. destruct (Hu a p Ha) as (U1 & U2 & U3). split; [done|]. cbn.
    split; [|done]. by apply Z3.
  - unfold n_total. cbn. rewrite Z2. lia.
  - exists s'. cbn [q_events]. rewrite E1. split; [exact E|]. split; [done|]. split; [done|].
    split.
    + intros a Ha [pa Hp]. assert (a ∉ map fst news) as Hna.
      { intros Hin. apply elem_of_list_fmap in Hin as ([a' p'] & -> & Hin).
        destruct (Hu a' p' Hin) as (_ & U2 & _). destruct (Hen _ Ha) as [pe He].
        cbn in He. congruence. }
      destruct (Ho a Hna) as [O1 _]. destruct (D1 a Ha) as [p' Hp']. cbn in O1. congruence.
    + intros a Ha Hna. destruct (Ho a Hna) as [-> ->]. cbn. by rewrite D2.
Qed.

(** ** Execution *)
Lemma run_exec K Q s b q p x d id msgs t :
  q_todo s = QP q x :: t -> q_mods s !! q = Some p -> p_sends p x = true ->
  p_exec x = Some (d, id, msgs) -> d = k_self (q_core s) ->
  enabled (q_core s) q -> ~ paused (q_core s) b ->
  q_event K Q s b QRun = Ok (Many (q_core s) (q_mods s) (acts (map (act_of K) msgs) ++ QEnd q x :: t)).
Proof.
  intros Et Hp Hs Hx -> [pf Hen] Hpau. cbn [q_event]. rewrite Et, Hp, Hs, Hx, N.eqb_refl.
  unfold to_core, k_execute.
  assert (k_shut (q_core s) b q = false) as ->.
  { unfold k_shut. destruct (k_paused (q_core s)) as [e|] eqn:Ep; [|done].
    destruct (is_expired e b) eqn:Ee; [done|]. destruct Hpau. by exists e. }
  cbn. rewrite Hen. cbn. by rewrite map_map_acts.
Qed.
Lemma c142_executes K Q b s l q a id :
  qreached K Q b s l -> outside s a = true -> passed_for Q s b q a id ->
  enabled (q_core s) q -> ~ paused (q_core s) b ->
  exists msgs, decided Q s q id msgs /\
  (msgs <> [] -> exists s1 s2 x rest,
    q_event K Q s b (QProp a q (execute_of s q id)) = Ok s1 /\
    q_event K Q s1 b QRun = Ok s2 /\
    q_todo s1 = QP q x :: rest ++ q_todo s /\
    q_todo s2 = acts (map (act_of K) msgs) ++ QEnd q x :: rest ++ q_todo s /\
    is_executed s2 q id).
Proof.
  intros HR Ho Hpf Hen Hpau. pose proof HR as (b0 & s0 & Hs & HS & Hl).
  destruct (qleads_inv K Q b0 s0 b s l HS (qstart_inv _ _ _ Hs) Hl) as [(MI & Es) _].
  assert (sane Q (k_self (q_core s))) as (S1 & S2 & S3) by (by rewrite Es).
  assert (forall p p' m x subs msgs d,
    q_mods s !! q = Some p -> p_handle Q p b a m = Ok (p', x :: subs) ->
    p_sends p' x = true -> p_exec x = Some (d, id, msgs) -> d = k_self (q_core s) ->
    exists s1 s2, q_event K Q s b (QProp a q m) = Ok s1 /\ q_event K Q s1 b QRun = Ok s2 /\
      q_todo s1 = QP q x :: map (QP q) subs ++ q_todo s /\
      q_todo s2 = acts (map (act_of K) msgs) ++ QEnd q x :: map (QP q) subs ++ q_todo s /\
      q_mods s2 !! q = Some p') as Hgen.
  { intros p p' m x subs msgs d Hp Hh Hx1 Hx2 Hd.
    exists (Many (q_core s) (<[q := p']> (q_mods s)) (map (QP q) (x :: subs) ++ q_todo s)).
    eexists. split; [cbn [q_event]; rewrite Ho; unfold to_mod; rewrite Hp; cbn; rewrite Hh; reflexivity|].
    split; [eapply (run_exec K Q _ b q p' x d id msgs); try done; cbn; by rewrite lookup_insert|].
    cbn. split; [done|]. split; [done|]. by rewrite lookup_insert. }
  unfold passed_for in Hpf. unfold decided, execute_of.
  destruct (q_mods s !! q) as [[p|p|p]|] eqn:Ep; [| | |done];
    pose proof (mi_mods _ _ _ MI _ _ Ep) as PI; cbn in PI.
  - destruct Hpf as (x & Hx & Hq & Hmem). exists (SingleModel.p_msgs x).
    split; [by exists x|]. intros Hm.
    assert (SingleModel.c_dao (SingleModel.s_cfg p) = k_self (q_core s)) as Hdao.
    { destruct PI as [_ [_ HT'] _]. apply HT'. }
    unfold SingleModel.query_status in Hq. rewrite Hx in Hq. cbn in Hq.
    assert (exists subs, SingleModel.handle (o_single Q) p b a (SingleModel.Execute id) =
      Ok (SingleModel.save_prop p id (SingleModel.set_status x Executed),
        (SExec (k_self (q_core s)) id (SingleModel.p_msgs x)
          (SingleModel.c_close_on_fail (SingleModel.s_cfg p)) : SingleModel.sub) :: subs)) as [subs Hh].
    { cbn. unfold SingleModel.execute_execute. rewrite Hx. unfold SingleModel.update_status.
      rewrite Hq. cbn.
      assert (SingleModel.sender_can_execute (o_single Q) p a x = true) as ->.
      { unfold SingleModel.sender_can_execute. rewrite Hdao.
        destruct (SingleModel.c_only_members _); [|done].
        destruct (Z.eqb_spec (SingleModel.vp (o_single Q) (k_self (q_core s)) a (SingleModel.p_start x)) 0); [|done].
        by destruct Hmem. }
      rewrite Hdao. destruct (SingleModel.p_msgs x) eqn:Em; [done|]. eexists. reflexivity. }
    eassert (p_handle Q (PSingle p) b a (CSingle (SingleModel.Execute id)) = Ok (_, _ :: _)) as Hph.
    { cbn [p_handle]. rewrite Hh. cbn. reflexivity. }
    destruct (Hgen _ _ _ _ _ _ _ eq_refl Hph eq_refl eq_refl eq_refl)
      as (s1 & s2 & E1 & E2 & T1 & T2 & M2).
    exists s1, s2. do 2 eexists. split; [exact E1|]. split; [exact E2|].
    split; [exact T1|]. split; [exact T2|]. unfold is_executed. rewrite M2. cbn.
    by rewrite lookup_insert.
  - destruct Hpf as (x & Hx & Hq & Hmem). destruct PI as [_ B _]. cbn in B.
    destruct (MDaoClaims.execute_winner _ _ b _ id x a S2 B Hx Hq Hmem) as (i & c & Hc & Hch & He).
    exists (MultModel.ch_msgs c). split; [by exists x, i, c|]. intros Hm.
    destruct (He Hm) as [subs Hh].
    eassert (p_handle Q (PMult p) b a (CMult (MultModel.Execute id)) = Ok (_, _ :: _)) as Hph.
    { cbn [p_handle]. rewrite Hh. cbn. reflexivity. }
    destruct (Hgen _ _ _ _ _ _ _ eq_refl Hph eq_refl eq_refl eq_refl)
      as (s1 & s2 & E1 & E2 & T1 & T2 & M2).
    exists s1, s2. do 2 eexists. split; [exact E1|]. split; [exact E2|].
    split; [exact T1|]. split; [exact T2|]. unfold is_executed. rewrite M2. cbn.
    by rewrite lookup_insert.
  - destruct Hpf as (t & w & Ht & Hq & Hv). destruct PI as [_ B _]. cbn in B.
    assert (exists x, CondModel.s_props p !! id = Some x) as [x Hx].
    { unfold CondModel.query_status in Hq.
      destruct (CondModel.s_props p !! id) as [x|]; [by exists x|done]. }
    destruct (CDaoClaims.execute_winner _ _ b _ id t x w a S3 B Ht Hx Hq Hv) as (ms & Hm & Hsh & Hb & Hh).
    exists ms. split; [by exists x, w|]. intros _.
    eassert (p_handle Q (PCond p) b a (CCond (CondModel.Execute id)) = Ok (_, _ :: _)) as Hph.
    { cbn [p_handle]. rewrite Hh. cbn. reflexivity. }
    destruct (Hgen _ _ _ _ _ _ _ eq_refl Hph eq_refl eq_refl eq_refl)
      as (s1 & s2 & E1 & E2 & T1 & T2 & M2).
    exists s1, s2. do 2 eexists. split; [exact E1|]. split; [exact E2|].
    split; [exact T1|]. split; [exact T2|]. unfold is_executed. rewrite M2. cbn.
    by rewrite lookup_insert.
Qed.
