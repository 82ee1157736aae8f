(** Proofs about a DAO with modules of all kinds. *)
From stdpp Require Import gmap strings.
From Verif Require Import Base BaseProofs VotingModel VotingSpec HooksModel CoreModel CoreSpec
  CoreProofs ManyModel ManySpec.
From Verif Require SingleModel MultModel CondModel DaoProofs MDaoProofs CDaoProofs
  ManySingle ManyMult ManyCond.

(** ** The invariant *)
Definition pinv (Q : powers) (b : block) (s : many) (q : addr) (p : pmodule) : Prop :=
  match p with
  | PSingle x => DaoProofs.dinv (o_single Q) b (ManySingle.view q s x)
  | PMult x => MDaoProofs.dinv (o_mult Q) b (ManyMult.view q s x)
  | PCond x => CDaoProofs.dinv (o_cond Q) b (ManyCond.view q s x)
  end.
Record minv (Q : powers) (b : block) (s : many) : Prop := MInv {
  mi_self : k_mods (q_core s) !! k_self (q_core s) = None;
  mi_own : q_mods s !! k_self (q_core s) = None;
  mi_todo : forall q x, QP q x ∈ q_todo s -> is_Some (q_mods s !! q);
  mi_mods : forall q p, q_mods s !! q = Some p -> pinv Q b s q p }.
Lemma minv_time Q b b' s : block_le b b' -> minv Q b s -> minv Q b' s.
Proof.
  intros Hb [A B C D]. split; try done. intros q p Hp. specialize (D q p Hp).
  destruct p; cbn in *.
  - by eapply DaoProofs.dinv_time.
  - by eapply MDaoProofs.dinv_time.
  - by eapply CDaoProofs.dinv_time.
Qed.
Lemma pinv_new Q b s q p :
  new_of (k_self (q_core s)) p -> k_mods (q_core s) !! k_self (q_core s) = None ->
  (forall x, QP q x ∉ q_todo s) -> pinv Q b s q p.
Proof.
  intros Hn Hs Ht. destruct p; cbn.
  - by apply ManySingle.view_new.
  - by apply ManyMult.view_new.
  - by apply ManyCond.view_new.
Qed.
Lemma qstart_inv Q b s : qstart b s -> minv Q b s.
Proof.
  intros ([l Hl] & Hm & Et).
  assert (k_mods (q_core s) !! k_self (q_core s) = None) as Hs.
  { by apply kreached_inv in Hl as [[] _]. }
  split; [done| | |].
  - destruct (q_mods s !! k_self (q_core s)) as [p|] eqn:E; [|done].
    destruct (Hm _ _ E) as [[x Hx] _]. congruence.
  - rewrite Et. intros q x H. by apply elem_of_nil in H.
  - intros q p Hp. destruct (Hm q p Hp) as [_ Hn]. apply pinv_new; [done..|].
    rewrite Et. intros x H. by apply elem_of_nil in H.
Qed.

(** ** What steps keep *)
Lemma in_QK q x l rest : QP q x ∈ map QK l ++ rest -> QP q x ∈ rest.
Proof.
  rewrite elem_of_app. intros [H|H]; [|done]. apply elem_of_list_fmap in H as (y & ? & _). done.
Qed.
Lemma in_QP q x r l rest : QP q x ∈ map (QP r) l ++ rest -> q = r \/ QP q x ∈ rest.
Proof.
  rewrite elem_of_app. intros [H|H]; [|by right]. left.
  apply elem_of_list_fmap in H as (y & E & Hy). by injection E as -> ->.
Qed.
(** What [kept] says of a step. *)
Definition kept (s s' : many) (e : qevent) : Prop :=
  k_self (q_core s') = k_self (q_core s) /\
  k_mods (q_core s') !! k_self (q_core s) = None /\
  (forall q x, QP q x ∈ q_todo s' -> is_Some (q_mods s' !! q)) /\
  (forall q, is_Some (q_mods s !! q) -> is_Some (q_mods s' !! q)) /\
  (forall q p, q_mods s !! q = None -> q_mods s' !! q = Some p ->
     (exists msgs, e = QReply q (Some p) msgs) /\ q <> k_self (q_core s) /\
     forall x, QP q x ∉ q_todo s').
Lemma kept_core Q b s b' a m rest s' e :
  minv Q b s -> to_core s b' a m rest = Ok s' ->
  (forall q x, QP q x ∈ rest -> QP q x ∈ q_todo s) -> kept s s' e.
Proof.
  intros [A B C D] H Hr. unfold to_core in H.
  destruct (k_execute (q_core s) b' a m) as [[c l]|] eqn:E; [|done]. injection H as <-.
  apply DaoProofs.exec_mods in E as [E1 E2]. unfold kept. cbn.
  split; [done|]. split; [by apply E2|].
  split; [intros q x Hx; apply in_QK in Hx; by eapply C, Hr|]. split; [done|]. congruence.
Qed.
Lemma kept_mod Q b s O b' a q m rest s' e :
  minv Q b s -> to_mod O s b' a q m rest = Ok s' ->
  (forall q x, QP q x ∈ rest -> QP q x ∈ q_todo s) -> kept s s' e.
Proof.
  intros [A B C D] H Hr. unfold to_mod in H. destruct (q_mods s !! q) as [p|] eqn:Ep; [|done].
  cbn in H. destruct (p_handle O p b' a m) as [[p' l]|]; [|done]. injection H as <-.
  unfold kept. cbn. do 2 (split; [done|]). split; [|split].
  - intros r x Hx. apply in_QP in Hx as [->|Hx]; [rewrite lookup_insert; by eexists|].
    apply lookup_insert_is_Some'. right. by eapply C, Hr.
  - intros r Hx. apply lookup_insert_is_Some'. by right.
  - intros r x Hx. rewrite lookup_insert_ne by congruence. congruence.
Qed.
Lemma kept_upd Q b s q p p' rest e :
  minv Q b s -> q_mods s !! q = Some p ->
  (forall q x, QP q x ∈ rest -> QP q x ∈ q_todo s) ->
  kept s (Many (q_core s) (<[q := p']> (q_mods s)) rest) e.
Proof.
  intros [A B C D] Hp Hr. unfold kept. cbn. do 2 (split; [done|]). split; [|split].
  - intros r x Hx. apply lookup_insert_is_Some'. right. by eapply C, Hr.
  - intros r Hx. apply lookup_insert_is_Some'. by right.
  - intros r x Hx. rewrite lookup_insert_ne by congruence. congruence.
Qed.
Lemma kept_same Q b s rest e :
  minv Q b s -> (forall q x, QP q x ∈ rest -> QP q x ∈ q_todo s) ->
  kept s (Many (q_core s) (q_mods s) rest) e.
Proof.
  intros [A B C D] Hr. unfold kept. cbn. do 2 (split; [done|]).
  split; [intros r x Hx; by eapply C, Hr|]. split; [done|]. congruence.
Qed.
Lemma kept_event K Q s b e s' : minv Q b s -> q_event K Q s b e = Ok s' -> kept s s' e.
Proof.
  intros HI H. destruct e as [a m|a q m| | |a new msgs| | |a]; cbn [q_event] in H.
  - destruct (outside s a); [|done]. by eapply kept_core.
  - destruct (outside s a); [|done]. by eapply kept_mod.
  - destruct (q_todo s) as [|[[id i|[m|n]]|r x|r x] t] eqn:Et; try done.
    eapply kept_core; [done..|]. rewrite Et. intros. by right.
  - destruct (q_todo s) as [|[[id i|[m|n]]|r x|r x] t] eqn:Et; try done.
    assert (forall q x, QP q x ∈ t -> QP q x ∈ q_todo s) as Hr.
    { rewrite Et. intros. by right. }
    destruct (call_of K n) as [[r m]|]; [|injection H as <-; by eapply kept_same].
    destruct (known s r); [|injection H as <-; by eapply kept_same].
    by eapply kept_mod.
  - destruct (q_todo s) as [|[[id i|[m|n]]|r x|r x] t] eqn:Et; try done.
    destruct (k_mods (q_core s) !! a) eqn:Ea; [done|]. cbn in H.
    destruct (outside s a) eqn:Eo; [|done]. cbn in H.
    destruct (can_be id new msgs); [|done]. cbn in H.
    destruct (k_reply (q_core s) id a msgs) as [[c l]|] eqn:E; [|done]. injection H as <-.
    pose proof (k_reply_self _ _ _ _ _ _ E) as Es. destruct HI as [A B C D].
    unfold outside, known in Eo.
    assert (a <> k_self (q_core s)) as Hne by (intros ->; rewrite N.eqb_refl in Eo; done).
    destruct (q_mods s !! a) as [|] eqn:Ema; [by destruct (a =? _)%N|].
    assert (forall q x, QP q x ∈ map QK l ++ t -> is_Some (q_mods s !! q)) as Hin.
    { intros q x Hx. apply in_QK in Hx. apply (C q x). rewrite Et. by right. }
    unfold kept. cbn. split; [done|]. split; [|split; [|split]].
    + apply k_reply_cases in E as (_ & _ & _ & _ & _ & [->|[p ->]] & _); [done|].
      by rewrite lookup_insert_ne.
    + intros q x Hx. apply Hin in Hx. destruct new; [|done].
      apply lookup_insert_is_Some'. by right.
    + intros q Hx. destruct new; [|done]. apply lookup_insert_is_Some'. by right.
    + intros q p Hq Hp. destruct new as [p0|]; [|congruence].
      destruct (decide (q = a)) as [->|Hqa]; [|rewrite lookup_insert_ne in Hp by done; congruence].
      rewrite lookup_insert in Hp. injection Hp as ->. split; [by exists msgs|].
      split; [done|]. intros x Hx. apply Hin in Hx. rewrite Ema in Hx. by destruct Hx.
  - destruct (q_todo s) as [|[[id i|[m|n]]|r x|r x] t] eqn:Et; try done.
    assert (forall q y, QP q y ∈ QEnd r x :: t -> QP q y ∈ q_todo s) as Hr.
    { rewrite Et. intros q y Hy. apply elem_of_cons in Hy as [Hy|Hy]; [done|]. by right. }
    destruct (q_mods s !! r) as [pr|] eqn:Er; [|done]. cbn in H.
    destruct (p_sends pr x); [|done]. cbn in H.
    destruct (p_exec x) as [[[d i] ms]|]; [|injection H as <-; by eapply kept_same].
    destruct (d =? _)%N; [|injection H as <-; by eapply kept_same].
    by eapply kept_core.
  - destruct (q_todo s) as [|[[id i|[m|n]]|r x|r x] t] eqn:Et; try done.
    destruct (q_mods s !! r) as [pr|] eqn:Er; [|done]. cbn in H.
    destruct (p_fail pr b x) as [p'|]; [|done]. injection H as <-.
    eapply kept_upd; [done..|]. rewrite Et. intros. by right.
  - destruct (q_todo s) as [|[[id i|[m|n]]|r x|r x] t] eqn:Et; try done.
    destruct (q_mods s !! r) as [pr|] eqn:Er; [|done]. cbn in H.
    destruct (p_ok pr b x a) as [p'|]; [|done]. injection H as <-.
    eapply kept_upd; [done..|]. rewrite Et. intros. by right.
Qed.
Definition goes (K : codes) (Q : powers) (s : many) (b : block) (e : qevent) (s' : many) : Prop :=
  (forall a m, heard K s e = Some (a, m) -> keeps_dao (k_self (q_core s)) a m) /\
  (forall a p msgs, e = QReply a (Some p) msgs -> new_of (k_self (q_core s)) p) /\
  q_event K Q s b e = Ok s'.
Lemma pinv_event K Q s b e s' q p :
  sane Q (k_self (q_core s)) -> minv Q b s -> goes K Q s b e s' ->
  q_mods s !! q = Some p ->
  exists p', q_mods s' !! q = Some p' /\ pinv Q b s' q p'.
Proof.
  intros (S1 & S2 & S3) [A B C D] (Hk & _ & H) Hp. pose proof (D q p Hp) as Hi.
  destruct p as [p|p|p]; cbn in Hi.
  - destruct (ManySingle.view_inv K Q s b e s' q p S1 Hk Hp B Hi H) as (p' & Hp' & Hi').
    by exists (PSingle p').
  - destruct (ManyMult.view_inv K Q s b e s' q p S2 Hk Hp B Hi H) as (p' & Hp' & Hi').
    by exists (PMult p').
  - destruct (ManyCond.view_inv K Q s b e s' q p S3 Hp B Hi H) as (p' & Hp' & Hi').
    by exists (PCond p').
Qed.
Lemma minv_event K Q s b e s' :
  sane Q (k_self (q_core s)) -> minv Q b s -> goes K Q s b e s' ->
  minv Q b s' /\ k_self (q_core s') = k_self (q_core s).
Proof.
  intros HS HI HG. pose proof HG as (Hk & Hn & H).
  destruct (kept_event K Q s b e s' HI H) as (K1 & K2 & K3 & K4 & K5). split; [|done].
  pose proof HI as [A B C D]. split.
  - by rewrite K1.
  - rewrite K1. destruct (q_mods s' !! k_self (q_core s)) as [p|] eqn:E; [|done].
    destruct (K5 _ _ B E) as (_ & Hne & _). done.
  - done.
  - intros q p Hp. destruct (q_mods s !! q) as [p0|] eqn:E.
    + destruct (pinv_event K Q s b e s' q p0 HS HI HG E) as (p' & Hp' & Hi). congruence.
    + destruct (K5 _ _ E Hp) as ([msgs ->] & Hne & Hno).
      apply pinv_new; [rewrite K1; by eapply Hn|by rewrite K1|done].
Qed.

(** ** Histories *)
Lemma qleads_inv K Q b0 s0 b s l :
  sane Q (k_self (q_core s0)) -> minv Q b0 s0 -> qleads K Q b0 s0 b s l ->
  (minv Q b s /\ k_self (q_core s) = k_self (q_core s0)) /\
  forall e, e ∈ l ->
    minv Q (qe_block e) (qe_pre e) /\ k_self (q_core (qe_pre e)) = k_self (q_core s0) /\
    goes K Q (qe_pre e) (qe_block e) (qe_ev e) (qe_post e).
Proof.
  intros HS HI H. induction H as [|b s l b' e s' H IH Hb Hd Hk Hn He].
  { split; [done|]. intros e He. by apply elem_of_nil in He. }
  destruct IH as [(IH1 & IH2) IH3]. apply (minv_time _ _ b') in IH1; [|done].
  assert (HS' := HS). rewrite <-IH2 in HS'.
  destruct (minv_event K Q s b' e s' HS' IH1 (conj Hk (conj Hn He))) as [H1 H2].
  split; [split; [done|congruence]|].
  intros x Hx. apply elem_of_app in Hx as [Hx|Hx]; [by apply IH3|].
  apply elem_of_list_singleton in Hx as ->. cbn. done.
Qed.

(** ** Authority *)
Lemma map_map_acts (l : list kact) : map QK (map KSend l) = acts l.
Proof. by rewrite map_map. Qed.
Lemma to_core_cases s b a m rest s' :
  to_core s b a m rest = Ok s' ->
  q_todo s' = rest \/
  (exists msgs, orders (q_core s) a m msgs /\ q_todo s' = acts msgs ++ rest) \/
  (exists i, m = KVoting i /\ a = k_self (q_core s) /\
     q_todo s' = QK (KInst VOTE_UPDATE_ID i) :: rest) \/
  (exists add dis, m = KModules add dis /\ a = k_self (q_core s) /\
     q_todo s' = map (fun i => QK (KInst PROPOSAL_ID i)) add ++ rest).
Proof.
  intros H. unfold to_core in H.
  destruct (k_execute (q_core s) b a m) as [[c l]|] eqn:E; [|done]. injection H as <-. cbn.
  apply k_execute_step in E as [E _].
  apply k_step_cases in E as [[_ [->|[(msgs & Ho & ->)|(i & -> & Hi & ->)]]]|
      (add & dis & mods & n & -> & Hi & -> & _)].
  - by left.
  - right. left. exists msgs. split; [done|]. by rewrite map_map_acts.
  - right. right. left. by exists i.
  - right. right. right. exists add, dis. split; [done|]. split; [done|]. by rewrite map_map.
Qed.
Lemma exec_mandate Q b s q p x d id ms t :
  sane Q (k_self (q_core s)) -> minv Q b s -> q_todo s = QP q x :: t ->
  q_mods s !! q = Some p -> p_sends p x = true -> p_exec x = Some (d, id, ms) ->
  mandate Q s q id ms.
Proof.
  intros (S1 & S2 & S3) HI Et Hp Hs Hx. unfold mandate. rewrite Hp.
  pose proof (mi_mods _ _ _ HI q p Hp) as Hi. destruct p as [p|p|p], x as [x|x|x]; try done.
  - by eapply ManySingle.view_mandate.
  - by eapply ManyMult.view_mandate.
  - by eapply ManyCond.view_mandate.
Qed.
Lemma outside_not s a : outside s a = true ->
  a <> k_self (q_core s) /\ q_mods s !! a = None.
Proof.
  unfold outside, known. intros H. apply andb_true_iff in H as [H1 H2].
  destruct (q_mods s !! a); [done|]. split; [|done]. intros ->. by rewrite N.eqb_refl in H1.
Qed.
Lemma run_hook s b q ms rest s' acts0 :
  to_core s b q (KHook acts0) rest = Ok s' -> acts0 = ms ->
  enabled (q_core s) q /\ q_todo s' = acts ms ++ rest /\ q_mods s' = q_mods s.
Proof.
  intros H <-. unfold to_core in H.
  destruct (k_execute (q_core s) b q (KHook acts0)) as [[c' l]|] eqn:E; [|done].
  injection H as <-. cbn. apply k_execute_step in E as [E _]. cbn in E.
  destruct (k_mods (q_core s) !! q) as [[on pf]|] eqn:Ek; [|done]. cbn in E.
  destruct on; [|done]. injection E as <- <-. split; [by exists pf|].
  by rewrite map_map_acts.
Qed.
Lemma qlawful_event K Q s b e s' :
  sane Q (k_self (q_core s)) -> minv Q b s ->
  q_event K Q s b e = Ok s' -> qlawful K Q (QEntry s b e s').
Proof.
  intros HS HI H. unfold qlawful. cbn [qe_pre qe_ev qe_post qe_block].
  destruct e as [a m|a q m| | |a new msgs| | |a]; cbn [q_event] in H.
  - destruct (outside s a) eqn:Eo; [|done]. apply outside_not in Eo as [Eo1 Eo2].
    destruct (to_core_cases _ _ _ _ _ _ H) as [E|[(msgs & Ho & E)|[(i & -> & Ei & _)|
      (add & dis & -> & Ei & _)]]].
    + by left.
    + right. by exists msgs.
    + done.
    + done.
  - destruct (outside s a) eqn:Eo; [|done]. unfold to_mod in H. cbn in H.
    destruct (q_mods s !! q) as [p|]; [|done]. cbn in H.
    destruct (p_handle _ _ _ _ _) as [[p' l]|]; [|done]. injection H as <-. by exists l.
  - destruct (q_todo s) as [|[[id i|[m|n]]|r x|r x] t] eqn:Et; try done.
    exists m, t. split; [done|].
    destruct (to_core_cases _ _ _ _ _ _ H) as [E|[(msgs & Ho & E)|[(i & -> & Ei & E)|
      (add & dis & -> & Ei & E)]]].
    + by left.
    + right. left. destruct Ho as [[-> Ea]|[-> [p Hp]]].
      * exists msgs. done.
      * destruct HI as [A _ _ _]. congruence.
    + right. right. left. by exists i.
    + right. right. right. by exists add, dis.
  - destruct (q_todo s) as [|[[id i|[m|n]]|r x|r x] t] eqn:Et; try done.
    destruct (call_of K n) as [[r m]|] eqn:Em; [|injection H as <-; by exists n, t, 0%N, []].
    destruct (known s r); [|injection H as <-; by exists n, t, r, []].
    unfold to_mod in H. destruct (q_mods s !! r) as [p|]; [|done]. cbn in H.
    destruct (p_handle _ _ _ _ _) as [[p' l]|]; [|done]. injection H as <-.
    by exists n, t, r, l.
  - destruct (q_todo s) as [|[[id i|[m|n]]|r x|r x] t] eqn:Et; try done.
    destruct (k_mods (q_core s) !! a) eqn:Ea; [done|]. cbn in H.
    destruct (outside s a) eqn:Eo; [|done]. cbn in H.
    destruct (can_be id new msgs) eqn:Ec; [|done]. cbn in H.
    destruct (k_reply (q_core s) id a msgs) as [[c l]|] eqn:E; [|done]. injection H as <-.
    exists id, i, t. split; [done|]. cbn [q_todo].
    assert (l = [] \/ (id <> VOTE_UPDATE_ID /\ l = map KSend msgs)) as Hl.
    { unfold k_reply in E.
      destruct (Z.eqb_spec id PROPOSAL_ID) as [->|].
      { right. split; [done|]. destruct (derive_prefix _); [|done].
        destruct (_ <=? _); [|done]. destruct (_ <=? _); [|done]. by injection E as <- <-. }
      destruct (Z.eqb_spec id VOTE_ID) as [->|].
      { right. split; [done|]. destruct (k_voting _); [done|]. by injection E as <- <-. }
      destruct (Z.eqb_spec id VOTE_UPDATE_ID) as [->|]; [|done].
      injection E as <- <-. by left. }
    destruct Hl as [->|[Hid ->]]; [by left|]. rewrite map_map_acts.
    destruct new as [p|]; [|by right]. destruct msgs; [by left|done].
  - destruct (q_todo s) as [|[[id i|[m|n]]|r x|r x] t] eqn:Et; try done.
    exists r, x, t. split; [done|].
    destruct (q_mods s !! r) as [pr|] eqn:Er; [|done]. cbn in H.
    destruct (p_sends pr x) eqn:Ep; [|done]. cbn in H.
    destruct (p_exec x) as [[[d i] ms]|] eqn:Ex; [|injection H as <-; by left].
    destruct (N.eqb_spec d (k_self (q_core s))) as [->|]; [|injection H as <-; by left].
    right. exists i, ms. split; [split; [done|]; by exists x, t|].
    split; [by eapply exec_mandate|].
    destruct (run_hook _ _ _ _ _ _ _ H eq_refl) as (H1 & H2 & _). done.
  - destruct (q_todo s) as [|[[id i|[m|n]]|r x|r x] t] eqn:Et; try done.
    destruct (q_mods s !! r) as [pr|] eqn:Er; [|done]. cbn in H.
    destruct (p_fail pr b x) as [p'|]; [|done]. injection H as <-. by exists r, x.
  - destruct (q_todo s) as [|[[id i|[m|n]]|r x|r x] t] eqn:Et; try done.
    destruct (q_mods s !! r) as [pr|] eqn:Er; [|done]. cbn in H.
    destruct (p_ok pr b x a) as [p'|]; [|done]. injection H as <-. by exists r, x.
Qed.

(** ** At most once *)
Definition cinv (q : addr) (id : Z) (s : many) (n : Z) : Prop :=
  match q_mods s !! q with
  | Some (PSingle p) => DaoProofs.count_inv id (ManySingle.view q s p) n
  | Some (PMult p) => MDaoProofs.count_inv id (ManyMult.view q s p) n
  | Some (PCond p) => CDaoProofs.count_inv id (ManyCond.view q s p) n
  | None => n = 0
  end.
Lemma carried_nonneg q id e : 0 <= carried q id e.
Proof. unfold carried. repeat case_match; lia. Qed.
Lemma cinv_le q id s n : cinv q id s n -> n <= 1.
Proof.
  unfold cinv. destruct (q_mods s !! q) as [[p|p|p]|].
  - intros [H _]. pose proof (DaoProofs.item_exec_nonneg id
      (DaoModel.d_todo (ManySingle.view q s p))). lia.
  - intros [H _]. pose proof (MDaoProofs.item_exec_nonneg id
      (MDaoModel.d_todo (ManyMult.view q s p))). lia.
  - intros [H _]. pose proof (CDaoProofs.item_exec_nonneg id
      (CDaoModel.d_todo (ManyCond.view q s p))). lia.
  - lia.
Qed.
Lemma cinv_new q id s p :
  q_mods s !! q = Some p -> new_of (k_self (q_core s)) p ->
  k_mods (q_core s) !! k_self (q_core s) = None -> (forall x, QP q x ∉ q_todo s) ->
  forall Q : powers, forall b : block, cinv q id s 0.
Proof.
  intros Hp Hn Hs Ht Q b. unfold cinv. rewrite Hp. destruct p as [p|p|p].
  - exact (proj2 (ManySingle.view_new Q s b q p Hn Hs Ht) id).
  - exact (proj2 (ManyMult.view_new Q s b q p Hn Hs Ht) id).
  - exact (proj2 (ManyCond.view_new Q s b q p Hn Hs Ht) id).
Qed.
Lemma cinv_event K Q s b e s' q id n :
  sane Q (k_self (q_core s)) -> minv Q b s -> goes K Q s b e s' -> 0 <= n ->
  cinv q id s n -> cinv q id s' (n + carried q id (QEntry s b e s')).
Proof.
  intros HS HI HG Hn HC. pose proof HS as (S1 & S2 & S3). pose proof HG as (Hk & Hnew & H).
  pose proof HI as [A B C D]. unfold cinv in HC. destruct (q_mods s !! q) as [p|] eqn:Hp.
  - pose proof (D q p Hp) as Hi. destruct p as [p|p|p]; cbn in Hi.
    + destruct (ManySingle.view_count K Q s b e s' q p id n S1 Hk Hp B Hi H Hn HC)
        as (p' & Hp' & Hc). unfold cinv. by rewrite Hp'.
    + destruct (ManyMult.view_count K Q s b e s' q p id n S2 Hk Hp B Hi H Hn HC)
        as (p' & Hp' & Hc). unfold cinv. by rewrite Hp'.
    + destruct (ManyCond.view_count K Q s b e s' q p id n S3 Hp B Hi H Hn HC)
        as (p' & Hp' & Hc). unfold cinv. by rewrite Hp'.
  - subst n. assert (carried q id (QEntry s b e s') = 0) as ->.
    { unfold carried. cbn. destruct e; try done.
      destruct (q_todo s) as [|[|r x|] t] eqn:Et; try done.
      destruct (p_exec x) as [[[d i] ms]|]; [|done]. rewrite bool_decide_false; [done|].
      intros (-> & _). destruct (C q x) as [y Hy]; [left|]. congruence. }
    destruct (q_mods s' !! q) as [p|] eqn:E.
    + destruct (kept_event K Q s b e s' HI H) as (K1 & K2 & _ & _ & K5).
      destruct (K5 _ _ Hp E) as ([msgs ->] & _ & Hno).
      apply (cinv_new q id s' p E); [rewrite K1; by eapply Hnew|by rewrite K1|done|exact Q|exact b].
    + unfold cinv. rewrite E. lia.
Qed.
Lemma count_leads K Q b0 s0 b s l q id :
  sane Q (k_self (q_core s0)) -> qstart b0 s0 -> qleads K Q b0 s0 b s l ->
  cinv q id s (lsum (carried q id) l).
Proof.
  intros HS Hst H. pose proof (qstart_inv Q _ _ Hst) as HI.
  induction H as [|b s l b' e s' H IH Hb Hd Hk Hn He].
  { cbn. destruct (q_mods s0 !! q) as [p|] eqn:E; [|unfold cinv; by rewrite E].
    destruct Hst as (_ & Hm & Et). destruct (Hm q p E) as [_ Hnew].
    apply (cinv_new q id s0 p E Hnew); [by destruct HI| |exact Q|exact b0].
    rewrite Et. intros x Hx. by apply elem_of_nil in Hx. }
  destruct (qleads_inv K Q b0 s0 b s l HS HI H) as [(I1 & I2) _].
  rewrite lsum_app. cbn. rewrite Z.add_0_r. eapply cinv_event; try done.
  - by rewrite I2.
  - by eapply minv_time.
  - apply lsum_nonneg. intros. apply carried_nonneg.
Qed.

(** ** Sovereign DAOs *)
Lemma sov_core s b a m rest s' :
  sovereign s -> to_core s b a m rest = Ok s' ->
  (a = k_self (q_core s) -> retains (inl m)) ->
  sovereign s' /\
  (q_todo s' = rest \/
   (exists msgs, q_todo s' = acts msgs ++ rest /\
     ((m = KAdmin msgs /\ a = k_self (q_core s)) \/
      (m = KHook msgs /\ is_Some (q_mods s !! a) /\ enabled (q_core s) a))) \/
   (exists add dis, m = KModules add dis /\ a = k_self (q_core s) /\
     q_todo s' = map (fun i => QK (KInst PROPOSAL_ID i)) add ++ rest)).
Proof.
  intros (V1 & V2 & V3) H Hret. split.
  2: { destruct (to_core_cases _ _ _ _ _ _ H) as [E|[(msgs & Ho & E)|[(i & -> & Ei & _)|
      (add & dis & -> & Ei & E)]]].
    - by left.
    - right. left. exists msgs. split; [done|]. destruct Ho as [[-> ->]|[-> Ho]]; [left|right].
      + by rewrite V1.
      + split; [done|]. split; [|done]. by apply V3.
    - destruct (Hret Ei).
    - right. right. by exists add, dis. }
  unfold to_core in H.
  destruct (k_execute (q_core s) b a m) as [[c l]|] eqn:E; [|done]. injection H as <-.
  apply k_execute_step in E as [E _]. pose proof (k_step_self _ _ _ _ _ _ E) as Es.
  unfold sovereign. cbn. rewrite Es.
  pose proof (k_step_admin _ _ _ _ _ _ E) as Ha.
  assert (k_admin c = k_self (q_core s) /\ k_nom c = None) as [-> ->].
  { destruct Ha as [(-> & -> & _)|[(_ & _ & _ & -> & ->)|[(x & -> & Hx & _)|[(_ & Hx & _)|
      (_ & _ & -> & ->)]]]]; try done.
    - rewrite V1 in Hx. destruct (Hret Hx).
    - congruence. }
  split; [done|]. split; [done|]. intros x [pf Hx].
  apply k_step_cases in E as [[Em _]|(add & dis & mods & n & -> & -> & -> & Hd & Hn & ->)].
  - apply V3. exists pf. unfold modules in Em. congruence.
  - cbn in Hx. apply disable_all_spec in Hd as (_ & _ & _ & D).
    destruct (D _ _ Hx) as ([on py] & Hy & _ & Hon). cbn in Hon. apply V3.
    exists py. rewrite Hy. by rewrite (Hon eq_refl).
Qed.
Definition sound (P : kact -> Prop) (x : ksub) : Prop :=
  (exists a, x = KSend a /\ P a) \/
  (exists i add dis, x = KInst PROPOSAL_ID i /\ P (inl (KModules add dis)) /\ i ∈ add).
Lemma in_acts x msgs rest : QK x ∈ acts msgs ++ rest ->
  (exists a, x = KSend a /\ a ∈ msgs) \/ QK x ∈ rest.
Proof.
  rewrite elem_of_app. intros [H|H]; [|by right]. left.
  apply elem_of_list_fmap in H as (y & E & Hy). injection E as ->. by exists y.
Qed.
Lemma in_adds x add rest : QK x ∈ map (fun i => QK (KInst PROPOSAL_ID i)) add ++ rest ->
  (exists i, x = KInst PROPOSAL_ID i /\ i ∈ add) \/ QK x ∈ rest.
Proof.
  rewrite elem_of_app. intros [H|H]; [|by right]. left.
  apply elem_of_list_fmap in H as (y & E & Hy). injection E as ->. by exists y.
Qed.
Lemma in_subs x q l rest : QK x ∈ map (QP q) l ++ rest -> QK x ∈ rest.
Proof.
  rewrite elem_of_app. intros [H|H]; [|done]. apply elem_of_list_fmap in H as (y & ? & _). done.
Qed.
Lemma sov_upd s q p p' rest :
  sovereign s -> q_mods s !! q = Some p ->
  sovereign (Many (q_core s) (<[q := p']> (q_mods s)) rest).
Proof.
  intros (V1 & V2 & V3) Hp. split; [done|]. split; [done|]. cbn. intros a Ha.
  apply lookup_insert_is_Some'. right. by apply V3.
Qed.
Lemma sov_event K Q s b e s' (P : kact -> Prop) :
  sane Q (k_self (q_core s)) -> minv Q b s -> sovereign s ->
  (forall x, QK x ∈ q_todo s -> sound P x) ->
  (forall a msgs, P (inl (KAdmin msgs)) -> a ∈ msgs -> P a) ->
  (forall a, P a -> retains a) ->
  (forall q id msgs a, carries (QEntry s b e s') q id msgs -> mandate Q s q id msgs ->
     enabled (q_core s) q -> a ∈ map (act_of K) msgs -> P a) ->
  homely (QEntry s b e s') -> q_event K Q s b e = Ok s' ->
  sovereign s' /\ (forall x, QK x ∈ q_todo s' -> sound P x).
Proof.
  intros HS HI HV HT Hsub Hret Hcar Hho H.
  destruct e as [a m|a q m| | |a new msgs| | |a]; cbn [q_event] in H.
  - destruct (outside s a) eqn:Eo; [|done]. apply outside_not in Eo as [Eo1 Eo2].
    destruct (sov_core _ _ _ _ _ _ HV H) as
      [V [E|[(msgs & E & [[_ Ea]|(_ & Ea & _)])|(add & dis & _ & Ea & _)]]].
    + done.
    + split; [done|]. by rewrite E.
    + done.
    + rewrite Eo2 in Ea. by destruct Ea.
    + done.
  - destruct (outside s a) eqn:Eo; [|done]. cbn in H. unfold to_mod in H.
    destruct (q_mods s !! q) as [p|] eqn:Ep; [|done]. cbn in H.
    destruct (p_handle _ _ _ _ _) as [[p' l]|]; [|done]. injection H as <-.
    split; [by eapply sov_upd|]. cbn. intros x Hx. apply in_subs in Hx. by apply HT.
  - destruct (q_todo s) as [|[[id i|[m|n]]|r x|r x] t] eqn:Et; try done.
    destruct (HT (KSend (inl m))) as [(a & [= <-] & Pa)|(? & ? & ? & ? & _)]; [left| |done].
    assert (forall x, QK x ∈ t -> sound P x) as HT'.
    { intros x Hx. apply HT. by right. }
    destruct (sov_core _ _ _ _ _ _ HV H) as
      [V [E|[(msgs & E & [[-> Ea]|(_ & _ & pf & Ea)])|(add & dis & -> & Ea & E)]]].
    + intros _. by apply Hret.
    + split; [done|]. by rewrite E.
    + split; [done|]. rewrite E. intros x Hx.
      apply in_acts in Hx as [(a & -> & Hx)|Hx]; [|by apply HT'].
      left. exists a. split; [done|]. by eapply Hsub.
    + destruct HI as [A _ _ _]. congruence.
    + split; [done|]. rewrite E. intros x Hx.
      apply in_adds in Hx as [(i & -> & Hx)|Hx]; [|by apply HT'].
      right. by exists i, add, dis.
  - destruct (q_todo s) as [|[[id i|[m|n]]|r x|r x] t] eqn:Et; try done.
    assert (forall x, QK x ∈ t -> sound P x) as HT'.
    { intros x Hx. apply HT. by right. }
    destruct (call_of K n) as [[r m]|] eqn:Em; [|by injection H as <-].
    destruct (known s r); [|by injection H as <-].
    unfold to_mod in H. destruct (q_mods s !! r) as [p|] eqn:Ep; [|done]. cbn in H.
    destruct (p_handle _ _ _ _ _) as [[p' l]|]; [|done]. injection H as <-.
    split; [by eapply sov_upd|]. cbn. intros x Hx. apply in_subs in Hx. by apply HT'.
  - destruct (q_todo s) as [|[[id i|[m|n]]|r x|r x] t] eqn:Et; try done.
    destruct (HT (KInst id i)) as [(? & ? & _)|(j & add & dis & [= -> <-] & Pa & Hin)];
      [left|done|].
    destruct (k_mods (q_core s) !! a) eqn:Ea; [done|]. cbv beta iota in H.
    destruct (outside s a) eqn:Eo; [|done]. cbv beta iota in H.
    destruct (can_be PROPOSAL_ID new msgs) eqn:Ec; [|done]. cbv beta iota in H.
    destruct (k_reply (q_core s) PROPOSAL_ID a msgs) as [[c l]|] eqn:E; [|done].
    injection H as <-.
    destruct new as [p|]; [|done]. destruct msgs; [|done].
    pose proof (k_reply_self _ _ _ _ _ _ E) as Es.
    assert (l = []) as ->.
    { unfold k_reply in E. cbn in E. destruct (derive_prefix _); [|done].
      destruct (_ <=? _); [|done]. destruct (_ <=? _); [|done]. by injection E as <- <-. }
    apply k_reply_cases in E as (_ & _ & _ & Eadm & Enom & Emods & _).
    destruct HV as (V1 & V2 & V3). split.
    + split; [cbn; congruence|]. split; [cbn; congruence|]. cbn. intros x [pf Hx].
      apply lookup_insert_is_Some'. destruct (decide (a = x)) as [->|Hne]; [by left|right].
      apply V3. exists pf. destruct Emods as [E|[p0 E]]; rewrite E in Hx; [done|].
      by rewrite lookup_insert_ne in Hx.
    + cbn. intros x Hx. apply HT. by right.
  - destruct (q_todo s) as [|[[id i|[m|n]]|r x|r x] t] eqn:Et; try done.
    assert (forall y, QK y ∈ QEnd r x :: t -> sound P y) as HT'.
    { intros y Hy. apply HT. apply elem_of_cons in Hy as [Hy|Hy]; [done|]. by right. }
    destruct (q_mods s !! r) as [pr|] eqn:Er; [|done]. cbn in H.
    destruct (p_sends pr x) eqn:Ep; [|done]. cbn in H.
    destruct (p_exec x) as [[[d i] ms]|] eqn:Ex; [|by injection H as <-].
    destruct (N.eqb_spec d (k_self (q_core s))) as [->|]; [|by injection H as <-].
    destruct (run_hook _ _ _ _ _ _ _ H eq_refl) as (H1 & H2 & _).
    destruct (sov_core _ _ _ _ _ _ HV H) as [V _]; [done|].
    split; [done|]. rewrite H2. intros y Hy.
    apply in_acts in Hy as [(a & -> & Hy)|Hy]; [|by apply HT'].
    left. exists a. split; [done|].
    apply (Hcar r i ms a); [|by eapply exec_mandate|done|done].
    split; [done|]. by exists x, t.
  - destruct (q_todo s) as [|[[id i|[m|n]]|r x|r x] t] eqn:Et; try done.
    destruct (q_mods s !! r) as [pr|] eqn:Er; [|done]. cbn in H.
    destruct (p_fail pr b x) as [p'|]; [|done]. injection H as <-.
    split; [by eapply sov_upd|]. cbn. intros y Hy. apply HT. by right.
  - destruct (q_todo s) as [|[[id i|[m|n]]|r x|r x] t] eqn:Et; try done.
    destruct (q_mods s !! r) as [pr|] eqn:Er; [|done]. cbn in H.
    destruct (p_ok pr b x a) as [p'|]; [|done]. injection H as <-.
    split; [by eapply sov_upd|]. cbn. intros y Hy. apply HT. by right.
Qed.
Lemma mandated_mono K Q l l' a : mandated K Q l a -> mandated K Q (l ++ l') a.
Proof.
  intros (e & q & id & msgs & He & H). exists e, q, id, msgs. split; [|done].
  apply elem_of_app. by left.
Qed.
Lemma sound_mono (P P' : kact -> Prop) x : (forall a, P a -> P' a) -> sound P x -> sound P' x.
Proof.
  intros H [(a & -> & Pa)|(i & add & dis & -> & Pa & Hi)]; [left|right].
  - exists a. split; [done|]. by apply H.
  - exists i, add, dis. split; [done|]. split; [|done]. by apply H.
Qed.
Lemma sov_leads K Q b0 s0 b s l :
  sane Q (k_self (q_core s0)) -> minv Q b0 s0 -> q_todo s0 = [] -> sovereign s0 ->
  qleads K Q b0 s0 b s l -> (forall e, e ∈ l -> homely e) ->
  (forall e q id msgs a, e ∈ l -> carries e q id msgs -> stems a (map (act_of K) msgs) ->
     retains a) ->
  sovereign s /\
  (forall x, QK x ∈ q_todo s -> sound (mandated K Q l) x) /\
  forall l1 e l2, l = l1 ++ e :: l2 ->
    sovereign (qe_pre e) /\
    (forall x, QK x ∈ q_todo (qe_pre e) -> sound (mandated K Q l1) x).
Proof.
  intros HS HI Et HV H. induction H as [|b s l b' e s' H IH Hb Hd Hk Hn He]; intros Hho Hret.
  { split; [done|]. split.
    - rewrite Et. intros x Hx. by apply elem_of_nil in Hx.
    - intros l1 e l2 E. by destruct l1. }
  destruct IH as (V & T & L).
  { intros x Hx. apply Hho. apply elem_of_app. by left. }
  { intros x q id msgs a Hx. apply (Hret x). apply elem_of_app. by left. }
  destruct (qleads_inv K Q b0 s0 b s l HS HI H) as [(I1 & I2) _].
  apply (minv_time _ _ b') in I1; [|done].
  assert (sane Q (k_self (q_core s))) as HS' by (by rewrite I2).
  destruct (sov_event K Q s b' e s' (mandated K Q (l ++ [QEntry s b' e s'])) HS' I1 V)
    as [V' T']; try done.
  - intros x Hx. eapply sound_mono; [|by apply T]. intros a Ha. by apply mandated_mono.
  - intros a msgs (x & q & id & ms & Hx & Hc & Hm & Hen & Hs) Ha. exists x, q, id, ms.
    do 4 (split; [done|]). by eapply stems_sub.
  - intros a (x & q & id & ms & Hx & Hc & Hm & Hen & Hs). by eapply Hret.
  - intros q id msgs a Hc Hm Hen Ha. exists (QEntry s b' e s'), q, id, msgs.
    split; [apply elem_of_app; right; left|]. do 3 (split; [done|]). by apply stems_in.
  - apply Hho. apply elem_of_app. right. left.
  - split; [done|]. split; [done|]. intros l1 x l2 E.
    apply DaoProofs.app_one_split in E as [(-> & <- & <-)|(l2' & -> & ->)].
    + done.
    + by eapply L.
Qed.

(** ** What changes *)
Lemma other_core s b a m rest s' :
  sovereign s -> a <> k_self (q_core s) -> to_core s b a m rest = Ok s' ->
  governed s' = governed s.
Proof.
  intros (V1 & V2 & V3) Ha H. unfold to_core in H.
  destruct (k_execute (q_core s) b a m) as [[c l]|] eqn:E; [|done]. injection H as <-.
  apply k_execute_step in E as [E _].
  destruct (k_step_other _ _ _ _ _ _ Ha E) as (E1 & E2 & _ & E3).
  unfold governed. cbn. rewrite E1, E2.
  assert (k_paused c = k_paused (q_core s)) as ->.
  { destruct E3 as [->|(_ & Hx & _)]; [done|]. congruence. }
  destruct (k_step_admin _ _ _ _ _ _ E) as [(-> & -> & _)|[(_ & Hx & _)|[(x & _ & Hx & _)|
    [(_ & Hx & _)|(_ & Hx & _)]]]]; try done; congruence.
Qed.
Lemma conf_upd s q p p' rest :
  q_mods s !! q = Some p -> conf p' = conf p ->
  governed (Many (q_core s) (<[q := p']> (q_mods s)) rest) = governed s.
Proof.
  intros Hp E. unfold governed. cbn. f_equal. rewrite fmap_insert, E, insert_id; [done|].
  by rewrite lookup_fmap, Hp.
Qed.
Lemma fail_conf p b x p' : p_fail p b x = Ok p' -> conf p' = conf p.
Proof.
  destruct p as [p|p|p], x as [x|x|x]; cbn [p_fail]; try done; intros H.
  - destruct (SingleModel.on_fail p b x) as [p0|] eqn:E; [|done]. injection H as <-. cbn.
    by rewrite (DaoProofs.fail_cfg _ _ _ _ E).
  - destruct (MultModel.on_fail p b x) as [p0|] eqn:E; [|done]. injection H as <-. cbn.
    by rewrite (MDaoProofs.fail_cfg _ _ _ _ E).
  - destruct (CondModel.on_fail p b x) as [p0|] eqn:E; [|done]. injection H as <-. cbn.
    by rewrite (CDaoProofs.fail_cfg _ _ _ _ E).
Qed.
Lemma ok_conf p b x a p' : p_ok p b x a = Ok p' -> conf p' = conf p.
Proof.
  destruct p as [p|p|p], x as [x|x|x]; cbn [p_ok]; try done; intros H.
  - destruct (SingleModel.on_ok p b x a) as [p0|] eqn:E; [|done]. injection H as <-. cbn.
    by rewrite (DaoProofs.ok_cfg _ _ _ _ _ E).
  - destruct (MultModel.on_ok p b x a) as [p0|] eqn:E; [|done]. injection H as <-. cbn.
    by rewrite (MDaoProofs.ok_cfg _ _ _ _ _ E).
  - cbn in H. by injection H as <-.
Qed.
Lemma handle_conf Q s b q p a m p' l :
  minv Q b s -> q_mods s !! q = Some p -> a <> k_self (q_core s) ->
  p_handle Q p b a m = Ok (p', l) -> conf p' = conf p.
Proof.
  intros HI Hp Ha H. pose proof (mi_mods _ _ _ HI q p Hp) as Hi. destruct p as [p|p|p].
  - by eapply ManySingle.view_conf.
  - by eapply ManyMult.view_conf.
  - by eapply ManyCond.view_conf.
Qed.
Lemma change_event K Q s b e s' :
  minv Q b s -> sovereign s ->
  q_event K Q s b e = Ok s' ->
  did (QEntry s b e s') = None -> governed s' = governed s.
Proof.
  intros HI HV H Hact. unfold did in Hact. cbn [qe_pre qe_ev] in Hact.
  destruct e as [a m|a q m| | |a new msgs| | |a]; cbn [q_event] in H.
  - destruct (outside s a) eqn:Eo; [|done]. apply outside_not in Eo as [Eo1 Eo2].
    by apply (other_core s b a m (q_todo s)).
  - destruct (outside s a) eqn:Eo; [|done]. apply outside_not in Eo as [Eo1 Eo2].
    cbn in H. unfold to_mod in H. destruct (q_mods s !! q) as [p|] eqn:Ep; [|done]. cbn in H.
    destruct (p_handle _ _ _ _ _) as [[p' l]|] eqn:E; [|done]. injection H as <-.
    eapply conf_upd; [done|]. by eapply handle_conf.
  - destruct (q_todo s) as [|[[i j|[m|k]]|r x|r x] t] eqn:Et; try done.
  - destruct (q_todo s) as [|[[i j|[m|k]]|r x|r x] t] eqn:Et; try done.
  - destruct (q_todo s) as [|[[i j|[m|k]]|r x|r x] t] eqn:Et; try done.
  - destruct (q_todo s) as [|[[i j|[m|k]]|r x|r x] t] eqn:Et; try done.
    destruct (q_mods s !! r) as [pr|] eqn:Er; [|done]. cbn in H.
    destruct (p_sends pr x) eqn:Ep; [|done]. cbn in H.
    destruct (p_exec x) as [[[d i] ms]|] eqn:Ex; [|by injection H as <-].
    destruct (N.eqb_spec d (k_self (q_core s))) as [->|]; [|by injection H as <-].
    eapply other_core; [done| |done]. intros ->. destruct HI as [_ B _ _]. congruence.
  - destruct (q_todo s) as [|[[i j|[m|k]]|r x|r x] t] eqn:Et; try done.
    destruct (q_mods s !! r) as [pr|] eqn:Er; [|done]. cbn in H.
    destruct (p_fail pr b x) as [p'|] eqn:E; [|done]. injection H as <-.
    eapply conf_upd; [done|]. by eapply fail_conf.
  - destruct (q_todo s) as [|[[i j|[m|k]]|r x|r x] t] eqn:Et; try done.
    destruct (q_mods s !! r) as [pr|] eqn:Er; [|done]. cbn in H.
    destruct (p_ok pr b x a) as [p'|] eqn:E; [|done]. injection H as <-.
    eapply conf_upd; [done|]. by eapply ok_conf.
Qed.
