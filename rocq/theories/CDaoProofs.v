(** Proofs about a DAO with a Condorcet module. *)
From stdpp Require Import gmap strings.
From Verif Require Import Base BaseProofs Exec ExecProofs VotingModel VotingSpec
  VotingProofs CondModel CondSpec CondMatrix CondWinner CondProofs CondLife CondClaims CoreModel CoreSpec CoreProofs
  CDaoModel CDaoSpec.

(** ** The invariant *)
Definition exec_ok (b : block) (s : state) (id : Z) (ms : list Z) : Prop :=
  exists t p w, s_tallies s !! id = Some t /\ s_props s !! id = Some p /\
    (p_status p = CExecuted \/ p_status p = CExecutionFailed) /\
    min_over b p /\ pass_just b p t w /\ p_choices p !! Z.to_nat w = Some ms.
Record dinv (O : oracle) (b : block) (s : dao) : Prop := DInv {
  di_self : k_mods (d_core s) !! k_self (d_core s) = None;
  di_prop : inv O (k_self (d_core s)) b (d_prop s);
  di_todo : forall d id ms c, DP (SExec d id ms c) ∈ d_todo s ->
    d = k_self (d_core s) /\ exec_ok b (d_prop s) id ms }.

Lemma exec_ok_prim O d b s s' id ms :
  typed O -> inv O d b s -> prim O b s s' -> exec_ok b s id ms -> exec_ok b s' id ms.
Proof.
  intros HT HI HP (t & p & w & A & B & C & D & E & F).
  destruct (prim_get _ _ _ _ _ _ _ _ HI HP A B) as (t2 & p2 & A2 & B2 & Te & _ & Hc).
  exists t2, p2, w. split; [done|]. split; [done|].
  assert (p_choices p2 = p_choices p /\ p_min p2 = p_min p) as [Ech Emin]
    by (unfold terms in Te; split; congruence).
  destruct Hc as [[-> ->]|[(-> & Hexp & a & vote & Hnv & Hvp & Hvote & Hadd)|(-> & st & st' & Hst & -> & Hc)]];
    [done| |].
  - destruct (vote_keeps _ _ _ _ _ _ _ _ _ _ HI HT A B Hexp Hvp Hvote Hadd) as (X & _). eauto 10.
  - split; [|done]. cbn. unfold status_at in Hst.
    destruct C as [C|C]; rewrite C in Hst; injection Hst as <-;
      destruct Hc as [[(w' & ms' & ? & _) ->]|[[? ->]|[? ->]]]; try done; tauto.
Qed.
Lemma exec_ok_fail b s x s' id ms :
  on_fail s b x = Ok s' -> exec_ok b s id ms -> exec_ok b s' id ms.
Proof.
  intros H (t & p & w & A & B & C & D & E & F).
  apply on_fail_shape in H as (d0 & id0 & ms0 & p0 & -> & Hp0 & ->).
  destruct (decide (id = id0)) as [->|Hne].
  - rewrite B in Hp0. injection Hp0 as <-.
    exists t, (set_status p CExecutionFailed), w. cbn. rewrite lookup_insert.
    split; [done|]. split; [done|]. split; [by right|]. done.
  - exists t, p, w. cbn. rewrite lookup_insert_ne by done. done.
Qed.
Lemma dinv_time O b b' s : block_le b b' -> dinv O b s -> dinv O b' s.
Proof.
  intros Hb [A B C]. split; [done|by eapply inv_time|].
  intros d id ms c H. destruct (C d id ms c H) as (-> & t & p & w & Ht & Hp & Hd & Hm & Hj & Hc).
  destruct (just_time b b' p t w Hb) as (X & _ & Y).
  split; [done|]. exists t, p, w. do 3 (split; [done|]). eauto.
Qed.
Lemma dstart_inv O b s : dstart b s -> dinv O b s.
Proof.
  intros ([l Hl] & _ & Hf & Ha & Et). split.
  - by apply kreached_inv in Hl as [[] _].
  - rewrite <-Ha. by apply fresh_inv.
  - rewrite Et. intros d id ms c H. by apply elem_of_nil in H.
Qed.

(** Calls of the core and of the module keep it. *)
Lemma in_mapDK x l rest : DP x ∈ map DK l ++ rest -> DP x ∈ rest.
Proof.
  rewrite elem_of_app. intros [H|H]; [|done]. apply elem_of_list_fmap in H as (y & ? & _). done.
Qed.
Lemma in_mapDP x l rest : DP x ∈ map DP l ++ rest -> x ∈ l \/ DP x ∈ rest.
Proof.
  rewrite elem_of_app. intros [H|H]; [|by right]. left.
  apply elem_of_list_fmap in H as (y & E & Hy). by injection E as ->.
Qed.
Lemma exec_mods s b a m c l : k_execute s b a m = Ok (c, l) ->
  k_self c = k_self s /\ (forall x, k_mods c !! x = None <-> k_mods s !! x = None).
Proof.
  intros H. apply k_execute_step in H as [H _]. split; [by eapply k_step_self|].
  apply k_step_cases in H as [[Em _]|(add & dis & mods & n & -> & -> & -> & Hd & Hn & ->)].
  - unfold modules in Em. intros x. assert (k_mods c = k_mods s) as -> by congruence. done.
  - cbn. by apply disable_all_spec in Hd as (_ & _ & H & _).
Qed.
Lemma to_core_inv O s b a m rest s' :
  dinv O b s -> to_core s b a m rest = Ok s' ->
  (forall d id ms c, DP (SExec d id ms c) ∈ rest -> DP (SExec d id ms c) ∈ d_todo s) ->
  dinv O b s' /\ k_self (d_core s') = k_self (d_core s) /\ d_at s' = d_at s /\
  d_prop s' = d_prop s.
Proof.
  intros [A B C] H Hr. unfold to_core in H.
  destruct (k_execute (d_core s) b a m) as [[c l]|] eqn:E; [|done]. injection H as <-.
  apply exec_mods in E as [E1 E2]. cbn. split; [|done]. split; cbn.
  - rewrite E1. by apply E2.
  - by rewrite E1.
  - rewrite E1. intros d id ms c0 H. apply in_mapDK in H. by eapply C, Hr.
Qed.
Lemma handle_exec O s b a m s' subs d dao id ms c :
  inv O dao b s -> handle O s b a m = Ok (s', subs) -> SExec d id ms c ∈ subs ->
  d = s_dao s /\ exec_ok b s' id ms.
Proof.
  intros HI H Hx. destruct m as [choices|i vote|i|i|cc]; simpl in H.
  - apply propose_shape in H as (? & ? & ? & _ & _ & _ & _ & _ & _ & ->). by apply not_elem_of_nil in Hx.
  - apply vote_shape in H as (? & ? & ? & _ & _ & _ & _ & _ & _ & _ & ->). by apply not_elem_of_nil in Hx.
  - apply execute_shape in H as (t & p & w & ms' & Ht & Hvp & Hp & Hst & Hms & -> & ->).
    apply elem_of_list_singleton in Hx. injection Hx as -> -> -> ->. split; [done|].
    destruct (i_props _ _ _ _ HI i t p Ht Hp) as [-> _].
    destruct (status_at_inv _ _ _ _ _ _ _ _ HI Ht Hp Hst) as [HM HJ].
    exists t, (set_status p CExecuted), w. cbn. rewrite lookup_insert. do 2 (split; [done|]).
    split; [by left|]. done.
  - apply close_shape in H as (? & ? & _ & _ & _ & _ & ->). by apply not_elem_of_nil in Hx.
  - apply set_config_shape in H as (? & _ & _ & _ & ->). by apply not_elem_of_nil in Hx.
Qed.
Lemma to_prop_inv O s b a m rest s' :
  typed O ->
  dinv O b s -> to_prop O s b a m rest = Ok s' ->
  (forall d id ms c, DP (SExec d id ms c) ∈ rest -> DP (SExec d id ms c) ∈ d_todo s) ->
  dinv O b s' /\ d_core s' = d_core s /\ d_at s' = d_at s.
Proof.
  intros HS [A B C] H Hr. unfold to_prop in H.
  destruct (handle O (d_prop s) b a m) as [[p l]|] eqn:E; [|done]. injection H as <-.
  pose proof (handle_prim O _ _ _ _ _ _ E) as Hp.
  cbn. split; [|done]. split; cbn; [done|by eapply inv_prim|].
  intros d id ms c0 H. apply in_mapDP in H as [H|H].
  - destruct (handle_exec _ _ _ _ _ _ _ _ _ _ _ _ B E H) as [-> H1]. split; [|done].
    by destruct B.
  - destruct (C _ _ _ _ (Hr _ _ _ _ H)) as [-> H1]. split; [done|].
    exact (exec_ok_prim O _ b _ _ id ms HS B Hp H1).
Qed.
Lemma dinv_event K O s b e s' :
  typed O -> dinv O b s ->
  d_event K O s b e = Ok s' ->
  dinv O b s' /\ k_self (d_core s') = k_self (d_core s) /\ d_at s' = d_at s.
Proof.
  intros HS HI H. destruct e as [a m|a m| | |a msgs| | |a]; cbn in H.
  - destruct (outside s a); [|done].
    destruct (to_core_inv O _ _ _ _ _ _ HI H) as (? & ? & ? & _); done.
  - destruct (outside s a); [|done].
    destruct (to_prop_inv O _ _ _ _ _ _ HS HI H) as (? & -> & ?); [done|done].
  - destruct (d_todo s) as [|[[id i|[m|n]]|x|x] t] eqn:Et; try done.
    destruct (to_core_inv O _ _ _ _ _ _ HI H) as (? & ? & ? & _); [|done].
    rewrite Et. intros d id ms c Hd. by right.
  - destruct (d_todo s) as [|[[id i|[m|n]]|x|x] t] eqn:Et; try done.
    destruct (call_of K n) as [m|] eqn:Em.
    + destruct (to_prop_inv O _ _ _ _ _ _ HS HI H) as (? & -> & ?); [|done].
      rewrite Et. intros d id ms c Hd. by right.
    + injection H as <-. destruct HI as [A B C]. split; [|done]. split; [done|done|].
      cbn. intros d id ms c Hd. apply (C d id ms c). rewrite Et. by right.
  - destruct (d_todo s) as [|[[id i|[m|n]]|x|x] t] eqn:Et; try done.
    destruct (k_mods (d_core s) !! a) eqn:Ea; [done|].
    destruct (outside s a) eqn:Eo; [|done].
    destruct (k_reply (d_core s) id a msgs) as [[c l]|] eqn:E; [|done]. injection H as <-.
    pose proof (k_reply_self _ _ _ _ _ _ E) as Es. destruct HI as [A B C].
    cbn. split; [|done]. split; cbn; rewrite ?Es; [|done|].
    + apply k_reply_cases in E as (_ & _ & _ & _ & _ & [->|[p ->]] & _); [done|].
      unfold outside in Eo. rewrite lookup_insert_ne; [done|]. intros ->. lia.
    + intros d j ms c0 Hd. apply in_mapDK in Hd. apply (C d j ms c0). rewrite Et. by right.
  - destruct (d_todo s) as [|[[id i|[m|n]]|x|x] t] eqn:Et; try done.
    assert (forall p, DP p ∈ DEnd x :: t -> DP p ∈ d_todo s) as Hin.
    { intros p Hp. rewrite Et. apply elem_of_cons in Hp as [Hp|Hp]; [done|]. by right. }
    assert (forall r, Ok (with_prop s (d_prop s) (DEnd x :: t)) = Ok r ->
      dinv O b r /\ k_self (d_core r) = k_self (d_core s) /\ d_at r = d_at s) as Hw.
    { intros r [= <-]. destruct HI as [A B C]. split; [|done]. split; [done|done|].
      cbn. intros d id ms c Hd. apply (C d id ms c). by apply Hin. }
    destruct x as [d id ms c].
    destruct (d =? k_self (d_core s))%N; [|by apply Hw].
    destruct (to_core_inv O _ _ _ _ _ _ HI H) as (? & ? & ? & _); [|done].
    intros. by apply Hin.
  - destruct (d_todo s) as [|[[id i|[m|n]]|x|x] t] eqn:Et; try done.
    destruct (on_fail (d_prop s) b x) as [p|] eqn:E; [|done]. injection H as <-.
    destruct HI as [A B C]. cbn. split; [|done].
    assert (pend b (d_prop s) x) as HP.
    { destruct x as [d id ms c].
      destruct (C d id ms c) as (_ & t0 & q & w & _ & Hq & Hd & _); [rewrite Et; left|].
      cbn. unfold status_of. rewrite Hq. cbn. destruct Hd as [->| ->]; tauto. }
    split; cbn; [done| |].
    + destruct (fail_prim _ _ _ _ _ _ B HP E) as [H1| ->]; [|done]. by eapply inv_prim.
    + intros d id ms c Hd. destruct (C d id ms c) as [-> H1]; [rewrite Et; by right|].
      split; [done|]. by eapply exec_ok_fail.
  - destruct (d_todo s) as [|[[id i|[m|n]]|x|x] t] eqn:Et; try done.
    cbn in H. injection H as <-.
    destruct HI as [A B C]. cbn. split; [|done]. split; cbn; [done|done|].
    intros d id ms c Hd. apply (C d id ms c). rewrite Et. by right.
Qed.

(** ** Histories *)
Lemma dleads_inv K O b0 s0 b s l :
  typed O -> dinv O b0 s0 -> dleads K O b0 s0 b s l ->
  (dinv O b s /\ k_self (d_core s) = k_self (d_core s0) /\ d_at s = d_at s0) /\
  forall e, e ∈ l ->
    dinv O (de_block e) (de_pre e) /\ k_self (d_core (de_pre e)) = k_self (d_core s0) /\
    d_at (de_pre e) = d_at s0 /\
    d_event K O (de_pre e) (de_block e) (de_ev e) = Ok (de_post e).
Proof.
  intros HS HI H. induction H as [|b s l b' e s' H IH Hb Hd He].
  { split; [done|]. intros e He. by apply elem_of_nil in He. }
  destruct IH as [(IH1 & IH2 & IH3) IH4]. apply (dinv_time _ _ b') in IH1; [|done].
  destruct (dinv_event K O s b' e s' HS IH1 He) as (H1 & H2 & H3).
  split; [split; [done|]; split; congruence|].
  intros x Hx. apply elem_of_app in Hx as [Hx|Hx]; [by apply IH4|].
  apply elem_of_list_singleton in Hx as ->. cbn. do 3 (split; [done|]). done.
Qed.

(** ** Authority *)
Lemma map_map_acts (l : list kact) : map DK (map KSend l) = acts l.
Proof. by rewrite map_map. Qed.
Lemma to_core_cases O s b a m rest s' :
  dinv O b s -> to_core s b a m rest = Ok s' ->
  d_todo s' = rest \/
  (exists msgs, orders (d_core s) a m msgs /\ d_todo s' = acts msgs ++ rest) \/
  (exists i, m = KVoting i /\ a = k_self (d_core s) /\
     d_todo s' = DK (KInst VOTE_UPDATE_ID i) :: rest) \/
  (exists add dis, m = KModules add dis /\ a = k_self (d_core s) /\
     d_todo s' = map (fun i => DK (KInst PROPOSAL_ID i)) add ++ rest).
Proof.
  intros HI H. unfold to_core in H.
  destruct (k_execute (d_core s) b a m) as [[c l]|] eqn:E; [|done]. injection H as <-. cbn.
  apply k_execute_step in E as [E _].
  apply k_step_cases in E as [[_ [->|[(msgs & Ho & ->)|(i & -> & Hi & ->)]]]|
      (add & dis & mods & n & -> & Hi & -> & _)].
  - by left.
  - right. left. exists msgs. split; [done|]. by rewrite map_map_acts.
  - right. right. left. by exists i.
  - right. right. right. exists add, dis. split; [done|]. split; [done|]. by rewrite map_map.
Qed.
Lemma exec_mandate O b s d id ms c t : dinv O b s -> typed O ->
  d_todo s = DP (SExec d id ms c) :: t -> mandate O s id ms.
Proof.
  intros [A B C] HS Et.
  destruct (C d id ms c) as (_ & t0 & p & w & Ht & Hp & Hd & Hm & Hj & Hc); [rewrite Et; left|].
  destruct (pass_carried O _ _ _ _ _ _ _ HS B Ht Hp Hm Hj) as (_ & Hs & Hb & _).
  pose proof (i_props _ _ _ _ B _ _ _ Ht Hp) as HPO.
  exists p, t0, w. do 4 (split; [done|]). split; [by destruct B|].
  split; [rewrite <-(i_dao _ _ _ _ B); apply HPO|].
  split; [|done]. intros a l Hl. destruct (i_votes _ _ _ _ B _ _ _ Hl) as (t1 & Ht1 & Hr).
  rewrite Ht in Ht1. injection Ht1 as <-. by rewrite <-(po_n _ _ _ _ _ _ HPO).
Qed.
Lemma dlawful_event K O s b e s' :
  typed O -> dinv O b s ->
  d_event K O s b e = Ok s' -> dlawful K O (DEntry s b e s').
Proof.
  intros HS HI H. unfold dlawful. cbn [de_pre de_ev de_post de_block].
  destruct e as [a m|a m| | |a msgs| | |a]; cbn in H.
  - destruct (outside s a) eqn:Eo; [|done]. unfold outside in Eo.
    destruct (to_core_cases O _ _ _ _ _ _ HI H) as [E|[(msgs & Ho & E)|[(i & -> & Ei & _)|
      (add & dis & -> & Ei & _)]]].
    + by left.
    + right. exists msgs. split; [done|]. split; [lia|]. split; [lia|done].
    + lia.
    + lia.
  - destruct (outside s a) eqn:Eo; [|done]. unfold to_prop in H.
    destruct (handle _ _ _ _ _) as [[p l]|]; [|done]. injection H as <-. by exists l.
  - destruct (d_todo s) as [|[[id i|[m|n]]|x|x] t] eqn:Et; try done.
    exists m, t. split; [done|].
    destruct (to_core_cases O _ _ _ _ _ _ HI H) as [E|[(msgs & Ho & E)|[(i & -> & Ei & E)|
      (add & dis & -> & Ei & E)]]].
    + by left.
    + right. left. destruct Ho as [[-> Ea]|[-> [p Hp]]].
      * exists msgs. done.
      * destruct HI as [A _ _]. congruence.
    + right. right. left. by exists i.
    + right. right. right. by exists add, dis.
  - destruct (d_todo s) as [|[[id i|[m|n]]|x|x] t] eqn:Et; try done.
    destruct (call_of K n) as [m|] eqn:Em.
    + unfold to_prop in H. destruct (handle _ _ _ _ _) as [[p l]|]; [|done]. injection H as <-.
      by exists n, t, l.
    + injection H as <-. by exists n, t, [].
  - destruct (d_todo s) as [|[[id i|[m|n]]|x|x] t] eqn:Et; try done.
    destruct (k_mods (d_core s) !! a) eqn:Ea; [done|].
    destruct (outside s a) eqn:Eo; [|done].
    destruct (k_reply (d_core s) id a msgs) as [[c l]|] eqn:E; [|done]. injection H as <-.
    exists id, i, t. split; [done|]. cbn. unfold k_reply in E.
    destruct (Z.eqb_spec id PROPOSAL_ID) as [->|].
    { right. split; [done|]. destruct (derive_prefix _); [|done].
      destruct (_ <=? _); [|done]. destruct (_ <=? _); [|done]. injection E as <- <-.
      by rewrite map_map_acts. }
    destruct (Z.eqb_spec id VOTE_ID) as [->|].
    { right. split; [done|]. destruct (k_voting _); [done|]. injection E as <- <-.
      by rewrite map_map_acts. }
    destruct (Z.eqb_spec id VOTE_UPDATE_ID) as [->|]; [|done].
    injection E as <- <-. by left.
  - destruct (d_todo s) as [|[[id i|[m|n]]|x|x] t] eqn:Et; try done.
    exists x, t. split; [done|].
    destruct x as [d id ms c].
    destruct (N.eqb_spec d (k_self (d_core s))) as [->|]; [|injection H as <-; by left].
    right. exists id, ms. split; [split; [done|]; by exists c, t|].
    split; [by eapply exec_mandate|].
    unfold to_core in H.
    destruct (k_execute (d_core s) b (d_at s) (KHook (map (act_of K) ms))) as [[c' l]|] eqn:E;
      [|done].
    injection H as <-. cbn. apply k_execute_step in E as [E _]. cbn in E.
    destruct (k_mods (d_core s) !! d_at s) as [[on pf]|] eqn:Ek; [|done]. cbn in E.
    destruct on; [|done]. injection E as <- <-. split; [by exists pf|].
    by rewrite map_map_acts.
  - destruct (d_todo s) as [|[[id i|[m|n]]|x|x] t] eqn:Et; try done.
    destruct (on_fail (d_prop s) b x) as [p|] eqn:E; [|done]. injection H as <-. by exists x.
  - destruct (d_todo s) as [|[[id i|[m|n]]|x|x] t] eqn:Et; try done.
    cbn in H. injection H as <-. by exists x.
Qed.

(** ** At most once *)
Definition item_exec (id : Z) (x : ditem) : Z :=
  match x with DP y => sub_dispatch id y | _ => 0 end.
Lemma item_exec_nonneg id l : 0 <= lsum (item_exec id) l.
Proof.
  apply lsum_nonneg. intros [x|[]|x] _; cbn; try lia. destruct (_ =? _); lia.
Qed.
Lemma item_exec_DK id l : lsum (item_exec id) (map DK l) = 0.
Proof. induction l; cbn; [done|]. done. Qed.
Lemma item_exec_DP id l : lsum (item_exec id) (map DP l) = lsum (sub_dispatch id) l.
Proof. induction l as [|x l IH]; cbn; [done|]. by rewrite IH. Qed.
Definition count_inv (id : Z) (s : dao) (n : Z) : Prop :=
  n + lsum (item_exec id) (d_todo s) <= 1 /\
  (1 <= n + lsum (item_exec id) (d_todo s) -> done_at (d_prop s) id).
Lemma carried_nonneg id e : 0 <= carried id e.
Proof. unfold carried. repeat case_match; lia. Qed.
Lemma to_prop_count O s b a m rest s' id n :
  dinv O b s -> typed O ->
  to_prop O s b a m rest = Ok s' -> 0 <= n ->
  lsum (item_exec id) rest = lsum (item_exec id) (d_todo s) ->
  count_inv id s n -> count_inv id s' n.
Proof.
  intros HI HS H Hn Hr [C1 C2]. unfold to_prop in H.
  destruct (handle O (d_prop s) b a m) as [[p l]|] eqn:E; [|done]. injection H as <-.
  unfold count_inv. cbn. rewrite lsum_app, item_exec_DP, Hr.
  destruct HI as [A B C].
  destruct (ev_dispatch_legit O (k_self (d_core s)) (ECall (d_prop s) b a m p l) id) as [L1 L2].
  { split; [done|]. split; [|done]. eapply inv_prim; [done|done|by eapply handle_prim]. }
  cbn in L1, L2.
  pose proof (item_exec_nonneg id (d_todo s)).
  destruct (Z_lt_le_dec (n + lsum (item_exec id) (d_todo s)) 1) as [Hlt|Hge].
  - assert (n + lsum (item_exec id) (d_todo s) = 0) by lia.
    destruct L1 as [L1|(L1 & _ & L3)]; rewrite L1; (split; [lia|]; intros Hg); [lia|done].
  - destruct L1 as [L1|(_ & L3 & _)]; [|by destruct (L3 (C2 Hge))].
    rewrite L1. split; [lia|]. intros _. by apply L2, C2.
Qed.
Lemma count_event K O s b e s' id n :
  typed O -> dinv O b s ->
  d_event K O s b e = Ok s' -> 0 <= n -> count_inv id s n ->
  count_inv id s' (n + carried id (DEntry s b e s')).
Proof.
  intros HS HI H Hn HC. unfold carried. cbn [de_pre de_ev].
  destruct e as [a m|a m| | |a msgs| | |a]; cbn in H; rewrite ?Z.add_0_r.
  - destruct (outside s a) eqn:Eo; [|done]. unfold to_core in H.
    destruct (k_execute _ _ _ _) as [[c l]|]; [|done]. injection H as <-.
    unfold count_inv. cbn. by rewrite lsum_app, item_exec_DK.
  - destruct (outside s a) eqn:Eo; [|done]. by eapply to_prop_count.
  - destruct (d_todo s) as [|[[i j|[m|k]]|x|x] t] eqn:Et; try done. unfold to_core in H.
    destruct (k_execute _ _ _ _) as [[c l]|]; [|done]. injection H as <-.
    unfold count_inv in *. cbn. rewrite lsum_app, item_exec_DK. rewrite Et in HC. cbn in HC. done.
  - destruct (d_todo s) as [|[[i j|[m|k]]|x|x] t] eqn:Et; try done.
    destruct (call_of K k) as [m|] eqn:Em.
    + eapply to_prop_count; try done. by rewrite Et.
    + injection H as <-. unfold count_inv in *. rewrite Et in HC. done.
  - destruct (d_todo s) as [|[[i j|[m|k]]|x|x] t] eqn:Et; try done.
    destruct (k_mods (d_core s) !! a) eqn:Ea; [done|].
    destruct (outside s a) eqn:Eo; [|done].
    destruct (k_reply (d_core s) i a msgs) as [[c l]|] eqn:E; [|done]. injection H as <-.
    unfold count_inv in *. cbn. rewrite lsum_app, item_exec_DK. rewrite Et in HC. done.
  - destruct (d_todo s) as [|[[i j|[m|k]]|x|x] t] eqn:Et; try done.
    assert (forall r, Ok (with_prop s (d_prop s) (DEnd x :: t)) = Ok r ->
      (forall d i ms c, x = SExec d i ms c -> d <> k_self (d_core s)) ->
      count_inv id r n) as Hw.
    { intros r [= <-] Hx. unfold count_inv in *. cbn. rewrite Et in HC. cbn in HC.
      assert (0 <= sub_dispatch id x) by (destruct x; cbn; try lia; destruct (_ =? _); lia).
      destruct HC as [C1 C2]. split; [lia|]. intros. apply C2. lia. }
    destruct x as [d i ms c].
    destruct (N.eqb_spec d (k_self (d_core s))) as [->|Hd].
    + unfold to_core in H. destruct (k_execute _ _ _ _) as [[c' l]|]; [|done].
      injection H as <-. unfold count_inv in *. cbn. rewrite lsum_app, item_exec_DK.
      rewrite Et in HC. cbn in HC |- *. destruct HC as [C1 C2].
      destruct (Z.eqb_spec i id) as [->|Hne].
      * rewrite bool_decide_true by done. split; [lia|]. intros. apply C2. lia.
      * rewrite bool_decide_false by naive_solver. split; [lia|]. intros. apply C2. lia.
    + rewrite bool_decide_false by naive_solver. rewrite Z.add_0_r. apply Hw; [done|].
      by intros ? ? ? ? [= <- _ _ _].
  - destruct (d_todo s) as [|[[i j|[m|k]]|x|x] t] eqn:Et; try done.
    destruct (on_fail (d_prop s) b x) as [p|] eqn:E; [|done]. injection H as <-.
    unfold count_inv in *. cbn. rewrite Et in HC. cbn in HC. destruct HC as [C1 C2].
    assert (0 <= sub_dispatch id x) by (destruct x; cbn; try lia; destruct (_ =? _); lia).
    split; [lia|]. intros. apply on_fail_shape in E as (d0 & id0 & ms0 & p0 & -> & Hp0 & ->).
    assert (done_at (d_prop s) id) as HD by (apply C2; lia). unfold done_at, status_of in *. cbn.
    destruct (decide (id = id0)) as [->|]; [|by rewrite lookup_insert_ne].
    rewrite lookup_insert. by right.
  - destruct (d_todo s) as [|[[i j|[m|k]]|x|x] t] eqn:Et; try done.
    cbn in H. injection H as <-. unfold count_inv in *. cbn. rewrite Et in HC. done.
Qed.
Lemma count_leads K O b0 s0 b s l id :
  typed O -> dinv O b0 s0 -> d_todo s0 = [] -> dleads K O b0 s0 b s l ->
  count_inv id s (lsum (carried id) l).
Proof.
  intros HS HI Et H. pose proof H as H0. induction H as [|b s l b' e s' H IH Hb Hd He].
  { unfold count_inv. rewrite Et. cbn. split; lia. }
  destruct (dleads_inv K O b0 s0 b s l HS HI H) as [(I1 & I2 & I3) _].
  rewrite lsum_app. cbn. rewrite Z.add_0_r. eapply count_event; try done.
  - by eapply dinv_time.
  - apply lsum_nonneg. intros. apply carried_nonneg.
  - by apply IH.
Qed.

(** ** Sovereign DAOs *)
Lemma sov_core O s b a m rest s' :
  dinv O b s -> sovereign s -> to_core s b a m rest = Ok s' ->
  (a = k_self (d_core s) -> retains (inl m)) ->
  sovereign s' /\
  (d_todo s' = rest \/
   exists msgs, d_todo s' = acts msgs ++ rest /\
     ((m = KAdmin msgs /\ a = k_self (d_core s)) \/ (m = KHook msgs /\ a = d_at s /\ enabled (d_core s) a))).
Proof.
  intros HI (V1 & V2 & V3) H Hret.
  assert (d_todo s' = rest \/
   exists msgs, d_todo s' = acts msgs ++ rest /\
     ((m = KAdmin msgs /\ a = k_self (d_core s)) \/ (m = KHook msgs /\ a = d_at s /\ enabled (d_core s) a))) as Ht.
  { destruct (to_core_cases O _ _ _ _ _ _ HI H) as [E|[(msgs & Ho & E)|[(i & -> & Ei & _)|
      (add & dis & -> & Ei & E)]]].
    - by left.
    - right. exists msgs. split; [done|]. destruct Ho as [[-> ->]|[-> Ho]]; [left|right].
      + by rewrite V1.
      + split; [done|]. split; [|done]. by apply V3.
    - destruct (Hret Ei).
    - specialize (Hret Ei). destruct add; [by left|done]. }
  split; [|done]. clear Ht. unfold to_core in H.
  destruct (k_execute (d_core s) b a m) as [[c l]|] eqn:E; [|done]. injection H as <-.
  apply k_execute_step in E as [E _]. pose proof (k_step_self _ _ _ _ _ _ E) as Es.
  unfold sovereign. cbn. rewrite Es.
  pose proof (k_step_admin _ _ _ _ _ _ E) as Ha.
  assert (k_admin c = k_self (d_core s) /\ k_nom c = None) as [-> ->].
  { destruct Ha as [(-> & -> & _)|[(_ & _ & _ & -> & ->)|[(x & -> & Hx & _)|[(_ & Hx & _)|
      (_ & _ & -> & ->)]]]]; try done.
    - rewrite V1 in Hx. destruct (Hret Hx).
    - congruence. }
  split; [done|]. split; [done|]. intros x [pf Hx].
  apply k_step_cases in E as [[Em _]|(add & dis & mods & n & -> & -> & -> & Hd & Hn & ->)].
  - apply V3. exists pf. unfold modules in Em. congruence.
  - cbn in Hx. apply disable_all_spec in Hd as (_ & _ & _ & D).
    destruct (D _ _ Hx) as ([on py] & Hy & _ & Hon). cbn in Hon. apply V3.
    exists py. rewrite Hy. by rewrite (Hon eq_refl).
Qed.
Lemma in_acts x msgs rest : DK x ∈ acts msgs ++ rest ->
  (exists a, x = KSend a /\ a ∈ msgs) \/ DK x ∈ rest.
Proof.
  rewrite elem_of_app. intros [H|H]; [|by right]. left.
  apply elem_of_list_fmap in H as (y & E & Hy). injection E as ->. by exists y.
Qed.
Lemma in_subs x l rest : DK x ∈ map DP l ++ rest -> DK x ∈ rest.
Proof.
  rewrite elem_of_app. intros [H|H]; [|done]. apply elem_of_list_fmap in H as (y & ? & _). done.
Qed.
Lemma sov_event K O s b e s' (P : kact -> Prop) :
  typed O -> dinv O b s -> sovereign s ->
  (forall x, DK x ∈ d_todo s -> exists a, x = KSend a /\ P a) ->
  (forall a msgs, P (inl (KAdmin msgs)) -> a ∈ msgs -> P a) ->
  (forall a, P a -> retains a) ->
  (forall id msgs a, carries (DEntry s b e s') id msgs -> mandate O s id msgs ->
     a ∈ map (act_of K) msgs -> P a) ->
  d_event K O s b e = Ok s' ->
  sovereign s' /\ (forall x, DK x ∈ d_todo s' -> exists a, x = KSend a /\ P a).
Proof.
  intros HS HI HV HT Hsub Hret Hcar H.
  destruct e as [a m|a m| | |a msgs| | |a]; cbn in H.
  - destruct (outside s a) eqn:Eo; [|done]. unfold outside in Eo.
    destruct (sov_core O _ _ _ _ _ _ HI HV H) as [V [E|(msgs & E & [[_ Ea]|(_ & Ea & _)])]].
    + intros ->. lia.
    + split; [done|]. by rewrite E.
    + lia.
    + lia.
  - destruct (outside s a) eqn:Eo; [|done]. unfold to_prop in H.
    destruct (handle _ _ _ _ _) as [[p l]|]; [|done]. injection H as <-.
    split; [done|]. cbn. intros x Hx. apply in_subs in Hx. by apply HT.
  - destruct (d_todo s) as [|[[i j|[m|k]]|x|x] t] eqn:Et; try done.
    destruct (HT (KSend (inl m))) as (a & [= <-] & Pa); [left|].
    assert (forall x, DK x ∈ t -> exists a, x = KSend a /\ P a) as HT'.
    { intros x Hx. apply HT. by right. }
    destruct (sov_core O _ _ _ _ _ _ HI HV H) as [V [E|(msgs & E & [[-> Ea]|(_ & _ & pf & Ea)])]].
    + intros _. by apply Hret.
    + split; [done|]. by rewrite E.
    + split; [done|]. rewrite E. intros x Hx. apply in_acts in Hx as [(a & -> & Hx)|Hx]; [|by apply HT'].
      exists a. split; [done|]. by eapply Hsub.
    + destruct HI as [A _ _]. congruence.
  - destruct (d_todo s) as [|[[i j|[m|k]]|x|x] t] eqn:Et; try done.
    assert (forall x, DK x ∈ t -> exists a, x = KSend a /\ P a) as HT'.
    { intros x Hx. apply HT. by right. }
    destruct (call_of K k) as [m|] eqn:Em.
    + unfold to_prop in H. destruct (handle _ _ _ _ _) as [[p l]|]; [|done]. injection H as <-.
      split; [done|]. cbn. intros x Hx. apply in_subs in Hx. by apply HT'.
    + injection H as <-. done.
  - destruct (d_todo s) as [|[[i j|[m|k]]|x|x] t] eqn:Et; try done.
    destruct (HT (KInst i j)) as (x & ? & _); [left|]. done.
  - destruct (d_todo s) as [|[[i j|[m|k]]|x|x] t] eqn:Et; try done.
    assert (forall y, DK y ∈ DEnd x :: t -> exists a, y = KSend a /\ P a) as HT'.
    { intros y Hy. apply HT. apply elem_of_cons in Hy as [Hy|Hy]; [done|]. by right. }
    assert (forall r, Ok (with_prop s (d_prop s) (DEnd x :: t)) = Ok r ->
      sovereign r /\ (forall x, DK x ∈ d_todo r -> exists a, x = KSend a /\ P a)) as Hw.
    { intros r [= <-]. done. }
    destruct x as [d id ms c].
    destruct (N.eqb_spec d (k_self (d_core s))) as [->|]; [|by apply Hw].
    destruct (sov_core O _ _ _ _ _ _ HI HV H) as [V [E|(msgs & E & [[E2 _]|(E2 & _ & _)])]].
    + done.
    + split; [done|]. by rewrite E.
    + done.
    + injection E2 as <-. split; [done|]. rewrite E. intros y Hy.
      apply in_acts in Hy as [(a & -> & Hy)|Hy]; [|by apply HT'].
      exists a. split; [done|]. apply (Hcar id ms a); [|by eapply exec_mandate|done].
      split; [done|]. by exists c, t.
  - destruct (d_todo s) as [|[[i j|[m|k]]|x|x] t] eqn:Et; try done.
    destruct (on_fail (d_prop s) b x) as [p|] eqn:E; [|done]. injection H as <-.
    split; [done|]. cbn. intros y Hy. apply HT. by right.
  - destruct (d_todo s) as [|[[i j|[m|k]]|x|x] t] eqn:Et; try done.
    cbn in H. injection H as <-.
    split; [done|]. cbn. intros y Hy. apply HT. by right.
Qed.

Lemma mandated_mono K O l l' a : mandated K O l a -> mandated K O (l ++ l') a.
Proof.
  intros (e & id & msgs & He & H). exists e, id, msgs. split; [|done]. apply elem_of_app. by left.
Qed.
Lemma app_one_split {A} (l l1 l2 : list A) x y :
  l ++ [x] = l1 ++ y :: l2 -> (l2 = [] /\ l = l1 /\ x = y) \/ exists l2', l2 = l2' ++ [x] /\ l = l1 ++ y :: l2'.
Proof.
  intros H. destruct (decide (l2 = [])) as [->|Hne].
  - left. by apply app_inj_tail in H as [-> ->].
  - right. destruct (exists_last Hne) as (l3 & z & ->).
    rewrite app_comm_cons, app_assoc in H. apply app_inj_tail in H as [-> ->]. by exists l3.
Qed.
Lemma sov_leads K O b0 s0 b s l :
  typed O -> dinv O b0 s0 -> d_todo s0 = [] -> sovereign s0 ->
  dleads K O b0 s0 b s l ->
  (forall e id msgs a, e ∈ l -> carries e id msgs -> stems a (map (act_of K) msgs) -> retains a) ->
  sovereign s /\
  (forall x, DK x ∈ d_todo s -> exists a, x = KSend a /\ mandated K O l a) /\
  forall l1 e l2, l = l1 ++ e :: l2 ->
    sovereign (de_pre e) /\
    (forall x, DK x ∈ d_todo (de_pre e) -> exists a, x = KSend a /\ mandated K O l1 a).
Proof.
  intros HS HI Et HV H. induction H as [|b s l b' e s' H IH Hb Hd He]; intros Hret.
  { split; [done|]. split.
    - rewrite Et. intros x Hx. by apply elem_of_nil in Hx.
    - intros l1 e l2 E. by destruct l1. }
  destruct IH as (V & T & L).
  { intros x id msgs a Hx. apply (Hret x). apply elem_of_app. by left. }
  destruct (dleads_inv K O b0 s0 b s l HS HI H) as [(I1 & I2 & I3) _].
  apply (dinv_time _ _ b') in I1; [|done].
  destruct (sov_event K O s b' e s' (mandated K O (l ++ [DEntry s b' e s'])) HS I1 V)
    as [V' T']; try done.
  - intros x Hx. destruct (T x Hx) as (a & -> & Ha). exists a. split; [done|].
    by apply mandated_mono.
  - intros a msgs (x & id & ms & Hx & Hc & Hm & Hs) Ha. exists x, id, ms.
    do 3 (split; [done|]). by eapply stems_sub.
  - intros a (x & id & ms & Hx & Hc & Hm & Hs). by eapply Hret.
  - intros id msgs a Hc Hm Ha. exists (DEntry s b' e s'), id, msgs.
    split; [apply elem_of_app; right; left|]. do 2 (split; [done|]). by apply stems_in.
  - split; [done|]. split; [done|]. intros l1 x l2 E.
    apply app_one_split in E as [(-> & <- & <-)|(l2' & -> & ->)].
    + done.
    + by eapply L.
Qed.

(** ** What changes *)
Lemma cfg_event O s b a m s' l :
  handle O s b a m = Ok (s', l) -> a <> s_dao s -> s_cfg s' = s_cfg s.
Proof.
  intros H Ha. destruct m as [choices|id vote|id|id|c]; simpl in H.
  - by apply propose_shape in H as (id & t & st & _ & _ & _ & _ & _ & -> & _).
  - by apply vote_shape in H as (t & vote' & t' & _ & _ & _ & _ & _ & _ & -> & _).
  - by apply execute_shape in H as (t & p & w & ms & _ & _ & _ & _ & _ & -> & _).
  - by apply close_shape in H as (t & p & _ & _ & _ & -> & _).
  - by apply set_config_shape in H as (c' & ? & _).
Qed.
Lemma fail_cfg s b x s' : on_fail s b x = Ok s' -> s_cfg s' = s_cfg s.
Proof. intros H. by apply on_fail_shape in H as (d & id & ms & p & -> & Hp & ->). Qed.
Lemma other_core s b a m rest s' :
  sovereign s -> a <> k_self (d_core s) -> to_core s b a m rest = Ok s' -> governed s' = governed s.
Proof.
  intros (V1 & V2 & V3) Ha H. unfold to_core in H.
  destruct (k_execute (d_core s) b a m) as [[c l]|] eqn:E; [|done]. injection H as <-.
  apply k_execute_step in E as [E _].
  destruct (k_step_other _ _ _ _ _ _ Ha E) as (E1 & E2 & _ & E3).
  unfold governed. cbn. rewrite E1, E2.
  assert (k_paused c = k_paused (d_core s)) as ->.
  { destruct E3 as [->|(_ & Hx & _)]; [done|]. congruence. }
  destruct (k_step_admin _ _ _ _ _ _ E) as [(-> & -> & _)|[(_ & Hx & _)|[(x & _ & Hx & _)|
    [(_ & Hx & _)|(_ & Hx & _)]]]]; try done; congruence.
Qed.
Lemma change_event K O s b e s' :
  dinv O b s -> sovereign s ->
  (forall x, DK x ∈ d_todo s -> exists a, x = KSend a) ->
  d_at s <> k_self (d_core s) ->
  d_event K O s b e = Ok s' ->
  act (DEntry s b e s') = None -> governed s' = governed s.
Proof.
  intros HI HV HT Hat H Hact. unfold act in Hact. cbn [de_pre de_ev] in Hact.
  assert (s_dao (d_prop s) = k_self (d_core s)) as Hdao.
  { destruct HI as [_ HI' _]. by destruct HI'. }
  destruct e as [a m|a m| | |a msgs| | |a]; cbn in H.
  - destruct (outside s a) eqn:Eo; [|done]. unfold outside in Eo.
    apply (other_core s b a m (d_todo s)); [done|lia|done].
  - destruct (outside s a) eqn:Eo; [|done]. unfold outside in Eo. unfold to_prop in H.
    destruct (handle _ _ _ _ _) as [[p l]|] eqn:E; [|done]. injection H as <-.
    unfold governed. cbn. f_equal. eapply cfg_event; [done|].
    rewrite Hdao. lia.
  - destruct (d_todo s) as [|[[i j|[m|k]]|x|x] t] eqn:Et; try done.
  - destruct (d_todo s) as [|[[i j|[m|k]]|x|x] t] eqn:Et; try done.
  - destruct (d_todo s) as [|[[i j|[m|k]]|x|x] t] eqn:Et; try done.
    destruct (HT (KInst i j)) as (x & ?); [left|]. done.
  - destruct (d_todo s) as [|[[i j|[m|k]]|x|x] t] eqn:Et; try done.
    destruct x as [d id ms c].
    destruct (N.eqb_spec d (k_self (d_core s))) as [->|]; [|by injection H as <-].
    by eapply other_core.
  - destruct (d_todo s) as [|[[i j|[m|k]]|x|x] t] eqn:Et; try done.
    destruct (on_fail (d_prop s) b x) as [p|] eqn:E; [|done]. injection H as <-.
    unfold governed. cbn. f_equal. by eapply fail_cfg.
  - destruct (d_todo s) as [|[[i j|[m|k]]|x|x] t] eqn:Et; try done.
    cbn in H. injection H as <-. done.
Qed.
