(** The claims about the DAO core. *)
From stdpp Require Import gmap strings.
From Verif Require Import Base BaseProofs CoreModel CoreSpec CoreProofs.

(** ** Acting *)
Lemma dispatch b s l e : kreached b s l -> e ∈ l -> lawful e.
Proof.
  intros H He. apply kreached_inv in H as [_ H]. apply H in He as (I & _ & He).
  destruct e as [s1 b1 v s2]. by apply lawful_event.
Qed.
Lemma pause b s l a m s' : kreached b s l -> paused (k_core s) b ->
  k_event s b (VCall a m) = Ok s' -> a = k_admin (k_core s).
Proof.
  intros _ (e & Hp & He) H. cbn in H.
  destruct (N.eqb_spec a (k_self (k_core s))) as [|Na]; [done|]. cbn in H.
  destruct (k_execute _ _ _ _) as [[c l']|] eqn:E; [|done]. apply k_execute_step in E as [_ E].
  unfold k_shut in E. rewrite Hp, He in E. cbn in E.
  destruct (N.eqb_spec a (k_self (k_core s))); [done|]. cbn in E.
  destruct (N.eqb_spec a (k_admin (k_core s))); done.
Qed.
Lemma pausing b s l e : kreached b s l -> e ∈ l ->
  k_paused (k_core (ke_post e)) <> k_paused (k_core (ke_pre e)) ->
  (exists d u, said e = Some (k_self (k_core (ke_pre e)), KPause d) /\ 
     after d (ke_block e) = u /\ k_paused (k_core (ke_post e)) = Some u) \/
  (said e = Some (k_admin (k_core (ke_pre e)), KUnpause) /\
     k_paused (k_core (ke_post e)) = None).
Proof.
  intros H He Hn. apply kreached_inv in H as [_ H]. apply H in He as (_ & _ & He).
  destruct e as [s1 b1 v s2]. cbn in *.
  assert (forall a m c l', k_execute (k_core s1) b1 a m = Ok (c, l') ->
    k_paused c <> k_paused (k_core s1) ->
    (exists d u, a = k_self (k_core s1) /\ m = KPause d /\ after d b1 = u /\ k_paused c = Some u) \/
    (a = k_admin (k_core s1) /\ m = KUnpause /\ k_paused c = None)) as Hx.
  { intros a m c l' Hx Hc. apply k_execute_step in Hx as [Hx _].
    destruct m; cbn [k_step] in Hx; cbv zeta in Hx; kcases Hx; injection Hx as <- <-;
      try done.
    - left. exists d, (after d b1). split; [lia|]. split; [done|]. split; [done|]. cbn.
      unfold pause_until in *. destruct (after d b1); kcases Heqr; congruence.
    - right. split; [lia|]. done.
    - by destruct (kc_auto20 _).
    - by destruct (kc_auto721 _).
    - by destruct a0. }
  destruct (event_inv _ _ _ _ He) as [(a & m & l' & Hs & E)|[(a & msgs & id & i & t & l' & _ & _ & _ & _ & _ & E)|(_ & _ & E)]].
  - rewrite Hs. destruct (Hx _ _ _ _ E Hn) as [(d & u & -> & -> & H1 & H2)|(-> & -> & H1)].
    + left. by exists d, u.
    + by right.
  - apply k_reply_cases in E as (_ & _ & E & _). done.
  - by rewrite E in Hn.
Qed.
(** A pause always has an end that the chain can reach: one past the range of [u64] is
    refused. *)
Lemma pause_range b s l e a d : kreached b s l -> e ∈ l -> said e = Some (a, KPause d) ->
  a = k_self (k_core (ke_pre e)) /\
  k_paused (k_core (ke_post e)) = Some (after d (ke_block e)) /\
  match after d (ke_block e) with
  | AtHeight n | AtTime n => n <= U64_MAX
  | Never => False
  end.
Proof.
  intros H He Hs. apply kreached_inv in H as [_ H]. apply H in He as (_ & _ & He).
  destruct e as [s1 b1 v s2]. cbn [ke_pre ke_post ke_block ke_ev] in *.
  destruct (event_inv _ _ _ _ He) as [(c & m & l' & Hc & E)|[(c & msgs & id & i & t & l' & _ & Hc & _)|(_ & Hc & _)]];
    rewrite Hc in Hs; try done.
  injection Hs as -> ->. apply k_execute_step in E as [E _].
  cbn [k_step] in E; cbv zeta in E; kcases E; injection E as E _.
  split; [lia|]. rewrite <-E. cbn. unfold pause_until in *.
  destruct (after d b1) eqn:Ed; kcases Heqr; injection Heqr as <-; (split; [done|]); try lia.
  by destruct d.
Qed.
(** And every other is made, when the DAO's turn comes. *)
Lemma pause_made s b d t :
  k_todo s = KSend (inl (KPause d)) :: t ->
  match after d b with AtHeight n | AtTime n => n <= U64_MAX | Never => False end ->
  exists s', k_event s b VSelf = Ok s' /\ k_paused (k_core s') = Some (after d b) /\ k_todo s' = t.
Proof.
  intros Ht Hd. unfold k_event. rewrite Ht. unfold k_execute, k_shut, k_step. rewrite N.eqb_refl.
  cbn [negb andb orb]. rewrite ?andb_false_r, ?andb_false_l.
  assert (pause_until d b = Ok (after d b)) as Hp.
  { unfold pause_until. destruct (after d b) as [n|n|]; [..|done]; by rewrite (proj2 (Z.leb_le _ _)). }
  rewrite Hp. destruct (k_paused (k_core s)) as [e|]; cbn; [rewrite ?andb_false_r; cbn|]; eauto.
Qed.
(** Settings change in the DAO's own calls; modules also when one has been created;
    lists also by tokens received. *)
Lemma own_calls b s l e : kreached b s l -> e ∈ l ->
  let s1 := k_core (ke_pre e) in
  let s2 := k_core (ke_post e) in
  match ke_ev e with
  | VSelf => True
  | VDone => s2 = s1
  | VCall a m =>
      settings s2 = settings s1 /\ modules s2 = modules s1 /\
      (lists s2 = lists s1 \/
       (m = KReceive20 /\ kc_auto20 (k_conf s1) = true /\
          lists s2 = ({[a]} ∪ k_cw20s s1, k_cw721s s1)) \/
       (m = KReceive721 /\ kc_auto721 (k_conf s1) = true /\
          lists s2 = (k_cw20s s1, {[a]} ∪ k_cw721s s1)))
  | VReply a msgs =>
      settings s2 = settings s1 /\ lists s2 = lists s1 /\
      (k_mods s2 = k_mods s1 \/ exists p, k_mods s2 = <[a := KMod true p]> (k_mods s1)) /\
      (k_voting s2 = k_voting s1 \/ k_voting s2 = Some a)
  end.
Proof.
  intros H He. apply kreached_inv in H as [_ H]. apply H in He as (_ & _ & He).
  destruct e as [s1 b1 v s2]. cbn in *. destruct v as [a m| |a msgs|]; cbn in He.
  - destruct (N.eqb_spec a (k_self (k_core s1))) as [|Na]; [done|]. cbn in He.
    destruct (k_execute (k_core s1) b1 a m) as [[c l']|] eqn:E; [|done]. injection He as <-.
    apply k_execute_step in E as [E _]. destruct (k_step_other _ _ _ _ _ _ Na E) as (? & ? & ? & _).
    done.
  - done.
  - destruct (event_inv s1 b1 (VReply a msgs) s2 He) as [(c & m & l' & Hs & E)|[(c & msgs' & id & i & t & l' & Ev & _ & _ & _ & _ & E)|(Ev & _ & E)]].
    + done.
    + injection Ev as <- <-. apply k_reply_cases in E as (? & ? & _ & _ & _ & ? & ?). done.
    + done.
  - destruct (k_todo s1) as [|[id i|[m|n]] t] eqn:Et; try done. by injection He as <-.
Qed.
(** An enabled module can make an unpaused DAO act: exactly its messages, in order, first. *)
Lemma modules_act b s l a msgs : kreached b s l -> ~ paused (k_core s) b ->
  enabled (k_core s) a ->
  k_event s b (VCall a (KHook msgs)) = Ok (KState (k_core s) (map KSend msgs ++ k_todo s)).
Proof.
  intros H Hp (p & Ha). apply kreached_inv in H as [I _]. cbn.
  destruct (N.eqb_spec a (k_self (k_core s))) as [->|Na].
  { rewrite (ki_self _ I) in Ha. done. }
  cbn. unfold k_execute. assert (k_shut (k_core s) b a = false) as ->.
  { unfold k_shut. destruct (k_paused (k_core s)) as [e|] eqn:Ep; [|done].
    destruct (is_expired e b) eqn:Ee; [done|]. exfalso. apply Hp. by exists e. }
  cbn. rewrite Ha. cbn. done.
Qed.
(** So does the admin, paused or not. *)
Lemma admin_acts b s l msgs : kreached b s l -> k_admin (k_core s) <> k_self (k_core s) ->
  k_event s b (VCall (k_admin (k_core s)) (KAdmin msgs)) =
    Ok (KState (k_core s) (map KSend msgs ++ k_todo s)).
Proof.
  intros _ Na. cbn. destruct (N.eqb_spec (k_admin (k_core s)) (k_self (k_core s))); [done|].
  cbn. unfold k_execute. assert (k_shut (k_core s) b (k_admin (k_core s)) = false) as ->.
  { unfold k_shut. destruct (k_paused (k_core s)); [|done]. rewrite N.eqb_refl.
    rewrite !andb_false_r. done. }
  cbn. rewrite N.eqb_refl. done.
Qed.

(** ** Modules *)
Lemma some_module b s l : kreached b s l -> k_todo s = [] -> exists a, enabled (k_core s) a.
Proof.
  intros H Ht. apply kreached_inv in H as [I _]. destruct (ki_some _ I) as [Ha|[i Hi]].
  - rewrite (ki_active _ I) in Ha. unfold n_active in Ha.
    destruct (map_to_list (filter on (k_mods (k_core s)))) as [|[a x] t] eqn:E.
    { apply map_to_list_empty_iff in E. rewrite E, map_size_empty in Ha. lia. }
    assert (filter on (k_mods (k_core s)) !! a = Some x) as Hx.
    { apply elem_of_map_to_list. rewrite E. left. }
    apply map_filter_lookup_Some in Hx as [Hx Ho]. exists a, (km_prefix x). rewrite Hx.
    destruct x as [o p]. unfold on in Ho. cbn in *. by subst.
  - rewrite Ht in Hi. by apply elem_of_nil in Hi.
Qed.
Lemma counts b s l : kreached b s l ->
  q_module_count (k_core s) = (n_active (k_core s), n_total (k_core s)).
Proof.
  intros H. apply kreached_inv in H as [I _]. unfold q_module_count.
  by rewrite (ki_active _ I), (ki_total _ I).
Qed.
(** Modules stay registered under their prefix and are not enabled again. *)
Lemma modules_stay b s l e a x : kreached b s l -> e ∈ l ->
  k_mods (k_core (ke_pre e)) !! a = Some x ->
  exists y, k_mods (k_core (ke_post e)) !! a = Some y /\ km_prefix y = km_prefix x /\
    (km_on y = true -> km_on x = true) /\
    (y <> x -> exists add dis, a ∈ dis /\
       said e = Some (k_self (k_core (ke_pre e)), KModules add dis)).
Proof.
  intros H He Hx. apply kreached_inv in H as [_ H]. apply H in He as (_ & _ & He).
  destruct e as [s1 b1 v s2]. cbn in *.
  assert (forall dis m m', disable_all m dis = Ok m' -> forall x, m !! a = Some x ->
    exists y, m' !! a = Some y /\ km_prefix y = km_prefix x /\
      (km_on y = true -> km_on x = true) /\ (y <> x -> a ∈ dis)) as Hdis.
  { clear. induction dis as [|c dis IH]; intros m m' H x Hx; cbn in H.
    { injection H as <-. exists x. done. }
    destruct (m !! c) as [z|] eqn:Ec; [|done]. destruct (km_on z) eqn:Eo; [|done].
    destruct (decide (c = a)) as [->|Nc].
    - assert (z = x) as -> by congruence.
      destruct (IH _ _ H (KMod false (km_prefix x))) as (y & H1 & H2 & H3 & H4).
      { by rewrite lookup_insert. }
      exists y. split; [done|]. split; [done|]. split; [done|]. intros. left.
    - destruct (IH _ _ H x) as (y & H1 & H2 & H3 & H4).
      { by rewrite lookup_insert_ne. }
      exists y. split; [done|]. split; [done|]. split; [done|]. intros. right. by apply H4. }
  assert (forall c m c' l', k_execute (k_core s1) b1 c m = Ok (c', l') ->
    exists y, k_mods c' !! a = Some y /\ km_prefix y = km_prefix x /\
      (km_on y = true -> km_on x = true) /\
      (y <> x -> exists add dis, a ∈ dis /\ c = k_self (k_core s1) /\ m = KModules add dis)) as Hs.
  { intros c m c' l' E. apply k_execute_step in E as [E _].
    apply k_step_cases in E as [[Em _]|(add & dis & mods & n & -> & -> & -> & Hd & Hn & ->)].
    - injection Em as -> _ _ _. exists x. done.
    - destruct (Hdis _ _ _ Hd x Hx) as (y & H1 & H2 & H3 & H4). exists y. cbn.
      split; [done|]. split; [done|]. split; [done|]. intros Hy. exists add, dis.
      split; [by apply H4|]. done. }
  destruct (event_inv _ _ _ _ He) as [(c & m & l' & Hc & E)|[(c & msgs & id & i & t & l' & _ & _ & _ & Ea & _ & E)|(_ & _ & E)]].
  - destruct (Hs _ _ _ _ E) as (y & H1 & H2 & H3 & H4). exists y. split; [done|].
    split; [done|]. split; [done|]. intros Hy. destruct (H4 Hy) as (add & dis & ? & -> & ->).
    by exists add, dis.
  - apply k_reply_cases in E as (_ & _ & _ & _ & _ & [->|[p ->]] & _); exists x; [done|].
    rewrite lookup_insert_ne; [done|congruence].
  - rewrite E. by exists x.
Qed.

(** ** The admin *)
Lemma kleads_prefix b0 s0 b s l : kleads b0 s0 b s l -> forall l1 e l2, l = l1 ++ e :: l2 ->
  exists b', kleads b0 s0 b' (ke_pre e) l1 /\
    k_event (ke_pre e) (ke_block e) (ke_ev e) = Ok (ke_post e).
Proof.
  induction 1 as [|b s l b' v s' H IH Hb Hd He]; intros l1 e l2 E.
  { by destruct l1. }
  destruct l2 as [|x l2] using rev_ind.
  - apply app_inj_tail in E as [<- <-]. exists b. done.
  - rewrite app_comm_cons, app_assoc in E. apply app_inj_tail in E as [E _].
    by apply IH in E.
Qed.
(** What an event does to the admin and the nomination. *)
Lemma event_admin s b v s' : k_event s b v = Ok s' ->
  let e := KEntry s b v s' in
  let adm := k_admin (k_core s) in
  let adm' := k_admin (k_core s') in
  let nom := k_nom (k_core s) in
  let nom' := k_nom (k_core s') in
  k_self (k_core s') = k_self (k_core s) /\
  ((adm' = adm /\ nom' = nom /\
    (forall a, said e <> Some (a, KAccept)) /\ (forall a, said e <> Some (a, KWithdraw))) \/
   (said e = Some (adm, KNominate None) /\ adm' = k_self (k_core s) /\ nom = None /\ nom' = None) \/
   (exists x, said e = Some (adm, KNominate (Some x)) /\ nom = None /\ adm' = adm /\ nom' = Some x) \/
   (exists x, said e = Some (x, KAccept) /\ nom = Some x /\ adm' = x /\ nom' = None) \/
   (said e = Some (adm, KWithdraw) /\ adm' = adm /\ nom' = None)).
Proof.
  intros He. cbn.
  destruct (event_inv _ _ _ _ He) as [(a & m & l & -> & E)|[(a & msgs & id & i & t & l & _ & -> & _ & _ & _ & E)|(_ & -> & ->)]].
  - apply k_execute_step in E as [E _]. split; [by eapply k_step_self|].
    apply k_step_admin in E as [(H1 & H2 & H3 & H4)|[(-> & -> & H)|[(x & -> & -> & H)|[(-> & H1 & H2 & H3)|(-> & -> & H)]]]].
    + left. split; [done|]. split; [done|]. split; congruence.
    + right. left. destruct H as (? & ? & ?). done.
    + right. right. left. exists x. done.
    + right. right. right. left. exists a. done.
    + right. right. right. right. done.
  - split; [by eapply k_reply_self|]. apply k_reply_cases in E as (_ & _ & _ & E1 & E2 & _).
    left. done.
  - split; [done|]. left. done.
Qed.
(** A standing nomination was made by the present admin, and not withdrawn since. *)
Definition nominated (l : list kentry) (adm x : addr) : Prop :=
  exists l3 n l4, l = l3 ++ n :: l4 /\ k_admin (k_core (ke_pre n)) = adm /\
    said n = Some (adm, KNominate (Some x)) /\
    forall e, e ∈ l4 -> (forall a, said e <> Some (a, KAccept)) /\ (forall a, said e <> Some (a, KWithdraw)).
Lemma nominated_reached b0 s0 b s l : kleads b0 s0 b s l -> k_nom (k_core s0) = None ->
  forall x, k_nom (k_core s) = Some x -> nominated l (k_admin (k_core s)) x.
Proof.
  intros H H0. induction H as [|b s l b' v s' H IH Hb Hd He]; intros x Hx; [congruence|].
  destruct (event_admin _ _ _ _ He) as [_ [(Ea & En & N1 & N2)|[(_ & _ & _ & En)|[(y & Hy & _ & Ea & En)|[(y & _ & _ & _ & En)|(_ & _ & En)]]]]];
    cbn in *; try congruence.
  - rewrite En in Hx. destruct (IH x Hx) as (l3 & n & l4 & -> & H1 & H2 & H3).
    exists l3, n, (l4 ++ [KEntry s b' v s']). split; [by rewrite <-app_assoc|].
    rewrite Ea. split; [done|]. split; [done|]. intros e Hin.
    apply elem_of_app in Hin as [Hin|Hin]; [by apply H3|].
    apply elem_of_list_singleton in Hin as ->. done.
  - assert (y = x) as -> by congruence. exists l, (KEntry s b' v s'), [].
    split; [done|]. cbn [ke_pre]. rewrite Ea. split; [done|]. split; [done|].
    intros e Hin. by apply elem_of_nil in Hin.
Qed.
(** Only the admin withdraws a nomination, and only one that stands. *)
Lemma withdraws b s l e a : kreached b s l -> e ∈ l -> said e = Some (a, KWithdraw) ->
  a = k_admin (k_core (ke_pre e)) /\ (exists x, k_nom (k_core (ke_pre e)) = Some x) /\
  k_nom (k_core (ke_post e)) = None /\
  k_admin (k_core (ke_post e)) = k_admin (k_core (ke_pre e)).
Proof.
  intros H He Hs. apply kreached_inv in H as [_ H]. apply H in He as (_ & _ & He).
  destruct e as [s1 b1 v s2]. cbn [ke_pre ke_post ke_block ke_ev] in *.
  destruct (event_inv _ _ _ _ He) as [(c & m & l' & Hc & E)|[(c & msgs & id & i & t & l' & _ & Hc & _)|(_ & Hc & _)]];
    rewrite Hc in Hs; try done.
  injection Hs as -> ->. apply k_execute_step in E as [E _].
  cbn [k_step] in E; cbv zeta in E; kcases E; injection E as E _.
  rewrite <-E. cbn. split; [lia|]. destruct (k_nom (k_core s1)); [|done]. eauto.
Qed.
Lemma two_step b s l l1 e l2 : kreached b s l -> l = l1 ++ e :: l2 ->
  k_admin (k_core (ke_post e)) <> k_admin (k_core (ke_pre e)) ->
  let adm := k_admin (k_core (ke_pre e)) in
  (said e = Some (adm, KNominate None) /\
     k_admin (k_core (ke_post e)) = k_self (k_core (ke_pre e))) \/
  (exists x, said e = Some (x, KAccept) /\ k_admin (k_core (ke_post e)) = x /\
     exists l3 n l4, l1 = l3 ++ n :: l4 /\ k_admin (k_core (ke_pre n)) = adm /\
       said n = Some (adm, KNominate (Some x)) /\
       forall e', e' ∈ l4 -> (forall a, said e' <> Some (a, KAccept)) /\
                          (forall a, said e' <> Some (a, KWithdraw))).
Proof.
  intros (b0 & self & c & admin & v & ms & items & s0 & Hi & Hl) E Hn. cbn zeta.
  destruct (kleads_prefix _ _ _ _ _ Hl _ _ _ E) as (b' & Hp & He).
  destruct e as [s1 b1 ev s2]. cbn [ke_pre ke_post ke_block ke_ev] in *.
  assert (k_nom (k_core s0) = None) as H0.
  { unfold k_instantiate in Hi. kcases Hi. by injection Hi as <-. }
  destruct (event_admin _ _ _ _ He) as [_ [(Ea & _)|[(H1 & H2 & _)|[(y & _ & _ & Ea & _)|[(y & Hy & Hm & Ha & _)|(_ & Ea & _)]]]]];
    try done.
  - left. done.
  - right. exists y. split; [done|]. split; [done|].
    exact (nominated_reached _ _ _ _ _ Hp H0 y Hm).
Qed.
(** The first admin is chosen at the creation. *)
Lemma first_admin self c admin v ms items s :
  k_instantiate self c admin v ms items = Ok s ->
  k_admin (k_core s) = match admin with Some a => a | None => self end.
Proof.
  unfold k_instantiate. intros H. kcases H. by injection H as <-.
Qed.
(** The nominee can accept (unless the DAO is paused). *)
Lemma nominee_accepts b s l x : kreached b s l -> k_nom (k_core s) = Some x ->
  ~ paused (k_core s) b -> x <> k_self (k_core s) ->
  exists s', k_event s b (VCall x KAccept) = Ok s' /\ k_admin (k_core s') = x /\
    k_nom (k_core s') = None /\ k_todo s' = k_todo s.
Proof.
  intros _ Hn Hp Nx. cbn. destruct (N.eqb_spec x (k_self (k_core s))); [done|].
  cbn. unfold k_execute. assert (k_shut (k_core s) b x = false) as ->.
  { unfold k_shut. destruct (k_paused (k_core s)) as [e|] eqn:Ep; [|done].
    destruct (is_expired e b) eqn:Ee; [done|]. exfalso. apply Hp. by exists e. }
  cbn. rewrite Hn. rewrite N.eqb_refl. by eexists.
Qed.

(** ** Prefixes *)
Lemma prefix_unique i j p : 0 <= i -> 0 <= j ->
  derive_prefix i = Ok p -> derive_prefix j = Ok p -> i = j.
Proof.
  apply derive_inj.
Qed.
Lemma prefix_letters i p : 0 <= i -> derive_prefix i = Ok p ->
  p <> ""%string /\ capitals p /\ spells 0 p = i + 1.
Proof.
  intros Hi H. split; [|split].
  - intros ->. apply derive_spells in H; [|done]. cbn in H. lia.
  - by eapply derive_capitals.
  - by apply derive_spells.
Qed.
Lemma prefix_defined i : 0 <= i < U32_MAX -> exists p, derive_prefix i = Ok p.
Proof.
  intros H. unfold derive_prefix. destruct (Z.leb_spec (i + 1) U32_MAX); [|lia]. by eexists.
Qed.
Lemma modules_prefixes b s l a a' x x' : kreached b s l ->
  k_mods (k_core s) !! a = Some x -> k_mods (k_core s) !! a' = Some x' -> a <> a' ->
  km_prefix x <> km_prefix x' /\ km_prefix x <> ""%string /\ capitals (km_prefix x).
Proof.
  intros H Hx Hx' Na. apply kreached_inv in H as [I _]. split.
  - intros E. apply Na. exact (ki_prefix _ I _ _ _ _ Hx Hx' E).
  - destruct (ki_index _ I _ _ Hx) as (i & Hi & Hp).
    destruct (prefix_letters i _ ltac:(lia) Hp) as (? & ? & _). done.
Qed.
