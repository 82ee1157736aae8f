(** The claims about the records of the DAO core. *)
From stdpp Require Import gmap strings.
From Verif Require Import Base BaseProofs CoreModel CoreSpec CoreProofs RecordsSpec.

Lemma last_said_app {A} (f : kentry -> option A) l e a0 :
  last_said f (l ++ [e]) a0 = default (last_said f l a0) (f e).
Proof. unfold last_said. by rewrite fold_left_app. Qed.
(** Something read from the state that follows what is said follows it through histories. *)
Lemma follows {A} (g : core -> A) (f : kentry -> option A) c items b s l a0 :
  (forall self admin voting modules s0,
     k_instantiate self c admin voting modules items = Ok s0 -> g (k_core s0) = a0) ->
  (forall s b v s', k_event s b v = Ok s' -> g (k_core s') = default (g (k_core s)) (f (KEntry s b v s'))) ->
  kborn c items b s l -> g (k_core s) = last_said f l a0.
Proof.
  intros H0 Hf (b0 & self & admin & v & ms & s0 & Hi & H).
  induction H as [|b s l b' e s' H IH Hb Hd He].
  - by eapply H0.
  - rewrite last_said_app, <-IH. by apply Hf.
Qed.
(** One step, by its kind. *)
Lemma step_kinds {A} (g : core -> A) (f : kentry -> option A) s b v s' :
  k_event s b v = Ok s' ->
  (forall a m l, said (KEntry s b v s') = Some (a, m) -> k_step (k_core s) b a m = Ok (k_core s', l) ->
     g (k_core s') = default (g (k_core s)) (f (KEntry s b v s'))) ->
  (forall a msgs id i t l, v = VReply a msgs -> said (KEntry s b v s') = None -> k_todo s = KInst id i :: t ->
     k_reply (k_core s) id a msgs = Ok (k_core s', l) ->
     g (k_core s') = default (g (k_core s)) (f (KEntry s b v s'))) ->
  (v = VDone -> said (KEntry s b v s') = None -> f (KEntry s b v s') = None) ->
  g (k_core s') = default (g (k_core s)) (f (KEntry s b v s')).
Proof.
  intros H H1 H2 H3. destruct (event_inv _ _ _ _ H) as [(a & m & l & Hs & E)|[(a & msgs & id & i & t & l & Hv & Hs & Ht & _ & _ & E)|(Hv & Hs & E)]].
  - apply k_execute_step in E as [E _]. by eapply H1.
  - by eapply H2.
  - rewrite E, H3 by done. done.
Qed.
Lemma init_core self c admin voting modules items s0 :
  k_instantiate self c admin voting modules items = Ok s0 ->
  exists m, init_items ∅ items = Ok m /\
    k_core s0 = Core self c (default self admin) None None None ∅ 0 0 m ∅ ∅ ∅.
Proof.
  unfold k_instantiate. intros H. destruct modules; [done|]. cbn in H.
  destruct (init_items ∅ items) as [m|]; [|done]. injection H as <-. eauto.
Qed.
Lemma init_items_lookup items : forall (m0 m : gmap string string) k,
  init_items m0 items = Ok m ->
  m !! k = match m0 !! k with Some v => Some v | None => paired k items end.
Proof.
  induction items as [|[k' v'] items IH]; intros m0 m k H; cbn in H.
  - injection H as <-. unfold paired. cbn. by destruct (m0 !! k).
  - destruct (m0 !! k') eqn:E0; [done|]. cbn in H. rewrite (IH _ _ k H). unfold paired. cbn.
    destruct (decide (k' = k)) as [->|Hn].
    + rewrite lookup_insert, E0, bool_decide_eq_true_2 by done. done.
    + rewrite lookup_insert_ne, bool_decide_eq_false_2 by done. done.
Qed.

Lemma items_said c items b s l k : kborn c items b s l ->
  k_items (k_core s) !! k = last_said (says_item k) l (paired k items).
Proof.
  apply (follows (fun x : core => k_items x !! k)).
  - intros self admin v ms s0 H. apply init_core in H as (m & Hm & ->). cbn.
    rewrite (init_items_lookup _ _ _ k Hm). done.
  - intros s1 b1 v s2 H. apply (step_kinds (fun x : core => k_items x !! k)); [done| | |].
    + intros a m l1 Hs E. unfold says_item. rewrite Hs.
      destruct m; cbn [k_step] in E; cbv zeta in E; kcases E; injection E as E <-; rewrite <-E; cbn; try done.
      * by destruct (kc_auto20 _).
      * by destruct (kc_auto721 _).
      * destruct (decide (key = k)) as [->|Hn].
        { by rewrite lookup_delete, bool_decide_eq_true_2. }
        { by rewrite lookup_delete_ne, bool_decide_eq_false_2. }
      * destruct (decide (key = k)) as [->|Hn].
        { by rewrite lookup_insert, bool_decide_eq_true_2. }
        { by rewrite lookup_insert_ne, bool_decide_eq_false_2. }
      * by destruct a0.
    + intros a msgs id i t l1 _ Hs _ E. unfold says_item. rewrite Hs. cbn.
      apply k_reply_cases in E as (E & _). unfold settings in E. congruence.
    + intros _ Hs. unfold says_item. by rewrite Hs.
Qed.
Lemma update_list_said l add remove l' a : update_list l add remove = Ok l' ->
  bool_decide (a ∈ l') = default (bool_decide (a ∈ l)) (says_list a add remove).
Proof.
  unfold update_list, says_list. destruct (forallb snd add); [|done]. intros [= <-].
  destruct (bool_decide (a ∈ remove)) eqn:E1; cbn.
  - apply bool_decide_eq_true in E1. apply bool_decide_eq_false_2. set_solver.
  - apply bool_decide_eq_false in E1. destruct (bool_decide (a ∈ map fst add)) eqn:E2; cbn.
    + apply bool_decide_eq_true in E2. apply bool_decide_eq_true_2. set_solver.
    + apply bool_decide_eq_false in E2. apply bool_decide_ext. set_solver.
Qed.
Definition in20 (a : addr) (x : core) : bool := bool_decide (a ∈ k_cw20s x).
Definition in721 (a : addr) (x : core) : bool := bool_decide (a ∈ k_cw721s x).
Lemma cw20s_said c items b s l a : kborn c items b s l ->
  bool_decide (a ∈ k_cw20s (k_core s)) = last_said (says_cw20 a) l false.
Proof.
  apply (follows (in20 a)).
  - intros self admin v ms s0 H. apply init_core in H as (m & Hm & ->).
    apply bool_decide_eq_false_2. cbn. set_solver.
  - intros s1 b1 v s2 H. apply (step_kinds (in20 a)); [done| | |].
    + intros x m l1 Hs E. unfold says_cw20, in20. rewrite Hs.
      destruct m; cbn [k_step] in E; cbv zeta in E; kcases E; injection E as E <-; rewrite <-E; cbn; try done.
      * destruct (kc_auto20 _); cbn; [|by rewrite andb_false_r]. rewrite andb_true_r.
        destruct (decide (x = a)) as [->|Hn].
        { rewrite (bool_decide_eq_true_2 (a = a)) by done. cbn. apply bool_decide_eq_true_2. set_solver. }
        { rewrite (bool_decide_eq_false_2 (x = a)) by done. cbn. apply bool_decide_ext. set_solver. }
      * by destruct (kc_auto721 _).
      * by apply update_list_said.
      * by destruct a0.
    + intros x msgs id i t l1 _ Hs _ E. unfold says_cw20, in20. rewrite Hs. cbn.
      apply k_reply_cases in E as (_ & E & _). unfold lists in E.
      injection E as E1 E2. apply bool_decide_ext. by rewrite ?E1, ?E2.
    + intros _ Hs. unfold says_cw20. by rewrite Hs.
Qed.
Lemma cw721s_said c items b s l a : kborn c items b s l ->
  bool_decide (a ∈ k_cw721s (k_core s)) = last_said (says_cw721 a) l false.
Proof.
  apply (follows (in721 a)).
  - intros self admin v ms s0 H. apply init_core in H as (m & Hm & ->).
    apply bool_decide_eq_false_2. cbn. set_solver.
  - intros s1 b1 v s2 H. apply (step_kinds (in721 a)); [done| | |].
    + intros x m l1 Hs E. unfold says_cw721, in721. rewrite Hs.
      destruct m; cbn [k_step] in E; cbv zeta in E; kcases E; injection E as E <-; rewrite <-E; cbn; try done.
      * by destruct (kc_auto20 _).
      * destruct (kc_auto721 _); cbn; [|by rewrite andb_false_r]. rewrite andb_true_r.
        destruct (decide (x = a)) as [->|Hn].
        { rewrite (bool_decide_eq_true_2 (a = a)) by done. cbn. apply bool_decide_eq_true_2. set_solver. }
        { rewrite (bool_decide_eq_false_2 (x = a)) by done. cbn. apply bool_decide_ext. set_solver. }
      * by apply update_list_said.
      * by destruct a0.
    + intros x msgs id i t l1 _ Hs _ E. unfold says_cw721, in721. rewrite Hs. cbn.
      apply k_reply_cases in E as (_ & E & _). unfold lists in E.
      injection E as E1 E2. apply bool_decide_ext. by rewrite ?E1, ?E2.
    + intros _ Hs. unfold says_cw721. by rewrite Hs.
Qed.
Lemma dels_lookup (m : gmap addr (option string)) (l : list addr) (a : addr) :
  fold_left (fun m a => delete a m) l m !! a = if bool_decide (a ∈ l) then None else m !! a.
Proof.
  revert m. induction l as [|x l IH]; intros m; cbn.
  - by rewrite bool_decide_eq_false_2 by apply not_elem_of_nil.
  - rewrite IH. destruct (decide (a ∈ l)) as [H|H].
    + rewrite !bool_decide_eq_true_2; [done| |done]. by right.
    + rewrite (bool_decide_eq_false_2 (a ∈ l)) by done. destruct (decide (a = x)) as [->|Hn].
      * rewrite lookup_delete, bool_decide_eq_true_2; [done|left].
      * rewrite lookup_delete_ne by done. rewrite bool_decide_eq_false_2; [done|]. by apply not_elem_of_cons.
Qed.
Lemma puts_lookup (m : gmap addr (option string)) (l : list (addr * option string)) (a : addr) :
  fold_left (fun m x => <[x.1 := x.2]> m) l m !! a =
    match paired a (rev l) with Some v => Some v | None => m !! a end.
Proof.
  induction l as [|x l IH] using rev_ind; cbn; [done|].
  rewrite fold_left_app, rev_app_distr. cbn. unfold paired. cbn.
  destruct (decide (x.1 = a)) as [->|Hn].
  - by rewrite lookup_insert, bool_decide_eq_true_2.
  - rewrite lookup_insert_ne, bool_decide_eq_false_2 by done. exact IH.
Qed.
Lemma subdaos_said c items b s l a : kborn c items b s l ->
  k_subdaos (k_core s) !! a = last_said (says_subdao a) l None.
Proof.
  apply (follows (fun x : core => k_subdaos x !! a)).
  - intros self admin v ms s0 H. by apply init_core in H as (m & Hm & ->).
  - intros s1 b1 v s2 H. apply (step_kinds (fun x : core => k_subdaos x !! a)); [done| | |].
    + intros x m l1 Hs E. unfold says_subdao. rewrite Hs.
      destruct m; cbn [k_step] in E; cbv zeta in E; kcases E; injection E as E <-; rewrite <-E; cbn; try done.
      * by destruct (kc_auto20 _).
      * by destruct (kc_auto721 _).
      * by destruct a0.
      * unfold update_subdaos. rewrite puts_lookup, dels_lookup. destruct (paired a (rev add)); [done|].
        by destruct (bool_decide (a ∈ remove)).
    + intros x msgs id i t l1 _ Hs _ E. unfold says_subdao. rewrite Hs. cbn.
      apply k_reply_cases in E as (E & _). unfold settings in E. congruence.
    + intros _ Hs. unfold says_subdao. by rewrite Hs.
Qed.
Lemma config_said c items b s l : kborn c items b s l -> k_conf (k_core s) = last_said says_config l c.
Proof.
  apply (follows k_conf).
  - intros self admin v ms s0 H. by apply init_core in H as (m & Hm & ->).
  - intros s1 b1 v s2 H. apply (step_kinds k_conf); [done| | |].
    + intros x m l1 Hs E. unfold says_config. rewrite Hs.
      destruct m; cbn [k_step] in E; cbv zeta in E; kcases E; injection E as E <-; rewrite <-E; cbn; try done.
      * by destruct (kc_auto20 _).
      * by destruct (kc_auto721 _).
      * by destruct a.
    + intros x msgs id i t l1 _ Hs _ E. unfold says_config. rewrite Hs. cbn.
      apply k_reply_cases in E as (E & _). unfold settings in E. congruence.
    + intros _ Hs. unfold says_config. by rewrite Hs.
Qed.
Lemma voting_said c items b s l : kborn c items b s l ->
  k_voting (k_core s) = last_said says_voting l None.
Proof.
  apply (follows k_voting).
  - intros self admin v ms s0 H. by apply init_core in H as (m & Hm & ->).
  - intros s1 b1 v s2 H. apply (step_kinds k_voting); [done| | |].
    + intros x m l1 Hs E. unfold says_voting. cbn [ke_ev ke_pre].
      assert (match v with VReply _ _ => False | _ => True end) as Hv by (by destruct v).
      assert (k_voting (k_core s2) = k_voting (k_core s1)) as ->.
      { destruct m; cbn [k_step] in E; cbv zeta in E; kcases E; injection E as E <-; rewrite <-E; cbn; try done.
        * by destruct (kc_auto20 _).
        * by destruct (kc_auto721 _).
        * by destruct a. }
      by destruct v.
    + intros x msgs id i t l1 -> Hs Ht E. unfold says_voting. cbn [ke_ev ke_pre]. rewrite Ht.
      unfold k_reply in E. destruct (Z.eqb_spec id PROPOSAL_ID) as [->|Hid].
      { kcases E. injection E as E <-. by rewrite <-E. }
      destruct (Z.eqb_spec id VOTE_ID).
      { kcases E. injection E as E <-. by rewrite <-E. }
      destruct (Z.eqb_spec id VOTE_UPDATE_ID); [|done]. injection E as E <-. by rewrite <-E.
    + intros -> _. done.
Qed.

(** The DAO's own calls work, paused or not. *)
Lemma own_works s b m t : k_todo s = KSend (inl m) :: t ->
  match m with
  | KSetItem k v => exists s', k_event s b VSelf = Ok s' /\ k_items (k_core s') !! k = Some v
  | KRemoveItem k => is_Some (k_items (k_core s) !! k) ->
      exists s', k_event s b VSelf = Ok s' /\ k_items (k_core s') !! k = None
  | KConfig c => exists s', k_event s b VSelf = Ok s' /\ k_conf (k_core s') = c
  | KCw20s add _ | KCw721s add _ => (forall x, x ∈ add -> x.2 = true) -> is_ok (k_event s b VSelf) = true
  | KSubdaos _ _ => is_ok (k_event s b VSelf) = true
  | KVoting i => exists s', k_event s b VSelf = Ok s' /\ k_todo s' = KInst VOTE_UPDATE_ID i :: t
  | _ => True
  end.
Proof.
  intros Ht.
  assert (k_shut (k_core s) b (k_self (k_core s)) = false) as Hsh.
  { unfold k_shut. destruct (k_paused (k_core s)); [|done]. by rewrite N.eqb_refl, andb_false_r. }
  destruct m; try done; cbn; rewrite Ht; unfold k_execute; rewrite Hsh; cbn; rewrite ?N.eqb_refl; cbn.
  - intros [v ->]. eexists. split; [done|]. cbn. by rewrite lookup_delete.
  - eexists. split; [done|]. cbn. by rewrite lookup_insert.
  - eexists. split; done.
  - intros Ha. unfold update_list. replace (forallb snd add) with true; [done|].
    symmetry. apply forallb_forall. intros x Hx. by apply Ha, elem_of_list_In.
  - intros Ha. unfold update_list. replace (forallb snd add) with true; [done|].
    symmetry. apply forallb_forall. intros x Hx. by apply Ha, elem_of_list_In.
  - eexists. split; done.
  - done.
Qed.
