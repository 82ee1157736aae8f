(** A history of a DAO that gives itself further modules, for the examples. *)
From stdpp Require Import gmap strings.
From Verif Require Import Base BaseProofs Exec VotingModel VotingSpec HooksModel CoreModel
  CoreSpec CoreProofs ManyModel ManySpec ManyProofs ManyClaims.
From Verif Require SingleModel MultModel CondModel SingleSpec MultSpec CondSpec
  SingleExamples MultExamples CondExamples DaoExamples.
Notation at_ := SingleExamples.at_.

(** DAO 9, its own admin; voting module 50; a single-choice module 60.  Messages: 7 sets an item,
    12 creates a multiple-choice module and a Condorcet module, 13 disables module 60, 14
    reconfigures module 61, 8 is to another contract. *)
Definition nx_acts (z : Z) : kact :=
  if z =? 7 then inl (KSetItem "x" "y")
  else if z =? 12 then inl (KModules [300%N; 301%N] [])
  else if z =? 13 then inl (KModules [] [60%N])
  else if z =? 14 then inr 200%N
  else inr 100%N.
Definition nx_K : codes :=
  Codes nx_acts (fun n =>
    if (n =? 200)%N then Some (61%N, CMult (MultModel.UpdateConfig MultExamples.ex_cfg_revote))
    else None).
Definition nx_Q : powers := Powers SingleExamples.ex_O MultExamples.ex_O CondExamples.ex_O.
Definition nx_s0 : many :=
  Many DaoExamples.dx_core {[60%N := PSingle (SingleExamples.ex_state SingleExamples.ex_cfg)]} [].
Definition nx_mult : pmodule := PMult (MultExamples.ex_state MultExamples.ex_cfg).
Definition nx_cond : pmodule := PCond (CondExamples.ex_state CondExamples.ex_cfg).
Lemma nx_sane : sane nx_Q 9.
Proof.
  split; [apply SingleExamples.ex_sane|].
  split; [apply MultExamples.ex_sane|apply CondExamples.ex_typed].
Qed.
Lemma nx_new1 : new_of 9 (PSingle (SingleExamples.ex_state SingleExamples.ex_cfg)).
Proof. split; [done|]. by vm_compute. Qed.
Lemma nx_new2 : new_of 9 nx_mult.
Proof. split; [done|]. by vm_compute. Qed.
Lemma nx_new3 : new_of 9 nx_cond.
Proof. split; done. Qed.
Lemma nx_start : qstart (at_ 1) nx_s0.
Proof.
  split; [exact DaoExamples.dx_created|]. split; [|done].
  intros q p Hp. unfold nx_s0 in Hp. cbn [q_mods] in Hp. apply lookup_singleton_Some in Hp as [<- <-]. split; [by eexists|].
  exact nx_new1.
Qed.
Lemma nx_sov : sovereign nx_s0.
Proof.
  split; [done|]. split; [done|]. intros a [p H]. cbn in H.
  assert (k_mods DaoExamples.dx_core = {[60%N := KMod true "A"]}) as E by (vm_compute; reflexivity).
  rewrite E in H. apply lookup_singleton_Some in H as [<- _]. by eexists.
Qed.

Definition heeds (s : many) (x : option (addr * pcall)) : bool :=
  match x with
  | Some (_, CSingle (SingleModel.UpdateConfig _)) => false
  | Some (_, CMult (MultModel.UpdateConfig c)) =>
      (MultModel.c_dao c =? k_self (q_core s))%N &&
      match MultModel.c_quorum c with Percent p => 0 <=? p | _ => true end
  | _ => true
  end.
Fixpoint qrun (K : codes) (Q : powers) (b : block) (s : many) (evs : list (block * qevent))
  : option (block * many * list qentry) :=
  match evs with
  | [] => Some (b, s, [])
  | (b', v) :: evs =>
      if (height b <=? height b') && (time b <=? time b') &&
         match q_todo s with [] => true | _ => (height b =? height b') && (time b =? time b') end
         && heeds s (heard K s v) && (k_self (q_core s) =? 9)%N
      then
        match q_event K Q s b' v with
        | Ok s' =>
            match qrun K Q b' s' evs with
            | Some (b'', s'', l) => Some (b'', s'', QEntry s b' v s' :: l)
            | None => None
            end
        | Err _ => None
        end
      else None
  end.
Lemma qrun_leads K Q evs : (forall b a p msgs, (b, QReply a (Some p) msgs) ∈ evs -> new_of 9 p) ->
  forall b0 s0 b s l0 b' s' l, qleads K Q b0 s0 b s l0 ->
  qrun K Q b s evs = Some (b', s', l) -> qleads K Q b0 s0 b' s' (l0 ++ l).
Proof.
  induction evs as [|[b1 v] evs IH]; intros Hnew b0 s0 b s l0 b' s' l H E; cbn [qrun] in E.
  { injection E as <- <- <-. by rewrite app_nil_r. }
  match type of E with (if ?x then _ else _) = _ => destruct x eqn:G; [|done] end.
  apply andb_true_iff in G as [G Gs]. apply N.eqb_eq in Gs.
  apply andb_true_iff in G as [G Gh]. apply andb_true_iff in G as [G Gt].
  apply andb_true_iff in G as [G1 G2].
  destruct (q_event K Q s b1 v) as [s1|] eqn:Ev; [|done].
  destruct (qrun K Q b1 s1 evs) as [[[b2 s2] l2]|] eqn:Er; [|done]. injection E as <- <- <-.
  assert (qleads K Q b0 s0 b1 s1 (l0 ++ [QEntry s b1 v s1])) as H1.
  { apply ql_step with b; try done.
    - split; lia.
    - destruct (q_todo s); [by left|]. right. destruct b, b1. cbn in Gt. f_equal; lia.
    - intros a m Hm. rewrite Hm in Gh. destruct m as [m|m|m]; cbn in Gh |- *; [by destruct m| |done].
      destruct m; try done. cbn.
      apply andb_true_iff in Gh as [Ga Gb]. apply N.eqb_eq in Ga. split; [done|].
      destruct (MultModel.c_quorum c); [done|]. cbn. lia.
    - intros a p msgs ->. rewrite Gs. eapply Hnew. left. }
  assert (forall b a p msgs, (b, QReply a (Some p) msgs) ∈ evs -> new_of 9 p) as Hnew'.
  { intros b3 a p msgs Hin. eapply Hnew. right. exact Hin. }
  specialize (IH Hnew' _ _ _ _ _ _ _ _ H1 Er). by rewrite <-app_assoc in IH.
Qed.

(** Module 60 makes the DAO create modules 61 and 62; module 61 has the DAO disable module 60 and
    reconfigure itself; a proposal of module 60 that has passed meanwhile fails; module 62
    has the DAO set an item. *)
Definition nx_evs : list (block * qevent) :=
  [ (at_ 10, QProp 1 60 (CSingle (SingleModel.Propose (SingleExamples.ex_pm [12] (Some (Yes, None))))));
    (at_ 11, QProp 1 60 (CSingle (SingleModel.Propose (SingleExamples.ex_pm [7] (Some (Yes, None))))));
    (at_ 12, QProp 2 60 (CSingle (SingleModel.CastVote 1 Yes None)));
    (at_ 12, QProp 2 60 (CSingle (SingleModel.CastVote 2 Yes None)));
    (at_ 13, QCore 77 KReceive20);
    (at_ 21, QProp 3 60 (CSingle (SingleModel.Execute 1))); (at_ 21, QRun); (at_ 21, QSelf);
    (at_ 21, QReply 61 (Some nx_mult) []); (at_ 21, QReply 62 (Some nx_cond) []);
    (at_ 21, QOver 0);
    (at_ 22, QProp 1 61 (CMult (MultModel.Propose
      (MultExamples.ex_pm [[8]; [13; 14]; []] (Some (1%nat, None))))));
    (at_ 22, QProp 1 62 (CCond (CondModel.Propose [[8]; [7]])));
    (at_ 23, QProp 1 62 (CCond (CondModel.CastVote 1 [1; 0; 2])));
    (at_ 23, QProp 2 61 (CMult (MultModel.CastVote 1 1 None)));
    (at_ 24, QProp 2 62 (CCond (CondModel.CastVote 1 [1; 2; 0])));
    (at_ 33, QProp 3 61 (CMult (MultModel.Execute 1))); (at_ 33, QRun); (at_ 33, QSelf);
    (at_ 33, QSend); (at_ 33, QOver 0);
    (at_ 34, QProp 3 60 (CSingle (SingleModel.Execute 2))); (at_ 34, QFail);
    (at_ 35, QProp 3 62 (CCond (CondModel.Execute 1))); (at_ 35, QRun); (at_ 35, QSelf);
    (at_ 35, QOver 0) ].
Lemma nx_news : forall b a p msgs, (b, QReply a (Some p) msgs) ∈ nx_evs -> new_of 9 p.
Proof.
  intros b a p msgs H. unfold nx_evs in H.
  repeat (apply elem_of_cons in H as [H|H];
    [first [discriminate H|injection H; intros; subst; first [exact nx_new2|exact nx_new3]]|]).
  by apply elem_of_nil in H.
Qed.
Definition nx_of : block * many * list qentry :=
  match qrun nx_K nx_Q (at_ 1) nx_s0 nx_evs with
  | Some x => x
  | None => (Block 0 0, nx_s0, [])
  end.
Lemma nx_runs : is_Some (qrun nx_K nx_Q (at_ 1) nx_s0 nx_evs).
Proof. apply DaoExamples.is_some_true. vm_compute. reflexivity. Qed.
Lemma nx_leads : qleads nx_K nx_Q (at_ 1) nx_s0 nx_of.1.1 nx_of.1.2 nx_of.2.
Proof.
  destruct nx_runs as [[[b s] l] E]. unfold nx_of. rewrite E. cbn.
  apply (qrun_leads nx_K nx_Q nx_evs nx_news _ _ (at_ 1) nx_s0 [] b s l); [constructor|exact E].
Qed.
Lemma nx_reached : qreached nx_K nx_Q nx_of.1.1 nx_of.1.2 nx_of.2.
Proof.
  exists (at_ 1), nx_s0. split; [exact nx_start|]. split; [exact nx_sane|exact nx_leads].
Qed.
Definition homelyb (e : qentry) : bool :=
  match qe_ev e with QReply _ None _ => false | _ => true end.
Lemma nx_homely : forall e, e ∈ nx_of.2 -> homely e.
Proof.
  assert (forallb homelyb nx_of.2 = true) as C by (vm_compute; reflexivity).
  intros e He. rewrite forallb_forall in C. specialize (C e).
  rewrite <-elem_of_list_In in C. specialize (C He). unfold homely, homelyb in *.
  by destruct (qe_ev e) as [| | | |? []| | |].
Qed.
(** The messages give no power to others. *)
Definition plainb (a : kact) : bool :=
  match a with
  | inl (KNominate (Some _)) | inl (KVoting _) | inl (KAdmin _) => false | _ => true
  end.
Lemma plain_stems l a : forallb plainb l = true -> stems a l -> plainb a = true.
Proof.
  intros Hl H. induction H as [a l Ha|a l msgs H IH Ha].
  - rewrite forallb_forall in Hl. apply Hl. by apply elem_of_list_In.
  - by specialize (IH Hl).
Qed.
Definition nx_gives (e : qentry) : bool :=
  match qe_ev e, q_todo (qe_pre e) with
  | QRun, QP _ x :: _ =>
      match p_exec x with
      | Some (_, _, ms) => forallb plainb (map nx_acts ms)
      | None => true
      end
  | _, _ => true
  end.
Lemma nx_retains : forall e q id msgs a, e ∈ nx_of.2 -> carries e q id msgs ->
  stems a (map (act_of nx_K) msgs) -> retains a.
Proof.
  intros e q id msgs a He [Hr (x & t & Et & Ex)] Hs.
  assert (forallb nx_gives nx_of.2 = true) as C by (vm_compute; reflexivity).
  rewrite forallb_forall in C. specialize (C e). rewrite <-elem_of_list_In in C.
  specialize (C He). unfold nx_gives in C. rewrite Hr, Et, Ex in C.
  pose proof (plain_stems _ _ C Hs) as Hp. unfold retains. unfold plainb in Hp.
  destruct a as [[]|]; try done. by repeat case_match.
Qed.

(** If a module of another kind is created, it acts for the DAO without a proposal: module 63
    has the DAO set an item. *)
Definition nx_foreign : list (block * qevent) :=
  [ (at_ 10, QProp 1 60 (CSingle (SingleModel.Propose (SingleExamples.ex_pm [12] (Some (Yes, None))))));
    (at_ 12, QProp 2 60 (CSingle (SingleModel.CastVote 1 Yes None)));
    (at_ 21, QProp 3 60 (CSingle (SingleModel.Execute 1))); (at_ 21, QRun); (at_ 21, QSelf);
    (at_ 21, QReply 63 None []); (at_ 21, QReply 62 (Some nx_cond) []); (at_ 21, QOver 0);
    (at_ 22, QCore 63 (KHook [inl (KSetItem "x" "y")])); (at_ 22, QSelf) ].
Lemma nx_foreign_news : forall b a p msgs, (b, QReply a (Some p) msgs) ∈ nx_foreign -> new_of 9 p.
Proof.
  intros b a p msgs H. unfold nx_foreign in H.
  repeat (apply elem_of_cons in H as [H|H];
    [first [discriminate H|injection H; intros; subst; first [exact nx_new2|exact nx_new3]]|]).
  by apply elem_of_nil in H.
Qed.
(** Everything the DAO is given by its modules is message 12. *)
Definition nx_gives12 (e : qentry) : bool :=
  match qe_ev e, q_todo (qe_pre e) with
  | QRun, QP _ x :: _ =>
      match p_exec x with Some (_, _, ms) => bool_decide (ms = [12]) | None => true end
  | _, _ => true
  end.
Lemma stems12 a : stems a (map nx_acts [12]) -> a = inl (KModules [300%N; 301%N] []).
Proof.
  intros H. remember (map nx_acts [12]) as l eqn:El. induction H as [a l Ha|a l msgs H IH Ha].
  - subst l. by apply elem_of_list_singleton in Ha.
  - specialize (IH El). done.
Qed.
Definition sets9 (l : list qentry) : bool :=
  match l !! 9%nat with
  | Some e => match did e with Some (Act (inl (KSetItem _ _))) => true | _ => false end
  | None => false
  end.
Lemma sets9_spec l : sets9 l = true ->
  exists e k v, l !! 9%nat = Some e /\ did e = Some (Act (inl (KSetItem k v))).
Proof.
  unfold sets9. destruct (l !! 9%nat) as [e|]; [|done].
  destruct (did e) as [[[[]|]|]|] eqn:Ed; try done. intros _. by exists e, key, value.
Qed.
Lemma gives12_spec l : forallb nx_gives12 l = true ->
  forall e q id msgs, e ∈ l -> carries e q id msgs -> msgs = [12].
Proof.
  intros C1 e q id msgs He [Hr (x & t & Et & Ex)]. rewrite forallb_forall in C1.
  specialize (C1 e). rewrite <-elem_of_list_In in C1. specialize (C1 He).
  unfold nx_gives12 in C1. rewrite Hr, Et, Ex in C1. by apply bool_decide_eq_true in C1.
Qed.
Definition nx_fend : block * many * list qentry :=
  match qrun nx_K nx_Q (at_ 1) nx_s0 nx_foreign with
  | Some x => x
  | None => (Block 0 0, nx_s0, [])
  end.
Lemma nx_fleads : qleads nx_K nx_Q (at_ 1) nx_s0 nx_fend.1.1 nx_fend.1.2 nx_fend.2.
Proof.
  assert (is_Some (qrun nx_K nx_Q (at_ 1) nx_s0 nx_foreign)) as [[[b s] l] E].
  { apply DaoExamples.is_some_true. vm_compute. reflexivity. }
  unfold nx_fend. rewrite E. cbn.
  apply (qrun_leads nx_K nx_Q nx_foreign nx_foreign_news _ _ (at_ 1) nx_s0 [] b s l);
    [constructor|exact E].
Qed.
Lemma foreign_generic b s l :
  qleads nx_K nx_Q (at_ 1) nx_s0 b s l -> forallb nx_gives12 l = true -> sets9 l = true ->
  exists K Q b0 s0 b s l l1 e l2 a,
  qstart b0 s0 /\ sane Q (k_self (q_core s0)) /\ sovereign s0 /\ qleads K Q b0 s0 b s l /\
  (forall e q id msgs a, e ∈ l -> carries e q id msgs -> stems a (map (act_of K) msgs) ->
     retains a) /\
  l = l1 ++ e :: l2 /\ did e = Some (Act a) /\ ~ mandated K Q l a.
Proof.
  intros Hl C1 C2. pose proof (gives12_spec l C1) as H12.
  destruct (sets9_spec l C2) as (e & k & v & El & Ed).
  exists nx_K, nx_Q, (at_ 1), nx_s0, b, s, l, (take 9 l), e, (drop 10 l), (inl (KSetItem k v)).
  split; [exact nx_start|]. split; [exact nx_sane|]. split; [exact nx_sov|].
  split; [exact Hl|]. split.
  { intros e' q id msgs a He Hc Hs. rewrite (H12 _ _ _ _ He Hc) in Hs.
    apply stems12 in Hs as ->. exact I. }
  split; [symmetry; exact (take_drop_middle l 9 e El)|]. split; [exact Ed|].
  intros (e' & q & id & msgs & He & Hc & _ & _ & Hs). rewrite (H12 _ _ _ _ He Hc) in Hs.
  apply stems12 in Hs. discriminate Hs.
Qed.
Lemma c140_foreign_refuted : exists K Q b0 s0 b s l l1 e l2 a,
  qstart b0 s0 /\ sane Q (k_self (q_core s0)) /\ sovereign s0 /\ qleads K Q b0 s0 b s l /\
  (forall e q id msgs a, e ∈ l -> carries e q id msgs -> stems a (map (act_of K) msgs) ->
     retains a) /\
  l = l1 ++ e :: l2 /\ did e = Some (Act a) /\ ~ mandated K Q l a.
Proof.
  apply (foreign_generic nx_fend.1.1 nx_fend.1.2 nx_fend.2).
  - exact nx_fleads.
  - vm_compute. reflexivity.
  - vm_compute. reflexivity.
Qed.
