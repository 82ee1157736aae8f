(** A history of a DAO with its module, for the examples, and a refutation. *)
From stdpp Require Import gmap strings.
From Verif Require Import Base BaseProofs Exec VotingModel VotingSpec HooksModel
  SingleModel SingleSpec SingleExamples CoreModel CoreSpec CoreProofs.
From Verif Require CoreExamples.
From Verif Require Import DaoModel DaoSpec DaoProofs DaoClaims.

(** DAO 9, its own admin; voting module 50; the module 60.  Messages: 7 sets an item, 8 is to
    another contract, 9 reconfigures the module, 10 makes the DAO send 7 and 8 as its own
    admin, 11 pauses the DAO, 12 creates another module. *)
Definition dx_acts (z : Z) : kact :=
  if z =? 7 then inl (KSetItem "x" "y")
  else if z =? 9 then inr 200%N
  else if z =? 10 then inl (KAdmin [inl (KSetItem "x" "y"); inr 100%N])
  else if z =? 11 then inl (KPause (DHeight 50))
  else inr 100%N.
Definition dx_K : codes :=
  Codes dx_acts (fun n => if (n =? 200)%N then Some (UpdateConfig ex_cfg_revote) else None).
Definition dx_init : result kstate :=
  k_instantiate 9%N (KConf true false 0%N) None 100%N [200%N] [].
Definition dx_start : kstate :=
  match dx_init with
  | Ok s => s
  | Err _ => KState (Core 0 (KConf false false 0) 0 None None None ∅ 0 0 ∅ ∅ ∅ ∅) []
  end.
Definition dx_core : core :=
  match CoreExamples.krun (at_ 1) dx_start [(at_ 1, VReply 50 []); (at_ 1, VReply 60 [])] with
  | Some (_, s, _) => k_core s
  | None => k_core dx_start
  end.
Lemma dx_created : exists l, kreached (at_ 1) (KState dx_core []) l.
Proof.
  eexists. exists (at_ 1). exists 9%N, (KConf true false 0%N), None, 100%N, [200%N], [], dx_start. split.
  { vm_compute. reflexivity. }
  apply (CoreExamples.krun_leads [(at_ 1, VReply 50 []); (at_ 1, VReply 60 [])] _ _ (at_ 1) dx_start []).
  { constructor. }
  vm_compute. reflexivity.
Qed.
Definition dx_s0 (c : config) : dao := Dao dx_core 60%N (ex_state c) [].
Lemma dx_dstart c : validate_config c = Ok tt -> attached 9 (ex_state c) -> dstart (at_ 1) (dx_s0 c).
Proof.
  intros Hc Ha. split; [apply dx_created|]. split; [by eexists|]. split; [|done]. done.
Qed.
Lemma dx_sov c : sovereign (dx_s0 c).
Proof.
  split; [done|]. split; [done|]. intros a [p H]. cbn in H.
  assert (k_mods dx_core = {[60%N := KMod true "A"]}) as E by (vm_compute; reflexivity).
  rewrite E in H. by apply lookup_singleton_Some in H as [<- _].
Qed.

Fixpoint drun (K : codes) (O : oracle) (b : block) (s : dao) (evs : list (block * devent))
  : option (block * dao * list dentry) :=
  match evs with
  | [] => Some (b, s, [])
  | (b', v) :: evs =>
      if (height b <=? height b') && (time b <=? time b') &&
         match d_todo s with [] => true | _ => (height b =? height b') && (time b =? time b') end
         && match heard K s v with
            | Some (_, UpdateConfig c) => (c_dao c =? k_self (d_core s))%N &&
                 match c_thr c with ThresholdQuorum Majority (Percent p) => 0 <=? p | _ => false end
            | _ => true
            end
      then
        match d_event K O s b' v with
        | Ok s' =>
            match drun K O b' s' evs with
            | Some (b'', s'', l) => Some (b'', s'', DEntry s b' v s' :: l)
            | None => None
            end
        | Err _ => None
        end
      else None
  end.
Lemma drun_leads K O evs : forall b0 s0 b s l0 b' s' l, dleads K O b0 s0 b s l0 ->
  drun K O b s evs = Some (b', s', l) -> dleads K O b0 s0 b' s' (l0 ++ l).
Proof.
  induction evs as [|[b1 v] evs IH]; intros b0 s0 b s l0 b' s' l H E; cbn [drun] in E.
  { injection E as <- <- <-. by rewrite app_nil_r. }
  match type of E with (if ?x then _ else _) = _ => destruct x eqn:G; [|done] end.
  apply andb_true_iff in G as [G Gh]. apply andb_true_iff in G as [G Gt].
  apply andb_true_iff in G as [G1 G2].
  destruct (d_event K O s b1 v) as [s1|] eqn:Ev; [|done].
  destruct (drun K O b1 s1 evs) as [[[b2 s2] l2]|] eqn:Er; [|done]. injection E as <- <- <-.
  assert (dleads K O b0 s0 b1 s1 (l0 ++ [DEntry s b1 v s1])) as H1.
  { apply dl_step with b; try done.
    - split; lia.
    - destruct (d_todo s); [by left|]. right. destruct b, b1. cbn in Gt. f_equal; lia.
    - intros a m Hm. rewrite Hm in Gh. destruct m; try done. cbn.
      apply andb_true_iff in Gh as [Ga Gb]. apply N.eqb_eq in Ga. split; [done|].
      destruct (c_thr c) as [|[] []|]; try done. cbn. split; [done|]. lia. }
  specialize (IH _ _ _ _ _ _ _ _ H1 Er). by rewrite <-app_assoc in IH.
Qed.

Lemma is_some_true {A} (x : option A) :
  match x with Some _ => true | None => false end = true -> is_Some x.
Proof. destruct x; [by eexists|done]. Qed.

(** Members 1 and 2 pass proposal 1, and member 3 has it executed. *)
Definition dx_voted (ms : list Z) : list (block * devent) :=
  [ (at_ 10, DProp 1 (Propose (ex_pm ms (Some (Yes, None)))));
    (at_ 12, DProp 2 (CastVote 1 Yes None)) ].
Definition dx_evs : list (block * devent) :=
  dx_voted [7; 8; 10; 9] ++
  [ (at_ 13, DCore 77 KReceive20);
    (at_ 21, DProp 3 (Execute 1)); (at_ 21, DRun); (at_ 21, DSelf); (at_ 21, DSend);
    (at_ 21, DSelf); (at_ 21, DSelf); (at_ 21, DSend); (at_ 21, DSend); (at_ 21, DOver 0) ].
Definition dx_of (c : config) (evs : list (block * devent)) : block * dao * list dentry :=
  match drun dx_K ex_O (at_ 1) (dx_s0 c) evs with
  | Some x => x
  | None => (Block 0 0, dx_s0 c, [])
  end.
Lemma dx_leads c evs : is_Some (drun dx_K ex_O (at_ 1) (dx_s0 c) evs) ->
  dleads dx_K ex_O (at_ 1) (dx_s0 c) (dx_of c evs).1.1 (dx_of c evs).1.2 (dx_of c evs).2.
Proof.
  intros [[[b s] l] E]. unfold dx_of. rewrite E. cbn.
  apply (drun_leads dx_K ex_O evs _ _ (at_ 1) (dx_s0 c) [] b s l); [constructor|done].
Qed.
Lemma dx_reached c evs : validate_config c = Ok tt -> attached 9 (ex_state c) ->
  is_Some (drun dx_K ex_O (at_ 1) (dx_s0 c) evs) ->
  dreached dx_K ex_O (dx_of c evs).1.1 (dx_of c evs).1.2 (dx_of c evs).2.
Proof.
  intros Hc Ha Hr. exists (at_ 1), (dx_s0 c). split; [by apply dx_dstart|].
  split; [apply ex_sane|]. by apply dx_leads.
Qed.
Lemma dx_runs : is_Some (drun dx_K ex_O (at_ 1) (dx_s0 ex_cfg) dx_evs).
Proof. apply is_some_true. vm_compute. reflexivity. Qed.
Lemma dx_reached1 : dreached dx_K ex_O (dx_of ex_cfg dx_evs).1.1 (dx_of ex_cfg dx_evs).1.2
  (dx_of ex_cfg dx_evs).2.
Proof. apply dx_reached; [done|by vm_compute|apply dx_runs]. Qed.

(** Passed; then proposal 2 pauses the DAO, and a stranger's execution of proposal 1 fails
    for good. *)
Definition dx_cfg : config :=
  Config (ThresholdQuorum Majority (Percent (2 * 10 ^ 17))) (DHeight 100) None
    false false 9 true None.
Definition dx_paused : list (block * devent) :=
  dx_voted [7] ++
  [ (at_ 13, DProp 1 (Propose (ex_pm [11] (Some (Yes, None)))));
    (at_ 14, DProp 2 (CastVote 2 Yes None));
    (at_ 15, DProp 3 (Execute 2)); (at_ 15, DRun); (at_ 15, DSelf); (at_ 15, DOver 0) ].
Definition dx_killed : list (block * devent) :=
  dx_paused ++ [ (at_ 16, DProp 66 (Execute 1)); (at_ 16, DFail) ].
Lemma dx_runs_paused : is_Some (drun dx_K ex_O (at_ 1) (dx_s0 dx_cfg) dx_paused).
Proof. apply is_some_true. vm_compute. reflexivity. Qed.
Lemma dx_typed : thr_typed (c_thr (s_cfg (ex_state dx_cfg))).
Proof. by vm_compute. Qed.
Definition dx_end : option (block * dao * list dentry) :=
  drun dx_K ex_O (dx_of dx_cfg dx_paused).1.1 (dx_of dx_cfg dx_paused).1.2
    [(at_ 16, DProp 66 (Execute 1)); (at_ 16, DFail)].
Definition dx_stranger (e : dentry) : bool :=
  match act e with None => true | Some _ => false end &&
  match heard dx_K (de_pre e) (de_ev e) with Some (a, _) => (a =? 66)%N | None => true end.
Lemma c105_refuted :
  exists K O b s l id b' s' l',
    dreached K O b s l /\ query_status (d_prop s) b id = Ok Passed /\
    dleads K O b s b' s' l' /\
    (forall e, e ∈ l' -> act e = None /\
       forall a m, heard K (de_pre e) (de_ev e) = Some (a, m) -> forall h, vp O 9 a h = 0) /\
    status_of (d_prop s') id = Some ExecutionFailed /\ lsum (carried id) (l ++ l') = 0.
Proof.
  assert (is_Some dx_end) as [[[b' s'] l'] E] by (apply is_some_true; vm_compute; reflexivity).
  assert (match dx_end with Some (_, s', l') =>
    bool_decide (status_of (d_prop s') 1 = Some ExecutionFailed) && forallb dx_stranger l' &&
    (lsum (carried 1) ((dx_of dx_cfg dx_paused).2 ++ l') =? 0) | None => false end = true) as C
    by (vm_compute; reflexivity).
  rewrite E in C. apply andb_true_iff in C as [C C3]. apply andb_true_iff in C as [C1 C2].
  exists dx_K, ex_O, (dx_of dx_cfg dx_paused).1.1, (dx_of dx_cfg dx_paused).1.2,
    (dx_of dx_cfg dx_paused).2, 1, b', s', l'. split.
  { exact (dx_reached dx_cfg dx_paused eq_refl (conj eq_refl dx_typed) dx_runs_paused). }
  split; [vm_compute; reflexivity|]. split.
  { apply (drun_leads _ _ _ _ _ _ _ [] _ _ _ (dl_nil _ _ _ _) E). }
  split.
  { intros e He. rewrite forallb_forall in C2. specialize (C2 e).
    rewrite <-elem_of_list_In in C2. specialize (C2 He). unfold dx_stranger in C2.
    apply andb_true_iff in C2 as [C2 C4]. clear - C2 C4. split; [by destruct (act e)|].
    intros a m Hm h. rewrite Hm in C4. apply N.eqb_eq in C4 as ->. reflexivity. }
  clear - C1 C3. split; [by apply bool_decide_eq_true in C1|by apply Z.eqb_eq].
Qed.
(** The messages of the proposal leave no power to others. *)
Lemma dx_stems a : stems a (map dx_acts [7; 8; 10; 9]) ->
  a = inl (KSetItem "x" "y") \/ a = inr 100%N \/
  a = inl (KAdmin [inl (KSetItem "x" "y"); inr 100%N]) \/ a = inr 200%N.
Proof.
  intros H. remember (map dx_acts [7; 8; 10; 9]) as l eqn:El.
  induction H as [a l Ha|a l msgs H IH Ha]; subst l.
  - assert (a ∈ [inl (KSetItem "x" "y") : kact; inr 100%N;
      inl (KAdmin [inl (KSetItem "x" "y"); inr 100%N]); inr 200%N]) as Ha' by exact Ha.
    rewrite !elem_of_cons, elem_of_nil in Ha'. tauto.
  - destruct (IH eq_refl) as [?|[?|[IH'|?]]]; try done. clear IH. rename IH' into IH. injection IH as E. subst msgs.
    rewrite !elem_of_cons, elem_of_nil in Ha. tauto.
Qed.
Definition dx_gives (e : dentry) : bool :=
  match de_ev e, d_todo (de_pre e) with
  | DRun, DP (SExec _ _ ms _) :: _ => bool_decide (ms = [7; 8; 10; 9])
  | _, _ => true
  end.
Lemma dx_retains : forall e id msgs a, e ∈ (dx_of ex_cfg dx_evs).2 -> carries e id msgs ->
  stems a (map (act_of dx_K) msgs) -> retains a.
Proof.
  intros e id msgs a He [Hr (c & t & Et)] Hs.
  assert (forallb dx_gives (dx_of ex_cfg dx_evs).2 = true) as C by (vm_compute; reflexivity).
  rewrite forallb_forall in C. specialize (C e). rewrite <-elem_of_list_In in C.
  specialize (C He). unfold dx_gives in C. rewrite Hr, Et in C. apply bool_decide_eq_true in C as ->.
  apply dx_stems in Hs. by destruct Hs as [->|[->|[->| ->]]].
Qed.
