(** A history of a DAO with its module, for the examples, and a refutation. *)
From stdpp Require Import gmap strings.
From Verif Require Import Base BaseProofs Exec VotingModel VotingSpec HooksModel
  MultModel MultSpec MultExamples CoreModel CoreSpec CoreProofs.
From Verif Require CoreExamples.
From Verif Require Import MDaoModel MDaoSpec MDaoProofs MDaoClaims.

(** DAO 9, its own admin; voting module 50; the module 60.  Messages: 7 sets an item, 8 is to
    another contract, 9 reconfigures the module, 10 makes the DAO send 7 and 8 as its own
    admin, 11 pauses the DAO, 12 creates another module. *)
Definition mx_acts (z : Z) : kact :=
  if z =? 7 then inl (KSetItem "x" "y")
  else if z =? 9 then inr 200%N
  else if z =? 10 then inl (KAdmin [inl (KSetItem "x" "y"); inr 100%N])
  else if z =? 11 then inl (KPause (DHeight 50))
  else inr 100%N.
Definition mx_K : codes :=
  Codes mx_acts (fun n => if (n =? 200)%N then Some (UpdateConfig ex_cfg_revote) else None).
Definition mx_init : result kstate :=
  k_instantiate 9%N (KConf true false 0%N) None 100%N [200%N] [].
Definition mx_start : kstate :=
  match mx_init with
  | Ok s => s
  | Err _ => KState (Core 0 (KConf false false 0) 0 None None None ∅ 0 0 ∅ ∅ ∅ ∅) []
  end.
Definition mx_core : core :=
  match CoreExamples.krun (at_ 1) mx_start [(at_ 1, VReply 50 []); (at_ 1, VReply 60 [])] with
  | Some (_, s, _) => k_core s
  | None => k_core mx_start
  end.
Lemma mx_created : exists l, kreached (at_ 1) (KState mx_core []) l.
Proof.
  eexists. exists (at_ 1). exists 9%N, (KConf true false 0%N), None, 100%N, [200%N], [], mx_start. split.
  { vm_compute. reflexivity. }
  apply (CoreExamples.krun_leads [(at_ 1, VReply 50 []); (at_ 1, VReply 60 [])] _ _ (at_ 1) mx_start []).
  { constructor. }
  vm_compute. reflexivity.
Qed.
Definition mx_s0 (c : config) : dao := Dao mx_core 60%N (ex_state c) [].
Lemma mx_dstart c : validate_config c = Ok tt -> attached 9 (ex_state c) -> dstart (at_ 1) (mx_s0 c).
Proof.
  intros Hc Ha. split; [apply mx_created|]. split; [by eexists|]. split; [|done]. done.
Qed.
Lemma mx_sov c : sovereign (mx_s0 c).
Proof.
  split; [done|]. split; [done|]. intros a [p H]. cbn in H.
  assert (k_mods mx_core = {[60%N := KMod true "A"]}) as E by (vm_compute; reflexivity).
  rewrite E in H. by apply lookup_singleton_Some in H as [<- _].
Qed.

Fixpoint drun (K : codes) (O : oracle) (b : block) (s : dao) (evs : list (block * devent))
  : option (block * dao * list dentry) :=
  match evs with
  | [] => Some (b, s, [])
  | (b', v) :: evs =>
      if (height b <=? height b') && (time b <=? time b') &&
         match d_todo s with [] => true | _ => (height b =? height b') && (time b =? time b') end
         && match heard K s v with
            | Some (_, UpdateConfig c) => (c_dao c =? k_self (d_core s))%N &&
                 match c_quorum c with Percent p => 0 <=? p | _ => true end
            | _ => true
            end
      then
        match d_event K O s b' v with
        | Ok s' =>
            match drun K O b' s' evs with
            | Some (b'', s'', l) => Some (b'', s'', DEntry s b' v s' :: l)
            | None => None
            end
        | Err _ => None
        end
      else None
  end.
Lemma drun_leads K O evs : forall b0 s0 b s l0 b' s' l, dleads K O b0 s0 b s l0 ->
  drun K O b s evs = Some (b', s', l) -> dleads K O b0 s0 b' s' (l0 ++ l).
Proof.
  induction evs as [|[b1 v] evs IH]; intros b0 s0 b s l0 b' s' l H E; cbn [drun] in E.
  { injection E as <- <- <-. by rewrite app_nil_r. }
  match type of E with (if ?x then _ else _) = _ => destruct x eqn:G; [|done] end.
  apply andb_true_iff in G as [G Gh]. apply andb_true_iff in G as [G Gt].
  apply andb_true_iff in G as [G1 G2].
  destruct (d_event K O s b1 v) as [s1|] eqn:Ev; [|done].
  destruct (drun K O b1 s1 evs) as [[[b2 s2] l2]|] eqn:Er; [|done]. injection E as <- <- <-.
  assert (dleads K O b0 s0 b1 s1 (l0 ++ [DEntry s b1 v s1])) as H1.
  { apply dl_step with b; try done.
    - split; lia.
    - destruct (d_todo s); [by left|]. right. destruct b, b1. cbn in Gt. f_equal; lia.
    - intros a m Hm. rewrite Hm in Gh. destruct m; try done. cbn.
      apply andb_true_iff in Gh as [Ga Gb]. apply N.eqb_eq in Ga. split; [done|].
      destruct (c_quorum c); [done|]. cbn. lia. }
  specialize (IH _ _ _ _ _ _ _ _ H1 Er). by rewrite <-app_assoc in IH.
Qed.

Lemma is_some_true {A} (x : option A) :
  match x with Some _ => true | None => false end = true -> is_Some x.
Proof. destruct x; [by eexists|done]. Qed.

(** Members 1 and 2 pass proposal 1, and member 3 has it executed. *)
Definition mx_voted (ms : list Z) : list (block * devent) :=
  [ (at_ 10, DProp 1 (Propose (ex_pm [[12]; ms; []] (Some (1%nat, None)))));
    (at_ 12, DProp 2 (CastVote 1 1 None)) ].
Definition mx_evs : list (block * devent) :=
  mx_voted [7; 8; 10; 9] ++
  [ (at_ 13, DCore 77 KReceive20);
    (at_ 21, DProp 3 (Execute 1)); (at_ 21, DRun); (at_ 21, DSelf); (at_ 21, DSend);
    (at_ 21, DSelf); (at_ 21, DSelf); (at_ 21, DSend); (at_ 21, DSend); (at_ 21, DOver 0) ].
Definition mx_of (c : config) (evs : list (block * devent)) : block * dao * list dentry :=
  match drun mx_K ex_O (at_ 1) (mx_s0 c) evs with
  | Some x => x
  | None => (Block 0 0, mx_s0 c, [])
  end.
Lemma mx_leads c evs : is_Some (drun mx_K ex_O (at_ 1) (mx_s0 c) evs) ->
  dleads mx_K ex_O (at_ 1) (mx_s0 c) (mx_of c evs).1.1 (mx_of c evs).1.2 (mx_of c evs).2.
Proof.
  intros [[[b s] l] E]. unfold mx_of. rewrite E. cbn.
  apply (drun_leads mx_K ex_O evs _ _ (at_ 1) (mx_s0 c) [] b s l); [constructor|done].
Qed.
Lemma mx_reached c evs : validate_config c = Ok tt -> attached 9 (ex_state c) ->
  is_Some (drun mx_K ex_O (at_ 1) (mx_s0 c) evs) ->
  dreached mx_K ex_O (mx_of c evs).1.1 (mx_of c evs).1.2 (mx_of c evs).2.
Proof.
  intros Hc Ha Hr. exists (at_ 1), (mx_s0 c). split; [by apply mx_dstart|].
  split; [apply ex_sane|]. by apply mx_leads.
Qed.
Lemma mx_runs : is_Some (drun mx_K ex_O (at_ 1) (mx_s0 ex_cfg) mx_evs).
Proof. apply is_some_true. vm_compute. reflexivity. Qed.
Lemma mx_reached1 : dreached mx_K ex_O (mx_of ex_cfg mx_evs).1.1 (mx_of ex_cfg mx_evs).1.2
  (mx_of ex_cfg mx_evs).2.
Proof. apply mx_reached; [done|by vm_compute|apply mx_runs]. Qed.

(** Passed; then proposal 2 pauses the DAO, and a stranger's execution of proposal 1 fails
    for good. *)
Definition mx_cfg : config :=
  Config (Percent (2 * 10 ^ 17)) (DHeight 100) None false false 9 true None.
Definition mx_paused : list (block * devent) :=
  mx_voted [7] ++
  [ (at_ 13, DProp 1 (Propose (ex_pm [[11]; [12]] (Some (0%nat, None)))));
    (at_ 14, DProp 2 (CastVote 2 0 None));
    (at_ 15, DProp 3 (Execute 2)); (at_ 15, DRun); (at_ 15, DSelf); (at_ 15, DOver 0) ].
Definition mx_killed : list (block * devent) :=
  mx_paused ++ [ (at_ 16, DProp 66 (Execute 1)); (at_ 16, DFail) ].
Lemma mx_runs_paused : is_Some (drun mx_K ex_O (at_ 1) (mx_s0 mx_cfg) mx_paused).
Proof. apply is_some_true. vm_compute. reflexivity. Qed.
Lemma mx_typed : pct_typed (c_quorum (s_cfg (ex_state mx_cfg))).
Proof. by vm_compute. Qed.
Definition mx_end : option (block * dao * list dentry) :=
  drun mx_K ex_O (mx_of mx_cfg mx_paused).1.1 (mx_of mx_cfg mx_paused).1.2
    [(at_ 16, DProp 66 (Execute 1)); (at_ 16, DFail)].
Definition mx_stranger (e : dentry) : bool :=
  match act e with None => true | Some _ => false end &&
  match heard mx_K (de_pre e) (de_ev e) with Some (a, _) => (a =? 66)%N | None => true end.
Lemma c123_refuted :
  exists K O b s l id b' s' l',
    dreached K O b s l /\ query_status (d_prop s) b id = Ok Passed /\
    dleads K O b s b' s' l' /\
    (forall e, e ∈ l' -> act e = None /\
       forall a m, heard K (de_pre e) (de_ev e) = Some (a, m) -> forall h, vp O 9 a h = 0) /\
    status_of (d_prop s') id = Some ExecutionFailed /\ lsum (carried id) (l ++ l') = 0.
Proof.
  assert (is_Some mx_end) as [[[b' s'] l'] E] by (apply is_some_true; vm_compute; reflexivity).
  assert (match mx_end with Some (_, s', l') =>
    bool_decide (status_of (d_prop s') 1 = Some ExecutionFailed) && forallb mx_stranger l' &&
    (lsum (carried 1) ((mx_of mx_cfg mx_paused).2 ++ l') =? 0) | None => false end = true) as C
    by (vm_compute; reflexivity).
  rewrite E in C. apply andb_true_iff in C as [C C3]. apply andb_true_iff in C as [C1 C2].
  exists mx_K, ex_O, (mx_of mx_cfg mx_paused).1.1, (mx_of mx_cfg mx_paused).1.2,
    (mx_of mx_cfg mx_paused).2, 1, b', s', l'. split.
  { exact (mx_reached mx_cfg mx_paused eq_refl (conj eq_refl mx_typed) mx_runs_paused). }
  split; [vm_compute; reflexivity|]. split.
  { apply (drun_leads _ _ _ _ _ _ _ [] _ _ _ (dl_nil _ _ _ _) E). }
  split.
  { intros e He. rewrite forallb_forall in C2. specialize (C2 e).
    rewrite <-elem_of_list_In in C2. specialize (C2 He). unfold mx_stranger in C2.
    apply andb_true_iff in C2 as [C2 C4]. clear - C2 C4. split; [by destruct (act e)|].
    intros a m Hm h. rewrite Hm in C4. apply N.eqb_eq in C4 as ->. reflexivity. }
  clear - C1 C3. split; [by apply bool_decide_eq_true in C1|by apply Z.eqb_eq].
Qed.
(** The messages of the proposal leave no power to others. *)
Lemma mx_stems a : stems a (map mx_acts [7; 8; 10; 9]) ->
  a = inl (KSetItem "x" "y") \/ a = inr 100%N \/
  a = inl (KAdmin [inl (KSetItem "x" "y"); inr 100%N]) \/ a = inr 200%N.
Proof.
  intros H. remember (map mx_acts [7; 8; 10; 9]) as l eqn:El.
  induction H as [a l Ha|a l msgs H IH Ha]; subst l.
  - assert (a ∈ [inl (KSetItem "x" "y") : kact; inr 100%N;
      inl (KAdmin [inl (KSetItem "x" "y"); inr 100%N]); inr 200%N]) as Ha' by exact Ha.
    rewrite !elem_of_cons, elem_of_nil in Ha'. tauto.
  - destruct (IH eq_refl) as [?|[?|[IH'|?]]]; try done. clear IH. rename IH' into IH. injection IH as E. subst msgs.
    rewrite !elem_of_cons, elem_of_nil in Ha. tauto.
Qed.
Definition mx_gives (e : dentry) : bool :=
  match de_ev e, d_todo (de_pre e) with
  | DRun, DP (SExec _ _ ms _) :: _ => bool_decide (ms = [7; 8; 10; 9])
  | _, _ => true
  end.
Lemma mx_retains : forall e id msgs a, e ∈ (mx_of ex_cfg mx_evs).2 -> carries e id msgs ->
  stems a (map (act_of mx_K) msgs) -> retains a.
Proof.
  intros e id msgs a He [Hr (c & t & Et)] Hs.
  assert (forallb mx_gives (mx_of ex_cfg mx_evs).2 = true) as C by (vm_compute; reflexivity).
  rewrite forallb_forall in C. specialize (C e). rewrite <-elem_of_list_In in C.
  specialize (C He). unfold mx_gives in C. rewrite Hr, Et in C. apply bool_decide_eq_true in C as ->.
  apply mx_stems in Hs. by destruct Hs as [->|[->|[->| ->]]].
Qed.
