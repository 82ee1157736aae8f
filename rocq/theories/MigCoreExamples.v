(** Migrations of the DAO core: concrete cases and the refutations. *)
From stdpp Require Import gmap strings.
From Verif Require Import Base BaseProofs CoreModel CoreSpec CoreProofs CoreExamples MigCoreModel
  MigCoreSpec.

Fixpoint zrun (b : block) (s : zstate) (evs : list (block * zevent)) : option (block * zstate) :=
  match evs with
  | [] => Some (b, s)
  | (b', e) :: evs =>
      if goes b b' (k_todo (z_st s)) then
        match z_event s b' e with Ok s' => zrun b' s' evs | Err _ => None end
      else None
  end.
Lemma zrun_leads (P : zevent -> Prop) evs : forall b0 s0 b s b' s', zleads P b0 s0 b s ->
  Forall (fun x => P x.2) evs -> zrun b s evs = Some (b', s') -> zleads P b0 s0 b' s'.
Proof.
  induction evs as [|[b1 v] evs IH]; intros b0 s0 b s b' s' H F E; cbn [zrun] in E.
  { by injection E as <- <-. }
  apply Forall_cons in F as [Fv F].
  destruct (goes b b1 (k_todo (z_st s))) eqn:G; [|done].
  destruct (z_event s b1 v) as [s1|] eqn:Ev; [|done].
  eapply IH; [|exact F|exact E]. unfold goes in G.
  eapply zl_step; [exact H| | |exact Fv|exact Ev].
  - split; lia.
  - destruct (k_todo (z_st s)); [by left|]. right. destruct b, b1. cbn in G. f_equal; lia.
Qed.
Definition at_z (h : Z) (evs : list zevent) : list (block * zevent) :=
  map (pair (Block h (h * 1000))) evs.

(** A DAO of version one with two proposal modules and the voting module 50. *)
Definition zold : zstate :=
  ZState 1 1 (Some (true, false)) [51%N; 52%N]
    (KState (Core 1 (KConf false false 0) 9 None None (Some 50%N) ∅ 0 0 {["a" := "b"]} ∅ ∅ ∅) []).
Example zold_left : z_left zold.
Proof.
  constructor.
  - done.
  - apply (bool_decide_unpack _). vm_compute. exact I.
  - apply (bool_decide_unpack _). vm_compute. exact I.
  - vm_compute. discriminate.
  - done.
Qed.
Definition zstart : zstate :=
  match z_event zold (Block 5 5000) (ZMigrate 1 2 (ZFromV1 7 (Some 400%N))) with
  | Ok s => s
  | Err _ => zold
  end.
(** The migrator 53 is created and asks for nothing; it disables itself; module 51 is
    exchanged for 54; a compatible upgrade. *)
Definition zhist : list (block * zevent) :=
  at_z 5 [ZStep VSelf; ZStep (VReply 53 [])] ++
  at_z 6 [ZStep (VCall 53 (KHook [inl (KModules [] [53%N])])); ZStep VSelf] ++
  at_z 7 [ZStep (VCall 52 (KHook [inl (KModules [300%N] [51%N])])); ZStep VSelf; ZStep (VReply 54 [])] ++
  at_z 8 [ZMigrate 1 3 ZFromCompatible].
(** Version one's data are read again; another module is added. *)
Definition zagain : list (block * zevent) := at_z 9 [ZMigrate 1 4 (ZFromV1 7 None)].
Definition zmore : list (block * zevent) :=
  at_z 10 [ZStep (VCall 52 (KHook [inl (KModules [301%N] [])])); ZStep VSelf; ZStep (VReply 55 [])].
Definition zend (evs : list (block * zevent)) : block * zstate :=
  match zrun (Block 5 5000) zstart evs with Some x => x | None => (Block 0 0, zold) end.

Lemma zup (evs : list (block * zevent)) :
  Forall (fun x => no_v1 x.2) evs -> is_Some (zrun (Block 5 5000) zstart evs) ->
  z_upgraded (zend evs).1 (zend evs).2.
Proof.
  intros F [[b s] E]. unfold zend. rewrite E. cbn [fst snd].
  exists zold, (Block 5 5000), 1%N, 2%N, 7%N, (Some 400%N), zstart.
  split; [exact zold_left|]. split; [vm_compute; reflexivity|].
  eapply zrun_leads; [apply zl_nil|exact F|exact E].
Qed.
Lemma zgrow (evs : list (block * zevent)) :
  is_Some (zrun (Block 5 5000) zstart evs) -> z_grown (zend evs).1 (zend evs).2.
Proof.
  intros [[b s] E]. unfold zend. rewrite E. cbn [fst snd].
  exists zold, (Block 5 5000), 1%N, 2%N, 7%N, (Some 400%N), zstart.
  split; [exact zold_left|]. split; [vm_compute; reflexivity|].
  eapply zrun_leads; [apply zl_nil| |exact E]. by apply Forall_forall.
Qed.
Ltac zgo := apply zgrow; eexists; vm_compute; reflexivity.

(** A module that was disabled acts again. *)
Lemma z_disabled_refuted : exists b s b' s' a x, z_grown b s /\ zleads anything b s b' s' /\
  k_mods (k_core (z_st s)) !! a = Some x /\ km_on x = false /\ ~ enabled (k_core (z_st s)) a /\
  enabled (k_core (z_st s')) a /\ exists s2, z_event s' b' (ZStep (VCall a (KHook [inr 3%N]))) = Ok s2.
Proof.
  exists (zend zhist).1, (zend zhist).2, (zend (zhist ++ zagain)).1, (zend (zhist ++ zagain)).2,
    51%N, (KMod false "A").
  split; [zgo|]. split.
  { eapply (zrun_leads _ zagain); [apply zl_nil|by repeat constructor|vm_compute; reflexivity]. }
  split; [vm_compute; reflexivity|]. split; [reflexivity|]. split.
  { intros [p H]. vm_compute in H. discriminate. }
  split; [exists "A"%string; vm_compute; reflexivity|]. eexists. vm_compute. reflexivity.
Qed.
(** Four modules, three of which are enabled, are counted as two. *)
Lemma z_counts_refuted : exists b s, z_grown b s /\ k_todo (z_st s) = [] /\
  q_module_count (k_core (z_st s)) = (2, 2) /\
  n_active (k_core (z_st s)) = 3 /\ n_total (k_core (z_st s)) = 4.
Proof.
  exists (zend (zhist ++ zagain)).1, (zend (zhist ++ zagain)).2. split; [zgo|].
  do 3 (split; [vm_compute; reflexivity|]). vm_compute; reflexivity.
Qed.
(** The next module gets the prefix of another one. *)
Lemma z_prefixes_refuted : exists b s a a' x x', z_grown b s /\ a <> a' /\
  k_mods (k_core (z_st s)) !! a = Some x /\ k_mods (k_core (z_st s)) !! a' = Some x' /\
  km_prefix x = km_prefix x'.
Proof.
  exists (zend (zhist ++ zagain ++ zmore)).1, (zend (zhist ++ zagain ++ zmore)).2, 53%N, 55%N.
  do 2 eexists. split; [zgo|]. split; [done|].
  do 2 (split; [vm_compute; reflexivity|]). reflexivity.
Qed.
(** The counts being wrong, modules cannot all be disabled: the number of enabled ones is
    taken to be none although one is left. *)
Lemma z_stuck_refuted : exists b s, z_grown b s /\ k_todo (z_st s) = [] /\
  n_active (k_core (z_st s)) = 3 /\ enabled (k_core (z_st s)) 54%N /\
  forall s', k_event (KState (k_core (z_st s)) [KSend (inl (KModules [] [51%N; 52%N]))]) b VSelf <> Ok s'.
Proof.
  exists (zend (zhist ++ zagain)).1, (zend (zhist ++ zagain)).2. split; [zgo|].
  do 2 (split; [vm_compute; reflexivity|]).
  split; [eexists; vm_compute; reflexivity|]. vm_compute. discriminate.
Qed.
