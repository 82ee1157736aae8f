(** Histories for the examples about carrying out decisions. *)
From stdpp Require Import gmap strings.
From Verif Require Import Base BaseProofs Exec VotingModel VotingSpec HooksModel CoreModel
  CoreSpec ManyModel ManySpec ManyProofs ManyClaims ManyExamples ManyLiveSpec ManyLive.
From Verif Require SingleModel MultModel CondModel DaoExamples.

Definition run_of (evs : list (block * qevent)) : block * many * list qentry :=
  match qrun nx_K nx_Q (at_ 1) nx_s0 evs with
  | Some x => x
  | None => (Block 0 0, nx_s0, [])
  end.
Lemma run_of_reached evs :
  (forall b a p msgs, (b, QReply a (Some p) msgs) ∈ evs -> new_of 9 p) ->
  is_Some (qrun nx_K nx_Q (at_ 1) nx_s0 evs) ->
  qreached nx_K nx_Q (run_of evs).1.1 (run_of evs).1.2 (run_of evs).2.
Proof.
  intros Hn [[[b s] l] E]. unfold run_of. rewrite E. cbn [fst snd].
  exists (at_ 1), nx_s0. split; [exact nx_start|]. split; [exact nx_sane|].
  apply (qrun_leads nx_K nx_Q evs Hn _ _ (at_ 1) nx_s0 [] b s l); [constructor|exact E].
Qed.
(** The second proposal of module 60 and the first ones of modules 61 and 62 have passed. *)
Definition nx_open : list (block * qevent) :=
  take 16 nx_evs ++ [(at_ 33, QCore 77 KReceive20)].
(** The DAO is about to create modules 61 and 62. *)
Definition nx_adding : list (block * qevent) := take 7 nx_evs.
Lemma nx_open_reached :
  qreached nx_K nx_Q (run_of nx_open).1.1 (run_of nx_open).1.2 (run_of nx_open).2.
Proof.
  apply run_of_reached; [|apply DaoExamples.is_some_true; vm_compute; reflexivity].
  intros b a p msgs H. apply elem_of_app in H as [H|H].
  - apply elem_of_take in H as (i & H & _). apply elem_of_list_lookup_2 in H.
    exact (nx_news b a p msgs H).
  - apply elem_of_list_singleton in H. discriminate H.
Qed.
Lemma nx_adding_reached :
  qreached nx_K nx_Q (run_of nx_adding).1.1 (run_of nx_adding).1.2 (run_of nx_adding).2.
Proof.
  apply run_of_reached; [|apply DaoExamples.is_some_true; vm_compute; reflexivity].
  intros b a p msgs H. apply elem_of_take in H as (i & H & _). apply elem_of_list_lookup_2 in H.
  exact (nx_news b a p msgs H).
Qed.
(** A check for [passed_for]. *)
Definition passedb (Q : powers) (s : many) (b : block) (q a : addr) (id : Z) : bool :=
  let d := k_self (q_core s) in
  match q_mods s !! q with
  | Some (PSingle p) =>
      match SingleModel.s_props p !! id, SingleModel.query_status p b id with
      | Some x, Ok Passed => negb (SingleModel.vp (o_single Q) d a (SingleModel.p_start x) =? 0)
      | _, _ => false
      end
  | Some (PMult p) =>
      match MultModel.s_props p !! id, MultModel.query_status p b id with
      | Some x, Ok Passed => negb (MultModel.vp (o_mult Q) d a (MultModel.p_start x) =? 0)
      | _, _ => false
      end
  | Some (PCond p) =>
      match CondModel.s_tallies p !! id, CondModel.query_status p b id with
      | Some t, Ok (CondModel.CPassed _) =>
          negb (CondModel.vp (o_cond Q) d a (CondModel.t_start t) =? 0)
      | _, _ => false
      end
  | None => false
  end.
Lemma passedb_spec Q s b q a id : passedb Q s b q a id = true -> passed_for Q s b q a id.
Proof.
  unfold passedb, passed_for. destruct (q_mods s !! q) as [[p|p|p]|]; [| | |done].
  - destruct (SingleModel.s_props p !! id) as [x|]; [|done].
    destruct (SingleModel.query_status p b id) as [[]|]; try done.
    intros H. exists x. split; [done|]. split; [done|]. intros _. lia.
  - destruct (MultModel.s_props p !! id) as [x|]; [|done].
    destruct (MultModel.query_status p b id) as [[]|]; try done.
    intros H. exists x. split; [done|]. split; [done|]. intros _. lia.
  - destruct (CondModel.s_tallies p !! id) as [t|]; [|done].
    destruct (CondModel.query_status p b id) as [[| |w| | |]|]; try done.
    intros H. exists t, w. split; [done|]. split; [done|]. lia.
Qed.
Definition enabledb (s : many) (a : addr) : bool :=
  match k_mods (q_core s) !! a with Some x => km_on x | None => false end.
Lemma enabledb_spec s a : enabledb s a = true -> enabled (q_core s) a.
Proof.
  unfold enabledb, enabled. destruct (k_mods (q_core s) !! a) as [[[] p]|]; [|done|done].
  intros _. by exists p.
Qed.
Definition unusedb (s : many) (a : addr) : bool :=
  outside s a && match k_mods (q_core s) !! a with Some _ => false | None => true end.
Lemma unusedb_spec s a : unusedb s a = true -> unused s a.
Proof.
  unfold unusedb, unused, outside, known.
  destruct (N.eqb_spec a (k_self (q_core s))); [done|].
  destruct (q_mods s !! a); [done|]. destruct (k_mods (q_core s) !! a); done.
Qed.
