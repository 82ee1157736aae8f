(** A DAO writes its records, paused in between. *)
From stdpp Require Import gmap strings.
From Verif Require Import Base BaseProofs CoreModel CoreSpec CoreProofs CoreExamples RecordsSpec.

Definition written : list (block * kevent) :=
  created ++
  at_ 6 [VCall 51 (KHook [inl (KSetItem "a" "c"); inl (KRemoveItem "x");
           inl (KCw20s [(60%N, true); (61%N, true); (60%N, true)] [61%N]);
           inl (KSubdaos [(70%N, None); (71%N, Some "old"%string); (71%N, Some "new"%string)] []);
           inl (KVoting 4%N)]);
         VSelf; VSelf; VSelf; VSelf; VSelf; VReply 54 []; VCall 77 KReceive20; VCall 78 KReceive721].
(** The admin pauses the DAO and makes it go on. *)
Definition paused_on : list (block * kevent) :=
  written ++ at_ 7 [VCall 9 (KAdmin [inl (KPause (DHeight 10)); inl (KConfig (KConf false false 5));
    inl (KSubdaos [(71%N, None)] [70%N; 71%N])]); VSelf].
Definition finished : list (block * kevent) := paused_on ++ at_ 7 [VSelf; VSelf].
Lemma born_run evs : is_Some (krun (Block 5 5000) the_start evs) ->
  kborn (KConf true false 0%N) [("a", "b")]%string (run_of evs).1.1 (run_of evs).1.2 (run_of evs).2.
Proof.
  intros [[[b s] l] E]. unfold run_of. rewrite E. cbn.
  exists (Block 5 5000), 1%N, (Some 9%N), 100%N, [200%N; 201%N], the_start.
  split; [done|]. apply (krun_leads _ _ _ _ _ [] _ _ _ (kl_nil _ _) E).
Qed.
Ltac kborn_tac := apply born_run; eexists; vm_compute; reflexivity.
