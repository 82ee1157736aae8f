(** The records of dao-dao-core: theorems.  Each is followed by what it rests on and by a
    concrete case meeting its hypotheses. *)
From stdpp Require Import gmap strings.
From Verif Require Import Base BaseProofs CoreModel CoreSpec CoreProofs CoreExamples
  RecordsSpec RecordsClaims RecordsExamples.

(** * C88 *)
Theorem C88_items c items b s l k : kborn c items b s l ->
  k_items (k_core s) !! k = last_said (says_item k) l (paired k items).
Proof. exact (items_said c items b s l k). Qed.
Print Assumptions C88_items.
Theorem C88_cw20s c items b s l a : kborn c items b s l ->
  bool_decide (a ∈ k_cw20s (k_core s)) = last_said (says_cw20 a) l false.
Proof. exact (cw20s_said c items b s l a). Qed.
Print Assumptions C88_cw20s.
Theorem C88_cw721s c items b s l a : kborn c items b s l ->
  bool_decide (a ∈ k_cw721s (k_core s)) = last_said (says_cw721 a) l false.
Proof. exact (cw721s_said c items b s l a). Qed.
Print Assumptions C88_cw721s.
Theorem C88_subdaos c items b s l a : kborn c items b s l ->
  k_subdaos (k_core s) !! a = last_said (says_subdao a) l None.
Proof. exact (subdaos_said c items b s l a). Qed.
Print Assumptions C88_subdaos.
Theorem C88_config c items b s l : kborn c items b s l -> k_conf (k_core s) = last_said says_config l c.
Proof. exact (config_said c items b s l). Qed.
Print Assumptions C88_config.
Theorem C88_voting c items b s l : kborn c items b s l ->
  k_voting (k_core s) = last_said says_voting l None.
Proof. exact (voting_said c items b s l). Qed.
Print Assumptions C88_voting.
Theorem C88_own_calls_work s b m t : k_todo s = KSend (inl m) :: t ->
  match m with
  | KSetItem k v => exists s', k_event s b VSelf = Ok s' /\ k_items (k_core s') !! k = Some v
  | KRemoveItem k => is_Some (k_items (k_core s) !! k) ->
      exists s', k_event s b VSelf = Ok s' /\ k_items (k_core s') !! k = None
  | KConfig c => exists s', k_event s b VSelf = Ok s' /\ k_conf (k_core s') = c
  | KCw20s add _ | KCw721s add _ => (forall x, x ∈ add -> x.2 = true) -> is_ok (k_event s b VSelf) = true
  | KSubdaos _ _ => is_ok (k_event s b VSelf) = true
  | KVoting i => exists s', k_event s b VSelf = Ok s' /\ k_todo s' = KInst VOTE_UPDATE_ID i :: t
  | _ => True
  end.
Proof. exact (own_works s b m t). Qed.
Print Assumptions C88_own_calls_work.
Example C88_case :
  let r := run_of finished in let s := k_core r.1.2 in let l := r.2 in
  kborn (KConf true false 0) [("a", "b")]%string r.1.1 r.1.2 l /\
  k_items s !! "a"%string = Some "c"%string /\ k_items s !! "x"%string = None /\
  last_said (says_item "x") (take 5 l) None = Some "y"%string /\
  last_said (says_cw20 60) l false = true /\ last_said (says_cw20 61) l false = false /\
  last_said (says_cw20 77) l false = true /\ last_said (says_cw721 78) l false = false /\
  k_subdaos s !! 70%N = None /\ k_subdaos s !! 71%N = Some None /\
  k_conf s = KConf false false 5 /\ k_voting s = Some 54%N.
Proof.
  cbv zeta. split; [kborn_tac|]. do 10 (split; [vm_compute; reflexivity|]). vm_compute; reflexivity.
Qed.
Example C88_case_paused :
  let r := run_of paused_on in let s := r.1.2 in
  paused (k_core s) r.1.1 /\ k_subdaos (k_core s) !! 71%N = Some (Some "new"%string) /\
  k_todo s = [KSend (inl (KConfig (KConf false false 5)));
    KSend (inl (KSubdaos [(71%N, None)] [70%N; 71%N]))].
Proof.
  cbv zeta. split; [exists (AtHeight 17); split; vm_compute; reflexivity|].
  split; vm_compute; reflexivity.
Qed.
