(** C140: a DAO with modules of all kinds, which it adds and disables. *)
From stdpp Require Import gmap strings.
From Verif Require Import Base BaseProofs Exec VotingModel VotingSpec HooksModel CoreModel
  CoreSpec CoreProofs ManyModel ManySpec ManyProofs ManyClaims ManyExamples.

(** * C140 *)
(** Whatever is put to be done by the DAO is the messages of a proposal of an enabled module that
    its electorate has decided, or comes from the admin, an enabled module of another kind, or
    a module of another kind just created. *)
Theorem C140_authority K Q b s l e : qreached K Q b s l -> e ∈ l -> qlawful K Q e.
Proof. exact (c140_lawful K Q b s l e). Qed.
Print Assumptions C140_authority.
Theorem C140_once K Q b s l q id : qreached K Q b s l -> 0 <= lsum (carried q id) l <= 1.
Proof. exact (c140_once K Q b s l q id). Qed.
Print Assumptions C140_once.
Theorem C140_not_while_paused K Q b s l e q id msgs : qreached K Q b s l -> e ∈ l -> carries e q id msgs ->
  k_admin (q_core (qe_pre e)) <> q -> ~ paused (q_core (qe_pre e)) (qe_block e).
Proof. exact (c140_paused K Q b s l e q id msgs). Qed.
Print Assumptions C140_not_while_paused.
Theorem C140_disabled_for_good K Q b s l l1 e l2 q pf :
  qreached K Q b s l -> l = l1 ++ e :: l2 ->
  k_mods (q_core (qe_pre e)) !! q = Some (KMod false pf) ->
  forall e' id msgs, e' ∈ e :: l2 -> ~ carries e' q id msgs.
Proof. exact (c140_disabled K Q b s l l1 e l2 q pf). Qed.
Print Assumptions C140_disabled_for_good.
Theorem C140_acts_mandated_partial K Q b0 s0 b s l :
  qstart b0 s0 -> sane Q (k_self (q_core s0)) -> sovereign s0 -> qleads K Q b0 s0 b s l ->
  (forall e, e ∈ l -> homely e) ->
  (forall e q id msgs a, e ∈ l -> carries e q id msgs -> stems a (map (act_of K) msgs) ->
     retains a) ->
  sovereign s /\
  forall l1 e l2 d, l = l1 ++ e :: l2 -> did e = Some d -> meant K Q l1 d.
Proof. exact (c140_acts K Q b0 s0 b s l). Qed.
Print Assumptions C140_acts_mandated_partial.
Theorem C140_changes_are_acts_partial K Q b0 s0 b s l :
  qstart b0 s0 -> sane Q (k_self (q_core s0)) -> sovereign s0 -> qleads K Q b0 s0 b s l ->
  (forall e, e ∈ l -> homely e) ->
  (forall e q id msgs a, e ∈ l -> carries e q id msgs -> stems a (map (act_of K) msgs) ->
     retains a) ->
  forall e, e ∈ l -> did e = None -> governed (qe_post e) = governed (qe_pre e).
Proof. exact (c140_changes K Q b0 s0 b s l). Qed.
Print Assumptions C140_changes_are_acts_partial.
Theorem C140_nothing_before_partial K Q b0 s0 b s l :
  qstart b0 s0 -> sane Q (k_self (q_core s0)) -> sovereign s0 -> qleads K Q b0 s0 b s l ->
  (forall e, e ∈ l -> homely e) ->
  (forall e q id msgs, e ∈ l -> ~ carries e q id msgs) ->
  governed s = governed s0 /\ forall e, e ∈ l -> did e = None.
Proof. exact (c140_nothing_before K Q b0 s0 b s l). Qed.
Print Assumptions C140_nothing_before_partial.
Theorem C140_foreign_refuted : exists K Q b0 s0 b s l l1 e l2 a,
  qstart b0 s0 /\ sane Q (k_self (q_core s0)) /\ sovereign s0 /\ qleads K Q b0 s0 b s l /\
  (forall e q id msgs a, e ∈ l -> carries e q id msgs -> stems a (map (act_of K) msgs) ->
     retains a) /\
  l = l1 ++ e :: l2 /\ did e = Some (Act a) /\ ~ mandated K Q l a.
Proof. exact c140_foreign_refuted. Qed.
Print Assumptions C140_foreign_refuted.
(** A single-choice module has the DAO create a multiple-choice module and a Condorcet module,
    the first of which has it disable the single-choice module, whose other proposal fails. *)
Example C140_case :
  let '(b, s, l) := nx_of in
  qreached nx_K nx_Q b s l /\ length l = 27%nat /\
  qstart (at_ 1) nx_s0 /\ sane nx_Q (k_self (q_core nx_s0)) /\ sovereign nx_s0 /\
  qleads nx_K nx_Q (at_ 1) nx_s0 b s l /\ (forall e, e ∈ l -> homely e) /\
  (forall e q id msgs a, e ∈ l -> carries e q id msgs -> stems a (map (act_of nx_K) msgs) ->
     retains a) /\
  map (fun x : addr * Z => lsum (carried x.1 x.2) l) [(60%N, 1); (60%N, 2); (61%N, 1); (62%N, 1)] =
    [1; 0; 1; 1] /\
  omap did l = [Act (inl (KModules [300%N; 301%N] [])); Make 300; Make 301;
    Act (inl (KModules [] [60%N])); Act (inr 200%N); Act (inl (KSetItem "x" "y"))] /\
  map (fun x : addr * kmod => (x.1, km_on x.2)) (map_to_list (k_mods (q_core s))) =
    [(61%N, true); (60%N, false); (62%N, true)] /\
  governed s <> governed nx_s0 /\ q_todo s = [].
Proof.
  rewrite (surjective_pairing nx_of), (surjective_pairing nx_of.1).
  split; [exact nx_reached|]. split; [vm_compute; reflexivity|].
  split; [exact nx_start|]. split; [exact nx_sane|]. split; [exact nx_sov|].
  split; [exact nx_leads|]. split; [exact nx_homely|]. split; [exact nx_retains|].
  split; [vm_compute; reflexivity|]. split; [vm_compute; reflexivity|].
  split; [vm_compute; reflexivity|]. split; [|vm_compute; reflexivity].
  intros E. apply (f_equal (fun g => g.1.1.1.1.1)) in E. vm_compute in E. discriminate E.
Qed.
