(** cw-admin-factory: theorems.  Each is followed by what it rests on and by a concrete
    case meeting its hypotheses. *)
From Verif Require Import Base BaseProofs Exec ExecProofs AdmModel AdmSpec AdmClaims AdmExamples.

(** * C91 *)
Theorem C91_own_admin self admin h s l c x :
  areached self admin h s l -> a_chain s !! c = Some x -> x = c.
Proof. exact (own_admin self admin h s l c x). Qed.
Print Assumptions C91_own_admin.
Theorem C91_made self admin h s l pre b two code w ok post :
  areached self admin h s l -> ESub pre b (AMake two code w) ok post ∈ l ->
  ok = true /\
  exists d, a_chain pre !! d = None /\ a_chain post = <[d := d]> (a_chain pre) /\
    (two = true -> forall e, a_expect pre = Some e -> d = e).
Proof. exact (made self admin h s l pre b two code w ok post). Qed.
Print Assumptions C91_made.
Theorem C91_only_admin self admin h s l pre b a m post subs :
  areached self admin h s l -> ECall pre b a m post subs ∈ l ->
  (forall x, admin = Some x -> a = x) /\
  match m with
  | AInst code => subs = [AMake false code None]
  | AInst2 code expect => subs = [AMake true code expect]
  end.
Proof. exact (only_admin self admin h s l pre b a m post subs). Qed.
Print Assumptions C91_only_admin.
Theorem C91_clean self admin h s l : areached self admin h s l -> a_expect s = None.
Proof. exact (clean self admin h s l). Qed.
Print Assumptions C91_clean.
Theorem C91_works self admin h s l b a m d :
  areached self admin h s l -> (forall x, admin = Some x -> a = x) ->
  a_chain s !! d = None ->
  match m with AInst2 _ (Some e) => d = e | _ => True end ->
  exists s' l', arun_call b s (Call a m [Some (d, [])]) = Ok (s', l') /\ a_chain s' !! d = Some d.
Proof. exact (works self admin h s l b a m d). Qed.
Print Assumptions C91_works.
(** Missing: histories in which a contract uses the second message while it is being made; see
    the refutations. *)
Theorem C91_expected_partial self admin h s l pre b two code w ok post :
  areached self admin h s l -> no_second_inside h ->
  ESub pre b (AMake two code (Some w)) ok post ∈ l -> a_chain post = <[w := w]> (a_chain pre).
Proof. exact (expected self admin h s l pre b two code w ok post). Qed.
Print Assumptions C91_expected_partial.
Theorem C91_expected_refuted : exists admin h s l pre b code w ok post,
  areached 100 admin h s l /\ ESub pre b (AMake true code (Some w)) ok post ∈ l /\
  a_chain post !! w = None /\ dom (a_chain s) = {[60%N; 61%N]} /\ w = 50%N.
Proof. exact expected_refuted. Qed.
Print Assumptions C91_expected_refuted.
Theorem C91_confused_refuted : exists admin h s l pre b a m post subs,
  areached 100 admin h s l /\ ECall pre b a m post subs ∈ l /\ a_admin post = None /\
  (forall d, d <> 60%N -> a_chain post !! d = None ->
     a_handle post b 60 (AInst2 2 None) = Ok (post, [AMake true 2 None]) /\
     a_reply post b (AMake true 2 None) d = Err "UnexpectedContractAddress") /\
  dom (a_chain s) = {[60%N]}.
Proof. exact confused_refuted. Qed.
Print Assumptions C91_confused_refuted.
Example C91_case :
  let s := fst (arun (Some 7%N) making) in let l := snd (arun (Some 7%N) making) in
  areached 100 (Some 7%N) making s l /\ no_second_inside making /\
  dom (a_chain s) = {[201%N; 204%N; 207%N]} /\ a_chain s !! 204%N = Some 204%N /\
  length l = 6%nat /\
  exists pre b post, ESub pre b (AMake true 1 (Some 204%N)) true post ∈ l.
Proof.
  cbv zeta. split; [apply areached_run|]. split; [repeat constructor|].
  split; [apply (bool_decide_eq_true_1 _); vm_compute; reflexivity|].
  split; [vm_compute; reflexivity|]. split; [vm_compute; reflexivity|].
  eexists _, _, _. apply (elem_of_list_lookup_2 _ 3). vm_compute; reflexivity.
Qed.
(** A contract calling back, with the first message. *)
Example C91_case_nested :
  let s := fst (arun None nesting) in let l := snd (arun None nesting) in
  areached 100 None nesting s l /\ no_second_inside nesting /\
  dom (a_chain s) = {[211%N; 212%N]} /\
  exists pre b post, ESub pre b (AMake true 1 (Some 211%N)) true post ∈ l.
Proof.
  cbv zeta. split; [apply areached_run|]. split; [repeat constructor|].
  split; [apply (bool_decide_eq_true_1 _); vm_compute; reflexivity|].
  eexists _, _, _. apply (elem_of_list_lookup_2 _ 3). vm_compute; reflexivity.
Qed.
