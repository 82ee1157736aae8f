(** Concrete histories of the admin factory at address 100. *)
From Verif Require Import Base BaseProofs Exec ExecProofs AdmModel AdmSpec.

Definition ab (n : Z) : block := Block n (n * 10).
Definition arun (admin : option addr) (h : list (block * call amsg)) : astate * alog :=
  run_hist a_handle a_fail a_reply (a_instantiate 100 admin) h.
Lemma areached_run admin h : areached 100 admin h (fst (arun admin h)) (snd (arun admin h)).
Proof. unfold areached, arun. by destruct (run_hist _ _ _ _ h). Qed.

(** Admin 7 has contracts made, one of which calls back in vain; 8 tries too; an expectation is
    not met. *)
Definition making : list (block * call amsg) :=
  [(ab 1, Call 7%N (AInst 1) [Some (201%N, [Call 201%N (AInst 2) [Some (202%N, [])]])]);
   (ab 2, Call 8%N (AInst 1) [Some (203%N, [])]);
   (ab 3, Call 7%N (AInst2 1 (Some 204%N)) [Some (204%N, [])]);
   (ab 4, Call 7%N (AInst2 1 (Some 205%N)) [Some (206%N, [])]);
   (ab 5, Call 7%N (AInst2 1 None) [Some (207%N, [])])].
(** Anybody may: contract 211 has 212 made while it is made itself. *)
Definition nesting : list (block * call amsg) :=
  [(ab 1, Call 8%N (AInst2 1 (Some 211%N)) [Some (211%N, [Call 211%N (AInst 2) [Some (212%N, [])]])])].

(** 5 expects contract 50.  The contract made, 60, has contract 61 made while it is
    instantiated, and expects it at 61. *)
Definition nested : list (block * call amsg) :=
  [(ab 1, Call 5%N (AInst2 1 (Some 50%N))
            [Some (60%N, [Call 60%N (AInst2 2 (Some 61%N)) [Some (61%N, [])]])])].
Lemma expected_refuted : exists admin h s l pre b code w ok post,
  areached 100 admin h s l /\ ESub pre b (AMake true code (Some w)) ok post ∈ l /\
  a_chain post !! w = None /\ dom (a_chain s) = {[60%N; 61%N]} /\ w = 50%N.
Proof.
  exists None, nested, (fst (arun None nested)), (snd (arun None nested)).
  eexists _, _, _, _, _, _. split; [apply areached_run|].
  split; [apply (elem_of_list_lookup_2 _ 3); vm_compute; reflexivity|].
  split; [vm_compute; reflexivity|]. split; [|reflexivity].
  apply (bool_decide_eq_true_1 _). vm_compute; reflexivity.
Qed.
(** The contract being made asks for another and expects nothing: it is held against the
    expectation of 5. *)
Definition silent : list (block * call amsg) :=
  [(ab 1, Call 5%N (AInst2 1 (Some 60%N))
            [Some (60%N, [Call 60%N (AInst2 2 None) [Some (61%N, [])]])])].
Lemma confused_refuted : exists admin h s l pre b a m post subs,
  areached 100 admin h s l /\ ECall pre b a m post subs ∈ l /\ a_admin post = None /\
  (forall d, d <> 60%N -> a_chain post !! d = None ->
     a_handle post b 60 (AInst2 2 None) = Ok (post, [AMake true 2 None]) /\
     a_reply post b (AMake true 2 None) d = Err "UnexpectedContractAddress") /\
  dom (a_chain s) = {[60%N]}.
Proof.
  exists None, silent, (fst (arun None silent)), (snd (arun None silent)).
  eexists _, _, _, _, _, _. split; [apply areached_run|].
  split; [apply (elem_of_list_lookup_2 _ 0); vm_compute; reflexivity|].
  split; [vm_compute; reflexivity|]. split.
  - intros d Hd Hn. split; [reflexivity|]. cbn -[bool_decide].
    rewrite bool_decide_eq_true_2 by done. cbn. by apply N.eqb_neq in Hd as ->.
  - apply (bool_decide_eq_true_1 _). vm_compute; reflexivity.
Qed.
