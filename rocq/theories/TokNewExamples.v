(** Concrete set-ups. *)
From Verif Require Import Base Exec StoreModel ActiveModel VotingModel TokModel IssuerModel IssuerSpec TokNewModel TokNewSpec.

Definition dao : addr := 1%N.
Definition module : addr := 2%N.
Definition issuer : addr := 3%N.
Definition alice : addr := 10%N.
Definition bob : addr := 11%N.
Definition denom : N := 7%N.
Definition now : block := Block 100 1000.
(** Two holders, one listed twice, and a treasury. *)
Definition usual : new_token := NewToken [(alice, 60); (bob, 30); (alice, 10)] (Some 400) true.
Definition usual_dur : option duration := Some (DHeight 20).
Definition usual_thr : option athreshold := Some (ACount 100).
Definition made (c : bool) := new_setup c now dao module issuer denom usual_dur usual_thr usual.
Definition dummy_t : tstate := TState 0%N 0%N None None ∅ snap_empty ∅ [] 0.
Definition got (r : result (tstate * istate)) : tstate * istate :=
  match r with Ok x => x | Err _ => (dummy_t, i_new 0%N 0%N 0%N) end.
Definition made_t (c : bool) : tstate := (got (made c)).1.
Definition made_i (c : bool) : istate := (got (made c)).2.
Lemma made_ok c : made c = Ok (made_t c, made_i c).
Proof. by destruct c; vm_compute. Qed.
Lemma usual_possible : possible usual_dur usual_thr usual.
Proof.
  split; [|split; [|split; [|split; [|split]]]]; [|done| |done| |].
  - vm_compute. split; congruence.
  - intros x. cbn [nt_bals usual]. rewrite !elem_of_cons, elem_of_nil. intros [->|[->|[->|[]]]]; by cbn.
  - vm_compute. congruence.
  - vm_compute. split; congruence.
Qed.
(** A percentage of the supply, most of which is the DAO's. *)
Definition percent_thr : option athreshold := Some (APercent (DEC_ONE / 2)).
Definition pct := new_setup true now dao module issuer denom usual_dur percent_thr usual.
Definition pct_t : tstate := (got pct).1.
Definition pct_i : istate := (got pct).2.
Lemma pct_ok : pct = Ok (pct_t, pct_i).
Proof. by vm_compute. Qed.
(** The DAO itself is the only one listed. *)
Definition own_list : new_token := NewToken [(dao, 100)] None false.
Definition self := new_setup true now dao module issuer denom usual_dur usual_thr own_list.
Definition self_t : tstate := (got self).1.
Definition self_i : istate := (got self).2.
Lemma self_ok : self = Ok (self_t, self_i).
Proof. by vm_compute. Qed.

Lemma percent_locks :
  exists b dao module issuer denom d thr nt t i,
    new_setup true b dao module issuer denom d thr nt = Ok (t, i) /\ dao ∉ map fst (nt_bals nt) /\
    is_active (t_thr t) (supply i - i_bal_of i dao) (supply i) = Ok false.
Proof.
  exists now, dao, module, issuer, denom, usual_dur, percent_thr, usual, pct_t, pct_i.
  split; [exact pct_ok|]. split; [|by vm_compute].
  cbn. rewrite !elem_of_cons, elem_of_nil. unfold dao, alice, bob. intros [?|[?|[?|[]]]]; done.
Qed.
Lemma self_locks :
  exists b dao module issuer denom d n nt t i,
    new_setup true b dao module issuer denom d (Some (ACount n)) nt = Ok (t, i) /\
    supply i - i_bal_of i dao = 0 /\
    is_active (t_thr t) (supply i - i_bal_of i dao) (supply i) = Ok false.
Proof.
  exists now, dao, module, issuer, denom, usual_dur, 100, own_list, self_t, self_i.
  split; [exact self_ok|]. by vm_compute.
Qed.
Lemma exchange_keeps :
  exists b dao module issuer denom d thr nt t i,
    new_setup false b dao module issuer denom d thr nt = Ok (t, i) /\ dao <> module /\
    is_owner (i_own i) dao = false /\ is_owner (i_own i) module = true.
Proof.
  exists now, dao, module, issuer, denom, usual_dur, usual_thr, usual, (made_t false), (made_i false).
  split; [exact (made_ok false)|]. by vm_compute.
Qed.
