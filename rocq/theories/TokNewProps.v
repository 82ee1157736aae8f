(** dao-voting-token-staked with a token of its own: theorems.  Each is followed by what it
    rests on and by a concrete case meeting its hypotheses. *)
From Verif Require Import Base BaseProofs Exec ExecProofs Plain StoreModel ActiveModel VotingModel TokModel
  IssuerModel IssuerSpec TokNewModel TokNewSpec TokNewProofs TokNewClaims TokNewExamples.

(** * C116 *)
Theorem C116_token_as_asked created b dao module issuer denom d thr nt t i :
  new_setup created b dao module issuer denom d thr nt = Ok (t, i) ->
  t_dao t = dao /\ t_denom t = denom /\ i_denom i = denom /\ t_dur t = d /\ t_thr t = thr /\ i_self i = issuer /\
  (forall a, i_bal_of i a = due_to dao nt a) /\
  supply i = lsum snd (nt_bals nt) + default 0 (nt_dao nt) /\ 0 < lsum snd (nt_bals nt) /\
  untouched i.
Proof. exact (c116_setup created b dao module issuer denom d thr nt t i). Qed.
Print Assumptions C116_token_as_asked.
Theorem C116_made_iff_possible created b dao module issuer denom d thr nt :
  is_ok (new_setup created b dao module issuer denom d thr nt) = true <-> possible d thr nt.
Proof. exact (c116_iff created b dao module issuer denom d thr nt). Qed.
Print Assumptions C116_made_iff_possible.
Theorem C116_dao_owns b dao module issuer denom d thr nt t i :
  new_setup true b dao module issuer denom d thr nt = Ok (t, i) ->
  i_own i = Own (Some dao) None None.
Proof. exact (c116_owner b dao module issuer denom d thr nt t i). Qed.
Print Assumptions C116_dao_owns.
Theorem C116_only_dao_accepts b dao module issuer denom d thr nt t i b' a :
  new_setup false b dao module issuer denom d thr nt = Ok (t, i) ->
  o_owner (i_own i) = Some module /\
  i_handle i b' a (IOwn OAccept) =
    if (dao =? a)%N then Ok (set_own i (Own (Some dao) None None), []) else Err "NotPendingOwner".
Proof. exact (c116_pending b dao module issuer denom d thr nt t i b' a). Qed.
Print Assumptions C116_only_dao_accepts.
Theorem C116_history created b dao module issuer denom d thr nt t i :
  new_setup created b dao module issuer denom d thr nt = Ok (t, i) ->
  exists l, ireached (i_new issuer module denom) b i l /\ keeps_admin l /\
    forall pre b' a m post x, ECall pre b' a m post x ∈ l -> a = module \/ a = dao /\ m = IOwn OAccept.
Proof. exact (c116_history created b dao module issuer denom d thr nt t i). Qed.
Print Assumptions C116_history.
Theorem C116_holders_stake created b dao module issuer denom d thr nt t i b' a n :
  new_setup created b dao module issuer denom d thr nt = Ok (t, i) ->
  a <> issuer -> 0 < n <= due_to dao nt a ->
  exists i' t', i_handle i b' a (XSend module n) = Ok (i', []) /\
    t_handle t b' a (TStake [(denom, n)]) = Ok (t', []) /\
    smap_get (t_bals t') a = n /\ snap_get (t_total t') = n /\ t_held t' = n.
Proof. exact (c116_stake created b dao module issuer denom d thr nt t i b' a n). Qed.
Print Assumptions C116_holders_stake.
(** Missing: percentages, and DAOs listed among the holders. *)
Theorem C116_active_possible_partial created b dao module issuer denom d thr nt t i :
  new_setup created b dao module issuer denom d thr nt = Ok (t, i) ->
  dao ∉ map fst (nt_bals nt) -> (forall p, thr <> Some (APercent p)) ->
  0 < supply i - i_bal_of i dao /\
  is_active (t_thr t) (supply i - i_bal_of i dao) (supply i) = Ok true.
Proof. exact (c116_active created b dao module issuer denom d thr nt t i). Qed.
Print Assumptions C116_active_possible_partial.
Theorem C116_percent_refuted :
  exists b dao module issuer denom d thr nt t i,
    new_setup true b dao module issuer denom d thr nt = Ok (t, i) /\ dao ∉ map fst (nt_bals nt) /\
    is_active (t_thr t) (supply i - i_bal_of i dao) (supply i) = Ok false.
Proof. exact percent_locks. Qed.
Print Assumptions C116_percent_refuted.
Theorem C116_dao_listed_refuted :
  exists b dao module issuer denom d n nt t i,
    new_setup true b dao module issuer denom d (Some (ACount n)) nt = Ok (t, i) /\
    supply i - i_bal_of i dao = 0 /\
    is_active (t_thr t) (supply i - i_bal_of i dao) (supply i) = Ok false.
Proof. exact self_locks. Qed.
Print Assumptions C116_dao_listed_refuted.
Theorem C116_exchange_refuted :
  exists b dao module issuer denom d thr nt t i,
    new_setup false b dao module issuer denom d thr nt = Ok (t, i) /\ dao <> module /\
    is_owner (i_own i) dao = false /\ is_owner (i_own i) module = true.
Proof. exact exchange_keeps. Qed.
Print Assumptions C116_exchange_refuted.
(** Alice and Bob are given 70 and 30, the DAO 400. *)
Example C116_case :
  possible usual_dur usual_thr usual /\
  new_setup true now dao module issuer denom usual_dur usual_thr usual = Ok (made_t true, made_i true) /\
  i_bal_of (made_i true) alice = 70 /\ i_bal_of (made_i true) bob = 30 /\ i_bal_of (made_i true) dao = 400 /\
  supply (made_i true) = 500 /\ i_own (made_i true) = Own (Some dao) None None /\
  dao ∉ map fst (nt_bals usual) /\ (forall p, usual_thr <> Some (APercent p)) /\
  0 < 70 <= due_to dao usual alice /\ alice <> issuer.
Proof.
  split; [exact usual_possible|]. split; [exact (made_ok true)|].
  do 5 (split; [vm_compute; reflexivity|]).
  split; [cbn; rewrite !elem_of_cons, elem_of_nil; unfold dao, alice, bob; intros [?|[?|[?|[]]]]; done|].
  split; [done|]. split; [vm_compute; split; congruence|done].
Qed.
(** The same when the voting module is exchanged: the DAO has yet to accept. *)
Example C116_case_exchanged :
  new_setup false now dao module issuer denom usual_dur usual_thr usual = Ok (made_t false, made_i false) /\
  is_ok (i_handle (made_i false) now alice (IOwn OAccept)) = false /\
  is_ok (i_handle (made_i false) now dao (IOwn OAccept)) = true.
Proof. split; [exact (made_ok false)|]. by vm_compute. Qed.
