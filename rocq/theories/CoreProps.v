(** dao-dao-core: theorems.  Each is followed by what it rests on and by a concrete case
    meeting its hypotheses. *)
From stdpp Require Import gmap strings.
From Verif Require Import Base BaseProofs CoreModel CoreSpec CoreProofs CoreClaims CoreExamples.

(** * C56 *)
(** Missing: the messages a new module asks for in the data of its creation; tokens
    that add themselves to the lists. *)
Theorem C56_dispatch_partial b s l e : kreached b s l -> e ∈ l -> lawful e.
Proof. exact (dispatch b s l e). Qed.
Print Assumptions C56_dispatch_partial.
Theorem C56_callbacks_refuted : exists b s l e, kreached b s l /\ e ∈ l /\ ~ lawful_strict e /\
  (forall x, x ∈ l -> forall a m, ke_ev x <> VCall a m) /\
  (exists x, x ∈ l /\ ke_ev x = VDone) /\ k_items (k_core s) !! "x"%string = Some "y"%string.
Proof. exact callbacks_refuted. Qed.
Print Assumptions C56_callbacks_refuted.
Theorem C56_paused_only_admin b s l a m s' : kreached b s l -> paused (k_core s) b ->
  k_event s b (VCall a m) = Ok s' -> a = k_admin (k_core s).
Proof. exact (pause b s l a m s'). Qed.
Print Assumptions C56_paused_only_admin.
Theorem C56_who_pauses b s l e : kreached b s l -> e ∈ l ->
  k_paused (k_core (ke_post e)) <> k_paused (k_core (ke_pre e)) ->
  (exists d u, said e = Some (k_self (k_core (ke_pre e)), KPause d) /\ 
     after d (ke_block e) = u /\ k_paused (k_core (ke_post e)) = Some u) \/
  (said e = Some (k_admin (k_core (ke_pre e)), KUnpause) /\
     k_paused (k_core (ke_post e)) = None).
Proof. exact (pausing b s l e). Qed.
Print Assumptions C56_who_pauses.
Theorem C56_pause_range b s l e a d : kreached b s l -> e ∈ l -> said e = Some (a, KPause d) ->
  a = k_self (k_core (ke_pre e)) /\
  k_paused (k_core (ke_post e)) = Some (after d (ke_block e)) /\
  match after d (ke_block e) with
  | AtHeight n | AtTime n => n <= U64_MAX
  | Never => False
  end.
Proof. exact (pause_range b s l e a d). Qed.
Print Assumptions C56_pause_range.
Theorem C56_pause_made s b d t :
  k_todo s = KSend (inl (KPause d)) :: t ->
  match after d b with AtHeight n | AtTime n => n <= U64_MAX | Never => False end ->
  exists s', k_event s b VSelf = Ok s' /\ k_paused (k_core s') = Some (after d b) /\ k_todo s' = t.
Proof. exact (pause_made s b d t). Qed.
Print Assumptions C56_pause_made.
Theorem C56_own_calls_partial b s l e : kreached b s l -> e ∈ l ->
  let s1 := k_core (ke_pre e) in
  let s2 := k_core (ke_post e) in
  match ke_ev e with
  | VSelf => True
  | VDone => s2 = s1
  | VCall a m =>
      settings s2 = settings s1 /\ modules s2 = modules s1 /\
      (lists s2 = lists s1 \/
       (m = KReceive20 /\ kc_auto20 (k_conf s1) = true /\
          lists s2 = ({[a]} ∪ k_cw20s s1, k_cw721s s1)) \/
       (m = KReceive721 /\ kc_auto721 (k_conf s1) = true /\
          lists s2 = (k_cw20s s1, {[a]} ∪ k_cw721s s1)))
  | VReply a msgs =>
      settings s2 = settings s1 /\ lists s2 = lists s1 /\
      (k_mods s2 = k_mods s1 \/ exists p, k_mods s2 = <[a := KMod true p]> (k_mods s1)) /\
      (k_voting s2 = k_voting s1 \/ k_voting s2 = Some a)
  end.
Proof. exact (own_calls b s l e). Qed.
Print Assumptions C56_own_calls_partial.
Theorem C56_lists_refuted : exists b s l s', kreached b s l /\
  k_event s b (VCall 77%N KReceive20) = Ok s' /\ k_mods (k_core s) !! 77%N = None /\
  k_admin (k_core s) <> 77%N /\ k_self (k_core s) <> 77%N /\
  77%N ∉ k_cw20s (k_core s) /\ 77%N ∈ k_cw20s (k_core s').
Proof. exact lists_refuted. Qed.
Print Assumptions C56_lists_refuted.
Theorem C56_modules_act b s l a msgs : kreached b s l -> ~ paused (k_core s) b ->
  enabled (k_core s) a ->
  k_event s b (VCall a (KHook msgs)) = Ok (KState (k_core s) (map KSend msgs ++ k_todo s)).
Proof. exact (modules_act b s l a msgs). Qed.
Print Assumptions C56_modules_act.
Theorem C56_admin_acts b s l msgs : kreached b s l -> k_admin (k_core s) <> k_self (k_core s) ->
  k_event s b (VCall (k_admin (k_core s)) (KAdmin msgs)) =
    Ok (KState (k_core s) (map KSend msgs ++ k_todo s)).
Proof. exact (admin_acts b s l msgs). Qed.
Print Assumptions C56_admin_acts.
(** The pause of the last step ends at 19; one that would end past the range is refused. *)
Example C56_range_case :
  let r := run_of (created ++ exchanged ++ handed) in
  let q := run_of (created ++ exchanged ++ firstn 3 handed) in
  kreached r.1.1 r.1.2 r.2 /\
  (exists e, e ∈ r.2 /\ said e = Some (1%N, KPause (DHeight 10)) /\
     after (DHeight 10) (ke_block e) = AtHeight 19) /\
  is_ok (k_execute (k_core q.1.2) (Block 9 9000) 1%N (KPause (DHeight (U64_MAX - 9)))) = true /\
  is_ok (k_execute (k_core q.1.2) (Block 9 9000) 1%N (KPause (DHeight (U64_MAX - 8)))) = false.
Proof.
  cbv zeta. split; [kreach|]. split.
  - destruct ((run_of (created ++ exchanged ++ handed)).2 !! 13%nat) as [e|] eqn:E;
      [|by vm_compute in E].
    exists e. split; [by apply (elem_of_list_lookup_2 _ 13)|].
    vm_compute in E. injection E as <-. by split; vm_compute.
  - split; vm_compute; reflexivity.
Qed.
(** Two modules; a module exchanges both for another; the admin hands over to 4, who pauses. *)
Example C56_case :
  let r := run_of (created ++ exchanged ++ handed) in
  let b := r.1.1 in let s := r.1.2 in let l := r.2 in
  let r1 := run_of (created ++ exchanged) in
  kreached b s l /\ length l = 14%nat /\ k_admin (k_core s) = 4%N /\
  k_paused (k_core s) = Some (AtHeight 19) /\ q_paused (k_core s) b = Some (AtHeight 19) /\
  (exists e, k_event s b (VCall 53 (KHook [inr 3%N])) = Err e) /\
  (exists s', k_event s b (VCall 4 KUnpause) = Ok s') /\
  kreached r1.1.1 r1.1.2 r1.2 /\ k_paused (k_core r1.1.2) = None /\
  k_mods (k_core r1.1.2) !! 53%N = Some (KMod true "C") /\
  is_ok (k_event r1.1.2 r1.1.1 (VCall 53 (KHook [inr 3%N]))) = true /\
  is_ok (k_event r1.1.2 r1.1.1 (VCall 51 (KHook [inr 3%N]))) = false /\
  77%N ∈ k_cw20s (k_core s).
Proof.
  cbv zeta. split; [kreach|]. do 4 (split; [vm_compute; reflexivity|]).
  split; [eexists; vm_compute; reflexivity|]. split; [eexists; vm_compute; reflexivity|].
  split; [kreach|]. do 4 (split; [vm_compute; reflexivity|]).
  apply (bool_decide_eq_true_1 _). vm_compute. reflexivity.
Qed.

(** * C57 *)
Theorem C57_some_module b s l : kreached b s l -> k_todo s = [] -> exists a, enabled (k_core s) a.
Proof. exact (some_module b s l). Qed.
Print Assumptions C57_some_module.
Theorem C57_counts b s l : kreached b s l ->
  q_module_count (k_core s) = (n_active (k_core s), n_total (k_core s)).
Proof. exact (counts b s l). Qed.
Print Assumptions C57_counts.
Theorem C57_modules_stay b s l e a x : kreached b s l -> e ∈ l ->
  k_mods (k_core (ke_pre e)) !! a = Some x ->
  exists y, k_mods (k_core (ke_post e)) !! a = Some y /\ km_prefix y = km_prefix x /\
    (km_on y = true -> km_on x = true) /\
    (y <> x -> exists add dis, a ∈ dis /\
       said e = Some (k_self (k_core (ke_pre e)), KModules add dis)).
Proof. exact (modules_stay b s l e a x). Qed.
Print Assumptions C57_modules_stay.
(** In the middle of the exchange no module is enabled; at its end one is. *)
Example C57_case :
  let r := run_of (created ++ exchanged) in
  let m := run_of (created ++ firstn 2 exchanged) in
  kreached r.1.1 r.1.2 r.2 /\ k_todo r.1.2 = [] /\ q_module_count (k_core r.1.2) = (1, 3) /\
  kreached m.1.1 m.1.2 m.2 /\ length (k_todo m.1.2) = 2%nat /\ q_module_count (k_core m.1.2) = (0, 2) /\
  (exists e, k_execute (k_core r.1.2) r.1.1 1%N (KModules [] [53%N]) = Err e).
Proof.
  cbv zeta. split; [kreach|]. do 2 (split; [vm_compute; reflexivity|]).
  split; [kreach|]. do 2 (split; [vm_compute; reflexivity|]). eexists. vm_compute. reflexivity.
Qed.

(** * C58 *)
Theorem C58_two_step b s l l1 e l2 : kreached b s l -> l = l1 ++ e :: l2 ->
  k_admin (k_core (ke_post e)) <> k_admin (k_core (ke_pre e)) ->
  let adm := k_admin (k_core (ke_pre e)) in
  (said e = Some (adm, KNominate None) /\
     k_admin (k_core (ke_post e)) = k_self (k_core (ke_pre e))) \/
  (exists x, said e = Some (x, KAccept) /\ k_admin (k_core (ke_post e)) = x /\
     exists l3 n l4, l1 = l3 ++ n :: l4 /\ k_admin (k_core (ke_pre n)) = adm /\
       said n = Some (adm, KNominate (Some x)) /\
       forall e', e' ∈ l4 -> (forall a, said e' <> Some (a, KAccept)) /\
                          (forall a, said e' <> Some (a, KWithdraw))).
Proof. exact (two_step b s l l1 e l2). Qed.
Print Assumptions C58_two_step.
Theorem C58_withdraws b s l e a : kreached b s l -> e ∈ l -> said e = Some (a, KWithdraw) ->
  a = k_admin (k_core (ke_pre e)) /\ (exists x, k_nom (k_core (ke_pre e)) = Some x) /\
  k_nom (k_core (ke_post e)) = None /\
  k_admin (k_core (ke_post e)) = k_admin (k_core (ke_pre e)).
Proof. exact (withdraws b s l e a). Qed.
Print Assumptions C58_withdraws.
Theorem C58_first_admin self c admin v ms items s :
  k_instantiate self c admin v ms items = Ok s ->
  k_admin (k_core s) = match admin with Some a => a | None => self end.
Proof. exact (first_admin self c admin v ms items s). Qed.
Print Assumptions C58_first_admin.
Theorem C58_nominee_accepts b s l x : kreached b s l -> k_nom (k_core s) = Some x ->
  ~ paused (k_core s) b -> x <> k_self (k_core s) ->
  exists s', k_event s b (VCall x KAccept) = Ok s' /\ k_admin (k_core s') = x /\
    k_nom (k_core s') = None /\ k_todo s' = k_todo s.
Proof. exact (nominee_accepts b s l x). Qed.
Print Assumptions C58_nominee_accepts.
(** 9 nominates 4 and takes it back; a second time there is nothing to take back. *)
Example C58_withdraw_case :
  let r := run_of (created ++ exchanged ++ at_ 7 [VCall 9 (KNominate (Some 4%N)); VCall 9 KWithdraw]) in
  kreached r.1.1 r.1.2 r.2 /\
  (exists e, e ∈ r.2 /\ said e = Some (9%N, KWithdraw) /\ k_nom (k_core (ke_pre e)) = Some 4%N /\
     k_nom (k_core (ke_post e)) = None) /\
  is_ok (k_event r.1.2 r.1.1 (VCall 9 KWithdraw)) = false.
Proof.
  cbv zeta. split; [kreach|]. split; [|vm_compute; reflexivity].
  destruct ((run_of (created ++ exchanged ++
    at_ 7 [VCall 9 (KNominate (Some 4%N)); VCall 9 KWithdraw])).2 !! 10%nat) as [e|] eqn:E;
      [|by vm_compute in E].
  exists e. split; [by apply (elem_of_list_lookup_2 _ 10)|].
  vm_compute in E. injection E as <-. by split; vm_compute.
Qed.
(** 9 nominates 4 (twelfth step), who accepts two steps later. *)
Example C58_case :
  let r := run_of (created ++ exchanged ++ handed) in
  let q := run_of (created ++ exchanged ++ firstn 1 handed) in
  kreached r.1.1 r.1.2 r.2 /\
  (exists l1 e l2, r.2 = l1 ++ e :: l2 /\ length l1 = 11%nat /\ said e = Some (4%N, KAccept) /\
     k_admin (k_core (ke_pre e)) = 9%N /\ k_admin (k_core (ke_post e)) = 4%N) /\
  kreached q.1.1 q.1.2 q.2 /\ k_nom (k_core q.1.2) = Some 4%N /\ k_paused (k_core q.1.2) = None.
Proof.
  cbv zeta. split; [kreach|]. split.
  - destruct ((run_of (created ++ exchanged ++ handed)).2 !! 11%nat) as [e|] eqn:E;
      [|by vm_compute in E].
    eexists (firstn 11 _), e, (skipn 12 _). split; [symmetry; apply take_drop_middle; exact E|].
    split; [vm_compute; reflexivity|]. vm_compute in E. injection E as <-.
    split; [reflexivity|]. split; reflexivity.
  - split; [kreach|]. split; vm_compute; reflexivity.
Qed.

(** * C59 *)
Theorem C59_prefix_unique i j p : 0 <= i -> 0 <= j ->
  derive_prefix i = Ok p -> derive_prefix j = Ok p -> i = j.
Proof. exact (prefix_unique i j p). Qed.
Print Assumptions C59_prefix_unique.
Theorem C59_prefix_letters i p : 0 <= i -> derive_prefix i = Ok p ->
  p <> ""%string /\ capitals p /\ spells 0 p = i + 1.
Proof. exact (prefix_letters i p). Qed.
Print Assumptions C59_prefix_letters.
Theorem C59_prefix_defined i : 0 <= i < U32_MAX -> exists p, derive_prefix i = Ok p.
Proof. exact (prefix_defined i). Qed.
Print Assumptions C59_prefix_defined.
Theorem C59_module_prefixes b s l a a' x x' : kreached b s l ->
  k_mods (k_core s) !! a = Some x -> k_mods (k_core s) !! a' = Some x' -> a <> a' ->
  km_prefix x <> km_prefix x' /\ km_prefix x <> ""%string /\ capitals (km_prefix x).
Proof. exact (modules_prefixes b s l a a' x x'). Qed.
Print Assumptions C59_module_prefixes.
Example C59_case :
  derive_prefix 0 = Ok "A"%string /\ derive_prefix 25 = Ok "Z"%string /\
  derive_prefix 26 = Ok "AA"%string /\ derive_prefix 701 = Ok "ZZ"%string /\
  derive_prefix 702 = Ok "AAA"%string /\ derive_prefix 4294967294 = Ok "MWLQKWU"%string /\
  derive_prefix 4294967295 = Err "panic"%string /\
  (let r := run_of (created ++ exchanged) in kreached r.1.1 r.1.2 r.2 /\
   k_mods (k_core r.1.2) !! 51%N = Some (KMod false "A") /\
   k_mods (k_core r.1.2) !! 53%N = Some (KMod true "C")).
Proof.
  do 7 (split; [vm_compute; reflexivity|]). cbv zeta. split; [kreach|].
  split; vm_compute; reflexivity.
Qed.
