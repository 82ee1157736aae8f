(** cw721-roles and dao-voting-cw721-roles: theorems.  Each is followed by what it rests on and
    by a concrete case meeting its hypotheses. *)
From Verif Require Import Base BaseProofs Exec ExecProofs Plain StoreModel
  RolesModel RolesSpec RolesProofs RolesClaims RolesExamples.

(** * C63 *)
(** Missing: accounts to or from which a token was transferred; see the refutation. *)
Theorem C63_weights_partial b s l a :
  rreached b s l -> (forall e, e ∈ l -> ~ moves a e) -> v_power s a None = held s a.
Proof. exact (weight_is_held b s l a). Qed.
Print Assumptions C63_weights_partial.
Theorem C63_total_of_tokens b s l : rreached b s l -> v_total s None = all_held s.
Proof. exact (total_is_tokens b s l). Qed.
Print Assumptions C63_total_of_tokens.
Theorem C63_transfer_refuted : exists b s l a c,
  rreached b s l /\ held s a = 0 /\ v_power s a None = 10 /\
  held s c = 17 /\ v_power s c None = 7 /\
  (exists id, owner_of s id = Some c /\ forall x, is_ok (r_handle s b x (RBurn id)) = false).
Proof. exact transfer_refuted. Qed.
Print Assumptions C63_transfer_refuted.
Example C63_case :
  let r := rrun roles in let s := fst r in let l := snd r in
  rreached (rb 4) s l /\ (forall e, e ∈ l -> ~ moves 5 e) /\ held s 5 = 10 /\
  v_power s 5 None = 10 /\ held s 6 = 7 /\ v_total s None = 17 /\ all_held s = 17.
Proof.
  cbv zeta. split; [rreach|]. split.
  { intros e Hin. vm_compute in Hin.
    repeat (apply elem_of_cons in Hin as [->|Hin];
      [first [exact (fun x => x) | intros [N _]; apply N; vm_compute; reflexivity]|]).
    by apply elem_of_nil in Hin. }
  do 4 (split; [vm_compute; reflexivity|]). vm_compute; reflexivity.
Qed.

(** * C82 *)
(** Missing: the DAO.  The tokens stay as the voting contract minted them, for good. *)
Theorem C82_owner_partial s b a m s' subs :
  r_handle s b a m = Ok (s', subs) -> o_owner (r_own s) = Some a.
Proof. exact (only_owner s b a m s' subs). Qed.
Print Assumptions C82_owner_partial.
Theorem C82_owner_stays b0 minter b s l :
  leads r_handle b0 (r_instantiate minter b0) b s l ->
  o_owner (r_own s) = Some minter \/ o_owner (r_own s) = None.
Proof. exact (owner_stays b0 minter b s l). Qed.
Print Assumptions C82_owner_stays.
Theorem C82_stuck voting dao b0 nfts s1 b s l :
  v_setup voting dao b0 nfts = Ok s1 -> leads r_handle b0 s1 b s l ->
  (forall pre b1 m post subs, ECall pre b1 voting m post subs ∉ l) ->
  s = s1 /\ forall pre b1 a m post subs, ECall pre b1 a m post subs ∉ l.
Proof. exact (stuck voting dao b0 nfts s1 b s l). Qed.
Print Assumptions C82_stuck.
Theorem C82_handover_refuted : exists voting dao b0 nfts s,
  v_setup voting dao b0 nfts = Ok s /\ o_pending (r_own s) = Some dao /\
  voting <> dao /\
  forall b m, is_ok (r_handle s b dao m) = false.
Proof. exact handover_refuted. Qed.
Print Assumptions C82_handover_refuted.
Example C82_case :
  exists s, v_setup 40 30 (rb 0) minted_roles = Ok s /\ leads r_handle (rb 0) s (rb 9) s [] /\
  v_total s None = 7 /\ v_power s 5 (Some 1) = 3 /\ o_owner (r_own s) = Some 40%N.
Proof.
  eexists. split; [vm_compute; reflexivity|]. split.
  { exists []. split; [exact I|]. split; [reflexivity|]. split; vm_compute; discriminate. }
  split; [vm_compute; reflexivity|]. split; vm_compute; reflexivity.
Qed.

(** * C83 *)
(** Missing: calls lowering the weight of a token; see the refutation. *)
Theorem C83_told_partial b s l pre b1 a m post subs :
  rreached b s l -> ECall pre b1 a m post subs ∈ l -> ~ lowers pre m ->
  forall x, x ∈ subs -> tells_true pre post x.
Proof. exact (hooks_told b s l pre b1 a m post subs). Qed.
Print Assumptions C83_told_partial.
Theorem C83_every_hook b s l pre b1 a m post subs :
  rreached b s l -> ECall pre b1 a m post subs ∈ l ->
  (forall c, v_power post c None = v_power pre c None /\ omap hook_of subs = []) \/
  (exists c, omap hook_of subs = map (fun h => (h, c)) (r_hooks pre) /\
     forall c', c' <> c -> v_power post c' None = v_power pre c' None).
Proof. exact (hooks_all b s l pre b1 a m post subs). Qed.
Print Assumptions C83_every_hook.
Theorem C83_registered b s l :
  rreached b s l -> NoDup (r_hooks s) /\ forall a, a ∈ r_hooks s <-> last_about a l = Some true.
Proof. exact (hooks_registered b s l). Qed.
Print Assumptions C83_registered.
Theorem C83_lowered_refuted : exists b s l pre b1 a m post subs x,
  rreached b s l /\ ECall pre b1 a m post subs ∈ l /\ x ∈ subs /\ ~ tells_true pre post x.
Proof. exact lowered_refuted. Qed.
Print Assumptions C83_lowered_refuted.
Example C83_registered_case :
  rreached (rb 4) (fst (rrun hooked)) (snd (rrun hooked)) /\
  r_hooks (fst (rrun hooked)) = [51; 50]%N /\
  last_about 50 (snd (rrun hooked)) = Some true /\ last_about 52 (snd (rrun hooked)) = Some false.
Proof.
  split; [rreach|]. split; [vm_compute; reflexivity|]. by split; vm_compute.
Qed.
Example C83_case : exists pre b a m post subs,
  rreached (rb 4) (fst (rrun roles)) (snd (rrun roles)) /\
  ECall pre b a m post subs ∈ snd (rrun roles) /\ m = RWeight 12 10 /\ ~ lowers pre m /\
  subs = [RHook 50 5 (Some 7) (Some 13)].
Proof.
  do 6 eexists. split; [rreach|].
  split; [apply (elem_of_list_lookup_2 _ 7); vm_compute; reflexivity|].
  split; [reflexivity|]. split; [|reflexivity].
  intros (x & E & L). vm_compute in E. injection E as <-. vm_compute in L. discriminate L.
Qed.

(** * C84 *)
Theorem C84_sum b s l h accounts :
  rreached b s l -> covers (fun a => v_power s a h) accounts ->
  lsum (fun a => v_power s a h) accounts = v_total s h.
Proof. exact (powers_sum b s l h accounts). Qed.
Print Assumptions C84_sum.
Theorem C84_past b s l b' s' l' a h :
  rreached b s l -> leads r_handle b s b' s' l' ->
  (h <= height b -> v_power s' a (Some h) = v_power s a (Some h) /\
                    v_total s' (Some h) = v_total s (Some h)) /\
  (height b < h -> v_power s a (Some h) = v_power s a None /\ v_total s (Some h) = v_total s None).
Proof. exact (powers_past b s l b' s' l' a h). Qed.
Print Assumptions C84_past.
Example C84_case :
  let r := rrun moved in let s := fst r in let l := snd r in
  rreached (rb 5) s l /\ covers (fun a => v_power s a (Some 3)) [5%N; 6%N; 7%N] /\
  v_power s 5 (Some 3) = 7 /\ v_power s 6 (Some 3) = 7 /\ v_total s (Some 3) = 14 /\
  v_power s 5 (Some 2) = 7 /\ v_total s (Some 2) = 7 /\ v_total s (Some 4) = 20.
Proof.
  cbv zeta. split; [rreach|]. split.
  { split; [apply (bool_decide_eq_true_1 _); vm_compute; reflexivity|]. intros a.
    destruct (decide (a ∈ [5%N; 6%N; 7%N])) as [|N]; [done|]. intros H. exfalso. apply H.
    unfold v_power, q_member, smap_snap.
    replace (r_members (fst (rrun moved)) !! a) with (@None snap); [reflexivity|].
    symmetry. apply not_elem_of_dom. intros D. apply N. revert D.
    assert (dom (r_members (fst (rrun moved))) ⊆ (list_to_set [5%N; 6%N; 7%N] : gset addr)) as S
      by (apply (bool_decide_eq_true_1 _); vm_compute; reflexivity).
    intros D. apply S in D. by apply elem_of_list_to_set in D. }
  do 5 (split; [vm_compute; reflexivity|]). vm_compute; reflexivity.
Qed.

(** * C141 *)
(** The owner can mint as long as the weights fit, and the weights become what they should. *)
Theorem C141_mints b s l a id who w :
  rreached b s l -> o_owner (r_own s) = Some a -> r_tokens s !! id = None -> 0 <= w ->
  v_total s None + w <= U64_MAX ->
  exists s' subs, r_handle s b a (RMint id who w) = Ok (s', subs) /\
    owner_of s' id = Some who /\ v_power s' who None = v_power s who None + w /\
    (forall c, c <> who -> v_power s' c None = v_power s c None) /\
    v_total s' None = v_total s None + w.
Proof. exact (mints b s l a id who w). Qed.
Print Assumptions C141_mints.
(** Missing below: roles that were transferred, and burning roles without weight; see
    [C63_transfer_refuted] and the refutation below. *)
Theorem C141_reweighs_partial b s l a id x w :
  rreached b s l -> o_owner (r_own s) = Some a -> r_tokens s !! id = Some x ->
  (forall e, e ∈ l -> ~ moves (ro_owner x) e) ->
  0 <= w -> w <> ro_weight x -> v_total s None - ro_weight x + w <= U64_MAX ->
  exists s' subs, r_handle s b a (RWeight id w) = Ok (s', subs) /\
    owner_of s' id = Some (ro_owner x) /\
    v_power s' (ro_owner x) None = v_power s (ro_owner x) None - ro_weight x + w /\
    (forall c, c <> ro_owner x -> v_power s' c None = v_power s c None) /\
    v_total s' None = v_total s None - ro_weight x + w.
Proof. exact (reweighs b s l a id x w). Qed.
Print Assumptions C141_reweighs_partial.
Theorem C141_burns_partial b s l a id x :
  rreached b s l -> o_owner (r_own s) = Some a -> r_tokens s !! id = Some x ->
  (forall e, e ∈ l -> ~ moves (ro_owner x) e) -> 0 < ro_weight x ->
  exists s' subs, r_handle s b a (RBurn id) = Ok (s', subs) /\
    owner_of s' id = None /\
    v_power s' (ro_owner x) None = v_power s (ro_owner x) None - ro_weight x /\
    (forall c, c <> ro_owner x -> v_power s' c None = v_power s c None) /\
    v_total s' None = v_total s None - ro_weight x.
Proof. exact (burns b s l a id x). Qed.
Print Assumptions C141_burns_partial.
Theorem C141_burn_refuted : exists b s l id x,
  rreached b s l /\ (forall a e, e ∈ l -> ~ moves a e) /\ r_tokens s !! id = Some x /\
  o_owner (r_own s) = Some 1%N /\ forall a, is_ok (r_handle s b a (RBurn id)) = false.
Proof. exact weightless_refuted. Qed.
Print Assumptions C141_burn_refuted.
Example C141_case :
  let r := rrun roles in let s := fst r in let l := snd r in
  rreached (rb 4) s l /\ o_owner (r_own s) = Some 1%N /\ r_tokens s !! 20%N = None /\
  v_total s None = 17 /\ v_total s None + 5 <= U64_MAX /\
  r_tokens s !! 12%N = Some (Role 5 10) /\ (forall e, e ∈ l -> ~ moves 5 e).
Proof.
  cbv zeta. split; [rreach|]. do 5 (split; [vm_compute; first [reflexivity|discriminate]|]).
  intros e Hin. vm_compute in Hin.
  repeat (apply elem_of_cons in Hin as [->|Hin];
    [first [exact (fun x => x) | intros [N _]; apply N; vm_compute; reflexivity]|]).
  by apply elem_of_nil in Hin.
Qed.
