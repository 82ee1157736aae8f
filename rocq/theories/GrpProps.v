(** C94, C95: the cw4 voting module. *)
From Verif Require Import Base BaseProofs Exec ExecProofs Plain PlainProofs StoreModel
  GrpModel GrpSpec GrpProofs GrpClaims GrpExamples.

(** * C94 *)
Theorem C94_powers_add_up b s l h accounts :
  greached b s l -> covers (fun a => gv_power s a h) accounts ->
  lsum (fun a => gv_power s a h) accounts = gv_total s h.
Proof. exact (g_powers_sum b s l h accounts). Qed.
Print Assumptions C94_powers_add_up.
Theorem C94_past_fixed b s l b' s' l' a h :
  greached b s l -> leads g_handle b s b' s' l' ->
  (h <= height b -> gv_power s' a (Some h) = gv_power s a (Some h) /\
                    gv_total s' (Some h) = gv_total s (Some h)) /\
  (height b < h -> gv_power s a (Some h) = gv_power s a None /\ gv_total s (Some h) = gv_total s None).
Proof. exact (g_powers_past b s l b' s' l' a h). Qed.
Print Assumptions C94_past_fixed.
Theorem C94_as_last_set admin members b s l a :
  gborn admin members b s l ->
  q_weight s a None = weight_last members a l /\ g_admin s = admin_last admin l.
Proof. exact (g_as_last admin members b s l a). Qed.
Print Assumptions C94_as_last_set.
Theorem C94_by_admin b s l pre b1 a m post subs :
  greached b s l -> ECall pre b1 a m post subs ∈ l -> g_admin pre = Some a /\ m <> GVoting.
Proof. exact (g_by_admin b s l pre b1 a m post subs). Qed.
Print Assumptions C94_by_admin.
Theorem C94_frozen b s b' s' l' :
  g_admin s = None -> leads g_handle b s b' s' l' -> s' = s.
Proof. exact (g_frozen b s b' s' l'). Qed.
Print Assumptions C94_frozen.
Theorem C94_dao_only dao members b0 s0 b s l :
  gv_new dao b0 members = Ok s0 -> leads g_handle b0 s0 b s l -> keeps_admin dao l ->
  g_admin s = Some dao /\
  forall pre b1 a m post subs, ECall pre b1 a m post subs ∈ l -> a = dao.
Proof. exact (g_dao_only dao members b0 s0 b s l). Qed.
Print Assumptions C94_dao_only.
Theorem C94_setup_new dao b members s :
  gv_new dao b members = Ok s ->
  g_admin s = Some dao /\ NoDup members.*1 /\
  (forall a w, (a, w) ∈ members -> gv_power s a None = w) /\
  (forall a, a ∉ members.*1 -> gv_power s a None = 0) /\
  gv_total s None = lsum snd members.
Proof. exact (g_setup_new dao b members s). Qed.
Print Assumptions C94_setup_new.
Theorem C94_refused dao b members :
  ~ NoDup members.*1 \/ members = [] \/ (forall x, x ∈ members -> x.2 = 0) ->
  is_ok (gv_new dao b members) = false.
Proof. exact (g_refused dao b members). Qed.
Print Assumptions C94_refused.
Example C94_case :
  let r := grun changing in let s := fst r in let l := snd r in
  greached (gb 5) s l /\ covers (fun a => gv_power s a (Some 3)) [5%N; 8%N] /\
  gv_power s 5 (Some 3) = 10 /\ gv_power s 8 (Some 3) = 2 /\ gv_total s (Some 3) = 12 /\
  gv_power s 5 (Some 4) = 6 /\ gv_total s (Some 2) = 7 /\ gv_total s None = 7 /\
  gv_power s 7 None = 1 /\ q_weight s 8 None = None.
Proof.
  cbv zeta. split; [greach|]. split.
  { split; [apply (bool_decide_eq_true_1 _); vm_compute; reflexivity|]. intros a H.
    assert (a ∈ [5%N; 6%N; 7%N; 8%N]) as K.
    { apply (elem_of_list_to_set (C := gset addr)).
      assert (dom (g_members (fst (grun changing))) ⊆ (list_to_set [5%N; 6%N; 7%N; 8%N] : gset addr)) as S
        by (apply (bool_decide_eq_true_1 _); vm_compute; reflexivity).
      apply S, elem_of_dom. unfold gv_power, q_weight, smap_snap in H.
      destruct (g_members (fst (grun changing)) !! a); [done|]. by destruct H. }
    repeat (apply elem_of_cons in K as [->|K]; [try (by destruct H; vm_compute); repeat constructor|]).
    by apply elem_of_nil in K. }
  do 7 (split; [vm_compute; reflexivity|]). vm_compute; reflexivity.
Qed.
Example C94_case_last :
  let r := grun handed in let s := fst r in let l := snd r in
  gborn (Some 30%N) trio (gb 8) s l /\ weight_last trio 5 l = None /\ weight_last trio 7 l = Some 1 /\
  admin_last (Some 30%N) l = None /\ length l = 13%nat.
Proof.
  cbv zeta. split; [apply gborn_run; gside|].
  do 3 (split; [vm_compute; reflexivity|]). vm_compute; reflexivity.
Qed.
Example C94_case_dao :
  let r := grun changing in let s := fst r in let l := snd r in
  gv_new 30 (gb 0) trio = Ok g0 /\ leads g_handle (gb 0) g0 (gb 5) s l /\ keeps_admin 30 l /\
  exists pre b m post subs, ECall pre b 30 m post subs ∈ l /\ m = GMembers [6%N; 9%N] [(5%N, 10); (8%N, 2)] /\
    subs = [GHook 50 [(5%N, Some 3, Some 10); (8%N, None, Some 2); (6%N, Some 4, None)]].
Proof.
  cbv zeta. split; [vm_compute; reflexivity|]. split; [apply gleads_run; gside|]. split.
  - intros pre b c x post subs Hin. apply elem_of_list_lookup in Hin as [i E].
    do 12 (destruct i as [|i]; [vm_compute in E; discriminate E|]). vm_compute in E. discriminate E.
  - do 5 eexists. split; [apply (elem_of_list_lookup_2 _ 1); vm_compute; reflexivity|].
    split; reflexivity.
Qed.
Example C94_case_refused :
  is_ok (gv_new 30 (gb 0) [(5%N, 1); (6%N, 2); (5%N, 1)]) = false /\
  is_ok (gv_new 30 (gb 0) [(5%N, 1); (6%N, 2); (5%N, 3)]) = false /\
  is_ok (gv_new 30 (gb 0) [(5%N, 0); (6%N, 0)]) = false /\
  is_ok (gv_new 30 (gb 0) [(5%N, 0); (6%N, 1)]) = true.
Proof. do 3 (split; [vm_compute; reflexivity|]). vm_compute; reflexivity. Qed.

(** * C95 *)
Theorem C95_new_has_power dao b members s h :
  gv_new dao b members = Ok s -> height b < h ->
  0 < gv_total s None /\ 0 < gv_total s (Some h) /\
  exists a, 0 < gv_power s a None /\ 0 < gv_power s a (Some h).
Proof. exact (g_new_power dao b members s h). Qed.
Print Assumptions C95_new_has_power.
Theorem C95_old_has_power_partial b s l :
  greached b s l -> gv_old s = Ok tt ->
  (forall c n, q_weight s c None = Some n -> n <> 0) ->
  0 < gv_total s None /\ exists a, 0 < gv_power s a None.
Proof. exact (g_old_power b s l). Qed.
Print Assumptions C95_old_has_power_partial.
Theorem C95_old_zero_refuted : exists b s l,
  greached b s l /\ gv_old s = Ok tt /\ gv_total s None = 0 /\ forall a, gv_power s a None = 0.
Proof. exact old_zero_refuted. Qed.
Print Assumptions C95_old_zero_refuted.
Theorem C95_first_block_refuted : exists dao b members s,
  gv_new dao b members = Ok s /\ gv_total s (Some (height b)) = 0 /\ 0 < gv_total s None.
Proof. exact first_block_refuted. Qed.
Print Assumptions C95_first_block_refuted.
Theorem C95_foreign_refuted : exists dao b s b' s' l',
  greached b s [] /\ gv_old s = Ok tt /\ gv_total s None = 7 /\
  (forall m, is_ok (g_handle s b dao m) = false) /\
  leads g_handle b s b' s' l' /\ gv_total s' None = 0.
Proof. exact foreign_refuted. Qed.
Print Assumptions C95_foreign_refuted.
Example C95_case :
  gv_new 30 (gb 0) trio = Ok g0 /\ gv_total g0 None = 7 /\ gv_total g0 (Some 1) = 7 /\
  gv_old (g_of (Some 40%N) [(5%N, 3); (6%N, 4)]) = Ok tt.
Proof. do 3 (split; [vm_compute; reflexivity|]). vm_compute; reflexivity. Qed.
