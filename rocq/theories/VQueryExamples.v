(** Concrete vests whose queries mislead. *)
From Verif Require Import Base BaseProofs Exec ExecProofs Plain StoreModel WormModel
  VestModel VestSpec VestProofs VestClaims VestExamples VQueryModel VQueryClaims.

Definition canceledb (s : vstate) : bool :=
  match ve_status (vs_vest s) with Canceled _ => true | _ => false end.
Lemma canceledb_spec s : canceledb s = false -> ~ is_canceled s.
Proof. unfold canceledb. intros H [ow Ho]. by rewrite Ho in H. Qed.
(** The steps begin one second after the start, and [VestDuration] leaves it out. *)
Lemma duration_refuted :
  exists i b s l d, vreached i b s l /\ ~ is_canceled s /\ q_duration s = Some d /\
    sec (time b) - sec (ve_start (vs_vest s)) = d /\ q_vested s b None < q_total s /\ d <> vi_dur i.
Proof.
  exists stepped, (vb 89), (fst (vrun stepped [])), (snd (vrun stepped [])), 89. split; [vreach|].
  split; [apply canceledb_spec; vm_compute; reflexivity|]. split; [vm_compute; reflexivity|].
  split; [vm_compute; reflexivity|]. split; [vm_compute; reflexivity|]. discriminate.
Qed.
(** Asked about a time before a payment, [Distributable] fails. *)
Lemma past_refuted :
  exists i b s l t, vreached i b s l /\ ve_status (vs_vest s) = Funded /\ 0 <= t <= time b /\
    0 < q_vested s b (Some t) /\ is_ok (q_distributable s b (Some t)) = false.
Proof.
  exists lin, (vb 55), (fst ex_v1), (snd ex_v1), (20 * NANOS). split; [exact ex_v1_reached|].
  split; [vm_compute; reflexivity|]. split; [vm_compute; split; discriminate|].
  split; vm_compute; reflexivity.
Qed.
(** Made at second 50 with steps that ended at second 10, and made within the last second. *)
Definition late : vinit :=
  VInit (Some 1%N) 2%N 100 (SPiece [(1, 0); (10, 100)]) (Some 0) 100 (DNative 7%N) [(7%N, 100)] 10 10 7%N.
Definition close : vinit :=
  VInit (Some 1%N) 2%N 100 SLinear (Some 500000000) 100 (DNative 7%N) [(7%N, 100)] 10 10 7%N.
Definition at_once (b : block) (i : vinit) : Prop :=
  exists s subs, fits_vinit i = true /\ 0 <= time b /\ v_instantiate b i = Ok (s, subs) /\
    vested_at s b = vi_total i /\
    forall a, exists s', v_handle s b a (VDistribute None) =
      Ok (s', [VPayVestee (vi_recipient i) (vi_total i)]).
Lemma at_once_intro b i s subs s' :
  fits_vinit i = true -> 0 <= time b -> v_instantiate b i = Ok (s, subs) -> vested_at s b = vi_total i ->
  v_handle s b 0%N (VDistribute None) = Ok (s', [VPayVestee (vi_recipient i) (vi_total i)]) ->
  at_once b i.
Proof.
  intros H1 H2 H3 H4 H5. exists s, subs. split; [done|]. split; [done|]. split; [done|]. split; [done|].
  intros a. exists s'. exact H5.
Qed.
Lemma instavest_refuted :
  exists b i, vi_schedule i <> SLinear /\ at_once b i.
Proof.
  exists (vb 50), late. split; [discriminate|]. eapply at_once_intro; try (vm_compute; reflexivity).
  vm_compute. discriminate.
Qed.
Lemma instavest_linear_refuted :
  exists b i, vi_schedule i = SLinear /\ at_once b i.
Proof.
  exists (Block 100 100400000000), close. split; [reflexivity|].
  eapply at_once_intro; try (vm_compute; reflexivity). vm_compute. discriminate.
Qed.
