(** Proofs about recorded versions. *)
From Coq Require Import String DecimalString Ascii DecimalFacts DecimalN.
From Coq Require Import NArith.
From Verif Require Import Base BaseProofs VerModel VerSpec.

Lemma cmp_release_older v r : cmp_release v r = Lt <-> older v r.
Proof.
  unfold cmp_release, older.
  destruct (N.compare_spec (w_major v) (w_major r)) as [H1|H1|H1];
    [|split; [by left|done]|split; [done|lia]].
  destruct (N.compare_spec (w_minor v) (w_minor r)) as [H2|H2|H2];
    [|split; [by auto 12|done]|split; [done|lia]].
  destruct (N.compare_spec (w_patch v) (w_patch r)) as [H3|H3|H3];
    [|split; [by auto 12|done]|split; [done|lia]].
  destruct (w_pre v); split; try done.
  - intros [?|(_ & [?|(_ & [?|(_ & ?)])])]; try lia. done.
  - intros _. by auto 14.
Qed.

Lemma c112_upgrade name i :
  (exists i', migrate_upgrade name i = Ok i') <->
  (i_name i = name /\ older (i_version i) code_version).
Proof.
  unfold migrate_upgrade. rewrite <- cmp_release_older.
  destruct (N.eqb_spec (i_name i) name) as [->|?]; simpl.
  - destruct (cmp_release (i_version i) code_version); split; intros H;
      try (by destruct H as [? ?]); try (by destruct H); eauto.
  - split; [by intros [? ?]|by intros [? ?]].
Qed.

Lemma c112_upgrade_result name i i' :
  migrate_upgrade name i = Ok i' ->
  i' = Recorded name (Version 2 5 0 "") /\ is_ok (migrate_upgrade name i') = false.
Proof.
  unfold migrate_upgrade. destruct (i_name i =? name)%N eqn:Hn; [|done]. simpl.
  destruct (cmp_release _ _); [done| |done]. intros [= <-]. split; [done|].
  simpl. by rewrite N.eqb_refl.
Qed.

Lemma number_text n : exists d, render_number n = NilEmpty.string_of_uint d /\ d <> Decimal.Nil.
Proof.
  exists (N.to_uint n). split; [done|].
  destruct n as [|p]; [done|]. cbn. apply DecimalPos.Unsigned.to_uint_nonnil.
Qed.
(** A number's text is never below that of zero, whatever follows. *)
Lemma text_not_below_zero n s : String.ltb (render_number n ++ s) "0" = false.
Proof.
  destruct (number_text n) as (d & -> & Hd).
  destruct d as [|d|d|d|d|d|d|d|d|d|d]; try done.
  unfold String.ltb. simpl.
  match goal with |- context [String.compare ?x ""] => by destruct x end.
Qed.

Lemma digit_cases n : (n < 10)%N ->
  n = 0%N \/ n = 1%N \/ n = 2%N \/ n = 3%N \/ n = 4%N \/ n = 5%N \/ n = 6%N \/ n = 7%N \/
  n = 8%N \/ n = 9%N.
Proof.
  lia.
Qed.

Lemma newer_digits v :
  release v -> (w_major v < 10)%N -> (w_minor v < 10)%N ->
  String.ltb (render v) (render code_version) = true <-> older v code_version.
Proof.
  intros Hr Ha Hb. destruct v as [ma mi pa pre]. unfold release in Hr. simpl in *. subst pre.
  unfold older. simpl.
  apply digit_cases in Ha. apply digit_cases in Hb.
  unfold render. simpl w_pre. simpl w_major. simpl w_minor. simpl w_patch. cbv iota.
  destruct (N.eq_dec ma 2) as [->|Hma].
  - destruct (N.eq_dec mi 5) as [->|Hmi].
    + assert (String.ltb ("2" ++ "." ++ "5" ++ "." ++ render_number pa ++ "")
                ("2" ++ "." ++ "5" ++ "." ++ "0" ++ "") =
              String.ltb (render_number pa ++ "") "0") as E by reflexivity.
      change (render_number 2) with "2"%string. change (render_number 5) with "5"%string.
      change (render_number 0) with "0"%string. rewrite E, text_not_below_zero.
      split; [done|]. intros [?|(_ & [?|(_ & [?|(_ & ?)])])]; try lia; done.
    + destruct_or! Hb; subst mi; try done; (split; intros H; first [discriminate H|lia|reflexivity]).
  - destruct_or! Ha; subst ma; try done; (split; intros H; first [discriminate H|lia|reflexivity]).
Qed.

(** With numbers of one digit and no pre-releases the record is kept as meant. *)
Lemma c112_newer name i :
  release (i_version i) -> (w_major (i_version i) < 10)%N -> (w_minor (i_version i) < 10)%N ->
  exists i', migrate_newer name i = Ok i' /\
    (older (i_version i) code_version -> i' = Recorded name (Version 2 5 0 "")) /\
    (~ older (i_version i) code_version -> i' = i).
Proof.
  intros Hr Ha Hb. unfold migrate_newer. eexists. split; [reflexivity|].
  pose proof (newer_digits _ Hr Ha Hb) as H.
  destruct (String.ltb _ _).
  - split; [done|]. intros Hn. exfalso. apply Hn. by apply H.
  - split; [|done]. intros Ho. by apply H in Ho.
Qed.

(** Older code replaces the record of newer code. *)
Lemma c112_downgrade_refuted :
  exists name i i', release (i_version i) /\ older code_version (i_version i) /\
    migrate_newer name i = Ok i' /\ i_version i' = code_version /\ i_version i' <> i_version i.
Proof.
  exists 1%N, (Recorded 1 (Version 2 10 0 "")), (Recorded 1 code_version).
  split; [done|]. split; [right; split; [done|left; done]|]. split; [reflexivity|]. done.
Qed.
(** Newer code does not replace the record of its own pre-release. *)
Lemma c112_upgrade_refuted :
  exists name i i', older (i_version i) code_version /\
    migrate_newer name i = Ok i' /\ i_version i' <> code_version.
Proof.
  exists 1%N, (Recorded 1 (Version 2 5 0 "rc.1")), (Recorded 1 (Version 2 5 0 "rc.1")).
  split; [by repeat (right; split; [done|])|]. split; [reflexivity|]. done.
Qed.
