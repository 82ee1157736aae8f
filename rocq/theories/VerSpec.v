(** Specification vocabulary for recorded versions. *)
From Verif Require Import Base VerModel.

(** Older than release [r]: smaller in the first number that differs, or a
    pre-release of it. *)
Definition older (v r : version) : Prop :=
  (w_major v < w_major r)%N \/
  (w_major v = w_major r /\
   ((w_minor v < w_minor r)%N \/
    (w_minor v = w_minor r /\
     ((w_patch v < w_patch r)%N \/
      (w_patch v = w_patch r /\ w_pre v <> ""%string))))).
(** A release. *)
Definition release (v : version) : Prop := w_pre v = ""%string.
