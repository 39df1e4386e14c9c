(** * Numeric facts about real functions used for powf *)

From Coq Require Import Reals Lra.
From Interval Require Import Tactic.
Open Scope R_scope.

Lemma exp_614 : exp 0.000614 <= 1.000615.
Proof. interval. Qed.

(** e is about 2.71828175, the float nearest to e; n = -0.69310713. *)
Lemma powf_point : Rabs (8408642 / 16777216 - Rpower (2850325 / 1048576) (- (11628408 / 16777216))) >
  0.0023 * Rpower (2850325 / 1048576) (- (11628408 / 16777216)).
Proof. unfold Rpower. interval with (i_prec 60). Qed.
