(** * Bounds for the logarithm and the exponential, over the reals *)

From Coq Require Import ZArith Reals Lra.
From Flocq Require Import Core.
From Interval Require Import Tactic.
Open Scope R_scope.

Definition lnpoly (y : R) : R :=
  - (14611226 / 8388608) + (11832981 / 4194304 + (- (12330891 / 8388608) + (15004856 / 33554432 - 15185622 / 268435456 * y) * y) * y) * y.

Lemma lnpoly_ln : forall y, 1 <= y <= 2 -> Rabs (lnpoly y - ln y) <= 0.0000621.
Proof. intros y H. unfold lnpoly. interval with (i_bisect y, i_taylor y, i_prec 50, i_depth 20). Qed.

Lemma lnpoly_range : forall y, 1 <= y <= 2 -> -0.0001 <= lnpoly y <= 0.69322.
Proof. intros y H. pose proof (lnpoly_ln y H) as D. apply Rabs_le_inv in D.
  assert (0 <= ln y <= 0.69315). { split; interval. } lra. Qed.

Lemma ln_9_8 : 0.1177 <= ln (9 / 8) <= 0.1177831.
Proof. split; interval. Qed.


Lemma ln_at_0_75 : -0.2877 <= ln 0.75 <= -0.2876.
Proof. split; interval. Qed.
