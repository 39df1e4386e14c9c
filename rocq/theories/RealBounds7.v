(** * Bounds over the reals: slope of the logarithm polynomial *)

From Coq Require Import ZArith Reals Lra.
From Flocq Require Import Core.
From Interval Require Import Tactic.
From Verif Require Import RealBounds3.
Open Scope R_scope.

Lemma lnpoly_mono : forall a b, 1 <= a -> a <= b -> b <= 2 -> lnpoly a <= lnpoly b.
Proof.
  intros a b Ha Hab Hb. assert (Ha2 : a <= 2) by lra. assert (Hb1 : 1 <= b) by lra.
  assert (S : 0 <= 11832981 / 4194304 - 12330891 / 8388608 * (a + b) + 15004856 / 33554432 * (a * a + a * b + b * b) - 15185622 / 268435456 * (a * (a * a) + a * (a * b) + a * (b * b) + b * (b * b))) by (interval with (i_bisect a, i_bisect b, i_depth 20)).
  assert (D : lnpoly b - lnpoly a = (b - a) * (11832981 / 4194304 - 12330891 / 8388608 * (a + b) + 15004856 / 33554432 * (a * a + a * b + b * b) - 15185622 / 268435456 * (a * (a * a) + a * (a * b) + a * (b * b) + b * (b * b)))) by (unfold lnpoly; field).
  assert (0 <= lnpoly b - lnpoly a); [rewrite D; apply Rmult_le_pos; lra|lra].
Qed.

Lemma lnpoly_step : forall v, 1 <= v -> v * 1.00005 <= 2 -> lnpoly v + 0.000049 <= lnpoly (v * 1.00005).
Proof.
  intros v H H'. assert (Q : 0.000049 <= lnpoly (v * 1.00005) - lnpoly v); [|lra]. unfold lnpoly.
  assert (v <= 2) by lra. interval with (i_bisect v, i_taylor v, i_prec 50, i_depth 20).
Qed.

(** Passing a power of two does not lose height: ln 2 + P(1) exceeds P(2). *)
Lemma lnpoly_wrap : lnpoly 2 + 0.0001 <= 11629080 / 16777216 + lnpoly 1.
Proof. unfold lnpoly. lra. Qed.

Lemma lnpoly_1 : 0.00006 <= lnpoly 1.
Proof. unfold lnpoly. lra. Qed.
