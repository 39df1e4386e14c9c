(** * More bounds over the reals: positivity of the logarithm polynomial *)

From Coq Require Import ZArith Reals Lra.
From Flocq Require Import Core.
From Interval Require Import Tactic.
From Verif Require Import RealBounds3.
Open Scope R_scope.

Lemma lnpoly_pos : forall y, 1 <= y <= 2 -> 0.00005 <= lnpoly y.
Proof. intros y H. unfold lnpoly. interval with (i_bisect y, i_taylor y, i_prec 50, i_depth 20). Qed.

Lemma exp_half : 1.64 <= exp 0.5.
Proof. interval. Qed.

Lemma exp_mhalf : exp (- 0.5) <= 0.61.
Proof. interval. Qed.
