(** * Bounds for the exponential series, over the reals *)

From Coq Require Import ZArith Reals Lra.
From Flocq Require Import Core.
From Interval Require Import Tactic.
Open Scope R_scope.

Definition expp (r : R) : R := 1 + r / 1 * (1 + r / 2 * (1 + r / 3 * (1 + r / 4 * 1))).

Lemma expp_rel_pos : forall r, 0 <= r <= 0.6932 -> Rabs (expp r * exp (- r) - 1) <= 0.000755.
Proof. intros r H. unfold expp. interval with (i_bisect r, i_taylor r, i_prec 50, i_depth 20). Qed.

Lemma expp_rel_neg : forall r, -0.6932 <= r <= 0 -> Rabs (expp r * exp (- r) - 1) <= 0.0023915.
Proof. intros r H. unfold expp. interval with (i_bisect r, i_taylor r, i_prec 50, i_depth 20). Qed.

Lemma expp_ge : forall r, 0 <= r <= 0.6932 -> 1 + r <= expp r <= 1.999.
Proof.
  intros r H. split.
  - unfold expp. assert (0 <= 1 + r / 3 * (1 + r / 4 * 1)) by interval.
    assert (0 <= r / 1 * (r / 2 * (1 + r / 3 * (1 + r / 4 * 1)))) by (repeat apply Rmult_le_pos; lra). lra.
  - unfold expp. interval with (i_bisect r, i_prec 40, i_depth 20).
Qed.

Lemma expp_le : forall r, -0.6932 <= r <= 0 -> 0.501 <= expp r <= 1 + r / 2.
Proof.
  intros r H. split.
  - unfold expp. interval with (i_bisect r, i_prec 40, i_depth 20).
  - unfold expp. assert (1 / 2 <= 1 + r / 2 * (1 + r / 3 * (1 + r / 4 * 1))) by interval with (i_bisect r, i_prec 40, i_depth 20).
    set (q := 1 + r / 2 * (1 + r / 3 * (1 + r / 4 * 1))) in *.
    assert (0 <= (- r) * (q - 1 / 2)) by (apply Rmult_le_pos; lra). lra.
Qed.

Lemma exp_m_range : forall r, -0.6932 <= r <= 0.6932 -> 0 < exp (- r) <= 2.0002.
Proof. intros r H. split; [apply exp_pos|]. interval. Qed.

Lemma exp_delta : forall d, Rabs d <= 0.0000041 -> Rabs (exp d - 1) <= 0.0000042.
Proof. intros d H. apply Rabs_le_inv in H. interval with (i_prec 60). Qed.

Lemma exp_1_bounds : 2.718281828 <= exp 1 <= 2.718281829.
Proof. split; interval. Qed.

Lemma exp_m1_bounds : 0.367879441 <= exp (-1) <= 0.367879442.
Proof. split; interval. Qed.

Lemma cosh_at_2_7725 : 8.03 <= (exp 2.77250003814697265625 + exp (Ropp 2.77250003814697265625)) / 2 <= 8.031.
Proof. split; interval. Qed.

Lemma cosh_at_6_238 : 255.917 <= (exp 6.23799991607666015625 + exp (Ropp 6.23799991607666015625)) / 2 <= 255.919.
Proof. split; interval. Qed.

Lemma exp_at_m0_69 : 0.50157 <= exp (-0.689999997615814208984375) <= 0.50158.
Proof. split; interval. Qed.

Lemma exp_PI_bounds : forall x, 0 <= x <= PI -> 1 <= exp x <= 23.1407 /\ exp (- x) <= 1.
Proof.
  intros x H. assert (P : PI <= 3.1415927) by interval. assert (K : 0 <= x <= 3.1415927) by lra. clear H P. split; [split|]; interval.
Qed.

Lemma exp_2PI_bounds : forall x, 0 <= x <= 2 * PI -> 1 <= exp x <= 535.492 /\ exp (- x) <= 1.
Proof.
  intros x H. assert (P : 2 * PI <= 6.2831854) by interval. assert (K : 0 <= x <= 6.2831854) by lra. clear H P. split; [split|]; interval.
Qed.

Lemma exp_big : forall x, 87.33 <= x -> 8000000000 <= exp x.
Proof. intros x H. apply Rle_trans with (exp 24); [clear H; interval|]. left. apply exp_increasing. lra. Qed.

Lemma cosh_pi_bound : forall x, 0 <= x <= PI -> 0.000381 * exp x + 0.0012 * exp (- x) <= 0.0089.
Proof.
  intros x H. assert (P : PI <= 3.1415927) by interval. assert (K : 0 <= x <= 3.1415927) by lra. clear H P.
  interval with (i_bisect x, i_depth 20).
Qed.

Lemma cosh_2pi_bound : forall x, 0 <= x <= 2 * PI -> 0.000381 * exp x + 0.0012 * exp (- x) <= 0.2041.
Proof.
  intros x H. assert (P : 2 * PI <= 6.2831854) by interval. assert (K : 0 <= x <= 6.2831854) by lra. clear H P.
  interval with (i_bisect x, i_depth 20).
Qed.
