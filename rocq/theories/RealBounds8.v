(** * Bounds over the reals: slope of the truncated exponential series *)

From Coq Require Import ZArith Reals Lra.
From Flocq Require Import Core.
From Interval Require Import Tactic.
From Verif Require Import RealBounds4.
Open Scope R_scope.

Lemma expp_slope : forall a b, -0.6932 <= a -> a <= b -> b <= 0.6932 -> expp a * (1 + 0.97 * (b - a)) <= expp b.
Proof.
  intros a b Ha Hab Hb. set (d := b - a). assert (Eb : b = a + d) by (unfold d; ring). assert (Hd : 0 <= d <= 1.3864) by (unfold d; lra). clearbody d. subst b.
  assert (Ha2 : a <= 0.6932) by lra.
  assert (S : 0 <= 1 + (a + a + d) / 2 + (a * a + a * (a + d) + (a + d) * (a + d)) / 6 + (a * (a * a) + a * a * (a + d) + a * ((a + d) * (a + d)) + (a + d) * ((a + d) * (a + d))) / 24 - 0.97 * (1 + a * (1 + a / 2 * (1 + a / 3 * (1 + a / 4)))))
    by (interval with (i_bisect a, i_bisect d, i_prec 40, i_depth 40)).
  assert (D : expp (a + d) - expp a * (1 + 0.97 * (a + d - a)) = d * (1 + (a + a + d) / 2 + (a * a + a * (a + d) + (a + d) * (a + d)) / 6 + (a * (a * a) + a * a * (a + d) + a * ((a + d) * (a + d)) + (a + d) * ((a + d) * (a + d))) / 24 - 0.97 * (1 + a * (1 + a / 2 * (1 + a / 3 * (1 + a / 4))))))
    by (unfold expp; field).
  assert (0 <= expp (a + d) - expp a * (1 + 0.97 * (a + d - a))); [rewrite D; apply Rmult_le_pos; lra|lra].
Qed.

Lemma expp_range : forall r, -0.6932 <= r <= 0.6932 -> 0.501 <= expp r <= 1.999.
Proof. intros r H. unfold expp. split; interval with (i_bisect r, i_taylor r, i_prec 50, i_depth 20). Qed.

Lemma expp_even : forall a b, 0 <= a -> a <= b -> expp a + expp (- a) <= expp b + expp (- b).
Proof.
  intros a b Ha Hab. assert (I : forall r, expp r + expp (- r) = 2 + r * r + r * r * (r * r) / 12) by (intros r; unfold expp; field). rewrite !I.
  assert (Q : a * a <= b * b) by (apply Rmult_le_compat; lra). assert (Q0 : 0 <= a * a) by (apply Rmult_le_pos; lra). assert (a * a * (a * a) <= b * b * (b * b)) by (apply Rmult_le_compat; lra). lra.
Qed.

Lemma expp_ends : forall r, -0.6932 <= r <= 0.6932 -> expp r <= 1.9988 /\ expp (- r) <= 1.9988 /\ (0 <= r -> expp r + expp (- r) <= 2.5) .
Proof. intros r H. repeat split; [| |intros P]; unfold expp; interval with (i_bisect r, i_taylor r, i_prec 50, i_depth 20). Qed.

Lemma expp_e : forall r, 0.306852 <= r <= 0.306854 -> 2.718281745529174804687 * (1 - 0.00002) <= expp r * 2 <= 2.718281745529174804687 /\
   0.36788 <= expp (- r) / 2 <= 0.36787945 * (1 + 0.000031).
Proof. intros r H. unfold expp. repeat split; interval with (i_prec 50). Qed.

Lemma expp_0 : expp 0 = 1.
Proof. unfold expp. field. Qed.
