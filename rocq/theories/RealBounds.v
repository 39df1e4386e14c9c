(** * Numerical facts about real functions, proved with interval arithmetic

    Statements about the standard library's reals only: nothing here mentions
    the model. *)

From Coq Require Import ZArith Reals.
From Interval Require Import Tactic.
Open Scope R_scope.

Lemma PI_bounds : 3.14159265358979 <= PI <= 3.1415926535898.
Proof. split; interval with (i_prec 60). Qed.
Lemma inv_PI_bounds : 0.31830988618379 <= / PI <= 0.318309886183791.
Proof. split; interval with (i_prec 60). Qed.
Lemma ln2_bounds : 0.693147180559945 <= ln 2 <= 0.693147180559946.
Proof. split; interval with (i_prec 60). Qed.
Lemma ln10_bounds : 2.30258509299404 <= ln 10 <= 2.30258509299405.
Proof. split; interval with (i_prec 60). Qed.
Lemma log2e_bounds : 1.44269504088896 <= / ln 2 <= 1.44269504088897.
Proof. split; interval with (i_prec 60). Qed.
Lemma log10e_bounds : 0.434294481903251 <= / ln 10 <= 0.434294481903252.
Proof. split; interval with (i_prec 60). Qed.
Lemma exp1_bounds : 2.71828182845904 <= exp 1 <= 2.71828182845905.
Proof. split; interval with (i_prec 60). Qed.
