(** * The mathematical constants are correctly rounded *)

From Coq Require Import ZArith Reals Lia Lra.
From Flocq Require Import Core IEEE754.Binary IEEE754.Bits.
From Verif Require Import Base Spec Float F32Lemmas BitLemmas P_Trunc P_Floor Literals RealBounds.
Open Scope Z_scope.

Ltac near_with b H :=
  lit b; apply rnd_near; [lia|lia|]; pose proof H;
  apply Rabs_lt; simpl Z.opp; bpow_lit; lra.

Lemma lit_PI : rnd PI = val c_PI.
Proof. unfold c_PI. near_with 0x40490FDB PI_bounds. Qed.
Lemma lit_FRAC_PI_2 : rnd (PI / 2) = val c_FRAC_PI_2.
Proof. unfold c_FRAC_PI_2. near_with 0x3FC90FDB PI_bounds. Qed.
Lemma lit_FRAC_1_PI : rnd (/ PI) = val c_FRAC_1_PI.
Proof. unfold c_FRAC_1_PI. near_with 0x3EA2F983 inv_PI_bounds. Qed.
Lemma lit_LOG2_E : rnd (/ ln 2) = val c_LOG2_E.
Proof. unfold c_LOG2_E. near_with 0x3FB8AA3B log2e_bounds. Qed.
Lemma lit_LOG10_E : rnd (/ ln 10) = val c_LOG10_E.
Proof. unfold c_LOG10_E. near_with 0x3EDE5BD9 log10e_bounds. Qed.
Lemma lit_LN_2 : rnd (ln 2) = val c_LN_2.
Proof. unfold c_LN_2. near_with 0x3F317218 ln2_bounds. Qed.
Lemma lit_E : rnd (exp 1) = val c_E.
Proof. unfold c_E. near_with 0x402DF854 exp1_bounds. Qed.
