(** * NaN propagation and exact multiplications *)

From Coq Require Import ZArith Reals Bool List Lia Lra.
From Flocq Require Import Core IEEE754.BinarySingleNaN IEEE754.Binary IEEE754.Bits.
From Verif Require Import Base Spec Float F32Lemmas BitLemmas P_Trunc P_Floor Literals ErrLemmas P_RoundEdge.
Open Scope Z_scope.

Ltac nan_case x := destruct x; try discriminate.

Lemma nan_build : forall (n : nan_f32), nan (proj1_sig n).
Proof. intros n. exact (proj2_sig n). Qed.

Lemma build_nan_nan : forall (n : nan_f32), is_nan (build_nan 24 128 n) = true.
Proof. intros n. unfold is_nan, build_nan. destruct n as [n H]. simpl. reflexivity. Qed.

Lemma fadd_nan : forall {E : Env} x y, nan x \/ nan y -> nan (fadd x y).
Proof.
  intros E x y H. unfold nan, fadd, Bplus.
  destruct H as [H|H]; [nan_case x; apply build_nan_nan|nan_case y; destruct x; apply build_nan_nan].
Qed.
Lemma fsub_nan : forall {E : Env} x y, nan x \/ nan y -> nan (fsub x y).
Proof.
  intros E x y H. unfold nan, fsub, Bminus.
  destruct H as [H|H]; [nan_case x; apply build_nan_nan|nan_case y; destruct x; apply build_nan_nan].
Qed.
Lemma fmul_nan : forall {E : Env} x y, nan x \/ nan y -> nan (fmul x y).
Proof.
  intros E x y H. unfold nan, fmul, Bmult.
  destruct H as [H|H]; [nan_case x; apply build_nan_nan|nan_case y; destruct x; apply build_nan_nan].
Qed.
Lemma fdiv_nan : forall {E : Env} x y, nan x \/ nan y -> nan (fdiv x y).
Proof.
  intros E x y H. unfold nan, fdiv, Bdiv.
  destruct H as [H|H]; [nan_case x; apply build_nan_nan|nan_case y; destruct x; apply build_nan_nan].
Qed.
Lemma fneg_nan : forall x, nan x -> nan (fneg x).
Proof. intros x H. unfold nan. rewrite fneg_is_nan. exact H. Qed.
Lemma abs_nan : forall x, nan x -> nan (F32_abs x).
Proof. intros x H. unfold nan. rewrite abs_is_nan. exact H. Qed.
Lemma NAN_nan : forall {E : Env}, nan f32_NAN.
Proof. intros E. apply nan_build. Qed.

Lemma flt_nan : forall x y, nan x \/ nan y -> flt x y = false.
Proof. intros x y H. unfold flt. destruct H as [H|H]; [rewrite cmp_nan_l|rewrite cmp_nan_r]; trivial. Qed.
Lemma fle_nan : forall x y, nan x \/ nan y -> fle x y = false.
Proof. intros x y H. unfold fle. destruct H as [H|H]; [rewrite cmp_nan_l|rewrite cmp_nan_r]; trivial. Qed.
Lemma feq_nan : forall x y, nan x \/ nan y -> feq x y = false.
Proof. intros x y H. unfold feq. destruct H as [H|H]; [rewrite cmp_nan_l|rewrite cmp_nan_r]; trivial. Qed.

(** Sign of products and quotients. *)
Lemma fmul_sign : forall {E : Env} x y, is_nan (fmul x y) = false -> sign_bit (fmul x y) = xorb (sign_bit x) (sign_bit y).
Proof.
  intros E x y H. pose proof (Bmult_correct 24 128 prec24 emax128 nan_mul mode_NE x y) as C.
  unfold fmul, is_nan, sign_bit in *.
  destruct (Rlt_bool _ _) in C.
  - apply C. exact H.
  - revert C. unfold binary_overflow. simpl overflow_to_inf. cbv iota.
    destruct (Bmult _ _ _ _ _ _ _ _); simpl; intros C; inversion C; reflexivity.
Qed.

Lemma fmul_one_id : forall {E : Env} x, is_nan x = false -> fmul x F32_ONE = x.
Proof.
  intros E x N. destruct (is_finite x) eqn:F.
  - destruct (fmul_one x F) as [A B].
    apply fin_dec_eq; [assumption|assumption|assumption|].
    rewrite fmul_sign by (apply fin_not_nan; assumption). change (sign_bit F32_ONE) with false. apply xorb_false_r.
  - destruct x as [s|s|s p H|s m e H]; try discriminate. destruct s; reflexivity.
Qed.
Lemma fmul_mone_id : forall {E : Env} x, is_nan x = false -> fmul x (fneg F32_ONE) = fneg x.
Proof.
  intros E x N. destruct (is_finite x) eqn:F.
  - destruct (fmul_mone x F) as [A B].
    apply fin_dec_eq; [assumption|apply fneg_fin; assumption|rewrite fneg_val; assumption|].
    rewrite fmul_sign by (apply fin_not_nan; assumption). rewrite !fneg_sign.
    change (sign_bit F32_ONE) with false. destruct (sign_bit x); reflexivity.
  - destruct x as [s|s|s p H|s m e H]; try discriminate. destruct s; reflexivity.
Qed.
