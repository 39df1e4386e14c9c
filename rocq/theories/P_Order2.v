(** * Order facts for powf, and the points where exp is not monotone *)

From Coq Require Import ZArith Reals Bool List Lia Lra.
From Flocq Require Import Core IEEE754.BinarySingleNaN IEEE754.Binary IEEE754.Bits.
From Verif Require Import Base Spec Float F32Lemmas BitLemmas Literals ErrLemmas NanLemmas
  P_Trunc P_Floor P_RoundEdge P_Roots P_InvSqrt P_Ln P_Exp P_Cosh P_Powf P_Order.
Open Scope Z_scope.

Lemma exp_drop : forall {E : Env}, exists x1 x2 r1 r2, fin x1 /\ fin x2 /\ (0 <= val x1 < val x2)%R /\
  F32_exp x1 = Ok r1 /\ F32_exp x2 = Ok r2 /\ fin r1 /\ fin r2 /\ (1.00001 * val r2 < val r1)%R.
Proof.
  intros E. exists F32_ONE, (from_bits 0x3F800001), c_E, (from_bits 0x402DF78C).
  destruct one_val as [FO VO]. destruct c_E_val as [FE VE].
  refine (conj FO (conj eq_refl (conj _ (conj _ (conj _ (conj FE (conj eq_refl _))))))).
  - rewrite VO. lit 0x3F800001. bpow_lit. lra.
  - apply (f_equal (@Ok f32)). apply to_bits_inj. vm_compute. reflexivity.
  - destruct E as [oc da n1 n2 n3 n4 n5 n6 ss]. destruct da; apply ok_bits; vm_compute; reflexivity.
  - rewrite VE. lit 0x402DF78C. bpow_lit. lra.
Qed.

Lemma pos_sign : forall x, (0 < val x)%R -> sign_bit x = false.
Proof. intros x V. destruct (sign_bit x) eqn:S; [pose proof (sign_val_neg x S); lra|reflexivity]. Qed.

Lemma powf_prod : forall {E : Env} x n, fin x -> (0 < val x)%R -> F32_powf x n = F32_exp (fmul n (F32_ln x)).
Proof. intros E x n F P. apply powf_nonneg; [apply fin_not_nan; exact F|apply pos_sign; exact P]. Qed.

Lemma prod_range : forall {E : Env} a b, fin a -> fin b -> (- 90 <= val a * val b <= 90)%R ->
  fin (fmul a b) /\ val (fmul a b) = rnd (val a * val b).
Proof. intros E a b Fa Fb H. apply fmul_R; trivial. apply (small_lt_128 7); [lia|]. bpow_lit. apply Rabs_le. lra. Qed.

Lemma powf_le1 : forall {E : Env} x n, fin x -> (0 < val x)%R -> fin n ->
  ((1 <= val x)%R /\ (val n <= 0)%R) \/ ((val x <= 1)%R /\ (0 <= val n)%R) ->
  exists r, F32_powf x n = Ok r /\ fin r /\ (0 <= val r <= 1)%R.
Proof.
  intros E x n F P Fn H. rewrite (powf_prod x n F P). destruct (ln_sign_iff x F P) as (FL & S1 & S2).
  assert (Np : (val n * val (F32_ln x) <= 0)%R).
  { destruct H as [[H1 H2]|[H1 H2]].
    - assert (0 <= val (F32_ln x))%R by (apply Rnot_lt_le; intros C; apply S2 in C; lra).
      assert (0 <= - val n * val (F32_ln x))%R by (apply Rmult_le_pos; lra). lra.
    - assert (val (F32_ln x) <= 0)%R by (apply Rnot_lt_le; intros C; apply S1 in C; lra).
      assert (0 <= val n * - val (F32_ln x))%R by (apply Rmult_le_pos; lra). lra. }
  destruct (Rle_or_lt (val n * val (F32_ln x)) (- 88.0297)) as [U|U].
  - rewrite exp_mul_under by assumption. exists F32_ZERO. destruct zero_val as [FZ VZ]. rewrite VZ. refine (conj eq_refl (conj FZ _)). lra.
  - destruct (prod_range n (F32_ln x) Fn FL ltac:(lra)) as [Fp Vp]. apply exp_le1; [exact Fp|]. rewrite Vp.
    rewrite <- (rnd_fmt 0) by apply generic_format_0. apply rnd_le. exact Np.
Qed.

Lemma rnd_cap : rnd 88.72283172607421875 = 88.72283172607421875%R.
Proof.
  apply rnd_fmt. replace 88.72283172607421875%R with (val (from_bits 0x42b17217)) by (lit 0x42b17217; bpow_lit; lra).
  apply fmt_val.
Qed.

Lemma powf_ge1 : forall {E : Env} x n, fin x -> (1 <= val x)%R -> fin n -> (0 <= val n)%R -> (val n * (ln (val x) + 0.0000761) <= 88.72283172607421875)%R ->
  exists r, F32_powf x n = Ok r /\ fin r /\ (1 <= val r)%R.
Proof.
  intros E x n F H Fn Hn B. rewrite (powf_prod x n F ltac:(lra)). destruct (ln_acc_ge1 x F H) as [FL D]. apply Rabs_le_inv in D.
  destruct (ln_sign_iff x F ltac:(lra)) as (_ & _ & S2).
  assert (0 <= val (F32_ln x))%R by (apply Rnot_lt_le; intros C; apply S2 in C; lra).
  assert (L : (0 <= val n * val (F32_ln x))%R) by (apply Rmult_le_pos; lra).
  assert (U : (val n * val (F32_ln x) <= 88.72283172607421875)%R) by (apply Rle_trans with (2 := B); apply Rmult_le_compat_l; lra).
  destruct (prod_range n (F32_ln x) Fn FL ltac:(lra)) as [Fp Vp]. apply exp_ge1; [exact Fp|]. rewrite Vp.
  split; [apply rnd_nonneg; exact L|]. rewrite <- rnd_cap. apply rnd_le. exact U.
Qed.

(** For a base of at least one, powf is monotone in a nonnegative exponent up to the step of exp at 1. *)
Lemma powf_mono : forall {E : Env} x m n, fin x -> (1 <= val x)%R -> fin m -> fin n -> (0 <= val m <= val n)%R ->
  (val n * (ln (val x) + 0.0000761) <= 88.72283172607421875)%R ->
  exists a b, F32_powf x m = Ok a /\ F32_powf x n = Ok b /\ fin a /\ fin b /\ (val a <= 1.00002 * val b)%R.
Proof.
  intros E x m n F H Fm Fn Hm B. rewrite (powf_prod x m F ltac:(lra)), (powf_prod x n F ltac:(lra)).
  destruct (ln_acc_ge1 x F H) as [FL D]. apply Rabs_le_inv in D.
  destruct (ln_sign_iff x F ltac:(lra)) as (_ & _ & S2).
  assert (L0 : (0 <= val (F32_ln x))%R) by (apply Rnot_lt_le; intros C; apply S2 in C; lra).
  assert (L : (0 <= val m * val (F32_ln x))%R) by (apply Rmult_le_pos; lra).
  assert (LE : (val m * val (F32_ln x) <= val n * val (F32_ln x))%R) by (apply Rmult_le_compat_r; lra).
  assert (U : (val n * val (F32_ln x) <= 88.72283172607421875)%R) by (apply Rle_trans with (2 := B); apply Rmult_le_compat_l; lra).
  destruct (prod_range m (F32_ln x) Fm FL ltac:(lra)) as [Fp Vp]. destruct (prod_range n (F32_ln x) Fn FL ltac:(lra)) as [Fq Vq].
  destruct (exp_mono (fmul m (F32_ln x)) (fmul n (F32_ln x)) Fp Fq) as (a & b & A1 & A2 & A3 & A4 & _ & A6).
  - rewrite Vp, Vq. split; [apply rnd_nonneg; exact L|apply rnd_le; exact LE].
  - rewrite Vq, <- rnd_cap. apply rnd_le. exact U.
  - exists a, b. exact (conj A1 (conj A2 (conj A3 (conj A4 A6)))).
Qed.

Lemma exp_drop_neg : forall {E : Env}, exists x1 x2 r1 r2, fin x1 /\ fin x2 /\ (-1.1 <= val x1 < val x2)%R /\ (val x2 <= 0)%R /\
  F32_exp x1 = Ok r1 /\ F32_exp x2 = Ok r2 /\ fin r1 /\ fin r2 /\ (1.00002 * val r2 < val r1)%R.
Proof.
  intros E. exists (from_bits 0xBF800001), (from_bits 0xBF800000), (from_bits 0x3EBC5C1A), (from_bits 0x3EBC5AB2).
  refine (conj eq_refl (conj eq_refl (conj _ (conj _ (conj _ (conj _ (conj eq_refl (conj eq_refl _)))))))).
  - lit 0xBF800001. lit 0xBF800000. bpow_lit. lra.
  - lit 0xBF800000. bpow_lit. lra.
  - destruct E as [oc da n1 n2 n3 n4 n5 n6 ss]. destruct da; apply ok_bits; vm_compute; reflexivity.
  - destruct E as [oc da n1 n2 n3 n4 n5 n6 ss]. destruct da; apply ok_bits; vm_compute; reflexivity.
  - lit 0x3EBC5C1A. lit 0x3EBC5AB2. bpow_lit. lra.
Qed.

Lemma cosh_drop : forall {E : Env}, exists x1 x2 r1 r2, fin x1 /\ fin x2 /\ (0 <= val x1 < val x2)%R /\
  F32_cosh x1 = Ok r1 /\ F32_cosh x2 = Ok r2 /\ fin r1 /\ fin r2 /\ (1.00001 * val r2 < val r1)%R.
Proof.
  intros E. exists (from_bits 0x3F800000), (from_bits 0x3F800001), (from_bits 0x3FC583AA), (from_bits 0x3FC5830F).
  refine (conj eq_refl (conj eq_refl (conj _ (conj _ (conj _ (conj eq_refl (conj eq_refl _))))))).
  - lit 0x3F800000. lit 0x3F800001. bpow_lit. lra.
  - destruct E as [oc da n1 n2 n3 n4 n5 n6 ss]. destruct da; apply ok_bits; vm_compute; reflexivity.
  - destruct E as [oc da n1 n2 n3 n4 n5 n6 ss]. destruct da; apply ok_bits; vm_compute; reflexivity.
  - lit 0x3FC583AA. lit 0x3FC5830F. bpow_lit. lra.
Qed.

Lemma ln_drop : forall {E : Env}, exists x1 x2, fin x1 /\ fin x2 /\ (1 <= val x1 < val x2)%R /\ (val (F32_ln x2) < val (F32_ln x1))%R.
Proof.
  intros E. exists (from_bits 0x3F80002C), (from_bits 0x3F80002D).
  refine (conj eq_refl (conj eq_refl (conj _ _))).
  - lit 0x3F80002C. lit 0x3F80002D. bpow_lit. lra.
  - assert (A : F32_ln (from_bits 0x3F80002C) = from_bits 0x388A4000) by (apply to_bits_inj; vm_compute; reflexivity).
    assert (B : F32_ln (from_bits 0x3F80002D) = from_bits 0x388A0000) by (apply to_bits_inj; vm_compute; reflexivity).
    rewrite A, B. lit 0x388A4000. lit 0x388A0000. bpow_lit. lra.
Qed.
