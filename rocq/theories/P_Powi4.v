(** * Proofs for C121: exact powers, small exponents, negative exponents *)

From Coq Require Import ZArith Reals Bool List Lia Lra.
From Flocq Require Import Core IEEE754.BinarySingleNaN IEEE754.Binary IEEE754.Bits.
From Verif Require Import Base Spec Float F32Lemmas BitLemmas P_Trunc P_Floor Literals ErrLemmas P_RoundEdge NanLemmas
  P_Euclid P_Roots P_SumSq P_VecF32 P_Stats P_Asin P_Powi P_Powi2 P_Powi3 P_Powf P_Atan P_Scale P_Sign P_Mono.
Import ListNotations.
Open Scope Z_scope.

(** ** Exact powers *)

Lemma loop_exact : forall {E : Env} X N, (forall i, (1 <= i <= N)%nat -> fmt (X ^ i) /\ (Rabs (X ^ i) < bpow radix2 128)%R) ->
  forall fuel n i j b r, (1 <= n)%nat -> (1 <= j)%nat -> (i + j * n = N)%nat -> Z.of_nat n < 2 ^ Z.of_nat fuel ->
  fin b -> val b = (X ^ j)%R -> fin r -> val r = (X ^ i)%R ->
  exists z, powi_loop fuel (Z.of_nat n) b r = Ok z /\ fin z /\ val z = (X ^ N)%R.
Proof.
  intros E X N H fuel. induction fuel as [|fuel IH]; intros n i j b r Hn Hj HN HF Fb Vb Fr Vr.
  - exfalso. change (2 ^ Z.of_nat 0) with 1 in HF. lia.
  - assert (M : forall p q u v, (1 <= p + q <= N)%nat -> fin u -> fin v -> val u = (X ^ p)%R -> val v = (X ^ q)%R ->
      fin (fmul u v) /\ val (fmul u v) = (X ^ (p + q))%R).
    { intros p q u v B Fu Fv Vu Vv. destruct (H (p + q)%nat B) as [Q1 Q2].
      assert (P : (val u * val v = X ^ (p + q))%R) by (rewrite Vu, Vv, pow_add; reflexivity).
      destruct (fmul_R u v Fu Fv) as [F V]; rewrite P in *; [rewrite rnd_fmt by exact Q1; exact Q2|].
      split; [exact F|]. rewrite V. apply rnd_fmt. exact Q1. }
    rewrite loop_S. cbv zeta.
    assert (D : (n = 2 * Nat.div2 n + Nat.b2n (Nat.odd n))%nat) by apply Nat.div2_odd.
    assert (ZO : Z.odd (Z.of_nat n) = Nat.odd n).
    { rewrite D at 1. rewrite Nat2Z.inj_add, Nat2Z.inj_mul. rewrite Z.odd_add, Z.odd_mul. cbn [Z.of_nat Z.odd andb xorb]. destruct (Nat.odd n); reflexivity. }
    assert (ZD : Z.of_nat n / 2 = Z.of_nat (Nat.div2 n)) by (rewrite Nat.div2_div; rewrite Nat2Z.inj_div; reflexivity).
    rewrite ZO, ZD. set (h := Nat.div2 n) in *.
    set (i' := (if Nat.odd n then i + j else i)%nat). set (r' := if Nat.odd n then fmul r b else r).
    assert (HR : fin r' /\ val r' = (X ^ i')%R).
    { unfold r', i'. destruct (Nat.odd n); [|split; assumption]. apply M; trivial. cbn [Nat.b2n] in D. nia. }
    destruct HR as [Fr' Vr'].
    assert (HN' : (i' + (j + j) * h = N)%nat) by (unfold i'; destruct (Nat.odd n); cbn [Nat.b2n] in D; nia).
    destruct (Z.eqb_spec (Z.of_nat h) 0) as [Z|Z].
    + exists r'. split; [reflexivity|]. split; [exact Fr'|]. rewrite Vr'. f_equal. nia.
    + assert (1 <= h)%nat by lia. destruct (M j j b b) as [Fbb Vbb]; trivial; [nia|].
      apply (IH h i' (j + j)%nat (fmul b b) r'); trivial; try lia.
      rewrite Nat2Z.inj_succ, Z.pow_succ_r in HF by lia. destruct (Nat.odd n); cbn [Nat.b2n] in D; lia.
Qed.

Lemma powi_exact : forall {E : Env} x e N fuel, fin x -> -126 <= e -> (bpow radix2 e <= Rabs (val x) < bpow radix2 (e + 1))%R ->
  (1 <= N)%nat -> Z.of_nat N < 2 ^ 31 -> (31 <= fuel)%nat -> -149 <= e * Z.of_nat N ->
  (forall i, (1 <= i <= N)%nat -> fmt (val x ^ i) /\ (Rabs (val x ^ i) < bpow radix2 128)%R) ->
  exists r, F32_powi fuel x (Z.of_nat N) = Ok r /\ fin r /\ val r = (val x ^ N)%R.
Proof.
  intros E x e N fuel Fx He B HN HN2 HF HL H. destruct one_val as [F1 V1].
  assert (U : e * Z.of_nat N <= 127).
  { pose proof (pow_ge e N (val x) (proj1 B)) as P. destruct (H N ltac:(lia)) as [_ Q].
    assert (e * Z.of_nat N < 128); [|lia]. apply (lt_bpow radix2). lra. }
  rewrite (powi_no_early fuel x (Z.of_nat N) e Fx He B) by lia.
  destruct (Z.ltb_spec (Z.of_nat N) 0); [lia|]. rewrite Z.abs_eq by lia.
  apply (loop_exact (val x) N H fuel N 0%nat 1%nat x F32_ONE); trivial; try lia; try (simpl; lra).
  eapply Z.lt_le_trans; [exact HN2|]. apply Z.pow_le_mono_r; lia.
Qed.

Lemma powi_integer : forall {E : Env} x m N fuel, fin x -> val x = IZR m -> (1 <= N)%nat -> Z.of_nat N < 2 ^ 31 -> (31 <= fuel)%nat ->
  Z.abs m ^ Z.of_nat N <= 2 ^ 24 -> exists r, F32_powi fuel x (Z.of_nat N) = Ok r /\ fin r /\ val r = IZR (m ^ Z.of_nat N).
Proof.
  intros E x m N fuel Fx Vx HN HN2 HF HB. destruct (Z.eq_dec m 0) as [->|M0].
  - exists x. split; [apply powi_zero_base; [|lia]|split; [exact Fx|]].
    + rewrite feq_R by (exact Fx || reflexivity). apply Req_bool_true. rewrite Vx. reflexivity.
    + rewrite Vx, Z.pow_0_l by lia. reflexivity.
  - assert (A1 : 1 <= Z.abs m) by lia.
    assert (X1 : (1 <= Rabs (val x))%R) by (rewrite Vx, <- abs_IZR; apply IZR_le; exact A1).
    assert (X2 : (bpow radix2 (-126) <= Rabs (val x))%R).
    { eapply Rle_trans; [|exact X1]. change 1%R with (bpow radix2 0). apply bpow_le. lia. }
    destruct (normal_bracket x Fx X2) as (e & He & B).
    assert (e0 : 0 <= e).
    { assert (0 < e + 1); [|lia]. apply (lt_bpow radix2). change (bpow radix2 0) with 1%R. lra. }
    rewrite <- pow_IZR, <- Vx. apply (powi_exact x e N fuel); trivial; try lia; try nia.
    intros i Hi. rewrite Vx, pow_IZR.
    assert (BI : Z.abs (m ^ Z.of_nat i) <= 2 ^ 24).
    { rewrite Z.abs_pow. eapply Z.le_trans; [|exact HB]. apply Z.pow_le_mono_r; lia. }
    split; [apply fmt_IZR; exact BI|]. rewrite <- abs_IZR. apply Rle_lt_trans with (IZR (2 ^ 24)); [apply IZR_le; exact BI|].
    change (IZR (2 ^ 24)) with (bpow radix2 24). apply bpow_lt. lia.
Qed.

Lemma powi_two : forall {E : Env} x k N fuel, fin x -> val x = bpow radix2 k -> -126 <= k -> (1 <= N)%nat -> Z.of_nat N < 2 ^ 31 -> (31 <= fuel)%nat ->
  -149 <= k * Z.of_nat N <= 127 -> exists r, F32_powi fuel x (Z.of_nat N) = Ok r /\ fin r /\ val r = bpow radix2 (k * Z.of_nat N).
Proof.
  intros E x k N fuel Fx Vx Hk HN HN2 HF HB. rewrite <- bpow_pow, <- Vx.
  assert (B : (bpow radix2 k <= Rabs (val x) < bpow radix2 (k + 1))%R).
  { rewrite Vx, Rabs_pos_eq by apply bpow_ge_0. split; [lra|]. apply bpow_lt. lia. }
  apply (powi_exact x k N fuel); trivial; try lia. intros i Hi. rewrite Vx, bpow_pow.
  split; [apply fmt_bpow; nia|]. rewrite Rabs_pos_eq by apply bpow_ge_0. apply bpow_lt. nia.
Qed.

Lemma powi_two_neg : forall {E : Env} x k N fuel, fin x -> val x = bpow radix2 k -> -126 <= k -> (1 <= N)%nat -> Z.of_nat N < 2 ^ 31 -> (31 <= fuel)%nat ->
  -149 <= - (k * Z.of_nat N) <= 127 -> exists r, F32_powi fuel x (- Z.of_nat N) = Ok r /\ fin r /\ val r = bpow radix2 (- (k * Z.of_nat N)).
Proof.
  intros E x k N fuel Fx Vx Hk HN HN2 HF HB. destruct one_val as [F1 V1].
  assert (B : (bpow radix2 k <= Rabs (val x) < bpow radix2 (k + 1))%R).
  { rewrite Vx, Rabs_pos_eq by apply bpow_ge_0. split; [lra|]. apply bpow_lt. lia. }
  rewrite (powi_no_early fuel x (- Z.of_nat N) k Fx Hk B) by lia.
  destruct (Z.ltb_spec (- Z.of_nat N) 0); [|lia]. rewrite Z.abs_opp, Z.abs_eq by lia.
  pose proof (bpow_gt_0 radix2 k) as P. assert (K2 : k <= 127).
  { assert (k < 128); [|lia]. apply (lt_bpow radix2). rewrite <- Vx. eapply Rle_lt_trans; [apply Rle_abs|apply abs_B2R_lt_emax]. }
  assert (Q : (val F32_ONE / val x = bpow radix2 (- k))%R) by (rewrite V1, Vx, bpow_opp; field; lra).
  assert (FQ : fmt (bpow radix2 (- k))) by (apply fmt_bpow; lia).
  assert (F : fin (fdiv F32_ONE x) /\ val (fdiv F32_ONE x) = bpow radix2 (- k)).
  { destruct (fdiv_R F32_ONE x F1 Fx) as [F V]; [rewrite Vx; lra| |].
    - rewrite Q, rnd_fmt by exact FQ. rewrite Rabs_pos_eq by apply bpow_ge_0. apply bpow_lt. lia.
    - split; [exact F|]. rewrite V, Q. apply rnd_fmt. exact FQ. }
  destruct F as [F V]. replace (- (k * Z.of_nat N)) with (- k * Z.of_nat N) by ring. rewrite <- bpow_pow.
  apply (loop_exact (bpow radix2 (- k)) N) with (i := 0%nat) (j := 1%nat); trivial; try lia; try (simpl; lra).
  - intros i Hi. rewrite bpow_pow. split; [apply fmt_bpow; nia|]. rewrite Rabs_pos_eq by apply bpow_ge_0. apply bpow_lt. nia.
  - eapply Z.lt_le_trans; [exact HN2|]. apply Z.pow_le_mono_r; lia.
Qed.

(** ** Exponents 2, 3 and -1 *)

Lemma one_div_not_nan : forall {E : Env} x, fin x -> (val x <> 0)%R -> is_nan (fdiv F32_ONE x) = false.
Proof.
  intros E x F Z. pose proof (Bdiv_correct 24 128 prec24 emax128 nan_div mode_NE F32_ONE x Z) as C. fold (fdiv F32_ONE x) in C.
  destruct (Rlt_bool _ _).
  - destruct C as (_ & C & _). destruct (fdiv F32_ONE x); try reflexivity. discriminate C.
  - destruct (fdiv F32_ONE x); try reflexivity. cbn in C. unfold BinarySingleNaN.binary_overflow in C. discriminate C.
Qed.

Lemma sq_over : forall {E : Env} x, fin x -> (bpow radix2 64 <= Rabs (val x))%R -> fmul x x = f32_inf false.
Proof.
  intros E x F H. pose proof (fmul_fin_not_nan x x F F) as N.
  assert (G : is_finite (fmul x x) = false).
  { destruct (is_finite (fmul x x)) eqn:G; [|reflexivity]. exfalso. pose proof (fmul_fin_val x x F F G) as V.
    pose proof (abs_B2R_lt_emax 24 128 (fmul x x)) as L. fold (val (fmul x x)) in L. rewrite V in L.
    assert (Q : (bpow radix2 128 <= val x * val x)%R).
    { change 128 with (64 + 64). rewrite bpow_plus. replace (val x * val x)%R with (Rabs (val x) * Rabs (val x))%R by (rewrite <- Rabs_mult; apply Rabs_pos_eq, Rle_0_sqr).
      apply Rmult_le_compat; trivial; apply bpow_ge_0. }
    apply rnd_le in Q. rewrite (rnd_fmt (bpow radix2 128)) in Q by (apply fmt_bpow; lia). rewrite Rabs_pos_eq in L; [lra|]. pose proof (bpow_gt_0 radix2 128). lra. }
  destruct (sq_nonneg x) as [Q|Q]; [unfold nan in Q; congruence|].
  destruct (fmul x x) as [s|s|s p K|s m e K]; try discriminate. unfold sign_bit in Q. cbn in Q. subst s. reflexivity.
Qed.

Lemma powi_square : forall {E : Env} x fuel, fin x -> (bpow radix2 (-74) <= Rabs (val x))%R -> (31 <= fuel)%nat -> F32_powi fuel x 2 = Ok (fmul x x).
Proof.
  intros E x fuel F H HF.
  destruct (normal_bracket x F) as (e & He & B).
  { eapply Rle_trans; [|exact H]. apply bpow_le. lia. }
  assert (e1 : -74 <= e).
  { assert (-74 < e + 1); [|lia]. apply (lt_bpow radix2). lra. }
  destruct (Z_le_gt_dec e 63) as [L|L].
  - rewrite (powi_no_early fuel x 2 e F (proj1 He) B) by lia. change (2 <? 0) with false. change (Z.abs 2) with 2. cbv iota.
    destruct fuel as [|[|fuel]]; [lia|lia|]. rewrite !loop_S. cbn. rewrite one_fmul; [reflexivity|]. apply fmul_fin_not_nan; exact F.
  - rewrite (powi_early_inf fuel x 2 e F (proj1 He) B) by lia.
    rewrite andb_false_r. f_equal. symmetry. apply sq_over; [exact F|]. eapply Rle_trans; [|apply B]. apply bpow_le. lia.

Qed.

Lemma powi_square_tiny : forall {E : Env} fuel, exists x, fin x /\ (bpow radix2 (-75) < val x)%R /\
  F32_powi fuel x 2 = Ok F32_ZERO /\ val (fmul x x) = bpow radix2 (-149).
Proof.
  intros E fuel. exists (from_bits 0x1A400000).
  assert (V : fin (from_bits 0x1A400000) /\ val (from_bits 0x1A400000) = (3 / 2 * bpow radix2 (-75))%R).
  { destruct (mk_val 52 (2 ^ 22) ltac:(lia) ltac:(lia)) as (F & _ & _ & V). cbv zeta in F, V. change (52 * 2 ^ 23 + 2 ^ 22) with 0x1A400000 in *.
    split; [exact F|]. rewrite V. change (IZR (2 ^ 22)) with 4194304%R. change (IZR (2 ^ 23)) with 8388608%R. change (52 - 127) with (-75). lra. }
  destruct V as [F V]. pose proof (bpow_gt_0 radix2 (-75)) as P. split; [exact F|]. split; [rewrite V; lra|]. split.
  - apply (powi_early_zero fuel _ 2 (-75) F); try lia. rewrite V, Rabs_pos_eq by lra. split; [lra|].
    change (-75 + 1) with (1 + -75). rewrite bpow_plus. change (bpow radix2 1) with 2%R. lra.
  - replace (fmul (from_bits 0x1A400000) (from_bits 0x1A400000)) with (from_bits 1) by (apply to_bits_inj; vm_compute; reflexivity).
    rewrite val_subnormal by reflexivity. change (bman (to_bits (from_bits 1))) with 1. unfold sgn. change (sign_bit (from_bits 1)) with false. cbv iota. lra.
Qed.

Lemma powi_cube : forall {E : Env} x fuel, fin x -> (bpow radix2 (-49) <= Rabs (val x) < bpow radix2 42)%R -> (31 <= fuel)%nat ->
  F32_powi fuel x 3 = Ok (fmul x (fmul x x)).
Proof.
  intros E x fuel F H HF.
  destruct (normal_bracket x F) as (e & He & B).
  { eapply Rle_trans; [|apply H]. apply bpow_le. lia. }
  assert (e1 : -49 <= e) by (assert (-49 < e + 1); [|lia]; apply (lt_bpow radix2); lra).
  assert (e2 : e < 42) by (apply (lt_bpow radix2); lra).
  rewrite (powi_no_early fuel x 3 e F (proj1 He) B) by lia. change (3 <? 0) with false. change (Z.abs 3) with 3. cbv iota.
  destruct fuel as [|[|fuel]]; [lia|lia|]. rewrite !loop_S. cbn. rewrite one_fmul; [reflexivity|]. apply fin_not_nan. exact F.
Qed.

Lemma powi_minus_one : forall {E : Env} x fuel, is_nan x = false -> (31 <= fuel)%nat -> F32_powi fuel x (-1) = Ok (fdiv F32_ONE x).
Proof.
  intros E x fuel N HF.
  assert (D : is_nan (fdiv F32_ONE x) = false).
  { destruct x as [s|s|s p K|s m e K]; try discriminate; try (destruct s; reflexivity). apply one_div_not_nan; [reflexivity|]. unfold val. cbn [B2R]. intros Q. apply (eq_0_F2R radix2) in Q. destruct s; discriminate Q. }
  assert (L : powi_loop fuel 1 (fdiv F32_ONE x) F32_ONE = Ok (fdiv F32_ONE x)).
  { destruct fuel as [|fuel]; [lia|]. rewrite loop_S. cbn. rewrite one_fmul by exact D. reflexivity. }
  pose proof (exp_range x) as R. rewrite powi_unfold. change (Z.abs (-1)) with 1. rewrite arith_i32 by (unfold i32_ok; lia). unfold bind at 1.
  change (-1 =? 0) with false. change (0 <? -1) with false. rewrite andb_false_r. change (-1 <? 0) with true. cbv iota.
  destruct (mid x); cbn [bind]; [exact L|]. rewrite arith_i32 by (unfold i32_ok; lia). cbn [bind].
  destruct (Z.ltb_spec 127 (extract_exponent_value x * -1)); [lia|]. destruct (Z.ltb_spec (extract_exponent_value x * -1) (-149)); [lia|].
  assert (Q : feq x F32_ZERO && (extract_exponent_value x * -1 <? 0) = false).
  { destruct (feq x F32_ZERO) eqn:Z; [|reflexivity]. cbn [andb]. destruct x as [s|s|s p K|s m e K]; destruct s; try discriminate; vm_compute; reflexivity. }
  rewrite Q. cbn [orb bind]. exact L.
Qed.

(** ** Negative exponents *)

Lemma inv_hi_lo : forall {E : Env} x, hi x -> lo (fdiv F32_ONE x).
Proof.
  intros E x [N H]. destruct one_val as [F1 V1]. destruct (nn_cases x N) as [F| ->]; [|split; [split; reflexivity|split; [reflexivity|]]; unfold val; simpl; lra].
  specialize (H F). assert (I : (0 < / val x <= 1)%R).
  { split; [apply Rinv_0_lt_compat; lra|]. rewrite <- Rinv_1. apply Rinv_le_contravar; lra. }
  assert (Q : (val F32_ONE / val x = / val x)%R) by (rewrite V1; unfold Rdiv; ring).
  assert (R : (0 <= rnd (/ val x) <= 1)%R).
  { split; [apply rnd_nonneg; lra|]. rewrite <- (rnd_fmt 1 fmt_1). apply rnd_le. lra. }
  destruct (fdiv_R F32_ONE x F1 F) as [G V]; [lra| |].
  { rewrite Q, Rabs_pos_eq by lra. apply Rle_lt_trans with 1%R; [lra|]. change 1%R with (bpow radix2 0). apply bpow_lt. lia. }
  split; [split|split; [exact G|rewrite V, Q; lra]].
  - apply fin_not_nan. exact G.
  - rewrite fdiv_sign; trivial; [|lra]. rewrite (proj2 N). reflexivity.
Qed.

Lemma inv_lo_hi : forall {E : Env} x, lo x -> feq x F32_ZERO = false -> hi (fdiv F32_ONE x).
Proof.
  intros E x (N & F & L) Z. destruct one_val as [F1 V1].
  assert (P : (0 < val x)%R).
  { pose proof (sign_val_pos x (proj2 N)). rewrite feq_R in Z by (exact F || reflexivity). change (val F32_ZERO) with 0%R in Z.
    destruct (Req_bool_spec (val x) 0); [discriminate|lra]. }
  assert (SB : nn (fdiv F32_ONE x)).
  { destruct x as [s|s|s p K|s m e K]; try discriminate. destruct N as [N S]. unfold sign_bit in S. cbn in S. subst s.
    split; [apply one_div_not_nan; [exact F|lra]|].
    destruct (fdiv_nonneg F32_ONE (B754_finite false m e K)) as [Q|Q]; trivial; [right; reflexivity|]. unfold nan in Q.
    rewrite one_div_not_nan in Q; [discriminate|exact F|lra]. }
  split; [exact SB|]. intros G.
  assert (V : val (fdiv F32_ONE x) = rnd (/ val x)).
  { destruct (Rlt_or_le (Rabs (rnd (val F32_ONE / val x))) (bpow radix2 128)) as [O|O].
    - destruct (fdiv_R F32_ONE x F1 F ltac:(lra) O) as [_ W]. rewrite W, V1. f_equal. unfold Rdiv. ring.
    - pose proof (fdiv_over F32_ONE x F1 F ltac:(lra) O). unfold fin in G. congruence. }
  rewrite V, <- (rnd_fmt 1 fmt_1). apply rnd_le. rewrite <- Rinv_1. apply Rinv_le_contravar; lra.
Qed.

Lemma inv_nnle : forall {E : Env} x y, nnle x y -> feq x F32_ZERO = false -> nn (fdiv F32_ONE x) -> nn (fdiv F32_ONE y) ->
  nnle (fdiv F32_ONE y) (fdiv F32_ONE x).
Proof.
  intros E x y L Z Nx Ny. destruct one_val as [F1 V1]. apply nnle_intro; trivial. intros G.
  assert (FX : forall u, fin u -> (0 < val u)%R -> fin (fdiv F32_ONE u) -> val (fdiv F32_ONE u) = rnd (/ val u)).
  { intros u Fu Pu Gu. destruct (Rlt_or_le (Rabs (rnd (val F32_ONE / val u))) (bpow radix2 128)) as [O|O].
    - destruct (fdiv_R F32_ONE u F1 Fu ltac:(lra) O) as [_ W]. rewrite W, V1. f_equal. unfold Rdiv. ring.
    - pose proof (fdiv_over F32_ONE u F1 Fu ltac:(lra) O). unfold fin in Gu. congruence. }
  destruct L as (Hx & Hy & L). destruct (nn_cases y Hy) as [Fy| ->].
  - destruct (nnle_elim x y (conj Hx (conj Hy L)) Fy) as [Fx V].
    assert (P : (0 < val x)%R).
    { pose proof (sign_val_pos x (proj2 Hx)). rewrite feq_R in Z by (exact Fx || reflexivity). change (val F32_ZERO) with 0%R in Z.
      destruct (Req_bool_spec (val x) 0); [discriminate|lra]. }
    assert (R : (0 <= rnd (/ val y) <= rnd (/ val x))%R).
    { split; [apply rnd_nonneg, Rlt_le, Rinv_0_lt_compat; lra|]. apply rnd_le. apply Rinv_le_contravar; lra. }
    assert (Gy : fin (fdiv F32_ONE y)).
    { destruct (fdiv_R F32_ONE y F1 Fy ltac:(lra)) as [Q _]; [|exact Q].
      replace (val F32_ONE / val y)%R with (/ val y)%R by (rewrite V1; unfold Rdiv; ring). rewrite Rabs_pos_eq by lra.
      apply Rle_lt_trans with (rnd (/ val x)); [lra|]. rewrite <- FX by assumption. eapply Rle_lt_trans; [apply Rle_abs|apply abs_B2R_lt_emax]. }
    split; [exact Gy|]. rewrite !FX by (assumption || lra). lra.
  - split; [reflexivity|]. replace (val (fdiv F32_ONE (f32_inf false))) with 0%R by (unfold val; reflexivity).
    apply sign_val_pos. apply Nx.
Qed.

(** [F32_powi] at a nonzero nonnegative base and the exponent -n. *)
Lemma powi_neg : forall {E : Env} fuel x n, 0 < n < 2 ^ 24 -> nn x -> feq x F32_ZERO = false ->
  F32_powi fuel x (- n) =
    if negb (mid x) && (127 <? extract_exponent_value x * - n) then Ok (f32_inf false)
    else if negb (mid x) && (extract_exponent_value x * - n <? -149) then Ok F32_ZERO
    else powi_loop fuel n (fdiv F32_ONE x) F32_ONE.
Proof.
  intros E fuel x n Hn [N S] Z. pose proof (exp_range x) as R. destruct (mid x) eqn:M.
  - rewrite powi_unfold. rewrite arith_i32 by (unfold i32_ok; lia). unfold bind at 1.
    destruct (Z.eqb_spec (- n) 0); [lia|]. rewrite Z, M. cbn [andb negb bind]. destruct (Z.ltb_spec (- n) 0); [|lia]. rewrite Z.abs_opp, Z.abs_eq by lia. reflexivity.
  - rewrite powi_early_eq; trivial; try lia; [|unfold i32_ok; nia]. rewrite S. cbn [andb negb].
    destruct (Z.ltb_spec (- n) 0); [|lia]. rewrite Z.abs_opp, Z.abs_eq by lia. reflexivity.
Qed.

Lemma hi_exp : forall x, hi x -> 0 <= extract_exponent_value x.
Proof.
  intros x Hx. destruct (nn_cases x (proj1 Hx)) as [F| ->]; [|vm_compute; discriminate]. rewrite extract_exponent_value_eq.
  pose proof (bexp_ge x 0 F ltac:(lia)) as Q. assert (0 + 127 <= bexp (to_bits x)); [|lia]. apply Q. change (bpow radix2 0) with 1%R.
  destruct Hx as [_ Hx]. specialize (Hx F). rewrite Rabs_pos_eq; lra.
Qed.

Lemma lo_exp : forall z, lo z -> mid z = false -> extract_exponent_value z < 0.
Proof.
  intros z (Nz & Fz & Lz) M. pose proof (sign_val_pos z (proj2 Nz)) as P. rewrite extract_exponent_value_eq.
  assert (H : (val z < 1 / 2)%R).
  { destruct (Rlt_or_le (val z) (1 / 2)) as [G|G]; [exact G|]. exfalso. assert (mid z = true); [|congruence]. apply mid_R.
    split; [exact Fz|]. rewrite Rabs_pos_eq by lra. lra. }
  pose proof (bexp_lt z 0 Fz ltac:(lia)) as Q. assert (bexp (to_bits z) < 0 + 127); [|lia]. apply Q. change (bpow radix2 0) with 1%R. rewrite Rabs_pos_eq; lra.
Qed.

Lemma one_lo_hi : lo F32_ONE /\ hi F32_ONE.
Proof.
  destruct one_val as [F1 V1]. split; [split; [exact one_nn|split; [exact F1|lra]]|split; [exact one_nn|intros _; lra]].
Qed.

(** Which side of 1 the result is on. *)
Lemma powi_neg_lo : forall {E : Env} fuel x n a, 0 < n < 2 ^ 24 -> lo x -> feq x F32_ZERO = false -> F32_powi fuel x (- n) = Ok a -> hi a.
Proof.
  intros E fuel x n a Hn Hx Z A. rewrite powi_neg in A; trivial; [|apply Hx]. destruct one_lo_hi as [L1 H1].
  assert (LOOP : powi_loop fuel n (fdiv F32_ONE x) F32_ONE = Ok a -> hi a).
  { intros Q. pose proof (inv_lo_hi x Hx Z) as HI.
    apply (loop_mono hi (fun u H => proj1 H) hi_mul fuel n (fdiv F32_ONE x) (fdiv F32_ONE x) F32_ONE F32_ONE a a); trivial; apply nnle_refl; [apply HI|exact one_nn]. }
  destruct (mid x) eqn:M; cbn [negb andb] in A; [exact (LOOP A)|]. pose proof (lo_exp x Hx M).
  destruct (127 <? _); [injection A as <-; exact inf_hi|]. destruct (Z.ltb_spec (extract_exponent_value x * - n) (-149)); [nia|exact (LOOP A)].
Qed.

Lemma powi_neg_hi : forall {E : Env} fuel x n a, 0 < n < 2 ^ 24 -> hi x -> F32_powi fuel x (- n) = Ok a -> lo a.
Proof.
  intros E fuel x n a Hn Hx A. rewrite powi_neg in A; trivial; [|apply Hx|apply hi_nz; exact Hx]. destruct one_lo_hi as [L1 H1].
  assert (LOOP : powi_loop fuel n (fdiv F32_ONE x) F32_ONE = Ok a -> lo a).
  { intros Q. pose proof (inv_hi_lo x Hx) as LO.
    apply (loop_mono lo (fun u H => proj1 H) lo_mul fuel n (fdiv F32_ONE x) (fdiv F32_ONE x) F32_ONE F32_ONE a a); trivial; apply nnle_refl; [apply LO|exact one_nn]. }
  pose proof (hi_exp x Hx). destruct (mid x) eqn:M; cbn [negb andb] in A; [exact (LOOP A)|].
  destruct (Z.ltb_spec 127 (extract_exponent_value x * - n)); [nia|]. destruct (_ <? -149); [injection A as <-; exact zero_lo|exact (LOOP A)].
Qed.

Lemma nnle_not_mid_lo : forall x y, nnle x y -> lo y -> mid y = false -> mid x = false.
Proof.
  intros x y L (Ny & Fy & Ly) M. destruct (nnle_elim _ _ L Fy) as [Fx V]. destruct (mid x) eqn:Mx; [|reflexivity]. exfalso.
  apply mid_R in Mx. destruct Mx as (_ & M1 & M2). pose proof (sign_val_pos x (proj2 (proj1 L))) as P. rewrite Rabs_pos_eq in * by lra.
  assert (mid y = true); [|congruence]. apply mid_R. split; [exact Fy|]. rewrite Rabs_pos_eq by lra. lra.
Qed.

Lemma nnle_not_mid_hi : forall x y, nnle x y -> hi x -> mid x = false -> mid y = false.
Proof.
  intros x y L [Nx Hx] M. destruct (mid y) eqn:My; [|reflexivity]. exfalso. apply mid_R in My. destruct My as (Fy & M1 & M2).
  destruct (nnle_elim _ _ L Fy) as [Fx V]. specialize (Hx Fx). assert (mid x = true); [|congruence]. apply mid_R. split; [exact Fx|].
  rewrite Rabs_pos_eq in * by lra. lra.
Qed.

Lemma powi_antitone : forall {E : Env} fuel x y n a b, 0 < n < 2 ^ 24 -> sign_bit x = false -> sign_bit y = false -> fle x y = true ->
  feq x F32_ZERO = false -> F32_powi fuel x (- n) = Ok a -> F32_powi fuel y (- n) = Ok b -> fle b a = true /\ sign_bit b = false.
Proof.
  intros E fuel x y n a b Hn Sx Sy H Zx A B. destruct (fle_not_nan _ _ H) as [Nx Ny].
  assert (L : nnle x y) by (split; [split; assumption|split; [split; assumption|exact H]]).
  assert (Q : nnle b a); [|split; [apply Q|apply Q]].
  assert (Zy : feq y F32_ZERO = false).
  { destruct (nn_cases y (conj Ny Sy)) as [Fy| ->]; [|reflexivity]. destruct (nnle_elim _ _ L Fy) as [Fx V].
    rewrite feq_R in * by (assumption || reflexivity). change (val F32_ZERO) with 0%R in *. pose proof (sign_val_pos x Sx).
    destruct (Req_bool_spec (val x) 0); [discriminate|]. apply Req_bool_false. lra. }
  destruct one_lo_hi as [L1 H1]. pose proof (nnle_exp x y L) as EX.
  destruct (lo_or_hi y (proj1 (proj2 L))) as [Hy|Hy].
  - (* both at most 1 *)
    assert (Hx : lo x).
    { split; [apply L|]. destruct (nnle_elim _ _ L (proj1 (proj2 Hy))) as [Fx V]. split; [exact Fx|]. destruct Hy as (_ & _ & Hy). lra. }
    pose proof (powi_neg_lo fuel x n a Hn Hx Zx A) as Ha. pose proof (powi_neg_lo fuel y n b Hn Hy Zy B) as Hb.
    rewrite powi_neg in A; trivial; [|apply Hx]. rewrite powi_neg in B; trivial; [|apply Hy].
    assert (NZ : forall z, lo z -> (negb (mid z) && (extract_exponent_value z * - n <? -149)) = false).
    { intros z Hz. destruct (mid z) eqn:M; [reflexivity|]. pose proof (lo_exp z Hz M). destruct (Z.ltb_spec (extract_exponent_value z * - n) (-149)); [nia|reflexivity]. }
    rewrite NZ in A by exact Hx. rewrite NZ in B by exact Hy.
    destruct (negb (mid x) && (127 <? extract_exponent_value x * - n)) eqn:Cx.
    + injection A as <-. apply nnle_intro; [apply Hb|split; reflexivity|intros C; discriminate C].
    + destruct (negb (mid y) && (127 <? extract_exponent_value y * - n)) eqn:Cy.
      * exfalso. apply andb_prop in Cy. destruct Cy as [C1 C2]. apply negb_true_iff in C1. apply Z.ltb_lt in C2.
        rewrite (nnle_not_mid_lo x y L Hy C1) in Cx. cbn [negb andb] in Cx. apply Z.ltb_ge in Cx. nia.
      * pose proof (inv_lo_hi x Hx Zx) as Ix. pose proof (inv_lo_hi y Hy Zy) as Iy.
        apply (loop_mono hi (fun u H => proj1 H) hi_mul fuel n (fdiv F32_ONE y) (fdiv F32_ONE x) F32_ONE F32_ONE b a); trivial.
        -- apply inv_nnle; trivial; [apply Ix|apply Iy].
        -- apply nnle_refl, one_nn.
  - destruct (lo_or_hi x (proj1 L)) as [Hx|Hx].
    + (* through 1 *)
      pose proof (powi_neg_lo fuel x n a Hn Hx Zx A) as Ha. pose proof (powi_neg_hi fuel y n b Hn Hy B) as Hb.
      apply nnle_intro; [apply Hb|apply Ha|]. intros F. split; [apply Hb|]. destruct Hb as (_ & _ & Hb). pose proof (proj2 Ha F). lra.
    + pose proof (powi_neg_hi fuel x n a Hn Hx A) as Ha. pose proof (powi_neg_hi fuel y n b Hn Hy B) as Hb.
      rewrite powi_neg in A; trivial; [|apply Hx]. rewrite powi_neg in B; trivial; [|apply Hy].
      assert (NI : forall z, hi z -> (negb (mid z) && (127 <? extract_exponent_value z * - n)) = false).
      { intros z Hz. pose proof (hi_exp z Hz). destruct (Z.ltb_spec 127 (extract_exponent_value z * - n)); [nia|apply andb_false_r]. }
      rewrite NI in A by exact Hx. rewrite NI in B by exact Hy.
      destruct (negb (mid y) && (extract_exponent_value y * - n <? -149)) eqn:Cy.
      * injection B as <-. apply zero_nnle. apply Ha.
      * destruct (negb (mid x) && (extract_exponent_value x * - n <? -149)) eqn:Cx.
        -- exfalso. apply andb_prop in Cx. destruct Cx as [C1 C2]. apply negb_true_iff in C1. apply Z.ltb_lt in C2.
           rewrite (nnle_not_mid_hi x y L Hx C1) in Cy. cbn [negb andb] in Cy. apply Z.ltb_ge in Cy. nia.
        -- pose proof (inv_hi_lo x Hx) as Ix. pose proof (inv_hi_lo y Hy) as Iy.
           apply (loop_mono lo (fun u H => proj1 H) lo_mul fuel n (fdiv F32_ONE y) (fdiv F32_ONE x) F32_ONE F32_ONE b a); trivial.
           ++ apply inv_nnle; trivial; [apply Ix|apply Iy].
           ++ apply nnle_refl, one_nn.
Qed.

(** Powers stay on the right side of 1. *)
Lemma powi_side : forall {E : Env} fuel x n a, 0 < n < 2 ^ 24 -> is_nan x = false -> sign_bit x = false -> F32_powi fuel x n = Ok a ->
  (fle x F32_ONE = true -> fle a F32_ONE = true) /\ (fle F32_ONE x = true -> fle F32_ONE a = true).
Proof.
  intros E fuel x n a Hn Nx Sx A. destruct one_val as [F1 V1]. destruct one_lo_hi as [L1 H1].
  assert (P1 : forall c, F32_powi fuel F32_ONE n = Ok c -> c = F32_ONE).
  { intros c C. pose proof (powi_mono_lo fuel F32_ONE F32_ONE n c c Hn (nnle_refl _ one_nn) L1 L1 C C) as (_ & (N & F & L) & _).
    pose proof (powi_mono_hi fuel F32_ONE F32_ONE n c c Hn (nnle_refl _ one_nn) H1 H1 C C) as (_ & (_ & G) & _). specialize (G F).
    apply val_inj_nz; trivial; lra. }
  split; intros H.
  - assert (Lx : lo x).
    { split; [split; assumption|]. assert (Q : nnle x F32_ONE) by (split; [split; assumption|split; [exact one_nn|exact H]]).
      destruct (nnle_elim _ _ Q F1) as [F V]. split; [exact F|lra]. }
    pose proof (powi_mono_lo fuel x x n a a Hn (nnle_refl x (proj1 Lx)) Lx Lx A A) as (_ & (_ & F & V) & _).
    rewrite fle_R by assumption. apply Rle_bool_true. lra.
  - assert (Hx : hi x).
    { split; [split; assumption|]. intros F. rewrite fle_R in H by assumption. destruct (Rle_bool_spec (val F32_ONE) (val x)); [lra|discriminate]. }
    pose proof (powi_mono_hi fuel x x n a a Hn (nnle_refl x (proj1 Hx)) Hx Hx A A) as (_ & (N & V) & _).
    assert (Q : nnle F32_ONE a); [|apply Q]. apply nnle_intro; [exact one_nn|exact N|]. intros F. split; [exact F1|]. specialize (V F). lra.
Qed.

Lemma powi_zero_neg : forall {E : Env} fuel n, 0 < n < 2 ^ 24 -> (31 <= fuel)%nat -> F32_powi fuel F32_ZERO (- n) = Ok (f32_inf false).
Proof.
  intros E fuel n Hn HF. destruct (Z.eq_dec n 1) as [->|N1].
  - change (- (1)) with (-1). rewrite powi_minus_one by (reflexivity || exact HF). reflexivity.
  - rewrite powi_unfold. rewrite arith_i32 by (unfold i32_ok; lia). unfold bind at 1. destruct (Z.eqb_spec (- n) 0); [lia|].
    destruct (Z.ltb_spec 0 (- n)); [lia|]. rewrite andb_false_r. change (mid F32_ZERO) with false. cbn [bind].
    change (extract_exponent_value F32_ZERO) with (-127). rewrite arith_i32 by (unfold i32_ok; lia). cbn [bind].
    destruct (Z.ltb_spec 127 (-127 * - n)); [|lia]. destruct (Z.ltb_spec (-127 * - n) (-149)); [lia|]. destruct (Z.ltb_spec (-127 * - n) 0); [lia|].
    rewrite andb_false_r. cbn [orb bind]. reflexivity.
Qed.

Lemma powi_antitone_all : forall {E : Env} fuel x y n a b, 0 < n < 2 ^ 24 -> (31 <= fuel)%nat -> sign_bit x = false -> sign_bit y = false -> fle x y = true ->
  F32_powi fuel x (- n) = Ok a -> F32_powi fuel y (- n) = Ok b -> fle b a = true /\ sign_bit b = false.
Proof.
  intros E fuel x y n a b Hn HF Sx Sy H A B. destruct (feq x F32_ZERO) eqn:Z; [|exact (powi_antitone fuel x y n a b Hn Sx Sy H Z A B)].
  assert (ZZ : forall z, sign_bit z = false -> feq z F32_ZERO = true -> z = F32_ZERO).
  { intros z Sz Hz. destruct z as [s|s|s p K|s m e K]; unfold sign_bit in Sz; cbn in Sz; subst s; try discriminate. reflexivity. }
  rewrite (ZZ x Sx Z) in A. rewrite powi_zero_neg in A by assumption. injection A as <-.
  assert (Nb : nn b).
  { destruct (feq y F32_ZERO) eqn:Zy.
    - rewrite (ZZ y Sy Zy) in B. rewrite powi_zero_neg in B by assumption. injection B as <-. split; reflexivity.
    - destruct (fle_not_nan _ _ H) as [_ Ny]. destruct (lo_or_hi y (conj Ny Sy)) as [Hy|Hy].
      + apply (powi_neg_lo fuel y n b Hn Hy Zy B).
      + apply (powi_neg_hi fuel y n b Hn Hy B). }
  assert (Q : nnle b (f32_inf false)); [|split; [apply Q|apply Q]]. apply nnle_intro; [exact Nb|split; reflexivity|intros C; discriminate C].
Qed.
