(** * Proofs: remainder, rem_euclid, div_euclid *)

From Coq Require Import ZArith Reals Bool List Lia Lra.
From Flocq Require Import Core IEEE754.BinarySingleNaN IEEE754.Binary IEEE754.Bits.
From Verif Require Import Base Spec Float F32Lemmas BitLemmas P_Trunc P_Floor Literals P_RoundEdge.
Open Scope Z_scope.

(** The value of a non-zero finite float from its constructor. *)
Lemma val_finite : forall s m e H,
  val (B754_finite s m e H : f32) = ((if s then -1 else 1) * (IZR (Zpos m) * bpow radix2 e))%R.
Proof.
  intros s m e H. unfold val, B2R, F2R. cbv beta iota delta [Fnum Fexp].
  destruct s; unfold cond_Zopp; rewrite ?opp_IZR; ring.
Qed.

Lemma sgn_sq : forall s : bool, ((if s then -1 else 1) * (if s then -1 else 1) = 1)%R.
Proof. intros []; ring. Qed.

Lemma Ztrunc_scale : forall (s : bool) r, (0 <= r)%R ->
  IZR (Ztrunc ((if s then -1 else 1) * r)) = ((if s then -1 else 1) * IZR (Zfloor r))%R.
Proof.
  intros s r Hr. destruct s.
  - replace (-1 * r)%R with (- r)%R by ring. rewrite Ztrunc_opp, opp_IZR, Ztrunc_floor by assumption. ring.
  - rewrite !Rmult_1_l. rewrite Ztrunc_floor by assumption. reflexivity.
Qed.

Lemma frem_spec : forall {E : Env} x y, fin x -> fin y -> val y <> 0%R ->
  fin (frem x y) /\ sign_bit (frem x y) = sign_bit x /\
  val (frem x y) = (val x - IZR (Ztrunc (val x / val y)) * val y)%R /\
  (Rabs (val (frem x y)) < Rabs (val y))%R.
Proof.
  intros E x y Hx Hy Hz.
  assert (Py : (0 < Rabs (val y))%R) by (apply Rabs_pos_lt; assumption).
  destruct y as [sy|sy|sy py hy|sy my ey hy]; try discriminate Hy.
  { exfalso. apply Hz. reflexivity. }
  destruct x as [sx|sx|sx px hx|sx mx ex hx]; try discriminate Hx.
  { split; [reflexivity|]. split; [reflexivity|].
    change (val (B754_zero sx : f32)) with 0%R.
    change (val (frem (B754_zero sx : f32) (B754_finite sy my ey hy))) with 0%R.
    unfold Rdiv. rewrite Rmult_0_l.
    replace (Ztrunc 0) with 0 by (symmetry; apply (Ztrunc_IZR 0)).
    split; [ring|]. rewrite Rabs_R0. assumption. }
  destruct (bounded_digits mx ex hx) as (X1 & X2 & _).
  destruct (bounded_digits my ey hy) as (Y1 & Y2 & _).
  set (e := Z.min ex ey).
  set (a := Zpos mx * 2 ^ (ex - e)). set (b := Zpos my * 2 ^ (ey - e)).
  assert (Ha : 0 < a) by (unfold a; lia).
  assert (Hb : 0 < b) by (unfold b; lia).
  assert (Va : val (B754_finite sx mx ex hx : f32) = ((if sx then -1 else 1) * (IZR a * bpow radix2 e))%R).
  { rewrite val_finite. f_equal. unfold a. rewrite mult_IZR, <- bpow_Z, Rmult_assoc, <- bpow_plus by lia.
    f_equal. f_equal. ring. }
  assert (Vb : val (B754_finite sy my ey hy : f32) = ((if sy then -1 else 1) * (IZR b * bpow radix2 e))%R).
  { rewrite val_finite. f_equal. unfold b. rewrite mult_IZR, <- bpow_Z, Rmult_assoc, <- bpow_plus by lia.
    f_equal. f_equal. ring. }
  assert (Fe : frem (B754_finite sx mx ex hx : f32) (B754_finite sy my ey hy) =
    binary_normalize 24 128 _ _ mode_NE (cond_Zopp sx (a mod b)) e sx) by reflexivity.
  pose proof (Z.mod_pos_bound a b Hb) as Rb.
  assert (Ra : a mod b <= a) by (apply Z.mod_le; lia).
  assert (FV : F2R (Float radix2 (cond_Zopp sx (a mod b)) e) =
    ((if sx then -1 else 1) * (IZR (a mod b) * bpow radix2 e))%R).
  { unfold F2R. cbv beta iota delta [Fnum Fexp].
    destruct sx; unfold cond_Zopp; rewrite ?opp_IZR; ring. }
  assert (Sm : a mod b < 2 ^ 24).
  { destruct (Z.min_spec ex ey) as [[Q1 Q2]|[Q1 Q2]]; fold e in Q2.
    - unfold a in *. rewrite Q2, Z.sub_diag, Z.mul_1_r in *. lia.
    - unfold b in *. rewrite Q2, Z.sub_diag, Z.mul_1_r in *. lia. }
  assert (He : -149 <= e) by (unfold e; lia).
  assert (Fm : fmt (F2R (Float radix2 (cond_Zopp sx (a mod b)) e))).
  { unfold F2R. cbv beta iota delta [Fnum Fexp]. apply fmt_scaled; [|assumption].
    rewrite abs_cond_Zopp. lia. }
  pose proof (bpow_gt_0 radix2 e) as Pe.
  assert (Lt : (Rabs (F2R (Float radix2 (cond_Zopp sx (a mod b)) e)) <
    Rabs (val (B754_finite sy my ey hy : f32)))%R).
  { rewrite FV, Vb, !Rabs_mult.
    assert (S1 : forall s : bool, Rabs (if s then -1 else 1) = 1%R).
    { intros []; [rewrite Rabs_left by lra; ring|apply Rabs_R1]. }
    rewrite !S1, !Rmult_1_l. rewrite !(Rabs_pos_eq (bpow _ _)) by lra.
    apply Rmult_lt_compat_r; [assumption|].
    rewrite !Rabs_pos_eq by (apply IZR_le; lia). apply IZR_lt. lia. }
  pose proof (binary_normalize_correct 24 128 prec24 emax128 mode_NE (cond_Zopp sx (a mod b)) e sx) as C.
  change (round radix2 (SpecFloat.fexp 24 128) (round_mode mode_NE)) with rnd in C.
  rewrite rnd_fmt in C by assumption.
  rewrite Rlt_bool_true in C.
  2:{ apply Rlt_trans with (1 := Lt). apply (abs_B2R_lt_emax 24 128). }
  rewrite <- Fe in C. destruct C as (C1 & C2 & C3).
  split; [exact C2|].
  assert (V : val (frem (B754_finite sx mx ex hx : f32) (B754_finite sy my ey hy)) =
    ((if sx then -1 else 1) * (IZR (a mod b) * bpow radix2 e))%R) by (rewrite <- FV; exact C1).
  split; [|split].
  - change (sign_bit (B754_finite sx mx ex hx)) with sx.
    unfold sign_bit. rewrite C3, FV.
    destruct (Z.eq_dec (a mod b) 0) as [Z0|Z0].
    + rewrite Z0. rewrite Rcompare_Eq; [reflexivity|]. ring.
    + assert (0 < IZR (a mod b) * bpow radix2 e)%R
        by (apply Rmult_lt_0_compat; [apply IZR_lt; lia|assumption]).
      destruct sx; [rewrite Rcompare_Lt|rewrite Rcompare_Gt]; trivial; lra.
  - rewrite V.
    assert (Q : (val (B754_finite sx mx ex hx : f32) / val (B754_finite sy my ey hy : f32) =
      (if xorb sx sy then -1 else 1) * (IZR a / IZR b))%R).
    { rewrite Va, Vb. assert (IZR b <> 0)%R by (apply IZR_neq; lia).
      destruct sx, sy; simpl xorb; cbv iota; field; split; try assumption; lra. }
    rewrite Q, Ztrunc_scale.
    2:{ apply Rmult_le_pos; [apply IZR_le; lia|]. apply Rlt_le, Rinv_0_lt_compat, IZR_lt. assumption. }
    rewrite Zfloor_div by lia. rewrite Va, Vb.
    assert (D : IZR a = (IZR b * IZR (a / b) + IZR (a mod b))%R).
    { rewrite <- mult_IZR, <- plus_IZR. f_equal. apply Z.div_mod. lia. }
    rewrite D. destruct sx, sy; simpl xorb; cbv iota; ring.
  - rewrite V, <- FV. exact Lt.
Qed.

(** Comparison with zero. *)
Lemma fge_zero : forall x, fin x -> fge x F32_ZERO = Rle_bool 0 (val x).
Proof. intros x H. unfold fge. rewrite fle_R by (trivial; reflexivity). reflexivity. Qed.
Lemma fgt_zero : forall x, fin x -> fgt x F32_ZERO = Rlt_bool 0 (val x).
Proof. intros x H. unfold fgt. rewrite flt_R by (trivial; reflexivity). reflexivity. Qed.

Lemma Rdiv_eq : forall x y, y <> 0%R -> x = (x / y * y)%R.
Proof. intros x y H. field. assumption. Qed.

Lemma euclid_range : forall x y, y <> 0%R ->
  (0 <= x - IZR (euclid_quot x y) * y < Rabs y)%R.
Proof.
  intros x y Hy. unfold euclid_quot.
  pose proof (Rdiv_eq x y Hy) as Q. set (t := (x / y)%R) in *.
  destruct (Rlt_bool_spec 0 y) as [P|P].
  - rewrite Rabs_pos_eq by lra. pose proof (Zfloor_lb t). pose proof (Zfloor_ub t). nra.
  - rewrite Rabs_left1 by assumption. assert (y < 0)%R by lra.
    pose proof (Zceil_ub t). pose proof (Zceil_lb t). nra.
Qed.

(** Relation between the truncated and the Euclidean quotient. *)
Lemma euclid_trunc : forall x y, y <> 0%R ->
  let r := (x - IZR (Ztrunc (x / y)) * y)%R in
  euclid_quot x y =
    (if Rle_bool 0 r then Ztrunc (x / y)
     else if Rlt_bool 0 y then Ztrunc (x / y) - 1 else Ztrunc (x / y) + 1)
  /\ (r < 0 -> - Rabs y < r)%R.
Proof.
  intros x y Hy r. unfold euclid_quot, r.
  pose proof (Rdiv_eq x y Hy) as Q. set (t := (x / y)%R) in *. rewrite Q.
  destruct (Rlt_bool_spec 0 y) as [P|P].
  - rewrite Rabs_pos_eq by lra. destruct (Rle_or_lt 0 t) as [T|T].
    + rewrite Ztrunc_floor by assumption. pose proof (Zfloor_lb t).
      rewrite Rle_bool_true by nra. split; [reflexivity|nra].
    + rewrite Ztrunc_ceil by lra. pose proof (Zceil_ub t). pose proof (Zceil_lb t).
      destruct (Req_dec (IZR (Zceil t)) t) as [I|I].
      * rewrite Rle_bool_true by nra. split; [|nra].
        rewrite <- I at 1. apply Zfloor_IZR.
      * rewrite Rle_bool_false by nra. split; [|nra].
        rewrite (Zceil_floor_neq t); [ring|]. intros C. apply I. rewrite <- C, Zceil_IZR. reflexivity.
  - assert (y < 0)%R by lra. rewrite Rabs_left by assumption.
    destruct (Rle_or_lt 0 t) as [T|T].
    + rewrite Ztrunc_floor by assumption. pose proof (Zfloor_lb t). pose proof (Zfloor_ub t).
      destruct (Req_dec (IZR (Zfloor t)) t) as [I|I].
      * rewrite Rle_bool_true by nra. split; [|nra].
        rewrite <- I at 1. apply Zceil_IZR.
      * rewrite Rle_bool_false by nra. split; [|nra].
        apply Zceil_floor_neq. assumption.
    + rewrite Ztrunc_ceil by lra. pose proof (Zceil_ub t).
      rewrite Rle_bool_true by nra. split; [reflexivity|nra].
Qed.

Lemma rem_euclid_spec : forall {E : Env} x y, fin x -> fin y -> val y <> 0%R ->
  let exact := (val x - IZR (euclid_quot (val x) (val y)) * val y)%R in
  fin (F32_rem_euclid x y) /\ val (F32_rem_euclid x y) = rnd exact /\
  (0 <= val (F32_rem_euclid x y) <= Rabs (val y))%R /\
  ((0 <= val (frem x y))%R -> val (F32_rem_euclid x y) = exact).
Proof.
  intros E x y Hx Hy Hz exact. unfold F32_rem_euclid. cbv zeta.
  destruct (frem_spec x y Hx Hy Hz) as (F & S & V & L).
  rewrite fge_zero by assumption.
  destruct (euclid_trunc (val x) (val y) Hz) as [Q B].
  pose proof (euclid_range (val x) (val y) Hz) as R. fold exact in R.
  rewrite <- V in Q, B.
  destruct (Rle_bool_spec 0 (val (frem x y))) as [P|P].
  - assert (X : val (frem x y) = exact) by (unfold exact; rewrite Q; exact V).
    split; [assumption|]. split; [|split].
    + rewrite <- X. symmetry. apply rnd_fmt, fmt_val.
    + rewrite X. lra.
    + intros _. exact X.
  - assert (X : (val (frem x y) + val (F32_abs y) = exact)%R).
    { rewrite abs_val. unfold exact. rewrite Q, V.
      destruct (Rlt_bool_spec 0 (val y)) as [Y|Y].
      - rewrite Rabs_pos_eq, minus_IZR by lra. ring.
      - rewrite Rabs_left1, plus_IZR by lra. ring. }
    assert (Up : (rnd exact <= Rabs (val y))%R).
    { rewrite <- (rnd_fmt (Rabs (val y))) by (apply generic_format_abs, fmt_val).
      apply rnd_le. lra. }
    assert (Lo : (0 <= rnd exact)%R) by (apply rnd_nonneg; lra).
    destruct (fadd_R (frem x y) (F32_abs y)) as [G1 G2]; trivial.
    + unfold fin. rewrite abs_fin. assumption.
    + rewrite X, Rabs_pos_eq by assumption. apply Rle_lt_trans with (1 := Up).
      apply (abs_B2R_lt_emax 24 128).
    + rewrite X in G2. split; [assumption|]. rewrite G2. split; [reflexivity|].
      split; [lra|]. intros C. lra.
Qed.

Lemma rem_euclid_not_below : forall {E : Env}, exists x y, fin x /\ fin y /\ (0 < val y)%R /\
  F32_rem_euclid x y = y.
Proof.
  intros E. exists (from_bits 0xAEDBE6FF), F32_ONE.
  split; [reflexivity|]. split; [reflexivity|]. split; [rewrite (proj2 one_val); lra|].
  apply to_bits_inj. vm_compute. reflexivity.
Qed.

Lemma rem_euclid_nan : forall {E : Env} x y,
  nan x \/ nan y \/ is_infinite x = true \/ (fin y /\ val y = 0%R) -> nan (F32_rem_euclid x y).
Proof.
  intros E x y H. unfold F32_rem_euclid. cbv zeta.
  assert (N : nan (frem x y)).
  { assert (P : nan (proj1_sig (nan_rem x y))) by exact (proj2_sig (nan_rem x y)).
    destruct H as [H|[H|[H|[F H]]]].
    - destruct x; try discriminate H. exact P.
    - destruct y; try discriminate H. destruct x; exact P.
    - destruct x; try discriminate H. destruct y; exact P.
    - destruct y as [sy|sy|sy py hy|sy my ey hy]; try discriminate F.
      + destruct x; exact P.
      + exfalso. rewrite val_finite in H.
        assert (0 < IZR (Zpos my) * bpow radix2 ey)%R
          by (apply Rmult_lt_0_compat; [apply IZR_lt; lia|apply bpow_gt_0]).
        destruct sy; lra. }
  unfold fge, fle. rewrite cmp_nan_r by assumption. apply fadd_nan_l. assumption.
Qed.

(** ** div_euclid *)

Lemma Ztrunc_rnd : forall t, (Rabs t <= bpow radix2 23)%R ->
  Ztrunc (rnd t) = Ztrunc t \/
  ((0 <= t)%R /\ Ztrunc (rnd t) = Ztrunc t + 1 /\ rnd t = IZR (Ztrunc t + 1)) \/
  ((t <= 0)%R /\ Ztrunc (rnd t) = Ztrunc t - 1 /\ rnd t = IZR (Ztrunc t - 1)).
Proof.
  assert (Pos : forall t, (0 <= t <= bpow radix2 23)%R ->
    Zfloor (rnd t) = Zfloor t \/ (Zfloor (rnd t) = Zfloor t + 1 /\ rnd t = IZR (Zfloor t + 1))).
  { intros t [T0 T1]. pose proof (Zfloor_lb t) as A. pose proof (Zfloor_ub t) as B.
    set (n := Zfloor t) in *.
    assert (N0 : 0 <= n) by (apply Zfloor_lub; simpl; lra).
    assert (N1 : n <= 2 ^ 23) by (apply le_IZR; change (IZR (2 ^ 23)) with (bpow radix2 23); lra).
    assert (L : (IZR n <= rnd t)%R).
    { rewrite <- (rnd_fmt (IZR n)) by (apply fmt_IZR; lia). apply rnd_le. assumption. }
    assert (U : (rnd t <= IZR (n + 1))%R).
    { rewrite <- (rnd_fmt (IZR (n + 1))) by (apply fmt_IZR; lia). apply rnd_le. rewrite plus_IZR. lra. }
    destruct (Rle_lt_or_eq_dec _ _ U) as [U'|U'].
    - left. apply Zfloor_imp. split; assumption.
    - right. split; [rewrite U'; apply Zfloor_IZR|assumption]. }
  intros t H. apply Rabs_le_inv in H. destruct (Rle_or_lt 0 t) as [P|P].
  - assert (0 <= rnd t)%R by (apply rnd_nonneg; assumption).
    rewrite !Ztrunc_floor by assumption.
    destruct (Pos t ltac:(lra)) as [A|[A B]]; [left|right; left]; auto.
  - set (u := (- t)%R). assert (Q : (0 <= u <= bpow radix2 23)%R) by (unfold u; lra).
    replace t with (- u)%R by (unfold u; ring). clearbody u. clear t H P.
    rewrite rnd_opp, !Ztrunc_opp.
    assert (0 <= rnd u)%R by (apply rnd_nonneg; lra).
    rewrite (Ztrunc_floor (rnd u)), (Ztrunc_floor u) by lra.
    destruct (Pos u Q) as [A|[A B]]; [left|right; right].
    + rewrite A. reflexivity.
    + split; [lra|]. rewrite A, B. split; [ring|]. rewrite <- opp_IZR. f_equal. ring.
Qed.

Lemma div_euclid_spec : forall {E : Env} x y, fin x -> fin y -> val y <> 0%R ->
  (Rabs (val x / val y) <= bpow radix2 23)%R ->
  let t := (val x / val y)%R in
  fin (F32_div_euclid x y) /\
  val (F32_div_euclid x y) =
    IZR (euclid_quot (val x) (val y) + (Ztrunc (rnd t) - Ztrunc t)) /\
  Z.abs (Ztrunc (rnd t) - Ztrunc t) <= 1.
Proof.
  intros E x y Hx Hy Hz Ht t.
  destruct (frem_spec x y Hx Hy Hz) as (F & S & V & L).
  destruct (euclid_trunc (val x) (val y) Hz) as [Q _]. rewrite <- V in Q. fold t in Q, Ht.
  destruct (fdiv_R x y Hx Hy Hz) as [D1 D2].
  { apply (small_lt_128 23); [lia|assumption]. }
  fold t in D2.
  assert (Rb : (Rabs (rnd t) <= bpow radix2 23)%R) by (apply rnd_abs_le; [lia|assumption]).
  destruct (trunc_exact (fdiv x y) D1) as (T1 & T2 & _).
  { rewrite D2. apply Rle_lt_trans with (1 := Rb). apply bpow_lt. lia. }
  rewrite D2 in T2.
  assert (N : Z.abs (Ztrunc (rnd t)) <= 2 ^ 23).
  { rewrite <- Ztrunc_abs, Ztrunc_floor by apply Rabs_pos.
    apply le_IZR. change (IZR (2 ^ 23)) with (bpow radix2 23).
    apply Rle_trans with (1 := Zfloor_lb _). assumption. }
  assert (A : Z.abs (Ztrunc (rnd t) - Ztrunc t) <= 1).
  { destruct (Ztrunc_rnd t Ht) as [A|[(_ & A & _)|(_ & A & _)]]; rewrite A; lia. }
  destruct one_val as [O1 O2].
  split; [|split; [|assumption]]; unfold F32_div_euclid; cbv zeta;
    rewrite fge_zero, fgt_zero by assumption; rewrite ?Q;
    (destruct (Rle_bool_spec 0 (val (frem x y))) as [P|P];
     [|destruct (Rlt_bool_spec 0 (val y)) as [P'|P']]).
  - assumption.
  - destruct (fsub_k 24 (F32_trunc (fdiv x y)) F32_ONE) as (K & _); trivial; [lia|].
    rewrite T2, O2, <- minus_IZR, <- abs_IZR. change (bpow radix2 24) with (IZR (2 ^ 24)).
    apply IZR_le. lia.
  - destruct (fadd_k 24 (F32_trunc (fdiv x y)) F32_ONE) as (K & _); trivial; [lia|].
    rewrite T2, O2, <- plus_IZR, <- abs_IZR. change (bpow radix2 24) with (IZR (2 ^ 24)).
    apply IZR_le. lia.
  - rewrite T2. f_equal. ring.
  - destruct (fsub_k 24 (F32_trunc (fdiv x y)) F32_ONE) as (_ & K & _); trivial; [lia| |].
    + rewrite T2, O2, <- minus_IZR, <- abs_IZR. change (bpow radix2 24) with (IZR (2 ^ 24)).
      apply IZR_le. lia.
    + rewrite K, T2, O2, <- minus_IZR. rewrite rnd_fmt by (apply fmt_IZR; lia). f_equal. ring.
  - destruct (fadd_k 24 (F32_trunc (fdiv x y)) F32_ONE) as (_ & K & _); trivial; [lia| |].
    + rewrite T2, O2, <- plus_IZR, <- abs_IZR. change (bpow radix2 24) with (IZR (2 ^ 24)).
      apply IZR_le. lia.
    + rewrite K, T2, O2, <- plus_IZR. rewrite rnd_fmt by (apply fmt_IZR; lia). f_equal. ring.
Qed.

(** Exact when the division is exact, or the rounded quotient has the same integer part. *)
Lemma div_euclid_exact : forall {E : Env} x y n, fin x -> fin y -> val y <> 0%R ->
  val x = (IZR n * val y)%R -> Z.abs n <= 2 ^ 23 ->
  val (F32_div_euclid x y) = IZR n.
Proof.
  intros E x y n Hx Hy Hz Hn Bn.
  assert (T : (val x / val y = IZR n)%R) by (rewrite Hn; field; assumption).
  destruct (div_euclid_spec x y Hx Hy Hz) as (_ & V & _).
  - rewrite T, <- abs_IZR. change (bpow radix2 23) with (IZR (2 ^ 23)). apply IZR_le. assumption.
  - rewrite V, T. rewrite rnd_fmt by (apply fmt_IZR; lia). f_equal.
    unfold euclid_quot. rewrite T, Zfloor_IZR, Zceil_IZR.
    destruct (Rlt_bool 0 (val y)); ring.
Qed.

Lemma div_euclid_wrong : forall {E : Env}, exists x y, fin x /\ fin y /\ val x = 1%R /\
  (0.1 < val y < 0.1 + / 100000000)%R /\
  val (F32_div_euclid x y) = 10%R /\ euclid_quot (val x) (val y) = 9.
Proof.
  intros E. exists F32_ONE, (from_bits 0x3DCCCCCD).
  split; [reflexivity|]. split; [reflexivity|]. split; [apply one_val|].
  assert (B : (0.1 < val (from_bits 0x3DCCCCCD) < 0.1 + / 100000000)%R)
    by (lit 0x3DCCCCCD; bpow_lit; lra).
  split; [assumption|]. split.
  - assert (R : F32_div_euclid F32_ONE (from_bits 0x3DCCCCCD) = from_bits 0x41200000)
      by (apply to_bits_inj; vm_compute; reflexivity).
    rewrite R. lit 0x41200000. bpow_lit. lra.
  - unfold euclid_quot. rewrite Rlt_bool_true by lra. rewrite (proj2 one_val).
    set (v := val (from_bits 0x3DCCCCCD)) in *. apply Zfloor_imp. simpl (9 + 1).
    unfold Rdiv. rewrite Rmult_1_l. split.
    + apply Rmult_le_reg_r with v; [lra|]. rewrite Rinv_l by lra. lra.
    + apply Rmult_lt_reg_r with v; [lra|]. rewrite Rinv_l by lra. lra.
Qed.
