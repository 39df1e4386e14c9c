(** * Proofs: atan2 *)

From Coq Require Import ZArith Reals Bool List Lia Lra Psatz.
From Flocq Require Import Core IEEE754.BinarySingleNaN IEEE754.Binary IEEE754.Bits.
From Verif Require Import Base Spec Float F32Lemmas BitLemmas P_Trunc P_Floor Literals ErrLemmas P_RoundEdge
  NanLemmas P_Euclid P_Roots P_Recip P_SumSq P_Stats P_Quat P_Quat2 P_Trig RealBounds RealBounds2 P_Atan.
Open Scope Z_scope.

Definition quadrant (sx sy : bool) : Z := if sx then 2 else if sy then 4 else 0.

Definition quot2 {E : Env} (y x : f32) : f32 := quadf (fmul x x) (F32_abs (fmul (fmul c_B x) y)) (fmul y y).

Lemma atan2_norm_eq : forall {E : Env} y x, F32_atan2_norm y x =
  fadd (f32_of_Z (quadrant (sign_bit x) (sign_bit y)))
    (with_sign (xorb (sign_bit x) (sign_bit y) || sign_bit (quot2 y x)) (quot2 y x)).
Proof.
  intros E y x. unfold F32_atan2_norm. rewrite !land_sign. fold (quadf (fmul x x) (F32_abs (fmul (fmul c_B x) y)) (fmul y y)).
  fold (quot2 y x). rewrite <- or_sign. f_equal.
  - f_equal. destruct (sign_bit x), (sign_bit y); reflexivity.
  - f_equal. f_equal. destruct (sign_bit x), (sign_bit y); reflexivity.
Qed.

(** ** The first-quadrant quotient *)

Definition in_range (x y : R) : Prop :=
  (Rabs x <= bpow radix2 62)%R /\ (Rabs y <= bpow radix2 62)%R /\
  (bpow radix2 (-60) <= Rabs x \/ bpow radix2 (-60) <= Rabs y)%R.

Lemma quot2_acc : forall {E : Env} y x, fin x -> fin y -> in_range (val x) (val y) ->
  let q := quot2 y x in let X := Rabs (val x) in let Y := Rabs (val y) in
  fin q /\ sign_bit q = false /\ (0 <= val q <= 1)%R /\
  (0 < X * X + Y * Y)%R /\
  (Rabs (val q - quad (X * X) (cB * X * Y) (Y * Y)) <= 20 * u24)%R /\ (val y = 0 -> val q = 0)%R.
Proof.
  intros E y x Fx Fy (HX & HY & HL) q X Y. fold X Y in HX, HY, HL. destruct c_B_val as [FB VB].
  assert (PX : (0 <= X)%R) by apply Rabs_pos. assert (PY : (0 <= Y)%R) by apply Rabs_pos.
  assert (XX : (val x * val x = X * X)%R). { unfold X. rewrite <- Rabs_mult. symmetry. apply Rabs_pos_eq, Rle_0_sqr. }
  assert (YY : (val y * val y = Y * Y)%R). { unfold Y. rewrite <- Rabs_mult. symmetry. apply Rabs_pos_eq, Rle_0_sqr. }
  assert (X2 : (0 <= X * X)%R) by (apply Rmult_le_pos; assumption). assert (Y2 : (0 <= Y * Y)%R) by (apply Rmult_le_pos; assumption).
  assert (XY : (0 <= X * Y)%R) by (apply Rmult_le_pos; assumption).
  assert (p124 : (bpow radix2 62 * bpow radix2 62 = bpow radix2 124)%R) by (rewrite <- bpow_plus; reflexivity).
  assert (U1 : (X * X <= bpow radix2 124)%R) by (rewrite <- p124; apply Rmult_le_compat; assumption).
  assert (U2 : (Y * Y <= bpow radix2 124)%R) by (rewrite <- p124; apply Rmult_le_compat; assumption).
  assert (U3 : (X * Y <= bpow radix2 124)%R) by (rewrite <- p124; apply Rmult_le_compat; assumption).
  assert (p127 : (bpow radix2 127 = 8 * bpow radix2 124)%R) by (change 127 with (3 + 124); rewrite (bpow_plus radix2 3 124); reflexivity).
  pose proof (bpow_gt_0 radix2 124) as p0. pose proof (bpow_gt_0 radix2 (-120)) as pm0.
  assert (L : (bpow radix2 (-120) <= X * X + Y * Y)%R).
  { replace (bpow radix2 (-120)) with (bpow radix2 (-60) * bpow radix2 (-60))%R by (rewrite <- bpow_plus; reflexivity).
    pose proof (bpow_ge_0 radix2 (-60)) as pp.
    destruct HL as [HL|HL].
    - assert (bpow radix2 (-60) * bpow radix2 (-60) <= X * X)%R by (apply Rmult_le_compat; assumption). lra.
    - assert (bpow radix2 (-60) * bpow radix2 (-60) <= Y * Y)%R by (apply Rmult_le_compat; assumption). lra. }
  assert (TW : (2 * (X * Y) <= X * X + Y * Y)%R).
  { pose proof (Rle_0_sqr (X - Y)) as Q. unfold Rsqr in Q. lra. }
  assert (e1 : (eta = / 1073741824 * bpow radix2 (-120))%R).
  { unfold eta. change (-150) with (-30 + -120). rewrite bpow_plus. reflexivity. }
  pose proof eta_tiny as ET.
  set (D := (X * X + cB * X * Y + (cB * X * Y + Y * Y))%R).
  assert (HD : (X * X + Y * Y <= D)%R) by (unfold D, cB; lra).
  (* x*x, y*y *)
  assert (SQ : forall z Z, fin z -> (val z * val z = Z * Z)%R -> (0 <= Z * Z <= bpow radix2 124)%R -> (Z * Z <= D)%R ->
    fin (fmul z z) /\ (0 <= val (fmul z z) <= bpow radix2 124)%R /\ (Rabs (val (fmul z z) - Z * Z) <= 2 * u24 * D)%R).
  { intros z Z Fz Vz Hz HzD. assert (M : (Rabs (val z * val z) <= bpow radix2 124)%R) by (rewrite Vz, Rabs_pos_eq; lra).
    destruct (fmul_R z z Fz Fz (small_lt_128 124 _ ltac:(lia) M)) as [A B]. split; [exact A|]. split.
    - rewrite B. split; [apply rnd_nonneg; lra|]. pose proof (rnd_abs_le 124 _ ltac:(lia) M) as R. apply Rabs_le_inv in R. lra.
    - rewrite B, Vz. pose proof (rnd_err_mixed (Z * Z)) as R. rewrite u24_eq in R. fold eta in R.
      rewrite (Rabs_pos_eq (Z * Z)) in R by lra. unfold u24 in *. lra. }
  destruct (SQ x X Fx XX ltac:(lra) ltac:(lra)) as (A1 & A2 & A3).
  destruct (SQ y Y Fy YY ltac:(lra) ltac:(lra)) as (C1 & C2 & C3).
  (* B x y *)
  assert (M1 : (Rabs (val c_B * val x) = cB * X)%R).
  { rewrite VB, Rabs_mult, Rabs_pos_eq by lra. reflexivity. }
  assert (M1b : (Rabs (val c_B * val x) <= bpow radix2 62)%R) by (rewrite M1; unfold cB; lra).
  destruct (fmul_R c_B x FB Fx (small_lt_128 62 _ ltac:(lia) M1b)) as [W1 W2].
  set (w := fmul c_B x) in *.
  assert (Wb : (Rabs (val w) <= bpow radix2 62)%R) by (rewrite W2; apply rnd_abs_le; [lia|exact M1b]).
  assert (We : (Rabs (val w - val c_B * val x) <= u24 * (cB * X) + eta)%R).
  { rewrite W2. pose proof (rnd_err_mixed (val c_B * val x)) as R. rewrite u24_eq, M1 in R. exact R. }
  assert (M2 : (Rabs (val w * val y) <= bpow radix2 124)%R).
  { rewrite Rabs_mult, <- p124. apply Rmult_le_compat; try apply Rabs_pos; assumption. }
  destruct (fmul_R w y W1 Fy (small_lt_128 124 _ ltac:(lia) M2)) as [B1 B2].
  set (b := F32_abs (fmul w y)).
  assert (Fb : fin b) by (unfold b, fin; rewrite abs_fin; exact B1).
  assert (Pb : (0 <= val b <= bpow radix2 124)%R).
  { unfold b. rewrite abs_val. split; [apply Rabs_pos|]. rewrite B2. apply rnd_abs_le; [lia|exact M2]. }
  assert (Eb : (Rabs (val b - cB * X * Y) <= 2 * u24 * D)%R).
  { assert (T : (cB * X * Y = Rabs (val c_B * val x * val y))%R).
    { rewrite (Rabs_mult _ (val y)), M1. reflexivity. }
    rewrite T. unfold b. rewrite abs_val. eapply Rle_trans; [apply Rabs_triang_inv2|]. rewrite B2.
    pose proof (rnd_err_mixed (val w * val y)) as R. rewrite u24_eq, Rabs_mult in R. fold eta Y in R.
    replace (rnd (val w * val y) - val c_B * val x * val y)%R with
      ((rnd (val w * val y) - val w * val y) + (val w - val c_B * val x) * val y)%R by ring.
    eapply Rle_trans; [apply Rabs_triang|]. rewrite (Rabs_mult (val w - val c_B * val x)). fold Y.
    assert (S1 : (Rabs (val w - val c_B * val x) * Y <= (u24 * (cB * X) + eta) * Y)%R) by (apply Rmult_le_compat_r; assumption).
    assert (S2 : (Rabs (val w) * Y <= (cB * X + (u24 * (cB * X) + eta)) * Y)%R).
    { apply Rmult_le_compat_r; [exact PY|]. replace (val w) with (val c_B * val x + (val w - val c_B * val x))%R by ring.
      eapply Rle_trans; [apply Rabs_triang|]. rewrite M1. lra. }
    assert (Y1 : (Y <= 1 + Y * Y)%R). { pose proof (Rle_0_sqr (Y - / 2)) as Q. unfold Rsqr in Q. lra. }
    assert (S3 : (eta * Y <= eta * (1 + Y * Y))%R) by (apply Rmult_le_compat_l; lra).
    assert (S4 : (eta * (Y * Y) <= / 1000000000000 * (Y * Y))%R) by (apply Rmult_le_compat_r; lra).
    assert (S5 : (eta <= / 1073741824 * D)%R) by lra.
    unfold u24, cB in *. lra. }
  assert (N : fin (fadd b (fmul y y)) /\ val (fadd b (fmul y y)) = rnd (val b + val (fmul y y))).
  { apply fadd_R; trivial. apply (small_lt_128 127); [lia|]. rewrite Rabs_pos_eq; lra. }
  assert (S : fin (fadd (fmul x x) b) /\ val (fadd (fmul x x) b) = rnd (val (fmul x x) + val b)).
  { apply fadd_R; trivial. apply (small_lt_128 127); [lia|]. rewrite Rabs_pos_eq; lra. }
  destruct N as [N1 N2]. destruct S as [S1 S2].
  assert (p125 : (bpow radix2 125 = 2 * bpow radix2 124)%R) by (change 125 with (1 + 124); rewrite (bpow_plus radix2 1 124); reflexivity).
  assert (N3 : (0 <= val (fadd b (fmul y y)) <= bpow radix2 125)%R).
  { rewrite N2. split; [apply rnd_nonneg; lra|]. rewrite <- (rnd_fmt (bpow radix2 125)) by (apply fmt_bpow; lia). apply rnd_le. lra. }
  assert (S3 : (0 <= val (fadd (fmul x x) b) <= bpow radix2 125)%R).
  { rewrite S2. split; [apply rnd_nonneg; lra|]. rewrite <- (rnd_fmt (bpow radix2 125)) by (apply fmt_bpow; lia). apply rnd_le. lra. }
  assert (Fd : fin (fadd (fadd (fmul x x) b) (fadd b (fmul y y)))).
  { apply fadd_R; trivial. apply (small_lt_128 127); [lia|]. rewrite Rabs_pos_eq; lra. }
  destruct (quad_core (fmul x x) b (fmul y y) (X * X) (cB * X * Y) (Y * Y) A1 Fb C1) as (Fq & Rq & Dq & Zq); trivial; try lra.
  - unfold cB; lra.
  - fold D. lra.
  - split; [exact Fq|]. split; [|split; [exact Rq|split; [lra|split; [exact Dq|]]]].
    2:{ intros Z. apply Zq; [unfold b; rewrite abs_val, B2, Z, Rmult_0_r|].
        - rewrite rnd_fmt; [apply Rabs_R0|apply generic_format_0].
        - destruct (fmul_R y y Fy Fy) as [_ V0]; [rewrite Z, Rmult_0_r, rnd_fmt, Rabs_R0; [apply bpow_gt_0|apply generic_format_0]|].
          rewrite V0, Z, Rmult_0_r. apply rnd_fmt, generic_format_0. }
    apply fin_nonneg; [|exact Fq]. unfold q, quot2, quadf.
    apply fdiv_nonneg; [apply fadd_nonneg; [apply abs_nonneg|apply sq_nonneg]|].
    apply fin_nonneg; [|exact Fd]. repeat apply fadd_nonneg; try apply abs_nonneg; try apply sq_nonneg.
Qed.

(** ** The last multiplication *)

Lemma halfpi_mul : forall {E : Env} m M, fin m -> (Rabs (val m - M) <= 30 * u24)%R -> (Rabs M <= 2.05)%R ->
  let r := fmul (fdiv c_PI c_2) m in fin r /\ (Rabs (val r - PI / 2 * M) <= 0.000005)%R.
Proof.
  intros E m M Fm Dm BM r. destruct halfpi_val as [Fh Vh]. pose proof eta_tiny as ET. pose proof PI_bounds as PB.
  apply Rabs_le_inv in Dm. apply Rabs_le_inv in BM.
  assert (Bm : (Rabs (val m) <= 2.1)%R) by (apply Rabs_le; unfold u24 in *; lra).
  assert (B : (Rabs (val (fdiv c_PI c_2) * val m) <= 3.4)%R).
  { rewrite Rabs_mult, Vh, (Rabs_pos_eq (13176795 / 8388608)) by lra. lra. }
  destruct (fmul_R (fdiv c_PI c_2) m Fh Fm) as [A C].
  { apply (small_lt_128 2); [lia|]. change (bpow radix2 2) with 4%R. lra. }
  split; [exact A|]. unfold r. rewrite C. pose proof (rnd_err_mixed (val (fdiv c_PI c_2) * val m)) as R. rewrite u24_eq in R. fold eta in R.
  replace (rnd (val (fdiv c_PI c_2) * val m) - PI / 2 * M)%R with
    ((rnd (val (fdiv c_PI c_2) * val m) - val (fdiv c_PI c_2) * val m) + ((val (fdiv c_PI c_2) - PI / 2) * val m + PI / 2 * (val m - M)))%R by ring.
  eapply Rle_trans; [apply Rabs_triang|].
  pose proof (Rabs_triang ((val (fdiv c_PI c_2) - PI / 2) * val m) (PI / 2 * (val m - M))) as T.
  assert (Rabs ((val (fdiv c_PI c_2) - PI / 2) * val m) <= 0.0000001 * 2.1)%R.
  { rewrite Rabs_mult. apply Rmult_le_compat; try apply Rabs_pos; [|exact Bm]. rewrite Vh. apply Rabs_le. lra. }
  assert (Rabs (PI / 2 * (val m - M)) <= 1.6 * (30 * u24))%R.
  { rewrite Rabs_mult. apply Rmult_le_compat; try apply Rabs_pos; [rewrite Rabs_pos_eq by lra; lra|apply Rabs_le; lra]. }
  unfold u24 in *. lra.
Qed.

(** ** atan2 in terms of the quotient *)

Lemma of_Z_small : forall n, Z.abs n <= 2 ^ 24 -> fin (f32_of_Z n) /\ val (f32_of_Z n) = IZR n.
Proof. exact f32_of_Z_exact. Qed.

(** The normalized angle: quadrant number plus or minus the quotient. *)
Lemma norm_val : forall {E : Env} sx sy p P, fin p -> (0 <= val p <= 1)%R -> (Rabs (val p - P) <= 20 * u24)%R ->
  let n := fadd (f32_of_Z (quadrant sx sy)) (with_sign (xorb sx sy) p) in
  let N := (IZR (quadrant sx sy) + (if xorb sx sy then -1 else 1) * P)%R in
  fin n /\ (Rabs (val n - N) <= 24 * u24)%R /\
  val n = rnd (IZR (quadrant sx sy) + (if xorb sx sy then -1 else 1) * val p).
Proof.
  intros E sx sy p P Fp Bp Dp n N. destruct (of_Z_small (quadrant sx sy)) as [Fq Vq].
  { destruct sx, sy; simpl; lia. }
  assert (Fw : fin (with_sign (xorb sx sy) p)) by (unfold fin; rewrite with_sign_fin; exact Fp).
  assert (Vw : val (with_sign (xorb sx sy) p) = ((if xorb sx sy then -1 else 1) * val p)%R).
  { rewrite with_sign_val, Rabs_pos_eq by lra. reflexivity. }
  assert (Q4 : (0 <= IZR (quadrant sx sy) <= 4)%R).
  { destruct sx, sy; simpl; lra. }
  assert (B : (Rabs (val (f32_of_Z (quadrant sx sy)) + val (with_sign (xorb sx sy) p)) <= bpow radix2 2)%R).
  { rewrite Vq, Vw. change (bpow radix2 2) with 4%R. apply Rabs_le. destruct sx, sy; simpl in *; lra. }
  destruct (fadd_R _ _ Fq Fw (small_lt_128 2 _ ltac:(lia) B)) as [A C].
  split; [exact A|]. unfold n. rewrite C, Vq, Vw. split; [|reflexivity].
  pose proof (rnd_err 2 _ ltac:(lia) B) as R. change (bpow radix2 (2 - 25)) with (2 * u24)%R in R || (replace (bpow radix2 (2 - 25)) with (2 * u24)%R in R by (unfold u24; simpl; lra)).
  rewrite Vq, Vw in R. apply Rabs_le_inv in R. apply Rabs_le_inv in Dp. unfold N. apply Rabs_le.
  destruct (xorb sx sy); unfold u24 in *; lra.
Qed.

Lemma quad_1 : forall A B C, (0 <= A -> 0 <= B -> 0 <= C -> 0 < A + C -> 0 <= quad A B C <= 1)%R.
Proof. intros. apply quad_range; lra. Qed.

(** Angles and signs. *)
Lemma sin_nonneg_inv : forall t, (- PI < t <= PI)%R -> (0 <= sin t)%R -> (0 <= t)%R.
Proof.
  intros t H S. destruct (Rle_or_lt 0 t) as [L|L]; [exact L|exfalso].
  pose proof (sin_lt_0_var t ltac:(lra) L). lra.
Qed.
Lemma sin_neg_inv : forall t, (- PI < t <= PI)%R -> (sin t < 0)%R -> (t < 0)%R.
Proof.
  intros t H S. destruct (Rle_or_lt 0 t) as [L|L]; [exfalso|exact L].
  pose proof (sin_ge_0 t L ltac:(lra)). lra.
Qed.
Lemma cos_nonneg_inv : forall t, (- PI < t <= PI)%R -> (0 <= cos t)%R -> (- (PI / 2) <= t <= PI / 2)%R.
Proof.
  intros t H C. split.
  - destruct (Rle_or_lt (- (PI / 2)) t) as [L|L]; [exact L|exfalso].
    pose proof (cos_lt_0 (- t) ltac:(lra) ltac:(lra)) as N. rewrite cos_neg in N. lra.
  - destruct (Rle_or_lt t (PI / 2)) as [L|L]; [exact L|exfalso]. pose proof (cos_lt_0 t L ltac:(lra)). lra.
Qed.
Lemma cos_nonpos_inv : forall t, (- PI < t <= PI)%R -> (cos t <= 0)%R -> (t <= - (PI / 2) \/ PI / 2 <= t)%R.
Proof.
  intros t H C. destruct (Rle_or_lt t (- (PI / 2))) as [L|L]; [left; exact L|right].
  destruct (Rle_or_lt (PI / 2) t) as [K|K]; [exact K|exfalso]. pose proof (cos_gt_0 t L K). lra.
Qed.
Lemma prod_sign : forall rho c, (0 < rho -> 0 <= rho * c -> 0 <= c)%R.
Proof. intros rho c R H. apply Rmult_le_reg_l with rho; [exact R|]. rewrite Rmult_0_r. exact H. Qed.
Lemma prod_sign' : forall rho c, (0 < rho -> rho * c <= 0 -> c <= 0)%R.
Proof. intros rho c R H. apply Rmult_le_reg_l with rho; [exact R|]. rewrite Rmult_0_r. exact H. Qed.
Lemma prod_sign_lt : forall rho c, (0 < rho -> rho * c < 0 -> c < 0)%R.
Proof. intros rho c R H. apply Rmult_lt_reg_l with rho; [exact R|]. rewrite Rmult_0_r. exact H. Qed.

Lemma minus4 : forall {E : Env} n N, fin n -> (Rabs (val n - N) <= 24 * u24)%R -> (2 <= N <= 4)%R ->
  fin (fsub n c_4) /\ (Rabs (val (fsub n c_4) - (N - 4)) <= 30 * u24)%R.
Proof.
  intros E n N Fn Dn BN. destruct c_4_val as [F4 V4]. pose proof (Rabs_le_inv _ _ Dn) as D.
  destruct (fsub_e 2 n c_4 Fn F4 ltac:(lia)) as (e & A & B & C).
  { rewrite V4. change (bpow radix2 2) with 4%R. apply Rabs_le. unfold u24 in *. lra. }
  split; [exact A|]. rewrite B, V4. apply Rabs_le_inv in C. change (bpow radix2 (2 - 25)) with (/ 8388608)%R in C.
  apply Rabs_le. unfold u24 in *. lra.
Qed.

Lemma atan2_acc : forall {E : Env} y x rho theta, fin x -> fin y -> in_range (val x) (val y) ->
  (0 < rho)%R -> (- PI < theta <= PI)%R -> val x = (rho * cos theta)%R -> val y = (rho * sin theta)%R ->
  let r := F32_atan2 y x in
  fin r /\
  ((Rabs (val r - theta) <= 0.00284)%R \/
   (val x < 0 /\ val y < 0 /\ Rabs (val y) < / 131072 * Rabs (val x) /\ Rabs (val r - (theta + 2 * PI)) <= 0.00284)%R).
Proof.
  intros E y x rho theta Fx Fy HR Hrho Hth Vx Vy r.
  destruct (quot2_acc y x Fx Fy HR) as (Fp & Sp & Bp & L & Dp & Zp).
  unfold r, F32_atan2. rewrite atan2_norm_eq, Sp, orb_false_r. set (p := quot2 y x) in *.
  pose proof (sign_val x Fx) as SX. pose proof (sign_val y Fy) as SY.
  set (X := Rabs (val x)) in *. set (Y := Rabs (val y)) in *.
  assert (PX : (0 <= X)%R) by apply Rabs_pos. assert (PY : (0 <= Y)%R) by apply Rabs_pos.
  set (P := quad (X * X) (cB * X * Y) (Y * Y)) in *.
  assert (XY : (0 <= X * Y)%R) by (apply Rmult_le_pos; assumption).
  assert (P01 : (0 <= P <= 1)%R).
  { apply quad_1; [apply Rmult_le_pos; assumption| |apply Rmult_le_pos; assumption|exact L]. unfold cB; lra. }
  destruct c_2_val as [F2 V2]. pose proof PI_bounds as PB.
  set (sx := sign_bit x) in *. set (sy := sign_bit y) in *.
  destruct (norm_val sx sy p P Fp Bp Dp) as (Fn & Dn & Vn).
  set (n := fadd _ _) in *. unfold fgt. rewrite (flt_R c_2 n F2 Fn), V2.
  (* the angle of the first quadrant *)
  assert (ANG : forall phi, (0 <= phi <= PI / 2)%R -> X = (rho * cos phi)%R -> Y = (rho * sin phi)%R ->
    (Rabs (PI / 2 * P - phi) <= 0.002828)%R).
  { intros phi Hphi EX EY. pose proof (quad_acc rho phi Hrho Hphi) as Q. cbv zeta in Q. rewrite <- EX, <- EY in Q. exact Q. }
  assert (FIN : forall m M, fin m -> (Rabs (val m - M) <= 30 * u24)%R -> (Rabs M <= 2.05)%R -> forall a, (Rabs (PI / 2 * M - a) <= 0.002828)%R ->
    fin (fmul (fdiv c_PI c_2) m) /\ (Rabs (val (fmul (fdiv c_PI c_2) m) - a) <= 0.00284)%R).
  { intros m M Fm Dm BM a Ha. destruct (halfpi_mul m M Fm Dm BM) as [A B]. split; [exact A|].
    replace (val (fmul (fdiv c_PI c_2) m) - a)%R with ((val (fmul (fdiv c_PI c_2) m) - PI / 2 * M) + (PI / 2 * M - a))%R by ring.
    eapply Rle_trans; [apply Rabs_triang|]. lra. }
  assert (W : forall N, (Rabs (val n - N) <= 24 * u24)%R -> (Rabs (val n - N) <= 30 * u24)%R) by (intros; unfold u24 in *; lra).
  destruct sx, sy; cbn [quadrant xorb] in *.
  - (* x <= 0, y <= 0 *)
    assert (EX : X = (- val x)%R) by (unfold X; rewrite Rabs_left1; lra).
    assert (EY : Y = (- val y)%R) by (unfold Y; rewrite Rabs_left1; lra).
    assert (CT : (cos theta <= 0)%R) by (apply (prod_sign' rho); [exact Hrho|lra]).
    destruct (Rle_or_lt 0 (val y)) as [Y0|Y0].
    + (* y = -0 *)
      assert (Y00 : val y = 0%R) by lra. rewrite (Zp Y00) in Vn.
      assert (V2n : val n = 2%R). { rewrite Vn. rewrite Rmult_0_r, Rplus_0_r. apply rnd_fmt. apply (fmt_bpow 1). lia. }
      rewrite V2n, Rlt_bool_false by lra.
      assert (ST : (0 <= sin theta)%R) by (apply (prod_sign rho); [exact Hrho|lra]).
      assert (ST' : (sin theta <= 0)%R) by (apply (prod_sign' rho); [exact Hrho|lra]).
      pose proof (sin_nonneg_inv theta Hth ST) as T0. pose proof (cos_nonpos_inv theta Hth CT) as T1.
      assert (TH : theta = PI).
      { destruct (Rle_or_lt PI theta) as [?|Q]; [lra|exfalso]. pose proof (sin_gt_0 theta ltac:(lra) Q). lra. }
      assert (A0 : (Rabs (PI / 2 * P - 0) <= 0.002828)%R).
      { apply ANG; [lra| |].
        - rewrite cos_0, EX, Vx, TH, cos_PI. ring.
        - rewrite sin_0, EY, Y00. ring. }
      destruct (FIN n 2%R Fn) with (a := theta) as [A B].
      * rewrite V2n. unfold Rminus. rewrite Rplus_opp_r, Rabs_R0. unfold u24; lra.
      * rewrite Rabs_pos_eq; lra.
      * rewrite TH. replace (PI / 2 * 2 - PI)%R with 0%R by field. rewrite Rabs_R0. lra.
      * split; [exact A|left; exact B].
    + assert (ST : (sin theta < 0)%R) by (apply (prod_sign_lt rho); [exact Hrho|lra]).
      pose proof (sin_neg_inv theta Hth ST) as T0. pose proof (cos_nonpos_inv theta Hth CT) as T1.
      assert (A0 : (Rabs (PI / 2 * P - (theta + PI)) <= 0.002828)%R).
      { apply ANG; [lra| |].
        - rewrite EX, Vx, neg_cos. ring.
        - rewrite EY, Vy, neg_sin. ring. }
      destruct (Rlt_or_le 2 (val n)) as [G|G].
      * rewrite Rlt_bool_true by exact G.
        destruct (minus4 n (2 + 1 * P) Fn Dn ltac:(lra)) as [A B].
        destruct (FIN _ _ A B) with (a := theta) as [C D].
        -- apply Rabs_le. lra.
        -- replace (PI / 2 * (2 + 1 * P - 4) - theta)%R with (PI / 2 * P - (theta + PI))%R by field. exact A0.
        -- split; [exact C|left; exact D].
      * rewrite Rlt_bool_false by exact G.
        assert (PS : (P <= 60 * u24)%R).
        { destruct (Rle_or_lt P (60 * u24)) as [?|Q]; [assumption|exfalso].
          apply Rabs_le_inv in Dp.
          assert (rnd (2 + / 4194304) <= val n)%R by (rewrite Vn; apply rnd_le; unfold u24 in *; lra).
          rewrite rnd_fmt in H; [lra|]. replace (2 + / 4194304)%R with (IZR 8388609 * bpow radix2 (-22))%R by (bpow_lit; lra).
          apply fmt_scaled; lia. }
        destruct (FIN n _ Fn (W _ Dn)) with (a := (theta + 2 * PI)%R) as [C D].
        -- apply Rabs_le. unfold u24 in *. lra.
        -- replace (PI / 2 * (2 + 1 * P) - (theta + 2 * PI))%R with (PI / 2 * P - (theta + PI))%R by field. exact A0.
        -- split; [exact C|right].
           assert (T : (Y < / 131072 * X)%R).
           { destruct (Rlt_or_le Y (/ 131072 * X)) as [?|K]; [assumption|exfalso].
             assert (X2 : (X * X <= 131072 * (X * Y))%R).
             { assert (X * (/ 131072 * X) <= X * Y)%R by (apply Rmult_le_compat_l; assumption). lra. }
             assert (Y2 : (0 <= Y * Y)%R) by (apply Rmult_le_pos; assumption).
             assert (D0 : (0 < X * X + cB * X * Y + (cB * X * Y + Y * Y))%R) by (unfold cB; lra).
             assert (64 * u24 <= P)%R; [|unfold u24 in *; lra].
             unfold P, quad. apply Rmult_le_reg_r with (X * X + cB * X * Y + (cB * X * Y + Y * Y))%R; [exact D0|].
             unfold Rdiv. rewrite (Rmult_assoc (cB * X * Y + Y * Y)), Rinv_l, Rmult_1_r by lra. unfold u24, cB in *. lra. }
           split; [|split; [exact Y0|split; [exact T|exact D]]].
           destruct (Rlt_or_le (val x) 0) as [?|K]; [assumption|exfalso]. assert (X = 0)%R by lra. lra.
  - (* x <= 0, y >= 0 *)
    assert (EX : X = (- val x)%R) by (unfold X; rewrite Rabs_left1; lra).
    assert (EY : Y = (val y)%R) by (unfold Y; rewrite Rabs_pos_eq; lra).
    assert (CT : (cos theta <= 0)%R) by (apply (prod_sign' rho); [exact Hrho|lra]).
    assert (ST : (0 <= sin theta)%R) by (apply (prod_sign rho); [exact Hrho|lra]).
    pose proof (sin_nonneg_inv theta Hth ST) as T0. pose proof (cos_nonpos_inv theta Hth CT) as T1.
    assert (N2 : (val n <= 2)%R).
    { rewrite Vn. apply Rle_trans with (rnd 2); [apply rnd_le; lra|right; apply rnd_fmt; apply (fmt_bpow 1); lia]. }
    rewrite Rlt_bool_false by exact N2.
    assert (A0 : (Rabs (PI / 2 * P - (PI - theta)) <= 0.002828)%R).
    { apply ANG; [lra| |].
      - rewrite EX, Vx. replace (PI - theta)%R with (- (theta - PI))%R by ring. rewrite cos_neg.
        rewrite cos_minus, cos_PI, sin_PI. ring.
      - rewrite EY, Vy, sin_PI_x. reflexivity. }
    destruct (FIN n _ Fn (W _ Dn)) with (a := theta) as [C D].
    + apply Rabs_le. lra.
    + rewrite <- Rabs_Ropp. replace (- (PI / 2 * (2 + -1 * P) - theta))%R with (PI / 2 * P - (PI - theta))%R by field. exact A0.
    + split; [exact C|left; exact D].
  - (* x >= 0, y <= 0 *)
    assert (EX : X = (val x)%R) by (unfold X; rewrite Rabs_pos_eq; lra).
    assert (EY : Y = (- val y)%R) by (unfold Y; rewrite Rabs_left1; lra).
    assert (CT : (0 <= cos theta)%R) by (apply (prod_sign rho); [exact Hrho|lra]).
    assert (ST : (sin theta <= 0)%R) by (apply (prod_sign' rho); [exact Hrho|lra]).
    pose proof (cos_nonneg_inv theta Hth CT) as T1.
    assert (T0 : (theta <= 0)%R).
    { destruct (Rle_or_lt theta 0) as [?|Q]; [assumption|exfalso]. pose proof (sin_gt_0 theta Q ltac:(lra)). lra. }
    assert (N2 : (2 < val n)%R).
    { apply Rabs_le_inv in Dn. unfold u24 in *. lra. }
    rewrite Rlt_bool_true by exact N2.
    assert (A0 : (Rabs (PI / 2 * P - - theta) <= 0.002828)%R).
    { apply ANG; [lra| |].
      - rewrite EX, Vx, cos_neg. reflexivity.
      - rewrite EY, Vy, sin_neg. ring. }
    destruct (minus4 n (4 + -1 * P) Fn Dn ltac:(lra)) as [A B].
    destruct (FIN _ _ A B) with (a := theta) as [C D].
    + apply Rabs_le. lra.
    + rewrite <- Rabs_Ropp. replace (- (PI / 2 * (4 + -1 * P - 4) - theta))%R with (PI / 2 * P - - theta)%R by field. exact A0.
    + split; [exact C|left; exact D].
  - (* x >= 0, y >= 0 *)
    assert (EX : X = (val x)%R) by (unfold X; rewrite Rabs_pos_eq; lra).
    assert (EY : Y = (val y)%R) by (unfold Y; rewrite Rabs_pos_eq; lra).
    assert (CT : (0 <= cos theta)%R) by (apply (prod_sign rho); [exact Hrho|lra]).
    assert (ST : (0 <= sin theta)%R) by (apply (prod_sign rho); [exact Hrho|lra]).
    pose proof (cos_nonneg_inv theta Hth CT) as T1. pose proof (sin_nonneg_inv theta Hth ST) as T0.
    assert (N2 : (val n <= 2)%R).
    { apply Rabs_le_inv in Dn. unfold u24 in *. lra. }
    rewrite Rlt_bool_false by exact N2.
    assert (A0 : (Rabs (PI / 2 * P - theta) <= 0.002828)%R).
    { apply ANG; [lra|rewrite EX, Vx; reflexivity|rewrite EY, Vy; reflexivity]. }
    destruct (FIN n _ Fn (W _ Dn)) with (a := theta) as [C D].
    + apply Rabs_le. lra.
    + replace (PI / 2 * (0 + 1 * P) - theta)%R with (PI / 2 * P - theta)%R by field. exact A0.
    + split; [exact C|left; exact D].
Qed.
