(** * Proofs for C122: inner products, norms and the inequalities between them *)

From Coq Require Import ZArith Reals Bool List Lia Lra Psatz.
From Flocq Require Import Core IEEE754.BinarySingleNaN IEEE754.Binary IEEE754.Bits.
From Verif Require Import Base Spec SpecVec Float Vector F32Lemmas BitLemmas P_Trunc P_Floor Literals ErrLemmas P_RoundEdge NanLemmas
  P_Euclid P_Roots P_SumSq P_VecF32 P_Vector P_Stats P_Stats2 P_Scale P_Mono P_Trim.
Import ListNotations.
Open Scope Z_scope.

(** ** Sums of two and three products *)

Definition h150 : R := bpow radix2 (-150).
Lemma h150_pos : (0 < h150)%R. Proof. apply bpow_gt_0. Qed.
Lemma b148 : bpow radix2 (-148) = (4 * h150)%R.
Proof. unfold h150. change (-148) with (2 + -150). rewrite bpow_plus. reflexivity. Qed.

Lemma prod_acc : forall {E : Env} x y, fin x -> fin y -> (Rabs (val x * val y) <= bpow radix2 126)%R ->
  fin (fmul x y) /\ (Rabs (val (fmul x y) - val x * val y) <= u24 * Rabs (val x * val y) + h150)%R.
Proof.
  intros E x y Fx Fy H. destruct (fmul_R x y Fx Fy) as [F V]; [apply (small_lt_128 126); [lia|exact H]|].
  split; [exact F|]. rewrite V. pose proof (rnd_err_mixed (val x * val y)) as Q. rewrite u24_eq in Q. exact Q.
Qed.

Lemma add_acc : forall {E : Env} x y, fin x -> fin y -> (Rabs (val x + val y) <= bpow radix2 127)%R ->
  fin (fadd x y) /\ (Rabs (val (fadd x y) - (val x + val y)) <= u24 * Rabs (val x + val y))%R.
Proof.
  intros E x y Fx Fy H. destruct (fadd_R x y Fx Fy) as [F V]; [apply (small_lt_128 127); [lia|exact H]|].
  split; [exact F|]. rewrite V. apply rnd_plus_rel; apply fmt_val.
Qed.

Lemma sub_acc : forall {E : Env} x y, fin x -> fin y -> (Rabs (val x - val y) <= bpow radix2 127)%R ->
  fin (fsub x y) /\ (Rabs (val (fsub x y) - (val x - val y)) <= u24 * Rabs (val x - val y))%R.
Proof.
  intros E x y Fx Fy H. destruct (fsub_R x y Fx Fy) as [F V]; [apply (small_lt_128 127); [lia|exact H]|].
  split; [exact F|]. rewrite V. unfold Rminus in *. apply rnd_plus_rel; [apply fmt_val|apply generic_format_opp, fmt_val].
Qed.

Lemma b126_h : (h150 <= bpow radix2 126 / 1000)%R /\ bpow radix2 127 = (2 * bpow radix2 126)%R.
Proof.
  split.
  - pose proof (bpow_le radix2 (-150) 116 ltac:(lia)) as Q. fold h150 in Q. change 126 with (10 + 116). rewrite bpow_plus.
    change (bpow radix2 10) with 1024%R. pose proof (bpow_gt_0 radix2 116). lra.
  - change 127 with (1 + 126). rewrite bpow_plus. reflexivity.
Qed.

Lemma abs_sum : forall a b, (Rabs (a + b) <= Rabs a + Rabs b)%R.
Proof. exact Rabs_triang. Qed.

Lemma abs_near : forall a b e, (Rabs (a - b) <= e)%R -> (Rabs a <= Rabs b + e)%R.
Proof. intros a b e H. replace a with (b + (a - b))%R by ring. pose proof (Rabs_triang b (a - b)). lra. Qed.

(** a*b + c*d and a*b - c*d *)
Lemma dot2_acc : forall {E : Env} a b c d, fin a -> fin b -> fin c -> fin d ->
  (Rabs (val a * val b) + Rabs (val c * val d) <= bpow radix2 126)%R ->
  fin (fadd (fmul a b) (fmul c d)) /\ fin (fsub (fmul a b) (fmul c d)) /\
  (Rabs (val (fadd (fmul a b) (fmul c d)) - (val a * val b + val c * val d)) <=
     (2 * bpow radix2 (-24) + bpow radix2 (-46)) * (Rabs (val a * val b) + Rabs (val c * val d)) + bpow radix2 (-148))%R /\
  (Rabs (val (fsub (fmul a b) (fmul c d)) - (val a * val b - val c * val d)) <=
     (2 * bpow radix2 (-24) + bpow radix2 (-46)) * (Rabs (val a * val b) + Rabs (val c * val d)) + bpow radix2 (-148))%R.
Proof.
  intros E a b c d Fa Fb Fc Fd H. rewrite b148, u24_eq. change (bpow radix2 (-46)) with (/ IZR (2 ^ 46))%R. change (IZR (2 ^ 46)) with 70368744177664%R.
  pose proof h150_pos as H0. destruct b126_h as [B1 B2].
  set (p := (val a * val b)%R) in *. set (q := (val c * val d)%R) in *. pose proof (Rabs_pos p). pose proof (Rabs_pos q).
  destruct (prod_acc a b Fa Fb) as [F1 E1]; [fold p; lra|]. destruct (prod_acc c d Fc Fd) as [F2 E2]; [fold q; lra|]. fold p in E1. fold q in E2.
  set (p' := val (fmul a b)) in *. set (q' := val (fmul c d)) in *.
  pose proof (abs_near _ _ _ E1) as A1. pose proof (abs_near _ _ _ E2) as A2.
  assert (U : u24 = (/ 16777216)%R) by reflexivity. rewrite U in *.
  assert (S1 : (Rabs (p' + q') <= Rabs p' + Rabs q')%R) by apply Rabs_triang.
  assert (S2 : (Rabs (p' - q') <= Rabs p' + Rabs q')%R) by (unfold Rminus; rewrite <- (Rabs_Ropp q'); apply Rabs_triang).
  destruct (add_acc (fmul a b) (fmul c d) F1 F2) as [F3 E3]; [fold p' q'; lra|].
  destruct (sub_acc (fmul a b) (fmul c d) F1 F2) as [F4 E4]; [fold p' q'; lra|]. fold p' q' in E3, E4. rewrite U in E3, E4.
  split; [exact F3|]. split; [exact F4|]. split.
  - replace (val (fadd (fmul a b) (fmul c d)) - (p + q))%R with ((val (fadd (fmul a b) (fmul c d)) - (p' + q')) + ((p' - p) + (q' - q)))%R by ring.
    pose proof (Rabs_triang (val (fadd (fmul a b) (fmul c d)) - (p' + q')) ((p' - p) + (q' - q))). pose proof (Rabs_triang (p' - p) (q' - q)). lra.
  - replace (val (fsub (fmul a b) (fmul c d)) - (p - q))%R with ((val (fsub (fmul a b) (fmul c d)) - (p' - q')) + ((p' - p) + - (q' - q)))%R by ring.
    pose proof (Rabs_triang (val (fsub (fmul a b) (fmul c d)) - (p' - q')) ((p' - p) + - (q' - q))). pose proof (Rabs_triang (p' - p) (- (q' - q))). rewrite (Rabs_Ropp (q' - q)) in *. lra.
Qed.

Lemma dot3_acc : forall {E : Env} a b c d e f, fin a -> fin b -> fin c -> fin d -> fin e -> fin f ->
  (Rabs (val a * val b) + Rabs (val c * val d) + Rabs (val e * val f) <= bpow radix2 126)%R ->
  fin (fadd (fadd (fmul a b) (fmul c d)) (fmul e f)) /\
  (Rabs (val (fadd (fadd (fmul a b) (fmul c d)) (fmul e f)) - (val a * val b + val c * val d + val e * val f)) <=
     (3 * bpow radix2 (-24) + bpow radix2 (-46)) * (Rabs (val a * val b) + Rabs (val c * val d) + Rabs (val e * val f)) + bpow radix2 (-148))%R.
Proof.
  intros E a b c d e f Fa Fb Fc Fd Fe Ff H. rewrite b148, u24_eq. change (bpow radix2 (-46)) with (/ IZR (2 ^ 46))%R. change (IZR (2 ^ 46)) with 70368744177664%R.
  pose proof h150_pos as H0. destruct b126_h as [B1 B2].
  set (p := (val a * val b)%R) in *. set (q := (val c * val d)%R) in *. set (r := (val e * val f)%R) in *.
  pose proof (Rabs_pos p). pose proof (Rabs_pos q). pose proof (Rabs_pos r).
  destruct (prod_acc a b Fa Fb) as [F1 E1]; [fold p; lra|]. destruct (prod_acc c d Fc Fd) as [F2 E2]; [fold q; lra|].
  destruct (prod_acc e f Fe Ff) as [F3 E3]; [fold r; lra|]. fold p in E1. fold q in E2. fold r in E3.
  set (p' := val (fmul a b)) in *. set (q' := val (fmul c d)) in *. set (r' := val (fmul e f)) in *.
  pose proof (abs_near _ _ _ E1) as A1. pose proof (abs_near _ _ _ E2) as A2. pose proof (abs_near _ _ _ E3) as A3.
  assert (U : u24 = (/ 16777216)%R) by reflexivity. rewrite U in *.
  pose proof (Rabs_triang p' q') as S1.
  destruct (add_acc (fmul a b) (fmul c d) F1 F2) as [F4 E4]; [fold p' q'; lra|]. fold p' q' in E4. rewrite U in E4.
  set (s := val (fadd (fmul a b) (fmul c d))) in *. pose proof (abs_near _ _ _ E4) as A4. pose proof (Rabs_triang s r') as S2.
  destruct (add_acc (fadd (fmul a b) (fmul c d)) (fmul e f) F4 F3) as [F5 E5]; [fold s r'; lra|]. fold s r' in E5. rewrite U in E5.
  split; [exact F5|]. set (t := val (fadd (fadd (fmul a b) (fmul c d)) (fmul e f))) in *.
  replace (t - (p + q + r))%R with ((t - (s + r')) + ((s - (p' + q')) + ((p' - p) + ((q' - q) + (r' - r)))))%R by ring.
  pose proof (Rabs_triang (t - (s + r')) ((s - (p' + q')) + ((p' - p) + ((q' - q) + (r' - r))))).
  pose proof (Rabs_triang (s - (p' + q')) ((p' - p) + ((q' - q) + (r' - r)))). pose proof (Rabs_triang (p' - p) ((q' - q) + (r' - r))).
  pose proof (Rabs_triang (q' - q) (r' - r)). lra.
Qed.

(** ** The vector methods *)

Lemma v2_dot_eq : forall {E : Env} v w, v2_dot (H := comp_f32) v w = Ok (fadd (fmul (v2x v) (v2x w)) (fmul (v2y v) (v2y w))).
Proof. reflexivity. Qed.
Lemma v3_dot_eq : forall {E : Env} v w, v3_dot (H := comp_f32) v w = Ok (fadd (fadd (fmul (v3x v) (v3x w)) (fmul (v3y v) (v3y w))) (fmul (v3z v) (v3z w))).
Proof. reflexivity. Qed.

Lemma zero_fadd_same : forall {E : Env} s x, sign_bit x = false -> same (fadd (f32_zero s) x) x.
Proof.
  intros E s x S. destruct x as [t|t|t p K|t m e K].
  - left. unfold sign_bit in S. cbn in S. subst t. destruct s; reflexivity.
  - left. destruct s; reflexivity.
  - right. split; [apply fadd_nan; right; reflexivity|reflexivity].
  - left. destruct s; reflexivity.
Qed.

Lemma sum_first : forall {E : Env} x l, same (fold_left fadd (fmul x x :: l) (f32_zero sum_start)) (fold_left fadd l (fmul x x)).
Proof.
  intros E x l. cbn [fold_left]. destruct (sq_nonneg x) as [N|S].
  - apply fold_same; [clear; induction l; constructor; trivial; left; reflexivity|]. right. split; [apply fadd_nan; right; exact N|exact N].
  - apply fold_same; [clear; induction l; constructor; trivial; left; reflexivity|]. apply zero_fadd_same. exact S.
Qed.

(** The magnitude is the square root of the inner product with itself. *)
Lemma v2_magnitude_dot : forall {E : Env} (v : Vector2d f32), vt_magnitude (fun x => x) v = (d <- v2_dot (H := comp_f32) v v ;; F32_sqrt d).
Proof. intros E v. unfold vt_magnitude. rewrite v2_items. cbn [map v2_to_array]. unfold F32_sum. rewrite v2_dot_eq. cbn [bind]. apply sqrt_same. exact (sum_first (v2x v) [fmul (v2y v) (v2y v)]). Qed.
Lemma v3_magnitude_dot : forall {E : Env} (v : Vector3d f32), vt_magnitude (fun x => x) v = (d <- v3_dot (H := comp_f32) v v ;; F32_sqrt d).
Proof. intros E v. unfold vt_magnitude. rewrite v3_items. cbn [map v3_to_array]. unfold F32_sum. rewrite v3_dot_eq. cbn [bind]. apply sqrt_same. exact (sum_first (v3x v) [fmul (v3y v) (v3y v); fmul (v3z v) (v3z v)]). Qed.

(** The distance is the magnitude of the difference. *)
Lemma v2_distance_sub : forall {E : Env} (v w : Vector2d f32), vt_distance (fun x => x) v w = (d <- v2_sub (H := comp_f32) v w ;; vt_magnitude (fun x => x) d).
Proof. intros E v w. unfold vt_distance, vt_magnitude, v2_sub. cbn [bind c_sub comp_f32]. rewrite !v2_items. reflexivity. Qed.
Lemma v3_distance_sub : forall {E : Env} (v w : Vector3d f32), vt_distance (fun x => x) v w = (d <- v3_sub (H := comp_f32) v w ;; vt_magnitude (fun x => x) d).
Proof. intros E v w. unfold vt_distance, vt_magnitude, v3_sub. cbn [bind c_sub comp_f32]. rewrite !v3_items. reflexivity. Qed.

Lemma hypot_magnitude : forall {E : Env} x y, F32_hypot x y = vt_magnitude (fun x => x) (mkV2 x y).
Proof. intros E x y. rewrite v2_magnitude_dot. reflexivity. Qed.

(** ** Norms *)

Lemma sqr_abs : forall r, Rabs (r * r) = (r * r)%R.
Proof. intros r. apply Rabs_pos_eq, Rle_0_sqr. Qed.

(** The root of a rounded sum of squares, against the exact norm. *)
Lemma sqrt_norm : forall {E : Env} D S, fin D -> sign_bit D = false -> (0 <= S)%R ->
  (Rabs (val D - S) <= (3 * bpow radix2 (-24) + bpow radix2 (-46)) * S + bpow radix2 (-148))%R ->
  exists z, F32_sqrt D = Ok z /\ fin z /\ (3 / 2 * bpow radix2 (-64) <= val z)%R /\ ((1 - bpow radix2 (-20)) * sqrt S <= val z)%R /\
    (val z <= 1.06067 * sqrt S \/ val z <= bpow radix2 (-63))%R.
Proof.
  intros E D S F SB S0 H. rewrite b148, u24_eq in H. change (bpow radix2 (-46)) with (/ IZR (2 ^ 46))%R in H. change (IZR (2 ^ 46)) with 70368744177664%R in H.
  destruct (sqrt_lower D F SB) as (z & Z1 & Z2 & Z3 & Z4). exists z. split; [exact Z1|]. split; [exact Z2|]. split; [exact Z3|].
  pose proof h150_pos as H0. assert (U : u24 = (/ 16777216)%R) by reflexivity. rewrite U in *. apply Rabs_le_inv in H.
  set (k := bpow radix2 (-64)) in *. assert (K0 : (0 < k)%R) by apply bpow_gt_0.
  assert (KH : (h150 * 4194304 = k * k)%R).
  { unfold k, h150. change 4194304%R with (bpow radix2 22). rewrite <- !bpow_plus. reflexivity. }
  assert (B20 : bpow radix2 (-20) = (/ 1048576)%R) by reflexivity. rewrite B20.
  pose proof (sqrt_pos S) as R0. pose proof (sqrt_sqrt S S0) as RR. set (r := sqrt S) in *.
  assert (P : (0 < val z)%R) by lra.
  split.
  - destruct (Rle_or_lt r (3 / 2 * k)) as [L|L]; [lra|].
    assert (Q : ((1 - / 1048576) * r * ((1 - / 1048576) * r) <= val z * val z)%R).
    { eapply Rle_trans; [|exact Z4]. assert (9 / 4 * (k * k) <= S)%R by (rewrite <- RR; nra). nra. }
    destruct (Rle_or_lt ((1 - / 1048576) * r) (val z)) as [G|G]; [exact G|]. exfalso.
    assert (val z * val z < (1 - / 1048576) * r * ((1 - / 1048576) * r))%R; [|lra]. apply Rmult_le_0_lt_compat; lra.
  - destruct (Rle_or_lt (bpow radix2 (-126)) (val D)) as [N|N].
    + left. destruct (sqrt_square_bounds D (conj F N)) as (z' & Y1 & _ & Y2 & _). rewrite Z1 in Y1. apply Ok_inj in Y1. subst z'.
      assert (N' : (bpow radix2 (-126) = 4 * (k * k))%R).
      { unfold k. change 4%R with (bpow radix2 2). rewrite <- !bpow_plus. reflexivity. }
      assert (Q : (val z * val z <= 1.06067 * r * (1.06067 * r))%R).
      { eapply Rle_trans; [exact Y2|]. replace (1.06067 * r * (1.06067 * r))%R with (1.06067 * 1.06067 * S)%R by (rewrite <- RR; ring). lra. }
      destruct (Rle_or_lt (val z) (1.06067 * r)) as [G|G]; [exact G|]. exfalso.
      assert (1.06067 * r * (1.06067 * r) < val z * val z)%R; [|lra]. apply Rmult_le_0_lt_compat; lra.
    + right. set (m := from_bits (1 * 2 ^ 23)).
      destruct (mk_val 1 0 ltac:(lia) ltac:(lia)) as (Fm & Sm & _ & Vm). cbv zeta in Fm, Sm, Vm. rewrite Z.add_0_r in Fm, Sm, Vm. fold m in Fm, Sm, Vm.
      change (1 - 127) with (-126) in Vm. replace ((1 + 0 / IZR (2 ^ 23)) * bpow radix2 (-126))%R with (bpow radix2 (-126)) in Vm by (change (IZR (2 ^ 23)) with 8388608%R; field).
      destruct (sqrt_monotone D m) as (a & b & A1 & A2 & A3 & A4 & A5); trivial; try (apply fin_not_nan; assumption).
      { rewrite fle_R by assumption. apply Rle_bool_true. lra. }
      rewrite Z1 in A1. apply Ok_inj in A1. subst a.
      assert (Q : F32_sqrt m = Ok (from_bits (64 * 2 ^ 23))) by (apply ok_bits; vm_compute; reflexivity).
      rewrite Q in A2. apply Ok_inj in A2. subst b.
      destruct (mk_val 64 0 ltac:(lia) ltac:(lia)) as (_ & _ & _ & W). cbv zeta in W. rewrite Z.add_0_r in W. rewrite W in A5.
      change (64 - 127) with (-63) in A5. replace ((1 + 0 / IZR (2 ^ 23)) * bpow radix2 (-63))%R with (bpow radix2 (-63)) in A5 by (change (IZR (2 ^ 23)) with 8388608%R; field). lra.
Qed.

(** *** Real inequalities *)

Definition n3 (a b c : R) : R := sqrt (a * a + b * b + c * c).

Lemma n3_pos : forall a b c, (0 <= n3 a b c)%R. Proof. intros. apply sqrt_pos. Qed.
Lemma n3_sq : forall a b c, (n3 a b c * n3 a b c = a * a + b * b + c * c)%R.
Proof. intros. apply sqrt_sqrt. pose proof (Rle_0_sqr a). pose proof (Rle_0_sqr b). pose proof (Rle_0_sqr c). unfold Rsqr in *. lra. Qed.

Lemma sq_le : forall a b, (0 <= b)%R -> (a * a <= b * b)%R -> (a <= b)%R.
Proof. intros a b B H. destruct (Rle_or_lt a b) as [L|L]; [exact L|]. exfalso. nra. Qed.

Lemma cauchy : forall a b c d e f, (Rabs (a * d) + Rabs (b * e) + Rabs (c * f) <= n3 a b c * n3 d e f)%R.
Proof.
  intros a b c d e f. apply sq_le; [apply Rmult_le_pos; apply n3_pos|].
  replace (n3 a b c * n3 d e f * (n3 a b c * n3 d e f))%R with ((n3 a b c * n3 a b c) * (n3 d e f * n3 d e f))%R by ring. rewrite !n3_sq, !Rabs_mult.
  assert (Q : forall r, (r * r = Rabs r * Rabs r)%R) by (intros r; rewrite <- Rabs_mult; symmetry; apply sqr_abs).
  rewrite (Q a), (Q b), (Q c), (Q d), (Q e), (Q f).
  set (A := Rabs a). set (B := Rabs b). set (C := Rabs c). set (D := Rabs d). set (EE := Rabs e). set (FF := Rabs f).
  pose proof (Rle_0_sqr (A * EE - B * D)). pose proof (Rle_0_sqr (A * FF - C * D)). pose proof (Rle_0_sqr (B * FF - C * EE)). unfold Rsqr in *. nra.
Qed.

Lemma minkowski : forall a b c d e f, (n3 (a + d) (b + e) (c + f) <= n3 a b c + n3 d e f)%R.
Proof.
  intros a b c d e f. pose proof (n3_pos a b c). pose proof (n3_pos d e f). apply sq_le; [lra|]. rewrite n3_sq.
  pose proof (n3_sq a b c). pose proof (n3_sq d e f). pose proof (cauchy a b c d e f).
  pose proof (Rle_abs (a * d)). pose proof (Rle_abs (b * e)). pose proof (Rle_abs (c * f)). nra.
Qed.

(** Changing each component by a relative error. *)
Lemma n3_rel : forall k a b c a' b' c', (0 <= k < 1)%R -> (Rabs (a' - a) <= k * Rabs a)%R -> (Rabs (b' - b) <= k * Rabs b)%R -> (Rabs (c' - c) <= k * Rabs c)%R ->
  ((1 - k) * n3 a b c <= n3 a' b' c' <= (1 + k) * n3 a b c)%R.
Proof.
  intros k a b c a' b' c' K A B C.
  assert (Q : forall x x', (Rabs (x' - x) <= k * Rabs x)%R -> ((1 - k) * (1 - k) * (x * x) <= x' * x' <= (1 + k) * (1 + k) * (x * x))%R).
  { intros x x' H. assert (L : ((1 - k) * Rabs x <= Rabs x' <= (1 + k) * Rabs x)%R).
    { pose proof (abs_near _ _ _ H). rewrite Rabs_minus_sym in H. pose proof (abs_near _ _ _ H). lra. }
    pose proof (Rabs_pos x). pose proof (Rabs_pos x'). rewrite <- (sqr_abs x), <- (sqr_abs x'), !Rabs_mult. split.
    - replace ((1 - k) * (1 - k) * (Rabs x * Rabs x))%R with (((1 - k) * Rabs x) * ((1 - k) * Rabs x))%R by ring. apply Rmult_le_compat; try apply Rmult_le_pos; lra.
    - replace ((1 + k) * (1 + k) * (Rabs x * Rabs x))%R with (((1 + k) * Rabs x) * ((1 + k) * Rabs x))%R by ring. apply Rmult_le_compat; try apply Rmult_le_pos; lra. }
  apply Q in A. apply Q in B. apply Q in C. pose proof (n3_pos a b c). split; apply sq_le.
  - apply n3_pos.
  - replace ((1 - k) * n3 a b c * ((1 - k) * n3 a b c))%R with ((1 - k) * (1 - k) * (n3 a b c * n3 a b c))%R by ring. rewrite !n3_sq. lra.
  - apply Rmult_le_pos; lra.
  - replace ((1 + k) * n3 a b c * ((1 + k) * n3 a b c))%R with ((1 + k) * (1 + k) * (n3 a b c * n3 a b c))%R by ring. rewrite !n3_sq. lra.
Qed.

(** *** Magnitudes *)

(** [m] is a computed norm of a vector of exact norm [r]. *)
Definition norm_of (m : f32) (r : R) : Prop :=
  fin m /\ (3 / 2 * bpow radix2 (-64) <= val m)%R /\ ((1 - bpow radix2 (-20)) * r <= val m)%R /\ (val m <= 1.06067 * r \/ val m <= bpow radix2 (-63))%R.


Lemma fits_2 : forall x, (within 61) x -> (within 62) x.
Proof. intros x [F H]. split; [exact F|]. eapply Rle_trans; [exact H|]. apply bpow_le. lia. Qed.

Lemma fits2_mul : forall x y, (within 62) x -> (within 62) y -> (Rabs (val x * val y) <= bpow radix2 126 / 4)%R.
Proof.
  intros x y [_ X] [_ Y]. rewrite Rabs_mult. replace (bpow radix2 126 / 4)%R with (bpow radix2 62 * bpow radix2 62)%R.
  - apply Rmult_le_compat; trivial; apply Rabs_pos.
  - change 126 with (62 + 62 + 2). rewrite !bpow_plus. change (bpow radix2 2) with 4%R. field.
Qed.

Lemma v2_mag : forall {E : Env} (v : Vector2d f32), Forall (within 62) (v2_to_array v) ->
  exists m, vt_magnitude (fun x => x) v = Ok m /\ norm_of m (n3 (val (v2x v)) (val (v2y v)) 0).
Proof.
  intros E [x y] H. cbn [v2_to_array v2x v2y] in *. inversion_clear H as [|? ? Hx H']. inversion_clear H' as [|? ? Hy _].
  rewrite v2_magnitude_dot, v2_dot_eq. cbn [bind v2x v2y]. pose proof (fits2_mul x x Hx Hx). pose proof (fits2_mul y y Hy Hy). pose proof (bpow_gt_0 radix2 126).
  destruct (dot2_acc x x y y) as (F & _ & A & _); try apply Hx; try apply Hy; [lra|]. rewrite !sqr_abs in A.
  destruct (sqrt_norm (fadd (fmul x x) (fmul y y)) (val x * val x + val y * val y + 0 * 0)) as (z & Z1 & Z2); trivial.
  - destruct (fadd_nonneg (fmul x x) (fmul y y) (sq_nonneg x) (sq_nonneg y)) as [N|S]; [|exact S]. apply fin_not_nan in F. unfold nan in N. congruence.
  - pose proof (Rle_0_sqr (val x)). pose proof (Rle_0_sqr (val y)). unfold Rsqr in *. lra.
  - replace (val x * val x + val y * val y + 0 * 0)%R with (val x * val x + val y * val y)%R by ring. eapply Rle_trans; [exact A|].
    apply Rplus_le_compat_r. apply Rmult_le_compat_r; [pose proof (Rle_0_sqr (val x)); pose proof (Rle_0_sqr (val y)); unfold Rsqr in *; lra|].
    pose proof (bpow_gt_0 radix2 (-24)). lra.
  - exists z. split; [exact Z1|exact Z2].
Qed.

Lemma v3_mag : forall {E : Env} (v : Vector3d f32), Forall (within 62) (v3_to_array v) ->
  exists m, vt_magnitude (fun x => x) v = Ok m /\ norm_of m (n3 (val (v3x v)) (val (v3y v)) (val (v3z v))).
Proof.
  intros E [x y z] H. cbn [v3_to_array v3x v3y v3z] in *. inversion_clear H as [|? ? Hx H']. inversion_clear H' as [|? ? Hy H'']. inversion_clear H'' as [|? ? Hz _].
  rewrite v3_magnitude_dot, v3_dot_eq. cbn [bind v3x v3y v3z]. pose proof (fits2_mul x x Hx Hx). pose proof (fits2_mul y y Hy Hy). pose proof (fits2_mul z z Hz Hz). pose proof (bpow_gt_0 radix2 126).
  destruct (dot3_acc x x y y z z) as (F & A); try apply Hx; try apply Hy; try apply Hz; [lra|]. rewrite !sqr_abs in A.
  destruct (sqrt_norm (fadd (fadd (fmul x x) (fmul y y)) (fmul z z)) (val x * val x + val y * val y + val z * val z)) as (w & Z1 & Z2); trivial.
  - destruct (fadd_nonneg (fadd (fmul x x) (fmul y y)) (fmul z z) (fadd_nonneg _ _ (sq_nonneg x) (sq_nonneg y)) (sq_nonneg z)) as [N|S]; [|exact S]. apply fin_not_nan in F. unfold nan in N. congruence.
  - pose proof (Rle_0_sqr (val x)). pose proof (Rle_0_sqr (val y)). pose proof (Rle_0_sqr (val z)). unfold Rsqr in *. lra.
  - exists w. split; [exact Z1|exact Z2].
Qed.

(** *** Cauchy-Schwarz *)

Lemma cs_core : forall d T A r s m n, (Rabs (d - T) <= (3 * bpow radix2 (-24) + bpow radix2 (-46)) * A + bpow radix2 (-148))%R ->
  (Rabs T <= A)%R -> (A <= r * s)%R -> (0 <= r)%R -> (0 <= s)%R -> norm_of m r -> norm_of n s ->
  (Rabs d <= (1 + bpow radix2 (-18)) * (val m * val n))%R.
Proof.
  intros d T A r s m n H TA AR R0 S0 (_ & M1 & M2 & _) (_ & N1 & N2 & _).
  pose proof (abs_near _ _ _ H) as D. rewrite b148, u24_eq in D. change (bpow radix2 (-46)) with (/ IZR (2 ^ 46))%R in D. change (IZR (2 ^ 46)) with 70368744177664%R in D.
  assert (U : u24 = (/ 16777216)%R) by reflexivity. rewrite U in D.
  change (bpow radix2 (-20)) with (/ 1048576)%R in *. change (bpow radix2 (-18)) with (/ 262144)%R.
  set (k := bpow radix2 (-64)) in *. assert (K0 : (0 < k)%R) by apply bpow_gt_0. pose proof h150_pos as H0.
  assert (KH : (h150 * 4194304 = k * k)%R).
  { unfold k, h150. change 4194304%R with (bpow radix2 22). rewrite <- !bpow_plus. reflexivity. }
  assert (P1 : (9 / 4 * (k * k) <= val m * val n)%R).
  { replace (9 / 4 * (k * k))%R with (3 / 2 * k * (3 / 2 * k))%R by field. apply Rmult_le_compat; lra. }
  assert (P2 : ((1 - / 1048576) * (1 - / 1048576) * (r * s) <= val m * val n)%R).
  { replace ((1 - / 1048576) * (1 - / 1048576) * (r * s))%R with ((1 - / 1048576) * r * ((1 - / 1048576) * s))%R by ring. apply Rmult_le_compat; try lra; apply Rmult_le_pos; lra. }
  set (P := (val m * val n)%R) in *. set (Q := (r * s)%R) in *. lra.
Qed.

Lemma v2_cauchy : forall {E : Env} (v w : Vector2d f32), Forall (within 61) (v2_to_array v) -> Forall (within 61) (v2_to_array w) ->
  exists d m n, v2_dot (H := comp_f32) v w = Ok d /\ vt_magnitude (fun x => x) v = Ok m /\ vt_magnitude (fun x => x) w = Ok n /\
    fin d /\ fin m /\ fin n /\ (Rabs (val d) <= (1 + bpow radix2 (-18)) * (val m * val n))%R.
Proof.
  intros E v w Hv Hw. apply (Forall_impl _ fits_2) in Hv. apply (Forall_impl _ fits_2) in Hw.
  destruct (v2_mag v Hv) as (m & M1 & M2). destruct (v2_mag w Hw) as (n & N1 & N2). destruct v as [a b]. destruct w as [c d]. cbn [v2_to_array v2x v2y] in *.
  inversion_clear Hv as [|? ? Ha H']. inversion_clear H' as [|? ? Hb _]. inversion_clear Hw as [|? ? Hc H']. inversion_clear H' as [|? ? Hd _].
  pose proof (fits2_mul a c Ha Hc). pose proof (fits2_mul b d Hb Hd). pose proof (bpow_gt_0 radix2 126).
  destruct (dot2_acc a c b d) as (F & _ & A & _); try apply Ha; try apply Hb; try apply Hc; try apply Hd; [lra|].
  exists (fadd (fmul a c) (fmul b d)), m, n. split; [reflexivity|]. split; [exact M1|]. split; [exact N1|]. split; [exact F|]. split; [apply M2|]. split; [apply N2|].
  eapply (cs_core _ (val a * val c + val b * val d) (Rabs (val a * val c) + Rabs (val b * val d))); try exact M2; try exact N2; try apply n3_pos.
  - eapply Rle_trans; [exact A|]. apply Rplus_le_compat_r. apply Rmult_le_compat_r; [pose proof (Rabs_pos (val a * val c)); pose proof (Rabs_pos (val b * val d)); lra|].
    pose proof (bpow_gt_0 radix2 (-24)). lra.
  - apply Rabs_triang.
  - pose proof (cauchy (val a) (val b) 0 (val c) (val d) 0) as Q. rewrite Rmult_0_l, Rabs_R0 in Q. lra.
Qed.

Lemma v3_cauchy : forall {E : Env} (v w : Vector3d f32), Forall (within 61) (v3_to_array v) -> Forall (within 61) (v3_to_array w) ->
  exists d m n, v3_dot (H := comp_f32) v w = Ok d /\ vt_magnitude (fun x => x) v = Ok m /\ vt_magnitude (fun x => x) w = Ok n /\
    fin d /\ fin m /\ fin n /\ (Rabs (val d) <= (1 + bpow radix2 (-18)) * (val m * val n))%R.
Proof.
  intros E v w Hv Hw. apply (Forall_impl _ fits_2) in Hv. apply (Forall_impl _ fits_2) in Hw.
  destruct (v3_mag v Hv) as (m & M1 & M2). destruct (v3_mag w Hw) as (n & N1 & N2). destruct v as [a b c]. destruct w as [d e f]. cbn [v3_to_array v3x v3y v3z] in *.
  inversion_clear Hv as [|? ? Ha H']. inversion_clear H' as [|? ? Hb H'']. inversion_clear H'' as [|? ? Hc _].
  inversion_clear Hw as [|? ? Hd H']. inversion_clear H' as [|? ? He H'']. inversion_clear H'' as [|? ? Hf _].
  pose proof (fits2_mul a d Ha Hd). pose proof (fits2_mul b e Hb He). pose proof (fits2_mul c f Hc Hf). pose proof (bpow_gt_0 radix2 126).
  destruct (dot3_acc a d b e c f) as (F & A); try apply Ha; try apply Hb; try apply Hc; try apply Hd; try apply He; try apply Hf; [lra|].
  exists (fadd (fadd (fmul a d) (fmul b e)) (fmul c f)), m, n. split; [reflexivity|]. split; [exact M1|]. split; [exact N1|]. split; [exact F|]. split; [apply M2|]. split; [apply N2|].
  eapply (cs_core _ (val a * val d + val b * val e + val c * val f) (Rabs (val a * val d) + Rabs (val b * val e) + Rabs (val c * val f))); try exact M2; try exact N2; try apply n3_pos; trivial.
  - pose proof (Rabs_triang (val a * val d + val b * val e) (val c * val f)). pose proof (Rabs_triang (val a * val d) (val b * val e)). lra.
  - apply cauchy.
Qed.

(** *** Triangle inequality *)

Lemma tri_core : forall m a b r s t k, norm_of m r -> norm_of a s -> norm_of b t -> k = bpow radix2 (-24) ->
  (r <= (1 + k) * (1 + k) * (1 + k) * (s + t))%R -> (0 <= s)%R -> (0 <= t)%R -> (val m <= 1.0607 * (val a + val b))%R.
Proof.
  intros m a b r s t k (_ & _ & _ & M) (_ & A1 & A2 & _) (_ & B1 & B2 & _) K R S0 T0. rewrite u24_eq in K. assert (U : k = (/ 16777216)%R) by exact K. rewrite U in *.
  change (bpow radix2 (-20)) with (/ 1048576)%R in *. replace (bpow radix2 (-63)) with (2 * bpow radix2 (-64))%R in M by (change (-63) with (1 + -64); rewrite bpow_plus; reflexivity).
  destruct M as [M|M]; lra.
Qed.

Lemma sub_fits : forall {E : Env} x y, (within 61) x -> (within 61) y -> (within 62) (fsub x y) /\ (Rabs (val (fsub x y) - (val x - val y)) <= u24 * Rabs (val x - val y))%R.
Proof.
  intros E x y [Fx X] [Fy Y]. assert (B : (Rabs (val x - val y) <= bpow radix2 62)%R).
  { change 62 with (1 + 61). rewrite bpow_plus. change (bpow radix2 1) with 2%R. unfold Rminus. pose proof (Rabs_triang (val x) (- val y)). rewrite Rabs_Ropp in *. lra. }
  assert (B2 : (bpow radix2 62 <= bpow radix2 127)%R) by (apply bpow_le; lia).
  destruct (sub_acc x y Fx Fy ltac:(lra)) as [F A]. split; [split; [exact F|]|exact A].
  destruct (fsub_R x y Fx Fy) as [_ V]; [apply (small_lt_128 62); [lia|exact B]|]. rewrite V. apply rnd_abs_le; [lia|exact B].
Qed.

Lemma add_fits : forall {E : Env} x y, (within 61) x -> (within 61) y -> (within 62) (fadd x y) /\ (Rabs (val (fadd x y) - (val x + val y)) <= u24 * Rabs (val x + val y))%R.
Proof.
  intros E x y [Fx X] [Fy Y]. assert (B : (Rabs (val x + val y) <= bpow radix2 62)%R).
  { change 62 with (1 + 61). rewrite bpow_plus. change (bpow radix2 1) with 2%R. pose proof (Rabs_triang (val x) (val y)). lra. }
  assert (B2 : (bpow radix2 62 <= bpow radix2 127)%R) by (apply bpow_le; lia).
  destruct (add_acc x y Fx Fy ltac:(lra)) as [F A]. split; [split; [exact F|]|exact A].
  destruct (fadd_R x y Fx Fy) as [_ V]; [apply (small_lt_128 62); [lia|exact B]|]. rewrite V. apply rnd_abs_le; [lia|exact B].
Qed.

Lemma u24_lt1 : (0 <= u24 < 1)%R. Proof. unfold u24. lra. Qed.
Lemma zero_rel : (Rabs (0 - 0) <= u24 * Rabs 0)%R. Proof. rewrite Rminus_0_r, Rabs_R0. lra. Qed.

Lemma v2_sub_mag : forall {E : Env} (v w : Vector2d f32), Forall (within 61) (v2_to_array v) -> Forall (within 61) (v2_to_array w) ->
  exists m r, vt_distance (fun x => x) v w = Ok m /\ norm_of m r /\
    (let e := n3 (val (v2x v) - val (v2x w)) (val (v2y v) - val (v2y w)) 0 in (1 - u24) * e <= r <= (1 + u24) * e)%R.
Proof.
  intros E [a b] [c d] Hv Hw. cbn [v2_to_array] in *. inversion_clear Hv as [|? ? Ha H']. inversion_clear H' as [|? ? Hb _]. inversion_clear Hw as [|? ? Hc H']. inversion_clear H' as [|? ? Hd _].
  destruct (sub_fits a c Ha Hc) as [F1 A1]. destruct (sub_fits b d Hb Hd) as [F2 A2].
  destruct (v2_mag (mkV2 (fsub a c) (fsub b d))) as (m & M1 & M2); [cbn; apply Forall_cons; [exact F1|apply Forall_cons; [exact F2|apply Forall_nil]]|].
  cbn [v2x v2y] in *. exists m. eexists. split; [rewrite v2_distance_sub; exact M1|]. split; [exact M2|]. cbv zeta. apply n3_rel; trivial; [exact u24_lt1|exact zero_rel].
Qed.

Lemma v3_sub_mag : forall {E : Env} (v w : Vector3d f32), Forall (within 61) (v3_to_array v) -> Forall (within 61) (v3_to_array w) ->
  exists m r, vt_distance (fun x => x) v w = Ok m /\ norm_of m r /\
    (let e := n3 (val (v3x v) - val (v3x w)) (val (v3y v) - val (v3y w)) (val (v3z v) - val (v3z w)) in (1 - u24) * e <= r <= (1 + u24) * e)%R.
Proof.
  intros E [a b p] [c d q] Hv Hw. cbn [v3_to_array] in *. inversion_clear Hv as [|? ? Ha H']. inversion_clear H' as [|? ? Hb H'']. inversion_clear H'' as [|? ? Hp _].
  inversion_clear Hw as [|? ? Hc H']. inversion_clear H' as [|? ? Hd H'']. inversion_clear H'' as [|? ? Hq _].
  destruct (sub_fits a c Ha Hc) as [F1 A1]. destruct (sub_fits b d Hb Hd) as [F2 A2]. destruct (sub_fits p q Hp Hq) as [F3 A3].
  destruct (v3_mag (mkV3 (fsub a c) (fsub b d) (fsub p q))) as (m & M1 & M2); [cbn; apply Forall_cons; [exact F1|apply Forall_cons; [exact F2|apply Forall_cons; [exact F3|apply Forall_nil]]]|].
  cbn [v3x v3y v3z] in *. exists m. eexists. split; [rewrite v3_distance_sub; exact M1|]. split; [exact M2|]. cbv zeta. apply n3_rel; trivial. exact u24_lt1.
Qed.

Lemma tri_real : forall k e1 e2 e3 r1 r2 r3, k = u24 -> (e1 <= e2 + e3)%R -> (0 <= e2)%R -> (0 <= e3)%R ->
  ((1 - k) * e1 <= r1 <= (1 + k) * e1)%R -> ((1 - k) * e2 <= r2 <= (1 + k) * e2)%R -> ((1 - k) * e3 <= r3 <= (1 + k) * e3)%R ->
  (r1 <= (1 + k) * (1 + k) * (1 + k) * (r2 + r3) /\ 0 <= r2 /\ 0 <= r3)%R.
Proof. intros k e1 e2 e3 r1 r2 r3 -> H P2 P3 H1 H2 H3. assert (U : u24 = (/ 16777216)%R) by reflexivity. rewrite U in *. lra. Qed.

Lemma v2_triangle : forall {E : Env} (u v w : Vector2d f32), Forall (within 61) (v2_to_array u) -> Forall (within 61) (v2_to_array v) -> Forall (within 61) (v2_to_array w) ->
  exists a b c, vt_distance (fun x => x) u w = Ok a /\ vt_distance (fun x => x) u v = Ok b /\ vt_distance (fun x => x) v w = Ok c /\
    fin a /\ fin b /\ fin c /\ (val a <= 1.0607 * (val b + val c))%R.
Proof.
  intros E u v w Hu Hv Hw. destruct (v2_sub_mag u w Hu Hw) as (a & r1 & A1 & A2 & A3). destruct (v2_sub_mag u v Hu Hv) as (b & r2 & B1 & B2 & B3).
  destruct (v2_sub_mag v w Hv Hw) as (c & r3 & C1 & C2 & C3). exists a, b, c. do 3 (split; [assumption|]). split; [apply A2|]. split; [apply B2|]. split; [apply C2|].
  cbv zeta in *.
  assert (T : (n3 (val (v2x u) - val (v2x w)) (val (v2y u) - val (v2y w)) 0 <= n3 (val (v2x u) - val (v2x v)) (val (v2y u) - val (v2y v)) 0 + n3 (val (v2x v) - val (v2x w)) (val (v2y v) - val (v2y w)) 0)%R).
  { eapply Rle_trans; [|apply minkowski]. apply Req_le. f_equal; ring. }
  destruct (tri_real u24 _ _ _ r1 r2 r3 eq_refl T (n3_pos _ _ _) (n3_pos _ _ _) A3 B3 C3) as (Q & Q2 & Q3).
  exact (tri_core a b c r1 r2 r3 u24 A2 B2 C2 (eq_sym u24_eq) Q Q2 Q3).
Qed.

Lemma v3_triangle : forall {E : Env} (u v w : Vector3d f32), Forall (within 61) (v3_to_array u) -> Forall (within 61) (v3_to_array v) -> Forall (within 61) (v3_to_array w) ->
  exists a b c, vt_distance (fun x => x) u w = Ok a /\ vt_distance (fun x => x) u v = Ok b /\ vt_distance (fun x => x) v w = Ok c /\
    fin a /\ fin b /\ fin c /\ (val a <= 1.0607 * (val b + val c))%R.
Proof.
  intros E u v w Hu Hv Hw. destruct (v3_sub_mag u w Hu Hw) as (a & r1 & A1 & A2 & A3). destruct (v3_sub_mag u v Hu Hv) as (b & r2 & B1 & B2 & B3).
  destruct (v3_sub_mag v w Hv Hw) as (c & r3 & C1 & C2 & C3). exists a, b, c. do 3 (split; [assumption|]). split; [apply A2|]. split; [apply B2|]. split; [apply C2|].
  cbv zeta in *.
  assert (T : (n3 (val (v3x u) - val (v3x w)) (val (v3y u) - val (v3y w)) (val (v3z u) - val (v3z w)) <=
     n3 (val (v3x u) - val (v3x v)) (val (v3y u) - val (v3y v)) (val (v3z u) - val (v3z v)) + n3 (val (v3x v) - val (v3x w)) (val (v3y v) - val (v3y w)) (val (v3z v) - val (v3z w)))%R).
  { eapply Rle_trans; [|apply minkowski]. apply Req_le. f_equal; ring. }
  destruct (tri_real u24 _ _ _ r1 r2 r3 eq_refl T (n3_pos _ _ _) (n3_pos _ _ _) A3 B3 C3) as (Q & Q2 & Q3).
  exact (tri_core a b c r1 r2 r3 u24 A2 B2 C2 (eq_sym u24_eq) Q Q2 Q3).
Qed.

(** The same for the magnitude of a sum. *)
Lemma v2_sum_magnitude : forall {E : Env} (v w : Vector2d f32), Forall (within 61) (v2_to_array v) -> Forall (within 61) (v2_to_array w) ->
  exists s a b c, v2_add (H := comp_f32) v w = Ok s /\ vt_magnitude (fun x => x) s = Ok a /\ vt_magnitude (fun x => x) v = Ok b /\ vt_magnitude (fun x => x) w = Ok c /\
    fin a /\ fin b /\ fin c /\ (val a <= 1.0607 * (val b + val c))%R.
Proof.
  intros E v w Hv Hw. destruct (v2_mag v (Forall_impl _ fits_2 Hv)) as (b & B1 & B2). destruct (v2_mag w (Forall_impl _ fits_2 Hw)) as (c & C1 & C2).
  destruct v as [x y]. destruct w as [x' y']. cbn [v2_to_array v2x v2y] in *. inversion_clear Hv as [|? ? Ha H']. inversion_clear H' as [|? ? Hb _]. inversion_clear Hw as [|? ? Hc H']. inversion_clear H' as [|? ? Hd _].
  destruct (add_fits x x' Ha Hc) as [F1 A1]. destruct (add_fits y y' Hb Hd) as [F2 A2].
  destruct (v2_mag (mkV2 (fadd x x') (fadd y y'))) as (a & M1 & M2); [cbn; apply Forall_cons; [exact F1|apply Forall_cons; [exact F2|apply Forall_nil]]|].
  exists (mkV2 (fadd x x') (fadd y y')), a, b, c. split; [reflexivity|]. do 3 (split; [assumption|]). split; [apply M2|]. split; [apply B2|]. split; [apply C2|]. cbn [v2x v2y] in M2.
  pose proof (n3_rel u24 _ _ 0 _ _ 0 u24_lt1 A1 A2 zero_rel) as Q. pose proof (minkowski (val x) (val y) 0 (val x') (val y') 0) as T. rewrite Rplus_0_r in T.
  apply (tri_core a b c _ _ _ u24 M2 B2 C2 (eq_sym u24_eq)); try apply n3_pos.
  pose proof (n3_pos (val x) (val y) 0). pose proof (n3_pos (val x') (val y') 0). assert (U : u24 = (/ 16777216)%R) by reflexivity. rewrite U in *. lra.
Qed.

Lemma v3_sum_magnitude : forall {E : Env} (v w : Vector3d f32), Forall (within 61) (v3_to_array v) -> Forall (within 61) (v3_to_array w) ->
  exists s a b c, v3_add (H := comp_f32) v w = Ok s /\ vt_magnitude (fun x => x) s = Ok a /\ vt_magnitude (fun x => x) v = Ok b /\ vt_magnitude (fun x => x) w = Ok c /\
    fin a /\ fin b /\ fin c /\ (val a <= 1.0607 * (val b + val c))%R.
Proof.
  intros E v w Hv Hw. destruct (v3_mag v (Forall_impl _ fits_2 Hv)) as (b & B1 & B2). destruct (v3_mag w (Forall_impl _ fits_2 Hw)) as (c & C1 & C2).
  destruct v as [x y z]. destruct w as [x' y' z']. cbn [v3_to_array v3x v3y v3z] in *. inversion_clear Hv as [|? ? Ha H']. inversion_clear H' as [|? ? Hb H'']. inversion_clear H'' as [|? ? Hp _].
  inversion_clear Hw as [|? ? Hc H']. inversion_clear H' as [|? ? Hd H'']. inversion_clear H'' as [|? ? Hq _].
  destruct (add_fits x x' Ha Hc) as [F1 A1]. destruct (add_fits y y' Hb Hd) as [F2 A2]. destruct (add_fits z z' Hp Hq) as [F3 A3].
  destruct (v3_mag (mkV3 (fadd x x') (fadd y y') (fadd z z'))) as (a & M1 & M2); [cbn; apply Forall_cons; [exact F1|apply Forall_cons; [exact F2|apply Forall_cons; [exact F3|apply Forall_nil]]]|].
  exists (mkV3 (fadd x x') (fadd y y') (fadd z z')), a, b, c. split; [reflexivity|]. do 3 (split; [assumption|]). split; [apply M2|]. split; [apply B2|]. split; [apply C2|]. cbn [v3x v3y v3z] in M2.
  pose proof (n3_rel u24 _ _ _ _ _ _ u24_lt1 A1 A2 A3) as Q. pose proof (minkowski (val x) (val y) (val z) (val x') (val y') (val z')) as T.
  apply (tri_core a b c _ _ _ u24 M2 B2 C2 (eq_sym u24_eq)); try apply n3_pos.
  pose proof (n3_pos (val x) (val y) (val z)). pose proof (n3_pos (val x') (val y') (val z')). assert (U : u24 = (/ 16777216)%R) by reflexivity. rewrite U in *. lra.
Qed.

(** ** The inner product and the perpendicular product *)

Lemma v2_dot_acc : forall {E : Env} (v w : Vector2d f32), Forall fin (v2_to_array v) -> Forall fin (v2_to_array w) ->
  (Rabs (val (v2x v) * val (v2x w)) + Rabs (val (v2y v) * val (v2y w)) <= bpow radix2 126)%R ->
  exists d, v2_dot (H := comp_f32) v w = Ok d /\ fin d /\
    (Rabs (val d - (val (v2x v) * val (v2x w) + val (v2y v) * val (v2y w))) <=
     (2 * bpow radix2 (-24) + bpow radix2 (-46)) * (Rabs (val (v2x v) * val (v2x w)) + Rabs (val (v2y v) * val (v2y w))) + bpow radix2 (-148))%R.
Proof.
  intros E [a b] [c d] Hv Hw H. cbn [v2_to_array v2x v2y] in *. inversion_clear Hv as [|? ? Ha H']. inversion_clear H' as [|? ? Hb _]. inversion_clear Hw as [|? ? Hc H']. inversion_clear H' as [|? ? Hd _].
  destruct (dot2_acc a c b d) as (F & _ & A & _); trivial. eexists. split; [reflexivity|]. split; [exact F|exact A].
Qed.

Lemma v2_perp_acc : forall {E : Env} (v w : Vector2d f32), Forall fin (v2_to_array v) -> Forall fin (v2_to_array w) ->
  (Rabs (val (v2x v) * val (v2y w)) + Rabs (val (v2y v) * val (v2x w)) <= bpow radix2 126)%R ->
  exists d, v2_perpendicular_dot (H := comp_f32) v w = Ok d /\ fin d /\
    (Rabs (val d - (val (v2x v) * val (v2y w) - val (v2y v) * val (v2x w))) <=
     (2 * bpow radix2 (-24) + bpow radix2 (-46)) * (Rabs (val (v2x v) * val (v2y w)) + Rabs (val (v2y v) * val (v2x w))) + bpow radix2 (-148))%R.
Proof.
  intros E [a b] [c d] Hv Hw H. cbn [v2_to_array v2x v2y] in *. inversion_clear Hv as [|? ? Ha H']. inversion_clear H' as [|? ? Hb _]. inversion_clear Hw as [|? ? Hc H']. inversion_clear H' as [|? ? Hd _].
  destruct (dot2_acc a d b c) as (_ & F & _ & A); trivial. eexists. split; [reflexivity|]. split; [exact F|exact A].
Qed.

Lemma v3_dot_acc : forall {E : Env} (v w : Vector3d f32), Forall fin (v3_to_array v) -> Forall fin (v3_to_array w) ->
  (Rabs (val (v3x v) * val (v3x w)) + Rabs (val (v3y v) * val (v3y w)) + Rabs (val (v3z v) * val (v3z w)) <= bpow radix2 126)%R ->
  exists d, v3_dot (H := comp_f32) v w = Ok d /\ fin d /\
    (Rabs (val d - (val (v3x v) * val (v3x w) + val (v3y v) * val (v3y w) + val (v3z v) * val (v3z w))) <=
     (3 * bpow radix2 (-24) + bpow radix2 (-46)) * (Rabs (val (v3x v) * val (v3x w)) + Rabs (val (v3y v) * val (v3y w)) + Rabs (val (v3z v) * val (v3z w))) + bpow radix2 (-148))%R.
Proof.
  intros E [a b c] [d e f] Hv Hw H. cbn [v3_to_array v3x v3y v3z] in *. inversion_clear Hv as [|? ? Ha H']. inversion_clear H' as [|? ? Hb H'']. inversion_clear H'' as [|? ? Hc _].
  inversion_clear Hw as [|? ? Hd H']. inversion_clear H' as [|? ? He H'']. inversion_clear H'' as [|? ? Hf _].
  destruct (dot3_acc a d b e c f) as (F & A); trivial. eexists. split; [reflexivity|]. split; [exact F|exact A].
Qed.

(** ** Normalized vectors *)

Lemma div_norm : forall {E : Env} x m r, fin x -> norm_of m r -> (Rabs (val x) <= r)%R ->
  fin (fdiv x m) /\ (Rabs (val (fdiv x m)) <= (1 + u24) * / val m * Rabs (val x) + h150)%R.
Proof.
  intros E x m r F (Fm & M1 & M2 & _) H. change (bpow radix2 (-20)) with (/ 1048576)%R in M2. pose proof (bpow_gt_0 radix2 (-64)) as K. pose proof (Rabs_pos (val x)) as A0.
  assert (P : (0 < val m)%R) by lra. assert (I : (0 < / val m)%R) by (apply Rinv_0_lt_compat; exact P).
  assert (Q : Rabs (val x / val m) = (/ val m * Rabs (val x))%R).
  { unfold Rdiv. rewrite Rabs_mult, (Rabs_pos_eq (/ val m)) by lra. ring. }
  assert (B : (Rabs (val x / val m) <= bpow radix2 1)%R).
  { rewrite Q. change (bpow radix2 1) with 2%R. apply Rmult_le_reg_l with (val m); [exact P|]. rewrite <- Rmult_assoc, Rinv_r, Rmult_1_l by lra. lra. }
  destruct (fdiv_R x m F Fm) as [G V]; [lra|apply (small_lt_128 1); [lia|exact B]|]. split; [exact G|]. rewrite V.
  pose proof (rnd_err_mixed (val x / val m)) as R. fold h150 in R. rewrite u24_eq, Q in R. apply abs_near in R. rewrite Q in R. lra.
Qed.

Lemma n3_mono : forall a b c a' b' c', (Rabs a <= a')%R -> (Rabs b <= b')%R -> (Rabs c <= c')%R -> (n3 a b c <= n3 a' b' c')%R.
Proof.
  intros a b c a' b' c' A B C.
  assert (Q : forall x x', (Rabs x <= x')%R -> (x * x <= x' * x')%R).
  { intros x x' H. rewrite <- (sqr_abs x), Rabs_mult. apply Rmult_le_compat; trivial; apply Rabs_pos. }
  apply Q in A. apply Q in B. apply Q in C. unfold n3. apply sqrt_le_1_alt. lra.
Qed.

Lemma n3_scale : forall k a b c, (0 <= k)%R -> n3 (k * a) (k * b) (k * c) = (k * n3 a b c)%R.
Proof.
  intros k a b c K. unfold n3. replace (k * a * (k * a) + k * b * (k * b) + k * c * (k * c))%R with ((k * k) * (a * a + b * b + c * c))%R by ring.
  rewrite sqrt_mult_alt by nra. rewrite sqrt_square by exact K. reflexivity.
Qed.

Lemma n3_abs : forall a b c, n3 (Rabs a) (Rabs b) (Rabs c) = n3 a b c.
Proof. intros a b c. unfold n3. rewrite <- !Rabs_mult, !sqr_abs. reflexivity. Qed.

Lemma comp_le_n3 : forall a b c, (Rabs a <= n3 a b c /\ Rabs b <= n3 a b c /\ Rabs c <= n3 a b c)%R.
Proof.
  intros a b c. pose proof (n3_pos a b c). pose proof (n3_sq a b c). pose proof (Rle_0_sqr a). pose proof (Rle_0_sqr b). pose proof (Rle_0_sqr c). unfold Rsqr in *.
  repeat split; apply sq_le; trivial; rewrite <- Rabs_mult, sqr_abs; lra.
Qed.

Lemma norm_quot : forall m a b c a' b' c', norm_of m (n3 a b c) ->
  (Rabs a' <= (1 + u24) * / val m * Rabs a + h150)%R -> (Rabs b' <= (1 + u24) * / val m * Rabs b + h150)%R -> (Rabs c' <= (1 + u24) * / val m * Rabs c + h150)%R ->
  (n3 a' b' c' <= 1 + 3 / 2 * bpow radix2 (-20))%R.
Proof.
  intros m a b c a' b' c' (Fm & M1 & M2 & _) A B C. pose proof (bpow_gt_0 radix2 (-64)) as K. assert (P : (0 < val m)%R) by lra.
  assert (I : (0 < / val m)%R) by (apply Rinv_0_lt_compat; exact P).
  assert (k0 : (0 <= (1 + u24) * / val m)%R) by (apply Rmult_le_pos; [unfold u24; lra|lra]).
  eapply Rle_trans; [apply (n3_mono _ _ _ _ _ _ A B C)|]. eapply Rle_trans; [apply minkowski|]. rewrite n3_scale by exact k0. rewrite n3_abs.
  change (bpow radix2 (-20)) with (/ 1048576)%R in *.
  assert (H1 : (/ val m * n3 a b c <= / (1 - / 1048576))%R).
  { apply Rmult_le_reg_l with (val m * (1 - / 1048576))%R; [apply Rmult_lt_0_compat; lra|].
    replace (val m * (1 - / 1048576) * (/ val m * n3 a b c))%R with ((1 - / 1048576) * n3 a b c)%R by (field; lra).
    replace (val m * (1 - / 1048576) * / (1 - / 1048576))%R with (val m) by (field; lra). exact M2. }
  assert (H2 : (n3 h150 h150 h150 <= 2 * h150)%R).
  { pose proof h150_pos. apply sq_le; [lra|]. rewrite n3_sq. nra. }
  assert (H3 : (h150 <= / 1073741824)%R).
  { unfold h150. change (/ 1073741824)%R with (bpow radix2 (-30)). apply bpow_le. lia. }
  assert (U : u24 = (/ 16777216)%R) by reflexivity. rewrite U in *. pose proof (n3_pos a b c).
  assert (H4 : ((1 + / 16777216) * / val m * n3 a b c <= (1 + / 16777216) * / (1 - / 1048576))%R).
  { rewrite Rmult_assoc. apply Rmult_le_compat_l; [lra|exact H1]. }
  assert (H5 : ((1 + / 16777216) * / (1 - / 1048576) <= 1 + 5 / 4 * / 1048576)%R).
  { apply Rmult_le_reg_r with (1 - / 1048576)%R; [lra|]. rewrite Rmult_assoc, Rinv_l by lra. lra. }
  lra.
Qed.

Lemma v2_normalized_norm : forall {E : Env} (v : Vector2d f32), Forall (within 61) (v2_to_array v) ->
  exists w, vt_normalized (fun x => x) (fun x => x) v = Ok w /\ Forall fin (v2_to_array w) /\
    (n3 (val (v2x w)) (val (v2y w)) 0 <= 1 + 3 / 2 * bpow radix2 (-20))%R.
Proof.
  intros E v H. destruct (v2_mag v (Forall_impl _ fits_2 H)) as (m & M1 & M2). destruct v as [a b]. cbn [v2_to_array v2x v2y] in *.
  inversion_clear H as [|? ? Ha H']. inversion_clear H' as [|? ? Hb _]. destruct (comp_le_n3 (val a) (val b) 0) as (C1 & C2 & _).
  destruct (div_norm a m _ (proj1 Ha) M2 C1) as [F1 A1]. destruct (div_norm b m _ (proj1 Hb) M2 C2) as [F2 A2].
  unfold vt_normalized. rewrite M1. cbn [bind]. rewrite v2_map_spec. eexists. split; [reflexivity|]. cbn [v2_to_array v2x v2y]. split.
  - apply Forall_cons; [exact F1|apply Forall_cons; [exact F2|apply Forall_nil]].
  - apply (norm_quot m (val a) (val b) 0); trivial. rewrite Rabs_R0. pose proof h150_pos. lra.
Qed.

Lemma v3_normalized_norm : forall {E : Env} (v : Vector3d f32), Forall (within 61) (v3_to_array v) ->
  exists w, vt_normalized (fun x => x) (fun x => x) v = Ok w /\ Forall fin (v3_to_array w) /\
    (n3 (val (v3x w)) (val (v3y w)) (val (v3z w)) <= 1 + 3 / 2 * bpow radix2 (-20))%R.
Proof.
  intros E v H. destruct (v3_mag v (Forall_impl _ fits_2 H)) as (m & M1 & M2). destruct v as [a b c]. cbn [v3_to_array v3x v3y v3z] in *.
  inversion_clear H as [|? ? Ha H']. inversion_clear H' as [|? ? Hb H'']. inversion_clear H'' as [|? ? Hc _]. destruct (comp_le_n3 (val a) (val b) (val c)) as (C1 & C2 & C3).
  destruct (div_norm a m _ (proj1 Ha) M2 C1) as [F1 A1]. destruct (div_norm b m _ (proj1 Hb) M2 C2) as [F2 A2]. destruct (div_norm c m _ (proj1 Hc) M2 C3) as [F3 A3].
  unfold vt_normalized. rewrite M1. cbn [bind]. rewrite v3_map_spec. eexists. split; [reflexivity|]. cbn [v3_to_array v3x v3y v3z]. split.
  - apply Forall_cons; [exact F1|apply Forall_cons; [exact F2|apply Forall_cons; [exact F3|apply Forall_nil]]].
  - apply (norm_quot m (val a) (val b) (val c)); trivial.
Qed.

(** The inner product of normalized vectors. *)
Lemma unit_core : forall d T A r s, (Rabs (d - T) <= (3 * bpow radix2 (-24) + bpow radix2 (-46)) * A + bpow radix2 (-148))%R ->
  (Rabs T <= A)%R -> (A <= r * s)%R -> (0 <= r)%R -> (0 <= s)%R -> (r <= 1 + 3 / 2 * bpow radix2 (-20))%R -> (s <= 1 + 3 / 2 * bpow radix2 (-20))%R ->
  (Rabs d <= 1 + bpow radix2 (-18))%R.
Proof.
  intros d T A r s H TA AR R0 S0 R1 S1. pose proof (abs_near _ _ _ H) as D. rewrite b148, u24_eq in D. change (bpow radix2 (-46)) with (/ IZR (2 ^ 46))%R in D. change (IZR (2 ^ 46)) with 70368744177664%R in D.
  assert (U : u24 = (/ 16777216)%R) by reflexivity. rewrite U in D. change (bpow radix2 (-20)) with (/ 1048576)%R in *. change (bpow radix2 (-18)) with (/ 262144)%R.
  assert (H3 : (h150 <= / 1073741824)%R).
  { unfold h150. change (/ 1073741824)%R with (bpow radix2 (-30)). apply bpow_le. lia. }
  assert (Q : (r * s <= (1 + 3 / 2 * / 1048576) * (1 + 3 / 2 * / 1048576))%R) by (apply Rmult_le_compat; lra). lra.
Qed.

Lemma unit_small : forall r, (r <= 1 + 3 / 2 * bpow radix2 (-20))%R -> (r * r <= 3)%R \/ (r < 0)%R.
Proof. intros r H. change (bpow radix2 (-20)) with (/ 1048576)%R in H. destruct (Rlt_or_le r 0); [right; assumption|left]. nra. Qed.

Lemma v2_cosine : forall {E : Env} (v w : Vector2d f32), Forall (within 61) (v2_to_array v) -> Forall (within 61) (v2_to_array w) ->
  exists a b d, vt_normalized (fun x => x) (fun x => x) v = Ok a /\ vt_normalized (fun x => x) (fun x => x) w = Ok b /\
    v2_dot (H := comp_f32) a b = Ok d /\ fin d /\ (Rabs (val d) <= 1 + bpow radix2 (-18))%R.
Proof.
  intros E v w Hv Hw. destruct (v2_normalized_norm v Hv) as (a & A1 & A2 & A3). destruct (v2_normalized_norm w Hw) as (b & B1 & B2 & B3).
  pose proof (cauchy (val (v2x a)) (val (v2y a)) 0 (val (v2x b)) (val (v2y b)) 0) as Q. rewrite Rmult_0_l, Rabs_R0, Rplus_0_r in Q.
  pose proof (n3_pos (val (v2x a)) (val (v2y a)) 0) as P1. pose proof (n3_pos (val (v2x b)) (val (v2y b)) 0) as P2.
  destruct (v2_dot_acc a b A2 B2) as (d & D1 & D2 & D3).
  { eapply Rle_trans; [exact Q|]. apply Rle_trans with (2 * 2)%R; [change (bpow radix2 (-20)) with (/ 1048576)%R in *; apply Rmult_le_compat; lra|].
    apply Rle_trans with (bpow radix2 2); [simpl; lra|]. apply bpow_le. lia. }
  exists a, b, d. do 4 (split; [assumption|]).
  eapply (unit_core _ _ _ _ _ _ (Rabs_triang _ _) Q P1 P2 A3 B3).
  Unshelve. eapply Rle_trans; [exact D3|]. apply Rplus_le_compat_r. apply Rmult_le_compat_r; [|pose proof (bpow_gt_0 radix2 (-24)); lra].
  pose proof (Rabs_pos (val (v2x a) * val (v2x b))). pose proof (Rabs_pos (val (v2y a) * val (v2y b))). lra.
Qed.

Lemma v3_cosine : forall {E : Env} (v w : Vector3d f32), Forall (within 61) (v3_to_array v) -> Forall (within 61) (v3_to_array w) ->
  exists a b d, vt_normalized (fun x => x) (fun x => x) v = Ok a /\ vt_normalized (fun x => x) (fun x => x) w = Ok b /\
    v3_dot (H := comp_f32) a b = Ok d /\ fin d /\ (Rabs (val d) <= 1 + bpow radix2 (-18))%R.
Proof.
  intros E v w Hv Hw. destruct (v3_normalized_norm v Hv) as (a & A1 & A2 & A3). destruct (v3_normalized_norm w Hw) as (b & B1 & B2 & B3).
  pose proof (cauchy (val (v3x a)) (val (v3y a)) (val (v3z a)) (val (v3x b)) (val (v3y b)) (val (v3z b))) as Q.
  pose proof (n3_pos (val (v3x a)) (val (v3y a)) (val (v3z a))) as P1. pose proof (n3_pos (val (v3x b)) (val (v3y b)) (val (v3z b))) as P2.
  destruct (v3_dot_acc a b A2 B2) as (d & D1 & D2 & D3).
  { eapply Rle_trans; [exact Q|]. apply Rle_trans with (2 * 2)%R; [change (bpow radix2 (-20)) with (/ 1048576)%R in *; apply Rmult_le_compat; lra|].
    apply Rle_trans with (bpow radix2 2); [simpl; lra|]. apply bpow_le. lia. }
  exists a, b, d. do 4 (split; [assumption|]).
  eapply (unit_core _ _ _ _ _ D3 _ Q P1 P2 A3 B3).
  Unshelve. pose proof (Rabs_triang (val (v3x a) * val (v3x b) + val (v3y a) * val (v3y b)) (val (v3z a) * val (v3z b))). pose proof (Rabs_triang (val (v3x a) * val (v3x b)) (val (v3y a) * val (v3y b))). lra.
Qed.

Lemma fits_lit : forall Ex M, 1 <= Ex <= 187 -> 0 <= M < 2 ^ 23 -> (within 61) (from_bits (Ex * 2 ^ 23 + M)).
Proof.
  intros Ex M H1 H2. destruct (mk_val Ex M ltac:(lia) H2) as (F & S & T & _). cbv zeta in F, S, T. split; [exact F|]. apply Rlt_le.
  apply abs_lt_bpow; [exact F|lia|]. rewrite T. unfold bexp. replace (Ex * 2 ^ 23 + M) with (M + Ex * 2 ^ 23) by ring.
  rewrite Z.div_add by lia. rewrite Z.div_small by exact H2. rewrite Z.mod_small; lia.
Qed.

(** The excess over 1 is real, and [acos] then gives NaN. *)
Lemma cosine_above_one : forall {E : Env}, exists v a d r, Forall (within 61) (v2_to_array v) /\ vt_normalized (fun x => x) (fun x => x) v = Ok a /\
  v2_dot (H := comp_f32) a a = Ok d /\ fin d /\ (1 < val d)%R /\ F32_acos d = Ok r /\ nan r.
Proof.
  intros E. set (v := mkV2 (from_bits 0x3E4CCCCD) (from_bits 0x41000000)). set (d := from_bits 0x3F800001).
  assert (V : fin d /\ (1 < val d)%R).
  { destruct (mk_val 127 1 ltac:(lia) ltac:(lia)) as (F & _ & _ & V). cbv zeta in F, V. change (127 * 2 ^ 23 + 1) with 0x3F800001 in *. split; [exact F|].
    unfold d. rewrite V. change (127 - 127) with 0. change (bpow radix2 0) with 1%R. change (IZR (2 ^ 23)) with 8388608%R. lra. }
  destruct V as [Fd Vd]. destruct (P_Asin.acos_outside_nan d) as (r & R1 & R2).
  { intros _. rewrite Rabs_pos_eq; lra. }
  assert (M : vt_magnitude (fun x => x) v = Ok (from_bits 0x41000A3D)).
  { unfold v. rewrite v2_magnitude_dot, v2_dot_eq. cbn [bind v2x v2y]. apply ok_bits. vm_compute. reflexivity. }
  exists v, (mkV2 (from_bits 1020050541) (from_bits 1065347976)), d, r. split; [|split; [|split; [|auto]]].
  - unfold v. cbn [v2_to_array v2x v2y]. apply Forall_cons; [|apply Forall_cons; [|apply Forall_nil]].
    + exact (fits_lit 124 5033165 ltac:(lia) ltac:(lia)).
    + exact (fits_lit 130 0 ltac:(lia) ltac:(lia)).
  - unfold vt_normalized. rewrite M. cbn [bind]. rewrite v2_map_spec. unfold v. cbn [v2x v2y]. do 2 f_equal; apply to_bits_inj; vm_compute; reflexivity.
  - rewrite v2_dot_eq. cbn [v2x v2y]. apply ok_bits. vm_compute. reflexivity.
Qed.

Lemma fits_int : forall n, Z.abs n <= 2 ^ 24 -> (within 61) (f32_of_Z n).
Proof.
  intros n H. destruct (f32_of_Z_exact n H) as [F V]. split; [exact F|]. rewrite V, <- abs_IZR. apply Rle_trans with (IZR (2 ^ 24)); [apply IZR_le; exact H|].
  change (IZR (2 ^ 24)) with (bpow radix2 24). apply bpow_le. lia.
Qed.

(** On the way from 0 to (4096, 4096) through (1365, 1365). *)
Lemma triangle_broken : forall {E : Env}, exists (u v w : Vector2d f32) (a b c : f32),
  Forall (within 61) (v2_to_array u) /\ Forall (within 61) (v2_to_array v) /\ Forall (within 61) (v2_to_array w) /\ vt_distance (fun x => x) u w = Ok a /\ vt_distance (fun x => x) u v = Ok b /\ vt_distance (fun x => x) v w = Ok c /\ (1.0588 * (val b + val c) < val a)%R.
Proof.
  intros E. set (p := fun n => mkV2 (f32_of_Z n) (f32_of_Z n)).
  assert (FP : forall n, Z.abs n <= 2 ^ 24 -> Forall (within 61) (v2_to_array (p n))).
  { intros n H. cbn. apply Forall_cons; [apply fits_int; exact H|apply Forall_cons; [apply fits_int; exact H|apply Forall_nil]]. }
  exists (p 0), (p 1365), (p 4096), (from_bits 1170210816), (from_bits 1156692196), (from_bits 1165086265).
  split; [apply FP; lia|]. split; [apply FP; lia|]. split; [apply FP; lia|].
  assert (D : forall m n, vt_distance (fun x => x) (p m) (p n) = F32_sqrt (fadd (fmul (fsub (f32_of_Z m) (f32_of_Z n)) (fsub (f32_of_Z m) (f32_of_Z n))) (fmul (fsub (f32_of_Z m) (f32_of_Z n)) (fsub (f32_of_Z m) (f32_of_Z n))))).
  { intros m n. rewrite v2_distance_sub. unfold v2_sub, p. cbn [bind c_sub comp_f32 v2x v2y]. rewrite v2_magnitude_dot, v2_dot_eq. reflexivity. }
  rewrite !D. split; [apply ok_bits; vm_compute; reflexivity|]. split; [apply ok_bits; vm_compute; reflexivity|]. split; [apply ok_bits; vm_compute; reflexivity|].
  assert (L : forall Ex M, 1 <= Ex <= 254 -> 0 <= M < 2 ^ 23 -> val (from_bits (Ex * 2 ^ 23 + M)) = ((1 + IZR M / 8388608) * bpow radix2 (Ex - 127))%R).
  { intros Ex M H1 H2. destruct (mk_val Ex M H1 H2) as (_ & _ & _ & V). exact V. }
  pose proof (L 139 4194304 ltac:(lia) ltac:(lia)) as A. pose proof (L 137 7452900 ltac:(lia) ltac:(lia)) as B. pose proof (L 138 7458361 ltac:(lia) ltac:(lia)) as C.
  change (139 * 2 ^ 23 + 4194304) with 1170210816 in A. change (137 * 2 ^ 23 + 7452900) with 1156692196 in B. change (138 * 2 ^ 23 + 7458361) with 1165086265 in C.
  change (bpow radix2 (139 - 127)) with 4096%R in A. change (bpow radix2 (137 - 127)) with 1024%R in B. change (bpow radix2 (138 - 127)) with 2048%R in C.
  rewrite A, B, C. lra.
Qed.

Lemma rnorm2 : forall v, rnorm (v2_to_array v) = n3 (val (v2x v)) (val (v2y v)) 0.
Proof. intros [x y]. unfold rnorm, n3. cbn. f_equal. ring. Qed.
Lemma rnorm3 : forall v, rnorm (v3_to_array v) = n3 (val (v3x v)) (val (v3y v)) (val (v3z v)).
Proof. intros [x y z]. unfold rnorm, n3. cbn. f_equal. ring. Qed.

Lemma v2_magnitude_bounds : forall {E : Env} (v : Vector2d f32), Forall (within 61) (v2_to_array v) ->
  exists m, vt_magnitude (fun x => x) v = Ok m /\ fin m /\ ((1 - bpow radix2 (-20)) * rnorm (v2_to_array v) <= val m)%R /\ (val m <= 1.06067 * rnorm (v2_to_array v) \/ 3 * bpow radix2 (-65) <= val m <= 4 * bpow radix2 (-65))%R.
Proof.
  intros E v H. destruct (v2_mag v (Forall_impl _ fits_2 H)) as (m & M1 & F & A & B & C). exists m. rewrite rnorm2. split; [exact M1|]. split; [exact F|]. split; [exact B|].
  assert (Q : bpow radix2 (-64) = (2 * bpow radix2 (-65))%R /\ bpow radix2 (-63) = (4 * bpow radix2 (-65))%R).
  { split; [change (-64) with (1 + -65)|change (-63) with (2 + -65)]; rewrite bpow_plus; reflexivity. }
  destruct Q as [Q1 Q2]. rewrite Q1 in A. rewrite Q2 in C. destruct C as [C|C]; [left; exact C|right; lra].
Qed.

Lemma v3_magnitude_bounds : forall {E : Env} (v : Vector3d f32), Forall (within 61) (v3_to_array v) ->
  exists m, vt_magnitude (fun x => x) v = Ok m /\ fin m /\ ((1 - bpow radix2 (-20)) * rnorm (v3_to_array v) <= val m)%R /\ (val m <= 1.06067 * rnorm (v3_to_array v) \/ 3 * bpow radix2 (-65) <= val m <= 4 * bpow radix2 (-65))%R.
Proof.
  intros E v H. destruct (v3_mag v (Forall_impl _ fits_2 H)) as (m & M1 & F & A & B & C). exists m. rewrite rnorm3. split; [exact M1|]. split; [exact F|]. split; [exact B|].
  assert (Q : bpow radix2 (-64) = (2 * bpow radix2 (-65))%R /\ bpow radix2 (-63) = (4 * bpow radix2 (-65))%R).
  { split; [change (-64) with (1 + -65)|change (-63) with (2 + -65)]; rewrite bpow_plus; reflexivity. }
  destruct Q as [Q1 Q2]. rewrite Q1 in A. rewrite Q2 in C. destruct C as [C|C]; [left; exact C|right; lra].
Qed.

Lemma v2_normalized_le : forall {E : Env} (v : Vector2d f32), Forall (within 61) (v2_to_array v) ->
  exists w, vt_normalized (fun x => x) (fun x => x) v = Ok w /\ Forall fin (v2_to_array w) /\ (rnorm (v2_to_array w) <= 1 + 3 / 2 * bpow radix2 (-20))%R.
Proof. intros E v H. destruct (v2_normalized_norm v H) as (w & A & B & C). exists w. rewrite rnorm2. auto. Qed.
Lemma v3_normalized_le : forall {E : Env} (v : Vector3d f32), Forall (within 61) (v3_to_array v) ->
  exists w, vt_normalized (fun x => x) (fun x => x) v = Ok w /\ Forall fin (v3_to_array w) /\ (rnorm (v3_to_array w) <= 1 + 3 / 2 * bpow radix2 (-20))%R.
Proof. intros E v H. destruct (v3_normalized_norm v H) as (w & A & B & C). exists w. rewrite rnorm3. auto. Qed.
