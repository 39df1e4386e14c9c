(** * Proofs for C112: symmetries of the trigonometric functions *)

From Coq Require Import ZArith Reals Bool List Lia Lra.
From Flocq Require Import Core IEEE754.BinarySingleNaN IEEE754.Binary IEEE754.Bits.
From Verif Require Import Base Spec Float F32Lemmas BitLemmas P_Trunc P_Floor Literals ErrLemmas P_RoundEdge NanLemmas
  P_Roots P_InvSqrt P_Recip P_SumSq P_Stats P_Quat P_VecF32 P_Powi2 RealBounds RealBounds2 P_Trig P_Atan P_Asin.
Open Scope Z_scope.

(** ** Quotients *)

Lemma fdiv_fneg_r : forall {E : Env} x y, same (fdiv x (fneg y)) (fneg (fdiv x y)).
Proof.
  intros E x y.
  destruct (is_nan x) eqn:Nx; [right; split; [apply fdiv_nan; left; exact Nx|apply fneg_nan, fdiv_nan; left; exact Nx]|].
  destruct (is_nan y) eqn:Ny; [right; split; [apply fdiv_nan; right; apply fneg_nan; exact Ny|apply fneg_nan, fdiv_nan; right; exact Ny]|].
  destruct y as [b|b|b p' H'|b m' e' H']; try discriminate.
  - destruct x as [a|a|a p H|a m e H]; try discriminate; try (left; destruct a, b; reflexivity).
    right. split; [|apply fneg_nan]; refine (build_nan_nan _).
  - destruct x as [a|a|a p H|a m e H]; try discriminate; try (left; destruct a, b; reflexivity).
    right. split; [|apply fneg_nan]; refine (build_nan_nan _).
  - destruct x as [a|a|a p H|a m e H]; try discriminate; try (left; destruct a, b; reflexivity).
    left. set (x := B754_finite a m e H) in *. set (y := B754_finite b m' e' H') in *.
    assert (Fx : Binary.is_finite 24 128 x = true) by reflexivity.
    assert (V : (val y <> 0)%R). { unfold val, y. simpl. apply F2R_neq_0. simpl. destruct b; discriminate. }
    assert (V' : (val (fneg y) <> 0)%R) by (rewrite fneg_val; lra).
    pose proof (Bdiv_correct 24 128 prec24 emax128 nan_div mode_NE x y V) as C1.
    pose proof (Bdiv_correct 24 128 prec24 emax128 nan_div mode_NE x (fneg y) V') as C2.
    fold (fdiv x y) in C1. fold (fdiv x (fneg y)) in C2. fold (val x) (val y) in C1. fold (val (fneg y)) (val x) in C2. rewrite fneg_val in C2.
    replace (val x / - val y)%R with (- (val x / val y))%R in C2 by (field; exact V).
    rewrite round_NE_opp in C2 || (unfold round_mode in *; rewrite round_NE_opp in C2). rewrite Rabs_Ropp in C2.
    assert (SY : Bsign 24 128 (fneg y) = negb (Bsign 24 128 y)) by reflexivity.
    assert (SN : forall z, is_nan z = false -> Bsign 24 128 (fneg z) = negb (Bsign 24 128 z)).
    { intros z Hz. destruct z; try discriminate; reflexivity. }
    destruct (Rlt_bool _ _).
    + destruct C1 as (V1 & F1 & S1). destruct C2 as (V2 & F2 & S2). rewrite Fx in F1, F2.
      pose proof (fin_not_nan _ F1) as N1. pose proof (fin_not_nan _ F2) as N2.
      apply fin_dec_eq; [exact F2|apply fneg_fin; exact F1| |].
      * fold (val (fdiv x y)) in V1. fold (val (fdiv x (fneg y))) in V2. rewrite V2, fneg_val, V1. reflexivity.
      * unfold sign_bit. rewrite SN by exact N1. rewrite S2 by exact N2. rewrite S1 by exact N1. rewrite SY.
        destruct (Bsign 24 128 x), (Bsign 24 128 y); reflexivity.
    + apply B2FF_inj. rewrite C2. rewrite SY.
      destruct (fdiv x y) as [t|t|t p K|t mm ee K]; try discriminate. simpl in C1. inversion C1. simpl.
      f_equal. destruct a, b; reflexivity.
Qed.

(** ** atan, asin, acos *)

Lemma atan_odd_all : forall {E : Env} x, same (F32_atan (fneg x)) (fneg (F32_atan x)).
Proof.
  intros E x.
  assert (D : (fin x /\ (Rabs (val x) < bpow radix2 64)%R) \/ (fin x -> (bpow radix2 64 <= Rabs (val x))%R)).
  { destruct (Rlt_or_le (Rabs (val x)) (bpow radix2 64)) as [L|L]; [|right; trivial].
    destruct (is_finite x) eqn:F; [left; split; assumption|right; intros F'; unfold fin in F'; congruence]. }
  destruct D as [[F L]|D].
  - left. apply (atan_norm_odd x F L).
  - right. split; [|apply fneg_nan]; apply atan_overflow; [|exact D].
    rewrite fneg_val, Rabs_Ropp. intros F. apply D. unfold fin in *. rewrite fneg_is_finite in F. exact F.
Qed.

Lemma atan_same : forall {E : Env} a b, same a b -> same (F32_atan a) (F32_atan b).
Proof.
  intros E a b [->|[A B]]; [apply same_refl|]. right. split; apply atan_overflow; intros F; exfalso.
  - unfold nan in A. rewrite (fin_not_nan _ F) in A. discriminate.
  - unfold nan in B. rewrite (fin_not_nan _ F) in B. discriminate.
Qed.

Lemma asin_odd : forall {E : Env} x, is_nan x = false ->
  (F32_asin x = Panic /\ F32_asin (fneg x) = Panic) \/
  (exists r r', F32_asin x = Ok r /\ F32_asin (fneg x) = Ok r' /\ same r' (fneg r)).
Proof.
  intros E x N. unfold F32_asin. rewrite fmul_neg_neg by exact N.
  destruct (F32_invsqrt (fsub F32_ONE (fmul x x))) as [i| |] eqn:I; unfold bind.
  - right. do 2 eexists. split; [reflexivity|]. split; [reflexivity|].
    apply same_trans with (1 := atan_same _ _ (fmul_fneg_l x i)). apply atan_odd_all.
  - left. split; reflexivity.
  - exfalso. unfold F32_invsqrt, arith, bind in I. destruct (in_range u32 _); [discriminate|]. destruct overflow_checks; discriminate.
Qed.

Lemma fgt_pos_not_nan : forall x, fgt x F32_ZERO = true -> is_nan x = false.
Proof. intros x H. destruct x; try reflexivity; discriminate. Qed.

Lemma acos_supplement : forall {E : Env} x, fgt x F32_ZERO = true ->
  exists r r', F32_acos x = Ok r /\ F32_acos (fneg x) = Ok r' /\ same r' (fsub c_PI r).
Proof.
  intros E x P. pose proof (fgt_pos_not_nan x P) as N.
  assert (P1 : fgt (fneg x) F32_ZERO = false) by (destruct x as [s|s|s p K|s m e K]; destruct s; try discriminate; reflexivity).
  assert (P2 : feq (fneg x) F32_ZERO = false) by (destruct x as [s|s|s p K|s m e K]; destruct s; try discriminate; reflexivity).
  unfold F32_acos. rewrite P, P1, P2, fmul_neg_neg by exact N.
  destruct (sqrt_total (fsub F32_ONE (fmul x x))) as [s ->]. unfold bind.
  do 2 eexists. split; [reflexivity|]. split; [reflexivity|].
  set (a := F32_atan (fdiv s x)).
  assert (A : same (F32_atan (fdiv s (fneg x))) (fneg a)).
  { apply same_trans with (1 := atan_same _ _ (fdiv_fneg_r s x)). apply atan_odd_all. }
  apply same_trans with (fadd (fneg a) c_PI); [apply fadd_same; [exact A|apply same_refl]|].
  apply same_trans with (1 := fadd_comm_same _ _).
  pose proof (fsub_fneg c_PI (fneg a)) as Q. rewrite fneg_involutive in Q. apply same_sym. exact Q.
Qed.

(** ** The parabola of cos.rs *)

Definition yy (r : R) : R := (r * (16 * (Rabs r - / 2)))%R.
Definition pol (y : R) : R := (y + 15099494 / 67108864 * y * (Rabs y - 1))%R.
Lemma par_pol : forall r, par r = pol (yy r).
Proof. reflexivity. Qed.

Lemma yy_odd : forall r, yy (- r) = (- yy r)%R.
Proof. intros r. unfold yy. rewrite Rabs_Ropp. ring. Qed.
Lemma pol_odd : forall y, pol (- y) = (- pol y)%R.
Proof. intros y. unfold pol. rewrite Rabs_Ropp. ring. Qed.

Lemma sqabs_diff : forall a b B, (Rabs a <= B)%R -> (Rabs b <= B)%R -> (Rabs (a * Rabs a - b * Rabs b) <= 2 * B * Rabs (a - b))%R.
Proof.
  assert (P : forall a b B, (0 <= a)%R -> (Rabs a <= B)%R -> (Rabs b <= B)%R -> (Rabs (a * Rabs a - b * Rabs b) <= 2 * B * Rabs (a - b))%R).
  { intros a b B Pa Ha Hb. rewrite (Rabs_pos_eq a) in * by exact Pa. destruct (Rle_or_lt 0 b) as [Pb|Pb].
    - rewrite (Rabs_pos_eq b) in * by exact Pb. replace (a * a - b * b)%R with ((a + b) * (a - b))%R by ring.
      rewrite Rabs_mult, (Rabs_pos_eq (a + b)) by lra. apply Rmult_le_compat_r; [apply Rabs_pos|lra].
    - rewrite (Rabs_left b) in * by exact Pb. rewrite (Rabs_pos_eq (a - b)) by lra.
      replace (a * a - b * - b)%R with (a * a + (- b) * (- b))%R by ring.
      assert (a * a <= B * a)%R by (apply Rmult_le_compat_r; lra). assert ((- b) * (- b) <= B * (- b))%R by (apply Rmult_le_compat_r; lra).
      assert (0 <= a * a)%R by (apply Rmult_le_pos; lra). assert (0 <= (- b) * (- b))%R by (apply Rmult_le_pos; lra).
      assert (0 <= B * a)%R by (apply Rmult_le_pos; lra). assert (0 <= B * - b)%R by (apply Rmult_le_pos; lra).
      rewrite Rabs_pos_eq by lra. lra. }
  intros a b B Ha Hb. destruct (Rle_or_lt 0 a) as [Pa|Pa]; [apply P; assumption|].
  specialize (P (- a)%R (- b)%R B ltac:(lra)). rewrite !Rabs_Ropp in P. specialize (P Ha Hb).
  replace (- a * Rabs a - - b * Rabs b)%R with (- (a * Rabs a - b * Rabs b))%R in P by ring.
  replace (- a - - b)%R with (- (a - b))%R in P by ring. rewrite !Rabs_Ropp in P. exact P.
Qed.

Lemma pol_lip : forall a b, (Rabs a <= 1.1)%R -> (Rabs b <= 1.1)%R -> (Rabs (pol a - pol b) <= 1.271 * Rabs (a - b))%R.
Proof.
  intros a b Ha Hb. unfold pol.
  replace (a + 15099494 / 67108864 * a * (Rabs a - 1) - (b + 15099494 / 67108864 * b * (Rabs b - 1)))%R with
    ((1 - 15099494 / 67108864) * (a - b) + 15099494 / 67108864 * (a * Rabs a - b * Rabs b))%R by ring.
  eapply Rle_trans; [apply Rabs_triang|]. rewrite !Rabs_mult, (Rabs_pos_eq (1 - _)), (Rabs_pos_eq (15099494 / 67108864)) by lra.
  pose proof (sqabs_diff a b 1.1 Ha Hb). pose proof (Rabs_pos (a - b)). lra.
Qed.

Lemma yy_lip : forall a b, (Rabs a <= 0.53)%R -> (Rabs b <= 0.53)%R -> (Rabs (yy a - yy b) <= 9 * Rabs (a - b))%R.
Proof.
  assert (P : forall a b, (0 <= a)%R -> (Rabs a <= 0.53)%R -> (Rabs b <= 0.53)%R -> (Rabs (yy a - yy b) <= 9 * Rabs (a - b))%R).
  { intros a b Pa Ha Hb. unfold yy. rewrite (Rabs_pos_eq a) in * by exact Pa. destruct (Rle_or_lt 0 b) as [Pb|Pb].
    - rewrite (Rabs_pos_eq b) in * by exact Pb.
      replace (a * (16 * (a - / 2)) - b * (16 * (b - / 2)))%R with ((16 * (a + b - / 2)) * (a - b))%R by field.
      rewrite Rabs_mult. apply Rmult_le_compat_r; [apply Rabs_pos|]. apply Rabs_le. lra.
    - rewrite (Rabs_left b) in * by exact Pb. rewrite (Rabs_pos_eq (a - b)) by lra.
      assert (0 <= a * a)%R by (apply Rmult_le_pos; lra). assert (0 <= (- b) * (- b))%R by (apply Rmult_le_pos; lra).
      assert (a * a <= 0.53 * a)%R by (apply Rmult_le_compat_r; lra). assert ((- b) * (- b) <= 0.53 * (- b))%R by (apply Rmult_le_compat_r; lra).
      apply Rabs_le. lra. }
  intros a b Ha Hb. destruct (Rle_or_lt 0 a) as [Pa|Pa]; [apply P; assumption|].
  specialize (P (- a)%R (- b)%R ltac:(lra)). rewrite !Rabs_Ropp, !yy_odd in P. specialize (P Ha Hb).
  replace (- yy a - - yy b)%R with (- (yy a - yy b))%R in P by ring.
  replace (- a - - b)%R with (- (a - b))%R in P by ring. rewrite !Rabs_Ropp in P. exact P.
Qed.

Lemma yy_bound : forall r, (Rabs r <= 0.53)%R -> (Rabs (yy r) <= 1.1)%R.
Proof.
  intros r H. unfold yy. rewrite Rabs_mult. set (s := Rabs r) in *. pose proof (Rabs_pos r) as P. fold s in P.
  rewrite (Rabs_mult 16), (Rabs_pos_eq 16) by lra.
  destruct (Rle_or_lt s (/ 2)) as [L|L].
  - rewrite Rabs_left1 by lra. pose proof (Rle_0_sqr (s - / 4)) as Q. unfold Rsqr in Q. lra.
  - rewrite Rabs_pos_eq by lra. assert (s * (s - / 2) <= 0.53 * 0.03)%R by (apply Rmult_le_compat; lra). lra.
Qed.

Lemma par_lip : forall a b, (Rabs a <= 0.53)%R -> (Rabs b <= 0.53)%R -> (Rabs (par a - par b) <= 12 * Rabs (a - b))%R.
Proof.
  intros a b Ha Hb. rewrite !par_pol. pose proof (pol_lip _ _ (yy_bound a Ha) (yy_bound b Hb)). pose proof (yy_lip a b Ha Hb).
  pose proof (Rabs_pos (a - b)). lra.
Qed.

Lemma par_odd : forall r, par (- r) = (- par r)%R.
Proof. intros r. rewrite !par_pol, yy_odd, pol_odd. reflexivity. Qed.

(** 1/2 - r and r give the same value, up to the small overlap at the ends of the period. *)
Lemma par_mirror : forall r t, (0 <= t <= 0.03)%R -> (- t <= r <= / 2 + t)%R -> (Rabs (par (/ 2 - r) - par r) <= 1.3 * t)%R.
Proof.
  intros r t T H.
  assert (Ba : (Rabs (/ 2 - r) <= 0.53)%R) by (apply Rabs_le; lra). assert (Bb : (Rabs r <= 0.53)%R) by (apply Rabs_le; lra).
  rewrite !par_pol. eapply Rle_trans; [apply (pol_lip _ _ (yy_bound _ Ba) (yy_bound _ Bb))|].
  assert (Y : (Rabs (yy (/ 2 - r) - yy r) <= 32 * (t * t))%R).
  { unfold yy. destruct (Rle_or_lt 0 r) as [P|P].
    - rewrite (Rabs_pos_eq r) by exact P. destruct (Rle_or_lt r (/ 2)) as [Q|Q].
      + rewrite (Rabs_pos_eq (/ 2 - r)) by lra. replace (_ - _)%R with 0%R by field. rewrite Rabs_R0. pose proof (Rle_0_sqr t) as K. unfold Rsqr in K. lra.
      + rewrite (Rabs_left (/ 2 - r)) by lra. set (s := (r - / 2)%R).
        replace (_ - _)%R with (- (32 * (s * s)))%R by (unfold s; field). rewrite Rabs_Ropp, Rabs_pos_eq.
        * assert (s * s <= t * t)%R by (unfold s; apply Rmult_le_compat; lra). lra.
        * pose proof (Rle_0_sqr s) as K. unfold Rsqr in K. lra.
    - rewrite (Rabs_left r), (Rabs_pos_eq (/ 2 - r)) by lra.
      replace (_ - _)%R with (32 * ((- r) * (- r)))%R by field. rewrite Rabs_pos_eq.
      + assert ((- r) * (- r) <= t * t)%R by (apply Rmult_le_compat; lra). lra.
      + pose proof (Rle_0_sqr (- r)) as K. unfold Rsqr in K. lra. }
  assert (t * t <= 0.03 * t)%R by (apply Rmult_le_compat_r; lra). lra.
Qed.

(** The reduced argument, with the overlap at the ends of the period bounded. *)
Lemma cos_reduce2 : forall {E : Env} x, fin x -> (Rabs (val x) <= 524288)%R ->
  exists n : Z, fin (cos_red x) /\ (Rabs (val (cos_red x)) <= / 2 + (0.000000016 * Rabs (val x) + 0.00000005))%R /\
    (Rabs (val x / (2 * PI) - / 4 - IZR n - val (cos_red x)) <= 0.000000016 * Rabs (val x) + 0.00000005)%R.
Proof.
  intros E x Fx Hx. destruct (inv2pi_val) as [Fk Vk]. destruct c_0_25_val as [Fq Vq].
  unfold cos_red. set (x1 := fmul x (fdiv c_FRAC_1_PI c_2)).
  pose proof (Rabs_pos (val x)) as P0. pose proof eta_tiny as ET.
  assert (X1 : fin x1 /\ (Rabs (val x1 - val x * (10680707 / 67108864)) <= u24 * (Rabs (val x) * 0.15915494) + eta)%R).
  { destruct (fmul_R x (fdiv c_FRAC_1_PI c_2) Fx Fk) as [A B].
    - apply (small_lt_128 20); [lia|]. rewrite Vk, Rabs_mult, (Rabs_pos_eq (10680707 / 67108864)) by lra.
      change (bpow radix2 20) with 1048576%R. lra.
    - split; [exact A|]. unfold x1. rewrite B, Vk. pose proof (rnd_err_mixed (val x * (10680707 / 67108864))) as R.
      rewrite u24_eq in R. fold eta in R. rewrite (Rabs_mult (val x)), (Rabs_pos_eq (10680707 / 67108864)) in R by lra.
      unfold u24 in *. lra. }
  destruct X1 as [F1 E1].
  assert (B1 : (Rabs (val x1) <= 0.15915495 * Rabs (val x) + eta)%R).
  { replace (val x1) with (val x * (10680707 / 67108864) + (val x1 - val x * (10680707 / 67108864)))%R by ring.
    eapply Rle_trans; [apply Rabs_triang|]. rewrite Rabs_mult, (Rabs_pos_eq (10680707 / 67108864)) by lra.
    unfold u24 in *. lra. }
  assert (S1 : (Rabs (val x1 + / 4) <= 0.15915495 * Rabs (val x) + eta + / 4)%R).
  { eapply Rle_trans; [apply Rabs_triang|]. rewrite (Rabs_pos_eq (/ 4)) by lra. lra. }
  destruct (fadd_R x1 c_0_25 F1 Fq) as [F2 V2].
  { apply (small_lt_128 20); [lia|]. rewrite Vq. change (bpow radix2 20) with 1048576%R. lra. }
  rewrite Vq in V2. pose proof (rnd_err_mixed (val x1 + / 4)) as E2. rewrite u24_eq in E2. fold eta in E2.
  set (t := fadd x1 c_0_25) in *. rewrite <- V2 in E2.
  assert (E2' : (Rabs (val t - (val x1 + / 4)) <= 0.0000000096 * Rabs (val x) + 0.000000016)%R) by (unfold u24 in *; lra).
  apply Rabs_le_inv in B1. apply Rabs_le_inv in E2'.
  destruct (floor_exact t F2) as [F3 V3].
  { apply Rabs_le. change (bpow radix2 31) with 2147483648%R. lra. }
  set (n := Zfloor (val t)) in *. pose proof (Zfloor_lb (val t)) as N1. pose proof (Zfloor_ub (val t)) as N2. fold n in N1, N2.
  assert (Nb : - 170000 <= n <= 170000).
  { split; apply le_IZR; [apply Rle_trans with (val t - 1)%R|]; lra. }
  assert (S : fin (fadd c_0_25 (F32_floor t)) /\ val (fadd c_0_25 (F32_floor t)) = (/ 4 + IZR n)%R).
  { assert (Hn : (-170000 <= IZR n <= 170000)%R) by (split; apply IZR_le; lia).
    destruct (fadd_R c_0_25 (F32_floor t) Fq F3) as [A B].
    - apply (small_lt_128 20); [lia|]. change (bpow radix2 20) with 1048576%R. rewrite Vq, V3. apply Rabs_le. lra.
    - split; [exact A|]. rewrite B, Vq, V3.
      replace (/ 4 + IZR n)%R with (IZR (4 * n + 1) * bpow radix2 (-2))%R.
      + apply rnd_fmt, fmt_scaled; lia.
      + rewrite plus_IZR, mult_IZR. bpow_lit. lra. }
  destruct S as [F4 V4].
  destruct (fsub_e 0 x1 (fadd c_0_25 (F32_floor t)) F1 F4 ltac:(lia)) as (e5 & F5 & V5 & E5).
  { rewrite V4. change (bpow radix2 0) with 1%R. apply Rabs_le. lra. }
  change (bpow radix2 (0 - 25)) with (/ 33554432)%R in E5. rewrite V4 in V5.
  pose proof (Rabs_le_inv _ _ E5) as E5'.
  exists n. split; [exact F5|]. rewrite V5. split; [apply Rabs_le; lra|].
  replace (val x / (2 * PI) - / 4 - IZR n - (val x1 - (/ 4 + IZR n) + e5))%R with
    (val x * (/ PI / 2 - 10680707 / 67108864) - (val x1 - val x * (10680707 / 67108864)) - e5)%R.
  2:{ field. apply PI_neq0. }
  assert (K : (Rabs (val x * (/ PI / 2 - 10680707 / 67108864)) <= Rabs (val x) * 0.00000000643)%R).
  { rewrite Rabs_mult. apply Rmult_le_compat_l; [exact P0|]. pose proof inv_PI_bounds. apply Rabs_le. lra. }
  apply Rabs_le_inv in K. apply Rabs_le_inv in E1. unfold u24 in *. apply Rabs_le. lra.
Qed.

Lemma cos_par_form : forall {E : Env} x, fin x -> (Rabs (val x) <= 524288)%R ->
  exists n r, fin (F32_cos x) /\ (Rabs r <= / 2 + (0.000000016 * Rabs (val x) + 0.00000005))%R /\
    (Rabs (val x / (2 * PI) - / 4 - IZR n - r) <= 0.000000016 * Rabs (val x) + 0.00000005)%R /\
    (Rabs (val (F32_cos x) - par r) <= 60 * u24)%R.
Proof.
  intros E x Fx Hx. destruct (cos_reduce2 x Fx Hx) as (n & Fr & Hr & D). exists n, (val (cos_red x)).
  destruct (cos_reduce x Fx ltac:(lra)) as (_ & _ & Hr' & _).
  destruct (cos_poly (cos_red x) Fr Hr') as [Fz Dz]. rewrite cos_split. split; [exact Fz|]. split; [exact Hr|]. split; [exact D|exact Dz].
Qed.

Lemma cos_even : forall {E : Env} x, fin x -> (Rabs (val x) <= 524288)%R ->
  (Rabs (val (F32_cos (fneg x)) - val (F32_cos x)) <= 0.00001 + 0.0000005 * Rabs (val x))%R.
Proof.
  intros E x Fx Hx. destruct (cos_par_form x Fx Hx) as (n1 & r1 & F1 & H1 & D1 & Z1).
  destruct (cos_par_form (fneg x) (fneg_fin x Fx)) as (n2 & r2 & F2 & H2 & D2 & Z2); [rewrite fneg_val, Rabs_Ropp; exact Hx|].
  rewrite !fneg_val, !Rabs_Ropp in *. pose proof (Rabs_pos (val x)) as P0.
  set (e := (0.000000016 * Rabs (val x) + 0.00000005)%R) in *.
  assert (Be : (0 <= e <= 0.0084)%R) by (unfold e; lra).
  apply Rabs_le_inv in D1, D2, H1, H2. 
  set (q := (val x / (2 * PI))%R) in *. replace (- val x / (2 * PI))%R with (- q)%R in D2 by (unfold q; field; apply PI_neq0).
  assert (N : (-2 < n1 + n2 < 1)).
  { assert (-2 < IZR (n1 + n2) < 1)%R by (rewrite plus_IZR; lra). split; apply lt_IZR; lra. }
  assert (C : n1 + n2 = -1 \/ n1 + n2 = 0) by lia.
  assert (G : (Rabs (par r2 - par r1) <= 30 * e)%R).
  { destruct C as [C|C]; apply (f_equal IZR) in C; rewrite plus_IZR in C.
    - pose proof (par_lip r2 (/ 2 - r1) ltac:(apply Rabs_le; lra) ltac:(apply Rabs_le; lra)) as L.
      assert (K : (Rabs (r2 - (/ 2 - r1)) <= 2 * e)%R) by (apply Rabs_le; lra).
      pose proof (par_mirror r1 (3 * e) ltac:(lra) ltac:(lra)) as M.
      replace (par r2 - par r1)%R with ((par r2 - par (/ 2 - r1)) + (par (/ 2 - r1) - par r1))%R by ring.
      eapply Rle_trans; [apply Rabs_triang|]. lra.
    - pose proof (par_lip (- r2) (/ 2 - - r1) ltac:(apply Rabs_le; lra) ltac:(apply Rabs_le; lra)) as L.
      assert (K : (Rabs (- r2 - (/ 2 - - r1)) <= 2 * e)%R) by (apply Rabs_le; lra).
      pose proof (par_mirror (- r1) (3 * e) ltac:(lra) ltac:(lra)) as M.
      rewrite !par_odd in L, M.
      replace (par r2 - par r1)%R with (- ((- par r2 - par (/ 2 - - r1)) + (par (/ 2 - - r1) - - par r1)))%R by ring.
      rewrite Rabs_Ropp. eapply Rle_trans; [apply Rabs_triang|]. lra. }
  apply Rabs_le_inv in Z1, Z2, G. unfold e, u24 in *. apply Rabs_le. lra.
Qed.

(** r and 1 - r near the end of the period: both values are small and nearly opposite. *)
Lemma par_end : forall r t, (0 <= t <= 0.03)%R -> (/ 2 - t <= r <= / 2 + t)%R -> (Rabs (par (1 - r) + par r) <= 1.3 * t)%R.
Proof.
  intros r t T H.
  assert (Ba : (Rabs (1 - r) <= 0.53)%R) by (apply Rabs_le; lra). assert (Bb : (Rabs r <= 0.53)%R) by (apply Rabs_le; lra).
  rewrite !par_pol. replace (pol (yy r)) with (- pol (- yy r))%R by (rewrite pol_odd; ring).
  change (Rabs (pol (yy (1 - r)) - pol (- yy r)) <= 1.3 * t)%R.
  eapply Rle_trans; [apply pol_lip; [apply yy_bound; exact Ba|rewrite Rabs_Ropp; apply yy_bound; exact Bb]|].
  assert (Y : (Rabs (yy (1 - r) - - yy r) <= 32 * (t * t))%R).
  { unfold yy. rewrite (Rabs_pos_eq r), (Rabs_pos_eq (1 - r)) by lra. set (s := (r - / 2)%R).
    replace (_ - _)%R with (32 * (s * s))%R by (unfold s; field). rewrite Rabs_mult, (Rabs_pos_eq 32), Rabs_mult by lra.
    assert (Rabs s <= t)%R by (apply Rabs_le; unfold s; lra).
    assert (Rabs s * Rabs s <= t * t)%R by (apply Rmult_le_compat; trivial; apply Rabs_pos). lra. }
  assert (t * t <= 0.03 * t)%R by (apply Rmult_le_compat_r; lra). lra.
Qed.

Lemma sin_arg : forall {E : Env} x, fin x -> (Rabs (val x) <= 500000)%R ->
  fin (fsub x (fdiv c_PI c_2)) /\ (Rabs (val (fsub x (fdiv c_PI c_2)) - (val x - 13176795 / 8388608)) <= u24 * (Rabs (val x) + 1.5708))%R.
Proof.
  intros E x Fx Hx. destruct halfpi_val as [Fh Vh]. pose proof (Rabs_pos (val x)) as P0.
  assert (T : tr (fsub x (fdiv c_PI c_2)) (val x - 13176795 / 8388608) (Rabs (val x) + 1.5708) (u24 * (Rabs (val x) + 1.5708))).
  { assert (b127 : (2000000 <= bpow radix2 127)%R).
    { apply Rle_trans with (bpow radix2 21); [change (bpow radix2 21) with 2097152%R; lra|apply bpow_le; lia]. }
    assert (C : Rabs (13176795 / 8388608) = (13176795 / 8388608)%R) by (apply Rabs_pos_eq; lra).
    pose proof eta_tiny.
    eapply tr_weaken; [eapply tr_sub; [apply (tr_in x (Rabs (val x))); [exact Fx|lra]|apply tr_const; split; [exact Fh|exact Vh]|]| |].
    - rewrite C. lra.
    - rewrite C. lra.
    - rewrite C. unfold u24; lra. }
  destruct T as (F & _ & D). split; assumption.
Qed.

Lemma sin_odd : forall {E : Env} x, fin x -> (Rabs (val x) <= 200000)%R ->
  (Rabs (val (F32_sin (fneg x)) + val (F32_sin x)) <= 0.000011 + 0.0000008 * Rabs (val x))%R.
Proof.
  intros E x Fx Hx. pose proof (Rabs_pos (val x)) as P0. unfold F32_sin.
  destruct (sin_arg x Fx ltac:(lra)) as [Fa Da]. 
  destruct (sin_arg (fneg x) (fneg_fin x Fx)) as [Fb Db]; [rewrite fneg_val, Rabs_Ropp; lra|].
  rewrite !fneg_val, !Rabs_Ropp in Db.
  set (a := fsub x _) in *. set (b := fsub (fneg x) _) in *.
  assert (Ba : (Rabs (val a) <= 1.0000001 * Rabs (val x) + 1.571)%R).
  { replace (val a) with ((val a - (val x - 13176795 / 8388608)) + (val x - 13176795 / 8388608))%R by ring.
    eapply Rle_trans; [apply Rabs_triang|]. assert (K : (Rabs (val x - 13176795 / 8388608) <= Rabs (val x) + 13176795 / 8388608)%R).
    { eapply Rle_trans; [apply Rabs_triang|]. rewrite Rabs_Ropp, (Rabs_pos_eq (13176795 / 8388608)) by lra. lra. }
    unfold u24 in *. lra. }
  assert (Bb : (Rabs (val b) <= 1.0000001 * Rabs (val x) + 1.571)%R).
  { replace (val b) with ((val b - (- val x - 13176795 / 8388608)) + (- val x - 13176795 / 8388608))%R by ring.
    eapply Rle_trans; [apply Rabs_triang|]. assert (K : (Rabs (- val x - 13176795 / 8388608) <= Rabs (val x) + 13176795 / 8388608)%R).
    { eapply Rle_trans; [apply Rabs_triang|]. rewrite !Rabs_Ropp, (Rabs_pos_eq (13176795 / 8388608)) by lra. lra. }
    unfold u24 in *. lra. }
  destruct (cos_par_form a Fa ltac:(lra)) as (n1 & r1 & F1 & H1 & D1 & Z1).
  destruct (cos_par_form b Fb ltac:(lra)) as (n2 & r2 & F2 & H2 & D2 & Z2).
  set (e := (0.0000000161 * Rabs (val x) + 0.000000076)%R).
  assert (Be : (0 <= e <= 0.0033)%R) by (unfold e; lra).
  set (d := (0.00000001898 * Rabs (val x) + 0.000000045)%R).
  assert (Bd : (0 <= d <= 0.0039)%R) by (unfold d; lra).
  assert (S : (Rabs (val a / (2 * PI) + val b / (2 * PI) + / 2) <= d)%R).
  { replace (val a / (2 * PI) + val b / (2 * PI) + / 2)%R with ((val a + val b + PI) * (/ PI / 2))%R by (field; apply PI_neq0).
    pose proof PI_bounds as PB. pose proof inv_PI_bounds as IB. rewrite Rabs_mult, (Rabs_pos_eq (/ PI / 2)) by lra.
    assert (K : (Rabs (val a + val b + PI) <= 0.00000011921 * Rabs (val x) + 0.000000276)%R).
    { apply Rabs_le_inv in Da, Db. unfold u24 in *. apply Rabs_le. lra. }
    apply Rle_trans with ((0.00000011921 * Rabs (val x) + 0.000000276) * 0.1591549432)%R; [|unfold d; lra].
    apply Rmult_le_compat; try lra. apply Rabs_pos. }
  assert (D1' : (Rabs (val a / (2 * PI) - / 4 - IZR n1 - r1) <= e)%R) by (unfold e; lra).
  assert (D2' : (Rabs (val b / (2 * PI) - / 4 - IZR n2 - r2) <= e)%R) by (unfold e; lra).
  assert (H1' : (Rabs r1 <= / 2 + e)%R) by (unfold e; lra). assert (H2' : (Rabs r2 <= / 2 + e)%R) by (unfold e; lra).
  apply Rabs_le_inv in D1', D2', H1', H2', S.
  set (qa := (val a / (2 * PI))%R) in *. set (qb := (val b / (2 * PI))%R) in *.
  assert (N : (-3 < n1 + n2 < 1)).
  { assert (-3 < IZR (n1 + n2) < 1)%R by (rewrite plus_IZR; lra). split; apply lt_IZR; lra. }
  assert (C : n1 + n2 = -2 \/ n1 + n2 = -1 \/ n1 + n2 = 0) by lia.
  assert (G : (Rabs (par r2 + par r1) <= 12 * (2 * e + d) + 1.3 * (3 * e + d))%R).
  { destruct C as [C|[C|C]]; apply (f_equal IZR) in C; rewrite plus_IZR in C.
    - pose proof (par_lip r2 (1 - r1) ltac:(apply Rabs_le; lra) ltac:(apply Rabs_le; lra)) as L.
      assert (K : (Rabs (r2 - (1 - r1)) <= 2 * e + d)%R) by (apply Rabs_le; lra).
      pose proof (par_end r1 (3 * e + d) ltac:(lra) ltac:(lra)) as M.
      replace (par r2 + par r1)%R with ((par r2 - par (1 - r1)) + (par (1 - r1) + par r1))%R by ring.
      eapply Rle_trans; [apply Rabs_triang|]. lra.
    - pose proof (par_lip r2 (- r1) ltac:(apply Rabs_le; lra) ltac:(apply Rabs_le; lra)) as L.
      assert (K : (Rabs (r2 - - r1) <= 2 * e + d)%R) by (apply Rabs_le; lra).
      rewrite par_odd in L. replace (par r2 - - par r1)%R with (par r2 + par r1)%R in L by ring. lra.
    - pose proof (par_lip (- r2) (1 - - r1) ltac:(apply Rabs_le; lra) ltac:(apply Rabs_le; lra)) as L.
      assert (K : (Rabs (- r2 - (1 - - r1)) <= 2 * e + d)%R) by (apply Rabs_le; lra).
      pose proof (par_end (- r1) (3 * e + d) ltac:(lra) ltac:(lra)) as M.
      rewrite !par_odd in L, M.
      replace (par r2 + par r1)%R with (- ((- par r2 - par (1 - - r1)) + (par (1 - - r1) + - par r1)))%R by ring.
      rewrite Rabs_Ropp. eapply Rle_trans; [apply Rabs_triang|]. lra. }
  apply Rabs_le_inv in Z1, Z2, G. unfold d, e, u24 in *. apply Rabs_le. lra.
Qed.

(** Bit for bit the symmetries fail. *)
Lemma cos_even_bad : forall {E : Env}, exists x, fin x /\ F32_cos (fneg x) <> F32_cos x.
Proof.
  intros E. exists (from_bits 0x3A1EF56E). split; [reflexivity|]. intros H. apply (f_equal to_bits) in H. revert H.
  destruct E as [oc da k1 k2 k3 k4 k5 k6]. vm_compute. discriminate.
Qed.

Lemma sin_zero_bad : forall {E : Env}, exists x, val x = 0%R /\ F32_sin (fneg x) <> fneg (F32_sin x).
Proof.
  intros E. exists F32_ZERO. split; [reflexivity|]. intros H. apply (f_equal to_bits) in H. revert H.
  destruct E as [oc da k1 k2 k3 k4 k5 k6]. vm_compute. discriminate.
Qed.

Lemma tan_odd_bad : forall {E : Env}, exists x, fin x /\ (1.57 < val x < 1.571)%R /\
  fin (F32_tan x) /\ fin (F32_tan (fneg x)) /\ (100 < Rabs (val (F32_tan x) + val (F32_tan (fneg x))))%R.
Proof.
  intros E. exists (from_bits 0x3FC90EDF).
  assert (X : fin (from_bits 0x3FC90EDF) /\ val (from_bits 0x3FC90EDF) = (13176543 / 8388608)%R)
    by (split; [exact (proj1 (lit_val 0x3FC90EDF eq_refl))|lit 0x3FC90EDF; bpow_lit; lra]).
  assert (A : F32_tan (from_bits 0x3FC90EDF) = from_bits 0x4703B79B)
    by (apply to_bits_inj; destruct E as [oc da k1 k2 k3 k4 k5 k6]; vm_compute; reflexivity).
  assert (B : F32_tan (fneg (from_bits 0x3FC90EDF)) = from_bits 0xC70420FB)
    by (apply to_bits_inj; destruct E as [oc da k1 k2 k3 k4 k5 k6]; vm_compute; reflexivity).
  assert (VA : fin (from_bits 0x4703B79B) /\ val (from_bits 0x4703B79B) = (8632219 / 256)%R)
    by (split; [exact (proj1 (lit_val 0x4703B79B eq_refl))|lit 0x4703B79B; bpow_lit; lra]).
  assert (VB : fin (from_bits 0xC70420FB) /\ val (from_bits 0xC70420FB) = (- (8659195 / 256))%R)
    by (split; [exact (proj1 (lit_val 0xC70420FB eq_refl))|lit 0xC70420FB; bpow_lit; lra]).
  rewrite A, B. destruct X as [FX VX], VA as [FA VA], VB as [FB VB]. rewrite VX, VA, VB.
  split; [exact FX|]. split; [lra|]. split; [exact FA|]. split; [exact FB|]. rewrite Rabs_left; lra.
Qed.
