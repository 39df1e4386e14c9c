(** * NaN, infinities and edge inputs of the trigonometric functions *)

From Coq Require Import ZArith Reals Bool List Lia Lra.
From Flocq Require Import Core IEEE754.Binary IEEE754.Bits.
From Verif Require Import Base Spec Float F32Lemmas BitLemmas P_Trunc P_Floor Literals ErrLemmas P_RoundEdge
  NanLemmas P_Euclid P_Roots P_InvSqrt P_SumSq P_Stats RealBounds RealBounds2 P_Quat P_Trig P_Atan P_Atan2.
Open Scope Z_scope.

Lemma cos_nan : forall {E : Env} x, nan x -> nan (F32_cos x).
Proof.
  intros E x H. unfold F32_cos. cbv zeta.
  assert (A : nan (fmul x (fdiv c_FRAC_1_PI c_2))) by (apply fmul_nan; left; exact H).
  set (a := fmul x (fdiv c_FRAC_1_PI c_2)) in *. clearbody a.
  assert (B : nan (fsub a (fadd c_0_25 (F32_floor (fadd a c_0_25))))) by (apply fsub_nan; left; exact A).
  set (b := fsub a (fadd c_0_25 (F32_floor (fadd a c_0_25)))) in *. clearbody b.
  assert (C : nan (fmul b (fmul c_16 (fsub (F32_abs b) c_0_5)))) by (apply fmul_nan; left; exact B).
  apply fadd_nan. left. exact C.
Qed.

Lemma sin_nan : forall {E : Env} x, nan x -> nan (F32_sin x).
Proof. intros E x H. unfold F32_sin. apply cos_nan, fsub_nan. left. exact H. Qed.

Lemma tan_nan : forall {E : Env} x, nan x -> nan (F32_tan x).
Proof. intros E x H. unfold F32_tan. apply fdiv_nan. left. apply sin_nan, H. Qed.

Lemma trig_inf : forall {E : Env} s,
  F32_cos (f32_inf s) = f32_inf s /\ F32_sin (f32_inf s) = f32_inf s /\ nan (F32_tan (f32_inf s)).
Proof.
  intros E s.
  assert (A : F32_cos (f32_inf s) = f32_inf s) by (destruct s; apply to_bits_inj; vm_compute; reflexivity).
  assert (B : F32_sin (f32_inf s) = f32_inf s) by (destruct s; apply to_bits_inj; vm_compute; reflexivity).
  split; [exact A|]. split; [exact B|]. unfold F32_tan. rewrite A, B.
  destruct s; apply build_nan_nan.
Qed.

Lemma atan_norm_bounded : forall {E : Env} x, is_nan (F32_atan_norm x) = false ->
  fin x /\ (Rabs (val x) < bpow radix2 64)%R.
Proof.
  intros E x H. destruct (is_finite x) eqn:F.
  - split; [exact F|]. apply Rnot_le_lt. intros G. destruct (atan_overflow x (fun _ => G)) as [N _]. unfold nan in N. congruence.
  - exfalso. destruct (atan_overflow x) as [N _]; [intros C; unfold fin in C; congruence|]. unfold nan in N. congruence.
Qed.

(** ** atan2 *)

Lemma fadd_inf_nonneg : forall {E : Env} x, is_nan x = false -> sign_bit x = false -> fadd x (f32_inf false) = f32_inf false.
Proof. intros E x N S. destruct x as [s|s|s pl H|s m e H]; try discriminate N; try reflexivity. destruct s; [discriminate S|reflexivity]. Qed.

Lemma fadd_inf_inf_l : forall {E : Env} x, is_nan x = false -> sign_bit x = false -> fadd (f32_inf false) x = f32_inf false.
Proof. intros E x N S. destruct x as [s|s|s pl H|s m e H]; try discriminate N; try reflexivity. destruct s; [discriminate S|reflexivity]. Qed.

Lemma atan2_of_nan : forall {E : Env} y x, nan (quot2 y x) -> nan (F32_atan2_norm y x) /\ nan (F32_atan2 y x).
Proof.
  intros E y x H.
  assert (A : nan (F32_atan2_norm y x)).
  { rewrite atan2_norm_eq. apply fadd_nan. right. unfold nan. rewrite nan_with_sign. exact H. }
  split; [exact A|]. unfold F32_atan2. cbv zeta. apply fmul_nan. right.
  destruct (fgt _ _); [apply fsub_nan; left|]; exact A.
Qed.

Lemma atan2_origin : forall {E : Env} s t, nan (F32_atan2_norm (f32_zero s) (f32_zero t)) /\ nan (F32_atan2 (f32_zero s) (f32_zero t)).
Proof.
  intros E s t. apply atan2_of_nan. unfold quot2, quadf.
  assert (A : fmul (f32_zero t) (f32_zero t) = f32_zero false) by (destruct t; apply to_bits_inj; vm_compute; reflexivity).
  assert (B : F32_abs (fmul (fmul c_B (f32_zero t)) (f32_zero s)) = f32_zero false) by (destruct s, t; apply to_bits_inj; vm_compute; reflexivity).
  assert (C : fmul (f32_zero s) (f32_zero s) = f32_zero false) by (destruct s; apply to_bits_inj; vm_compute; reflexivity).
  rewrite A, B, C. apply build_nan_nan.
Qed.

(** Whatever the other argument: NaN once y*y overflows, and for a NaN or infinite argument. *)
Definition nan_inf (x : f32) : Prop := nan x \/ x = f32_inf false.

Lemma fadd_nan_inf : forall {E : Env} x y, nonneg x -> nonneg y -> nan_inf x \/ nan_inf y -> nan_inf (fadd x y).
Proof.
  intros E x y Hx Hy H. destruct (is_nan x) eqn:Nx; [left; apply fadd_nan; left; exact Nx|].
  destruct (is_nan y) eqn:Ny; [left; apply fadd_nan; right; exact Ny|].
  destruct Hx as [Hx|Hx]; [unfold nan in Hx; congruence|]. destruct Hy as [Hy|Hy]; [unfold nan in Hy; congruence|].
  right. destruct H as [[H|H]|[H|H]]; try (unfold nan in H; congruence); subst.
  - apply fadd_inf_inf_l; assumption.
  - apply fadd_inf_nonneg; assumption.
Qed.

Lemma quadf_nan : forall {E : Env} a b c, nonneg a -> nonneg b -> nonneg c -> nan_inf b \/ nan_inf c -> nan (quadf a b c).
Proof.
  intros E a b c Ha Hb Hc H. unfold quadf. pose proof (fadd_nan_inf b c Hb Hc H) as N.
  pose proof (fadd_nonneg b c Hb Hc) as Hn. pose proof (fadd_nonneg a b Ha Hb) as Hab.
  set (n := fadd b c) in *. pose proof (fadd_nan_inf (fadd a b) n Hab Hn (or_intror N)) as D.
  set (d := fadd (fadd a b) n) in *. clearbody n d.
  destruct N as [N|N]; [apply fdiv_nan; left; exact N|]. destruct D as [D|D]; [apply fdiv_nan; right; exact D|].
  subst. apply build_nan_nan.
Qed.

Lemma sq_over : forall {E : Env} y, (fin y -> (bpow radix2 64 <= Rabs (val y))%R) -> nan_inf (fmul y y).
Proof.
  intros E x H. destruct (is_nan x) eqn:N; [left; apply fmul_nan; left; exact N|]. right. destruct (is_finite x) eqn:F.
  - rewrite fmul_over; trivial; [rewrite xorb_nilpotent; reflexivity|]. rewrite Rabs_mult.
    specialize (H F). replace (bpow radix2 128) with (bpow radix2 64 * bpow radix2 64)%R by (rewrite <- bpow_plus; reflexivity).
    apply Rmult_le_compat; trivial; apply bpow_ge_0.
  - destruct x as [s|s|s p K|s m e K]; try discriminate. destruct s; reflexivity.
Qed.

Lemma atan2_overflow : forall {E : Env} y x,
  is_finite x = false \/ (fin y -> (bpow radix2 64 <= Rabs (val y))%R) ->
  nan (F32_atan2_norm y x) /\ nan (F32_atan2 y x).
Proof.
  intros E y x H. apply atan2_of_nan. unfold quot2. apply quadf_nan; try apply sq_nonneg; try apply abs_nonneg.
  destruct H as [H|H]; [|right; apply sq_over; exact H]. left.
  destruct (is_nan x) eqn:N; [left; apply abs_nan, fmul_nan; left; apply fmul_nan; right; exact N|].
  destruct x as [s|s|s p K|s m e K]; try discriminate. clear.
  assert (A : fmul c_B (f32_inf s) = f32_inf s) by (destruct s; reflexivity).
  change (B754_infinity s) with (f32_inf s). rewrite A. clear A.
  destruct y as [t|t|t p K|t m e K].
  - left. apply abs_nan. destruct s, t; apply build_nan_nan.
  - right. destruct s, t; reflexivity.
  - left. apply abs_nan, fmul_nan. right. reflexivity.
  - right. destruct s, t; reflexivity.
Qed.

(** y just below the negative x axis: the result is +pi, not -pi. *)
Lemma atan2_axis_wrong : forall {E : Env}, exists y x, fin y /\ fin x /\ (val y < 0)%R /\ val x = (-1)%R /\
  F32_atan2 y x = c_PI.
Proof.
  intros E. exists (from_bits 0xB3000000), (from_bits 0xBF800000).
  assert (R : F32_atan2 (from_bits 0xB3000000) (from_bits 0xBF800000) = c_PI) by (apply to_bits_inj; vm_compute; reflexivity).
  rewrite R. lit 0xB3000000. lit 0xBF800000. repeat split; bpow_lit; lra.
Qed.

(** The normalized angle, documented as [0, 4), can be 4. *)
Lemma atan2_norm_4 : forall {E : Env}, exists y x, fin y /\ fin x /\ (val y < 0)%R /\ val x = 1%R /\
  fin (F32_atan2_norm y x) /\ val (F32_atan2_norm y x) = 4%R.
Proof.
  intros E. exists (from_bits 0xB3000000), (from_bits 0x3F800000).
  assert (R : F32_atan2_norm (from_bits 0xB3000000) (from_bits 0x3F800000) = from_bits 0x40800000) by (apply to_bits_inj; vm_compute; reflexivity).
  rewrite R. lit 0xB3000000. lit 0x3F800000. lit 0x40800000. repeat split; bpow_lit; lra.
Qed.

(** atan2_norm(y, x) for moderate inputs. *)
Lemma atan2_small_nan : forall {E : Env}, exists y x, fin y /\ fin x /\ (0 < val y)%R /\ (0 < val x)%R /\ nan (F32_atan2 y x).
Proof.
  intros E. exists (from_bits 1), (from_bits 1). lit 1. split; [reflexivity|]. split; [reflexivity|].
  split; [bpow_lit; lra|]. split; [bpow_lit; lra|]. apply atan2_of_nan. unfold quot2, quadf.
  assert (A : fmul (from_bits 1) (from_bits 1) = f32_zero false) by (apply to_bits_inj; vm_compute; reflexivity).
  assert (B : F32_abs (fmul (fmul c_B (from_bits 1)) (from_bits 1)) = f32_zero false) by (apply to_bits_inj; vm_compute; reflexivity).
  rewrite A, B. apply build_nan_nan.
Qed.

(** ** Combined statements *)

Lemma cos_002 : forall {E : Env} x, fin x -> (Rabs (val x) <= 8192)%R ->
  fin (F32_cos x) /\ (Rabs (val (F32_cos x) - cos (val x)) <= 0.002)%R.
Proof. intros E x F H. destruct (cos_acc x F ltac:(lra)) as [A B]. split; [exact A|]. lra. Qed.

Lemma sin_002 : forall {E : Env} x, fin x -> (Rabs (val x) <= 4096)%R ->
  fin (F32_sin x) /\ (Rabs (val (F32_sin x) - sin (val x)) <= 0.002)%R.
Proof. intros E x F H. destruct (sin_acc x F ltac:(lra)) as [A B]. split; [exact A|]. lra. Qed.

Lemma cos_sin_bounded : forall {E : Env} x, fin x -> (Rabs (val x) <= 1048574)%R ->
  fin (F32_cos x) /\ (Rabs (val (F32_cos x)) <= 1)%R /\
  fin (F32_sin x) /\ (Rabs (val (F32_sin x)) <= 1)%R.
Proof.
  intros E x F H. destruct (cos_bounded x F ltac:(lra)) as [A B]. destruct (sin_bounded x F H) as [C D]. exact (conj A (conj B (conj C D))).
Qed.

Lemma trig_nan : forall {E : Env} x, nan x -> nan (F32_cos x) /\ nan (F32_sin x) /\ nan (F32_tan x).
Proof. intros E x H. split; [apply cos_nan, H|]. split; [apply sin_nan, H|apply tan_nan, H]. Qed.

Lemma sin_cos_pair : forall {E : Env} x, F32_sin_cos x = (F32_sin x, F32_cos x).
Proof. intros E x. unfold F32_sin_cos. reflexivity. Qed.

Lemma sin_cos_unit : forall {E : Env} x, fin x -> (Rabs (val x) <= 4096)%R ->
  let (s, c) := F32_sin_cos x in
  fin s /\ fin c /\ (Rabs (val s * val s + val c * val c - 1) <= 0.0067)%R.
Proof.
  intros E x F H. unfold F32_sin_cos. destruct (cos_sin_bounded x F ltac:(lra)) as (Fc & Bc & Fs & Bs).
  destruct (cos_acc x F ltac:(lra)) as [_ Dc]. destruct (sin_acc x F ltac:(lra)) as [_ Ds].
  split; [exact Fs|]. split; [exact Fc|].
  pose proof (COS_bound (val x)) as Tc. pose proof (SIN_bound (val x)) as Ts. pose proof (sin2_cos2 (val x)) as I. unfold Rsqr in I.
  set (s := val (F32_sin x)) in *. set (c := val (F32_cos x)) in *. set (S := sin (val x)) in *. set (C := cos (val x)) in *.
  replace (s * s + c * c - 1)%R with ((s - S) * (s + S) + (c - C) * (c + C))%R by lra.
  eapply Rle_trans; [apply Rabs_triang|]. rewrite !Rabs_mult. apply Rabs_le_inv in Bs. apply Rabs_le_inv in Bc.
  apply Rle_trans with (0.0017854 * 2 + 0.0015301 * 2)%R; [|lra].
  apply Rplus_le_compat; (apply Rmult_le_compat; [apply Rabs_pos|apply Rabs_pos|lra|apply Rabs_le; lra]).
Qed.

Lemma atan2_accuracy : forall {E : Env} y x rho theta, fin x -> fin y ->
  (Rabs (val x) <= bpow radix2 62)%R -> (Rabs (val y) <= bpow radix2 62)%R ->
  (bpow radix2 (-60) <= Rabs (val x) \/ bpow radix2 (-60) <= Rabs (val y))%R ->
  (0 < rho)%R -> (- PI < theta <= PI)%R -> val x = (rho * cos theta)%R -> val y = (rho * sin theta)%R ->
  let r := F32_atan2 y x in
  fin r /\
  ((Rabs (val r - theta) <= 0.00284)%R \/
   (val x < 0 /\ val y < 0 /\ Rabs (val y) < / 131072 * Rabs (val x) /\ Rabs (val r - (theta + 2 * PI)) <= 0.00284)%R).
Proof. intros E y x rho theta Fx Fy HX HY HL. apply atan2_acc; [exact Fx|exact Fy|]. exact (conj HX (conj HY HL)). Qed.

Lemma atan2_accuracy_plain : forall {E : Env} y x rho theta, fin x -> fin y ->
  (Rabs (val x) <= bpow radix2 62)%R -> (Rabs (val y) <= bpow radix2 62)%R ->
  (bpow radix2 (-60) <= Rabs (val x) \/ bpow radix2 (-60) <= Rabs (val y))%R ->
  (0 < rho)%R -> (- PI < theta <= PI)%R -> val x = (rho * cos theta)%R -> val y = (rho * sin theta)%R ->
  (0 <= val x \/ 0 <= val y \/ / 131072 * Rabs (val x) <= Rabs (val y))%R ->
  fin (F32_atan2 y x) /\ (Rabs (val (F32_atan2 y x) - theta) <= 0.00284)%R.
Proof.
  intros E y x rho theta Fx Fy HX HY HL Hr Ht Vx Vy HP.
  destruct (atan2_accuracy y x rho theta Fx Fy HX HY HL Hr Ht Vx Vy) as [F [D|D]]; [split; assumption|].
  exfalso. lra.
Qed.

Lemma atan2_norm_range : forall {E : Env} y x, fin x -> fin y ->
  (Rabs (val x) <= bpow radix2 62)%R -> (Rabs (val y) <= bpow radix2 62)%R ->
  (bpow radix2 (-60) <= Rabs (val x) \/ bpow radix2 (-60) <= Rabs (val y))%R ->
  fin (F32_atan2_norm y x) /\ (0 <= val (F32_atan2_norm y x) <= 4)%R.
Proof.
  intros E y x Fx Fy HX HY HL.
  destruct (quot2_acc y x Fx Fy (conj HX (conj HY HL))) as (Fp & Sp & Bp & L & Dp & Zp).
  rewrite atan2_norm_eq, Sp, orb_false_r.
  destruct (norm_val (sign_bit x) (sign_bit y) (quot2 y x) _ Fp Bp Dp) as (Fn & _ & Vn). split; [exact Fn|].
  rewrite Vn. set (v := val (quot2 y x)) in *. clearbody v. set (r := (IZR _ + _ * _)%R).
  assert (R : (0 <= r <= 4)%R) by (unfold r; destruct (sign_bit x), (sign_bit y); simpl; lra).
  split; [apply rnd_nonneg; lra|]. apply Rle_trans with (rnd (bpow radix2 2)); [apply rnd_le; bpow_lit; lra|].
  rewrite (rnd_fmt (bpow radix2 2)) by (apply fmt_bpow; lia). bpow_lit. lra.
Qed.
