(** * Properties C81, C82, C90, C91: axis_angle and to_euler *)

From Coq Require Import ZArith Reals Bool List Lia Lra.
From Flocq Require Import Core IEEE754.Binary IEEE754.Bits.
From Verif Require Import Base Spec Float Vector Quaternion QuatReal TestEnv F32Lemmas BitLemmas Literals
  P_SumSq P_Quat P_VecF32 P_Euler.
Import ListNotations.
Open Scope Z_scope.

(** ** C81 *)

Theorem C81_axis_angle : forall {E : Env} {C} (into : C -> f32) v theta,
  let vx := into (v3x v) in let vy := into (v3y v) in let vz := into (v3z v) in let t := into theta in
  fin vx -> fin vy -> fin vz -> fin t -> (Rabs (val t) <= 8192)%R ->
  (Rabs (val vx * val vx + val vy * val vy + val vz * val vz - 1) <= 0.00001)%R ->
  let q := Q_axis_angle into v theta in
  near 0.0016 (q0 q) (cos (val t / 2)) /\ near 0.0019 (q1 q) (val vx * sin (val t / 2)) /\
  near 0.0019 (q2 q) (val vy * sin (val t / 2)) /\ near 0.0019 (q3 q) (val vz * sin (val t / 2)) /\
  (Rabs (rsumsq (q_list q) - 1) <= 0.0068)%R.
Proof. exact @axis_angle_acc. Qed.
Print Assumptions C81_axis_angle.

(** A turn by 2 about the z axis: (cos 1, 0, 0, sin 1) to three digits. *)
Example C81_case : map to_bits (q_to_array (@Q_axis_angle env_debug _ (fun x => x) (mkV3 F32_ZERO F32_ZERO F32_ONE) c_2)) =
  [0x3F0A5D25; 0; 0; 0x3F57984F].
Proof. vm_compute. reflexivity. Qed.

(** ** C82 *)

(** The argument of asin in to_euler decides. *)
Theorem C82_euler_panic_iff : forall {E : Env} q, overflow_checks = true ->
  let s := fmul c_2 (fsub (fmul (q0 q) (q2 q)) (fmul (q1 q) (q3 q))) in is_nan s = false ->
  (Q_to_euler q = Panic <-> (fin s -> (val (from_bits 0x3F8E236D) <= Rabs (val s))%R)).
Proof. exact @euler_panic. Qed.
Print Assumptions C82_euler_panic_iff.

Theorem C82_euler_unchecked_total : forall {E : Env} q, overflow_checks = false -> exists r, Q_to_euler q = Ok r.
Proof. exact @euler_release. Qed.
Print Assumptions C82_euler_unchecked_total.

Theorem C82_euler_no_panic : forall {E : Env} q, fin_quat q -> (rsumsq (q_list q) <= 1.11)%R -> exists r, Q_to_euler q = Ok r.
Proof. exact @euler_no_panic. Qed.
Print Assumptions C82_euler_no_panic.

Theorem C82_euler_after_normalize : forall {E : Env} q, Forall sq_ok (q_list q) -> (0 < rsumsq (q_list q) <= bpow radix2 126)%R ->
  exists n r, Q_normalize q = Ok n /\ Q_to_euler n = Ok r.
Proof. exact @euler_after_normalize. Qed.
Print Assumptions C82_euler_after_normalize.

(** (1, 0, 1, 0) panics with overflow checks; (0.75, 0, 0.74, 0), of squared norm 1.1101, does not. *)
Example C82_case : @Q_to_euler env_debug (mkQ F32_ONE F32_ZERO F32_ONE F32_ZERO) = Panic /\
  match @Q_to_euler env_debug (mkQ (from_bits 0x3F400000) F32_ZERO (from_bits 0x3F3D70A4) F32_ZERO) with Ok _ => True | _ => False end.
Proof. split; [vm_compute; reflexivity|]. vm_compute. exact I. Qed.

(** ** C90 *)

(** Roll and yaw are compared through their sine and cosine, scaled by the length of the point they are the angle of. *)
Theorem C90_euler_accuracy : forall {E : Env} q, fin_quat q -> (rsumsq (q_list q) <= 1.11)%R ->
  let w := val (q0 q) in let x := val (q1 q) in let y := val (q2 q) in let z := val (q3 q) in
  (Rabs (2 * (w * y - x * z)) <= 0.999999)%R ->
  forall rho1 rho2, (0.00001 <= rho1)%R -> (0.00001 <= rho2)%R ->
  (rho1 * rho1 = (2 * (w * x + y * z)) * (2 * (w * x + y * z)) + (1 - 2 * (x * x + y * y)) * (1 - 2 * (x * x + y * y)))%R ->
  (rho2 * rho2 = (2 * (w * z + x * y)) * (2 * (w * z + x * y)) + (1 - 2 * (y * y + z * z)) * (1 - 2 * (y * y + z * z)))%R ->
  exists roll pitch yaw, Q_to_euler q = Ok (roll, pitch, yaw) /\ fin roll /\ fin pitch /\ fin yaw /\
  (Rabs (rho1 * sin (val roll) - 2 * (w * x + y * z)) <= 0.00284 * rho1 + 0.0000076)%R /\
  (Rabs (rho1 * cos (val roll) - (1 - 2 * (x * x + y * y))) <= 0.00284 * rho1 + 0.0000076)%R /\
  (Rabs (val pitch) <= val c_FRAC_PI_2)%R /\ (Rabs (sin (val pitch) - 2 * (w * y - x * z)) <= 0.021)%R /\
  (Rabs (rho2 * sin (val yaw) - 2 * (w * z + x * y)) <= 0.00284 * rho2 + 0.0000076)%R /\
  (Rabs (rho2 * cos (val yaw) - (1 - 2 * (y * y + z * z))) <= 0.00284 * rho2 + 0.0000076)%R.
Proof. exact @euler_accuracy. Qed.
Print Assumptions C90_euler_accuracy.

(** "The pitch of a quaternion of norm 1 up to rounding is near asin(2(wy-xz))" is false:
    2(wy-xz) = 1.0000001 gives 0 instead of pi/2. *)
Theorem C90_euler_pole_refuted : forall {E : Env}, exists q roll pitch yaw, fin_quat q /\ (Rabs (rsumsq (q_list q) - 1) <= 0.0000002)%R /\
  (2 * (val (q0 q) * val (q2 q) - val (q1 q) * val (q3 q)) = rsumsq (q_list q))%R /\
  Q_to_euler q = Ok (roll, pitch, yaw) /\ fin pitch /\ (Rabs (val pitch) <= 0.000001)%R.
Proof. exact @euler_gimbal. Qed.
Print Assumptions C90_euler_pole_refuted.

(** (0.5, 0.5, 0.5, 0.5): roll = yaw = pi/2, pitch = 0. *)
Example C90_case : let h := from_bits 0x3F000000 in
  match @Q_to_euler env_debug (mkQ h h h h) with
  | Ok (r, p, y) => to_bits r = 0x3FC90FDB /\ to_bits p = 0 /\ to_bits y = 0x3FC90FDB | _ => False end.
Proof. vm_compute. repeat split. Qed.

(** ** C91 *)

(** The formulas of to_euler, exact: yaw-pitch-roll (z, y, x) angles of the rotation. *)
Theorem C91_euler_reconstructs_rotation : forall q roll pitch yaw, Rq_norm q = 1%R -> (0 < cos pitch)%R ->
  (sin pitch = 2 * (q0 q * q2 q - q1 q * q3 q))%R ->
  (cos pitch * sin roll = 2 * (q0 q * q1 q + q2 q * q3 q))%R -> (cos pitch * cos roll = 1 - 2 * (q1 q * q1 q + q2 q * q2 q))%R ->
  (cos pitch * sin yaw = 2 * (q0 q * q3 q + q1 q * q2 q))%R -> (cos pitch * cos yaw = 1 - 2 * (q2 q * q2 q + q3 q * q3 q))%R ->
  forall v, Rq_rotate q v = Rrot_z yaw (Rrot_y pitch (Rrot_x roll v)).
Proof. exact euler_real. Qed.
Print Assumptions C91_euler_reconstructs_rotation.

(** For a unit quaternion the lengths of C90 are both cos(pitch). *)
Theorem C91_euler_lengths : forall q, Rq_norm q = 1%R -> let s := (2 * (q0 q * q2 q - q1 q * q3 q))%R in
  ((2 * (q0 q * q1 q + q2 q * q3 q)) * (2 * (q0 q * q1 q + q2 q * q3 q)) +
   (1 - 2 * (q1 q * q1 q + q2 q * q2 q)) * (1 - 2 * (q1 q * q1 q + q2 q * q2 q)) = 1 - s * s)%R /\
  ((2 * (q0 q * q3 q + q1 q * q2 q)) * (2 * (q0 q * q3 q + q1 q * q2 q)) +
   (1 - 2 * (q2 q * q2 q + q3 q * q3 q)) * (1 - 2 * (q2 q * q2 q + q3 q * q3 q)) = 1 - s * s)%R.
Proof. exact euler_rho. Qed.
Print Assumptions C91_euler_lengths.

(** A turn by [t] about the x axis has roll [t]. *)
Example C91_case : forall t v, Rq_rotate (mkQ (cos (t / 2)) (sin (t / 2)) 0 0)%R v = Rrot_z 0 (Rrot_y 0 (Rrot_x t v)).
Proof.
  intros t v. pose proof (sin2_cos2 (t / 2)) as H. unfold Rsqr in H.
  assert (S : (sin t = 2 * sin (t / 2) * cos (t / 2))%R) by (rewrite <- sin_2a; f_equal; lra).
  assert (C : (cos t = 1 - 2 * (sin (t / 2) * sin (t / 2)))%R).
  { pose proof (cos_2a_sin (t / 2)) as K. replace (2 * (t / 2))%R with t in K by lra. rewrite K. ring. }
  apply euler_real; cbn [q0 q1 q2 q3]; rewrite ?sin_0, ?cos_0, ?S, ?C; try lra.
  unfold Rq_norm, q_norm. cbn [q0 q1 q2 q3 aadd amul arith_R]. lra.
Qed.
