(** * Properties C106, C107: what axis_angle turns, and its Euler angles *)

From Coq Require Import ZArith Reals Bool List Lia Lra.
From Flocq Require Import Core IEEE754.Binary IEEE754.Bits.
From Verif Require Import Base Spec SpecQuat Float Vector Quaternion QuatReal TestEnv F32Lemmas BitLemmas Literals
  P_SumSq P_Quat P_VecF32 P_Quat3 P_Quat4 P_Euler P_AxisAngle.
Import ListNotations.
Open Scope Z_scope.

(** ** C106 *)

(** Rotating by axis_angle(v, theta) is Rodrigues' turn about [v] by [theta], right-handed. *)
Theorem C106_axis_angle_rotates : forall {E : Env} v theta x V,
  fin_vec v -> fin theta -> (Rabs (val theta) <= 8192)%R -> (Rabs (T_dot (V3_R v) (V3_R v) - 1) <= 0.00001)%R ->
  vec_le x V -> (V <= bpow radix2 100)%R ->
  let r := Q_rotate idf (Q_axis_angle idf v theta) x in let s := T_rodrigues (V3_R v) (val theta) (V3_R x) in
  let e := (0.05 * V + bpow radix2 (-144))%R in
  near e (v3x r) (v3x s) /\ near e (v3y r) (v3y s) /\ near e (v3z r) (v3z s).
Proof. exact @axis_angle_rotates. Qed.
Print Assumptions C106_axis_angle_rotates.

(** With exact arithmetic and a unit axis, no error. *)
Theorem C106_exact : forall v t x, T_dot v v = 1%R ->
  T_rotate (T_mk (cos (t / 2)) (T_scale (sin (t / 2)) v)) x = T_rodrigues v t x.
Proof. exact rodrigues_unit. Qed.
Print Assumptions C106_exact.

(** A quarter turn about z takes (1, 0, 0) to (0, 1.0019970, 0). *)
Example C106_case : let z := F32_ZERO in
  let r := @Q_rotate env_debug f32 idf (@Q_axis_angle env_debug f32 idf (mkV3 z z F32_ONE) c_FRAC_PI_2) (mkV3 F32_ONE z z) in
  map to_bits [v3x r; v3y r; v3z r] = [0; 0x3F804170; 0].
Proof. vm_compute. reflexivity. Qed.

(** ** C107 *)

(** About x only roll is turned, by theta. *)
Theorem C107_x_is_roll : forall {E : Env} theta, fin theta -> (Rabs (val theta) <= 8192)%R ->
  exists roll pitch yaw, Q_to_euler (Q_axis_angle idf (mkV3 F32_ONE F32_ZERO F32_ZERO) theta) = Ok (roll, pitch, yaw) /\
  (fin roll /\ fin pitch /\ fin yaw) /\
  ((Rabs (sin (val roll) - sin (val theta)) <= 0.025)%R /\ (Rabs (cos (val roll) - cos (val theta)) <= 0.025)%R) /\
  ((Rabs (val pitch) <= val c_FRAC_PI_2)%R /\ (Rabs (sin (val pitch)) <= 0.021)%R) /\
  ((Rabs (sin (val yaw)) <= 0.003)%R /\ (Rabs (cos (val yaw) - 1) <= 0.003)%R).
Proof. exact @axis_x_euler. Qed.
Print Assumptions C107_x_is_roll.

(** About y only pitch, when theta is away from and between the poles. *)
Theorem C107_y_is_pitch : forall {E : Env} theta, fin theta -> (Rabs (val theta) <= 8192)%R ->
  (0.13 <= cos (val theta))%R ->
  exists roll pitch yaw, Q_to_euler (Q_axis_angle idf (mkV3 F32_ZERO F32_ONE F32_ZERO) theta) = Ok (roll, pitch, yaw) /\
  (fin roll /\ fin pitch /\ fin yaw) /\
  ((Rabs (sin (val roll)) <= 0.003)%R /\ (Rabs (cos (val roll) - 1) <= 0.003)%R) /\
  ((Rabs (val pitch) <= val c_FRAC_PI_2)%R /\ (Rabs (sin (val pitch) - sin (val theta)) <= 0.029)%R) /\
  ((Rabs (sin (val yaw)) <= 0.003)%R /\ (Rabs (cos (val yaw) - 1) <= 0.003)%R).
Proof. exact @axis_y_euler. Qed.
Print Assumptions C107_y_is_pitch.

(** About z only yaw. *)
Theorem C107_z_is_yaw : forall {E : Env} theta, fin theta -> (Rabs (val theta) <= 8192)%R ->
  exists roll pitch yaw, Q_to_euler (Q_axis_angle idf (mkV3 F32_ZERO F32_ZERO F32_ONE) theta) = Ok (roll, pitch, yaw) /\
  (fin roll /\ fin pitch /\ fin yaw) /\
  ((Rabs (sin (val roll)) <= 0.003)%R /\ (Rabs (cos (val roll) - 1) <= 0.003)%R) /\
  ((Rabs (val pitch) <= val c_FRAC_PI_2)%R /\ (Rabs (sin (val pitch)) <= 0.021)%R) /\
  ((Rabs (sin (val yaw) - sin (val theta)) <= 0.025)%R /\ (Rabs (cos (val yaw) - cos (val theta)) <= 0.025)%R).
Proof. exact @axis_z_euler. Qed.
Print Assumptions C107_z_is_yaw.

(** "A quarter turn about y has pitch pi/2" is false: pitch 4.2e-38, roll = yaw = pi. *)
Theorem C107_y_pole_refuted : forall {E : Env}, exists theta roll pitch yaw, theta = c_FRAC_PI_2 /\
  Q_to_euler (Q_axis_angle idf (mkV3 F32_ZERO F32_ONE F32_ZERO) theta) = Ok (roll, pitch, yaw) /\
  fin pitch /\ (Rabs (val pitch) <= 0.000001)%R /\ roll = c_PI /\ yaw = c_PI.
Proof. exact @axis_y_pole. Qed.
Print Assumptions C107_y_pole_refuted.

(** A turn by 2 about x: roll 2.0041502, pitch and yaw 0. *)
Example C107_case : match @Q_to_euler env_debug (@Q_axis_angle env_debug f32 idf (mkV3 F32_ONE F32_ZERO F32_ZERO) c_2) with
  | Ok (r, p, y) => to_bits r = 0x400043FF /\ to_bits p = 0 /\ to_bits y = 0 | _ => False end.
Proof. vm_compute. repeat split. Qed.
