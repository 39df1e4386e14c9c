(** * Property C134: what the source text computes, end to end *)

From Coq Require Import ZArith Reals Bool List String Lia Lra.
From Flocq Require Import Core IEEE754.Binary IEEE754.Bits.
From Verif Require Import Base Spec SpecMore Float Vector Quaternion Stats TestEnv.
From Verif Require Import RustSyntax RustSem Source Source2 P_Quat.
From Verif Require Import Props_Round Props_Roots Props_Trig Props_Exp Props_Powi Props_Vector Props_Stats
  Props_Stats2 Props_Quat Props_Source Props_Source2.
Import ListNotations.
Open Scope Z_scope.

(** Each statement speaks of the interpreter run on the program text and of real
    numbers, integers or primitive f32 operations only; the functions of [Float.v],
    [Vector.v], [Quaternion.v] and [Stats.v] do not occur in them. *)

Ltac text H := decompose [and] H; clear H.

(** ** C134 *)

(** The text of [F32::sqrt]: a normal result within 6.067 percent. *)
Theorem C134_sqrt : forall {E : Env} lf x, normal_pos x ->
  exists z, src_run lf "F32::sqrt" [VW x] = Ok (VW z) /\ normal_pos z /\
    ((1 - bpow radix2 (-24)) * sqrt (val x) <= val z <= 1.06067 * sqrt (val x))%R.
Proof.
  intros E lf x Hx. destruct (C14_sqrt_accuracy x Hx) as [z [Hz R]]. exists z. split; [|exact R].
  pose proof (C132_functions lf x x x 0) as H. text H.
  match goal with H : src_run lf "F32::sqrt" _ = _ |- _ => rewrite H, Hz end. reflexivity.
Qed.
Print Assumptions C134_sqrt.

(** The text of [F32::floor]: the floor, up to 2^31. *)
Theorem C134_floor : forall {E : Env} lf x, fin x -> (Rabs (val x) <= bpow radix2 31)%R ->
  exists z, src_run lf "F32::floor" [VW x] = Ok (VW z) /\ fin z /\ val z = IZR (Zfloor (val x)).
Proof.
  intros E lf x Hx Hb. exists (F32_floor x). split; [|exact (C08_floor_exact x Hx Hb)].
  pose proof (C132_functions lf x x x 0) as H. text H. assumption.
Qed.
Print Assumptions C134_floor.

(** The text of [F32::cos]: within 0.002, the error the documentation gives, up to 8192. *)
Theorem C134_cos : forall {E : Env} lf x, fin x -> (Rabs (val x) <= 8192)%R ->
  exists z, src_run lf "F32::cos" [VW x] = Ok (VW z) /\ fin z /\ (Rabs (val z - cos (val x)) <= 0.002)%R.
Proof.
  intros E lf x Hx Hb. exists (F32_cos x). split; [|exact (C43_cos_documented_error x Hx Hb)].
  pose proof (C132_functions lf x x x 0) as H. text H. assumption.
Qed.
Print Assumptions C134_cos.

(** The text of [F32::atan]. *)
Theorem C134_atan : forall {E : Env} lf x, fin x -> (Rabs (val x) < bpow radix2 64)%R ->
  exists z, src_run lf "F32::atan" [VW x] = Ok (VW z) /\ fin z /\ (Rabs (val z - atan (val x)) <= 0.00284)%R.
Proof.
  intros E lf x Hx Hb. destruct (C48_atan_accuracy x Hx Hb) as [Hf [_ [_ Ha]]].
  exists (F32_atan x). split; [|split; assumption].
  pose proof (C132_functions lf x x x 0) as H. text H. assumption.
Qed.
Print Assumptions C134_atan.

(** The text of [F32::exp]: its error, and exactly when it panics. *)
Theorem C134_exp : forall {E : Env} lf x, fin x -> (0 <= val x <= 88.72283172607421875)%R ->
  exists z, src_run lf "F32::exp" [VW x] = Ok (VW z) /\ fin z /\ (0 < val z)%R /\
    (Rabs (val z - exp (val x)) <= 0.000761 * exp (val x))%R.
Proof.
  intros E lf x Hx Hb. destruct (C26_exp_accuracy_nonneg x Hx Hb) as [z [Hz R]]. exists z. split; [|exact R].
  pose proof (C132_functions lf x x x 0) as H. text H.
  match goal with H : src_run lf "F32::exp" _ = _ |- _ => rewrite H, Hz end. reflexivity.
Qed.
Print Assumptions C134_exp.

Theorem C134_exp_panic : forall {E : Env} lf x,
  src_run lf "F32::exp" [VW x] = Panic <->
  debug_assertions = true /\ fin x /\ (88.72283935546875 <= val x <= 89.41597747802734375)%R.
Proof.
  intros E lf x. rewrite <- C27_exp_panic_iff.
  pose proof (C132_functions lf x x x 0) as H. text H.
  match goal with H : src_run lf "F32::exp" _ = _ |- _ => rewrite H end.
  destruct (F32_exp x); cbn; split; intro; congruence.
Qed.
Print Assumptions C134_exp_panic.

(** The text of [F32::invsqrt] panics in a checked build exactly above 0xBE6EB50D. *)
Theorem C134_invsqrt_panic : forall {E : Env} lf x, overflow_checks = true ->
  (src_run lf "F32::invsqrt" [VW x] = Panic <-> 0xBE6EB50D < to_bits x).
Proof.
  intros E lf x Ho. rewrite <- (C18_invsqrt_panic x Ho).
  pose proof (C132_functions lf x x x 0) as H. text H.
  match goal with H : src_run lf "F32::invsqrt" _ = _ |- _ => rewrite H end.
  destruct (F32_invsqrt x); cbn; split; intro; congruence.
Qed.
Print Assumptions C134_invsqrt_panic.

(** The text of [Vector3d::dot] for i32 in a checked build: the exact integer, when
    each step fits. *)
Theorem C134_dot : forall {E : Env} lf (v w : Vector3d Z) d, overflow_checks = true ->
  (geo_run lf "Vector3d::dot" [V3 KI32 v; V3 KI32 w] = Ok (VI I32 d) <->
   fits i32 (v3x v * v3x w) /\ fits i32 (v3y v * v3y w) /\ fits i32 (v3z v * v3z w) /\
   fits i32 (v3x v * v3x w + v3y v * v3y w) /\
   fits i32 (v3x v * v3x w + v3y v * v3y w + v3z v * v3z w) /\
   d = v3x v * v3x w + v3y v * v3y w + v3z v * v3z w).
Proof.
  intros E lf v w d Ho.
  rewrite <- (C62_dot_checked_3 i32 v w d); [|unfold int_type; simpl; tauto|exact Ho].
  pose proof (C133_vector3d lf KI32 v w 0 0 0 0 [] []) as H. text H.
  match goal with H : geo_run lf "Vector3d::dot" _ = _ |- _ => rewrite H end.
  change (v3_dot (H := ccomp KI32) v w) with (v3_dot (H := comp_int i32) v w).
  destruct (v3_dot (H := comp_int i32) v w); cbn; split; intro; congruence.
Qed.
Print Assumptions C134_dot.

(** The text of [mean] over a list of any length up to 2^20. *)
Theorem C134_mean : forall {E : Env} lf l o M, (0 <= M)%R -> Forall fin l ->
  (forall a, In a l -> Rabs (val a) <= M)%R ->
  0 < Z.of_nat (List.length l) <= 2 ^ 20 -> (INR (List.length l) * M <= bpow radix2 126)%R ->
  exists m, stat_run lf "I::mean" [VSeq o (map VF l)] = Ok (VF m) /\ fin m /\
    (Rabs (val m - rsum l / INR (List.length l)) <=
     (INR (List.length l) + 2) * M * bpow radix2 (-24) + bpow radix2 (-150))%R.
Proof.
  intros E lf l o M H1 H2 H3 H4 H5. destruct (C69_mean_accuracy l M H1 H2 H3 H4 H5) as [m [Hm R]].
  exists m. split; [|exact R].
  pose proof (proj1 (C133_statistics lf l o Kf32 [] VU F32_ZERO (mkTrim [] F32_ZERO F32_ZERO F32_ZERO))) as H.
  rewrite H, Hm. reflexivity.
Qed.
Print Assumptions C134_mean.

(** The text of [Quaternion::inv]: within 12.51 percent of the conjugate over the norm. *)
Theorem C134_inverse : forall {E : Env} lf q,
  Forall sq_ok (q_list q) -> (0 < rsumsq (q_list q) <= bpow radix2 125)%R ->
  let N := rsumsq (q_list q) in
  exists r, geo_run lf "Quaternion::inv" [VQ q] = Ok (VQ r) /\
    near (0.1251 * (Rabs (val (q0 q)) / N) + bpow radix2 (-150)) (q0 r) (val (q0 q) / N) /\
    near (0.1251 * (Rabs (val (q1 q)) / N) + bpow radix2 (-150)) (q1 r) (- val (q1 q) / N) /\
    near (0.1251 * (Rabs (val (q2 q)) / N) + bpow radix2 (-150)) (q2 r) (- val (q2 q) / N) /\
    near (0.1251 * (Rabs (val (q3 q)) / N) + bpow radix2 (-150)) (q3 r) (- val (q3 q) / N).
Proof.
  intros E lf q H1 H2 N. destruct (C78_inv_accuracy q H1 H2) as [r [Hr R]]. exists r. split; [|exact R].
  pose proof (C133_quaternion lf q q F32_ZERO F32_ZERO F32_ZERO F32_ZERO) as H. text H.
  match goal with H : geo_run lf "Quaternion::inv" _ = _ |- _ => rewrite H, Hr end. reflexivity.
Qed.
Print Assumptions C134_inverse.

(** The text of [Vector3d::distance] for f32. *)
Theorem C134_distance : forall {E : Env} lf (v w : Vector3d f32),
  let l := [fsub (v3x v) (v3x w); fsub (v3y v) (v3y w); fsub (v3z v) (v3z w)] in
  Forall sq_ok l -> (0 < rsumsq l <= bpow radix2 126)%R ->
  exists z, geo_run lf "Vector3d::distance" [V3 Kf32 v; V3 Kf32 w] = Ok (VF z) /\ normal_pos z /\
    ((1 - bpow radix2 (-20)) * sqrt (rsumsq l) <= val z <= 1.0607 * sqrt (rsumsq l))%R.
Proof.
  intros E lf v w l H1 H2. destruct (C66_distance_3 (cinto Kf32) v w H1 H2) as [z [Hz R]].
  exists z. split; [|exact R].
  pose proof (C133_vector3d lf Kf32 v w F32_ZERO F32_ZERO F32_ZERO 0 [] []) as H. text H.
  match goal with H : has_into Kf32 = true -> geo_run lf "Vector3d::distance" _ = _ |- _ =>
    rewrite (H eq_refl) end.
  rewrite Hz. reflexivity.
Qed.
Print Assumptions C134_distance.

(** Run on the text: sqrt 2 gives 1.5, floor (-2.5) gives -3, exp 89 panics in a debug build and
    not in a release build, the dot product of (1, 2, 3) and (4, 5, 6) is 32. *)
Definition C134_bits (r : res V) : Z :=
  match r with Ok (VF x) | Ok (VW x) => to_bits x | Ok (VI _ z) => z | Panic => -1 | _ => -2 end.
Example C134_case :
  C134_bits (@src_run env_debug 40 "F32::sqrt" [VW (f32_of_Z 2)]) = 0x3FC00000 /\
  C134_bits (@src_run env_debug 40 "F32::floor" [VW (from_bits 0xC0200000)]) = to_bits (f32_of_Z (-3)) /\
  C134_bits (@src_run env_debug 40 "F32::exp" [VW (f32_of_Z 89)]) = -1 /\
  0 <= C134_bits (@src_run env_release 40 "F32::exp" [VW (f32_of_Z 89)]) /\
  C134_bits (@geo_run env_debug 40 "Vector3d::dot" [V3 KI32 (mkV3 1 2 3); V3 KI32 (mkV3 4 5 6)]) = 32.
Proof. vm_compute. repeat split; intro; discriminate. Qed.
