(** * Property C120: how many samples trim can drop *)

From Coq Require Import ZArith Reals Bool List Lia Lra.
From Flocq Require Import Core IEEE754.Binary IEEE754.Bits.
From Verif Require Import Base Spec SpecMore Float Stats TestEnv F32Lemmas BitLemmas Literals P_RoundEdge P_Trim.
Import ListNotations.
Open Scope Z_scope.

(** ** C120 *)

(** Chebyshev's inequality for the f32 code: at most a quarter of n - 1 samples
    is dropped, for every element type and up to 4090 samples. *)
Theorem C120_trim : forall {E : Env} {T} (into : T -> f32) l v r, 2 <= Z.of_nat (length l) <= 4090 ->
  variance into l = Ok v -> fin v -> trim into l = Ok r -> (4 * (length l - length r) <= length l - 1)%nat.
Proof. exact @trim_count. Qed.
Print Assumptions C120_trim.

(** Two to four samples are all kept. *)
Theorem C120_trim_few : forall {E : Env} {T} (into : T -> f32) l v, 2 <= Z.of_nat (length l) <= 4 ->
  variance into l = Ok v -> fin v -> trim into l = Ok l.
Proof. exact @trim_few. Qed.
Print Assumptions C120_trim_few.

(** Any threshold from 1 up, up to 2^20 samples: k t^2 <= n - 1 up to rounding. *)
Theorem C120_trim_at : forall {E : Env} {T} (into : T -> f32) l t v r, 2 <= Z.of_nat (length l) <= 2 ^ 20 ->
  variance into l = Ok v -> fin v -> fin t -> (1 <= val t)%R -> trim_at into l t = Ok r ->
  let n := INR (length l) in let k := INR (length l - length r) in
  (k * (val t * val t) * (1 - (n + 10) * bpow radix2 (-24)) <= n - 1)%R.
Proof. exact @trim_at_count. Qed.
Print Assumptions C120_trim_at.

(** The reason: sqrt never undershoots by more than rounding, subnormal
    arguments and zero included. *)
Theorem C120_sqrt_never_low : forall {E : Env} x, fin x -> sign_bit x = false ->
  exists z, F32_sqrt x = Ok z /\ fin z /\ (3 / 2 * bpow radix2 (-64) <= val z)%R /\ ((1 - bpow radix2 (-24)) * sqrt (val x) <= val z)%R.
Proof. exact @sqrt_lower_all. Qed.
Print Assumptions C120_sqrt_never_low.

(** The finite variance is needed: with samples 2^100 and -2^100 and mean 0, trim
    keeps nothing. *)
Theorem C120_overflow_refuted : forall {E : Env}, exists l m, Forall fin l /\ length l = 2%nat /\ mean l = Ok m /\ fin m /\ trim (fun x => x) l = Ok [].
Proof. exact @trim_overflow. Qed.
Print Assumptions C120_overflow_refuted.

(** The bound is reached: of (2, -2) and seven zeros, (9 - 1) / 4 = 2 samples are dropped. *)
Example C120_reached :
  match @trim env_debug f32 (fun x => x) (map f32_of_Z [2; 0; 0; 0; 0; 0; 0; 0; -2]) with
  | Ok l => map to_bits l = repeat 0 7 | _ => False end.
Proof. vm_compute. reflexivity. Qed.

(** One outlier among eleven. *)
Example C120_case :
  @trim env_debug Z f32_of_Z [1; 2; 3; 1; 2; 3; 100; 1; 2; 3; 2] = Ok [1; 2; 3; 1; 2; 3; 1; 2; 3; 2].
Proof. vm_compute. reflexivity. Qed.
