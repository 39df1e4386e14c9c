(** * Property C105: accuracy of variance and stddev *)

From Coq Require Import ZArith Reals Bool List Lia Lra.
From Flocq Require Import Core IEEE754.Binary IEEE754.Bits.
From Verif Require Import Base Spec SpecMore Float Stats TestEnv F32Lemmas Literals P_RoundEdge P_Roots P_Stats P_Stats2.
Import ListNotations.
Open Scope Z_scope.

(** ** C105 *)

(** The computed variance against the exact sample variance.  [delta] bounds the error of the computed mean. *)
Theorem C105_variance_accuracy : forall {E : Env} l M, (0 <= M)%R -> Forall fin l -> (forall a, In a l -> Rabs (val a) <= M)%R ->
  2 <= Z.of_nat (length l) <= 2 ^ 20 -> (INR (length l) * (M * M) <= bpow radix2 120)%R ->
  let n := INR (length l) in let delta := ((n + 2) * M * bpow radix2 (-24) + bpow radix2 (-150))%R in
  exists v, variance (fun x => x) l = Ok v /\ fin v /\
    (Rabs (val v - rvariance l) <= (n + 5) * bpow radix2 (-23) * rvariance l + 3 * (delta * delta) + bpow radix2 (-147))%R.
Proof. exact @variance_error. Qed.
Print Assumptions C105_variance_accuracy.

(** When the mean's error is at most a hundredth of the deviation. *)
Theorem C105_stddev_accuracy : forall {E : Env} l M, (0 <= M)%R -> Forall fin l -> (forall a, In a l -> Rabs (val a) <= M)%R ->
  2 <= Z.of_nat (length l) <= 2 ^ 10 -> (INR (length l) * (M * M) <= bpow radix2 120)%R ->
  let sigma := sqrt (rvariance l) in
  (bpow radix2 (-50) <= sigma)%R ->
  ((INR (length l) + 2) * M * bpow radix2 (-24) + bpow radix2 (-150) <= 0.01 * sigma)%R ->
  exists z, stddev (fun x => x) l = Ok z /\ normal_pos z /\ (0.9997 * sigma <= val z <= 1.061 * sigma)%R.
Proof. exact @stddev_error. Qed.
Print Assumptions C105_stddev_accuracy.

(** [1, 2, 4]: exact variance 7/3, computed 2.3333335; the conditions hold with M = 4. *)
Example C105_case : let l := [from_bits 0x3F800000; from_bits 0x40000000; from_bits 0x40800000] in
  rvariance l = (7 / 3)%R /\ (forall a, In a l -> Rabs (val a) <= 4)%R /\
  ((INR (length l) + 2) * 4 * bpow radix2 (-24) + bpow radix2 (-150) <= 0.01 * sqrt (rvariance l))%R /\
  @variance env_debug f32 (fun x => x) l = Ok (from_bits 0x40155556).
Proof.
  intros l.
  assert (A : val (from_bits 0x3F800000) = 1%R) by (lit 0x3F800000; bpow_lit; lra).
  assert (B : val (from_bits 0x40000000) = 2%R) by (lit 0x40000000; bpow_lit; lra).
  assert (C : val (from_bits 0x40800000) = 4%R) by (lit 0x40800000; bpow_lit; lra).
  assert (V : rvariance l = (7 / 3)%R).
  { unfold rvariance, rmean, rdev, rsum, l. cbn [fold_right length INR]. rewrite A, B, C. field. }
  split; [exact V|]. split; [|split].
  - intros a [<-|[<-|[<-|[]]]]; rewrite ?A, ?B, ?C; apply Rabs_le; lra.
  - rewrite V. assert (1 <= sqrt (7 / 3))%R by (rewrite <- sqrt_1 at 1; apply sqrt_le_1_alt; lra).
    assert (bpow radix2 (-150) <= / 1099511627776)%R by (change (/ 1099511627776)%R with (bpow radix2 (-40)); apply bpow_le; lia).
    change (bpow radix2 (-24)) with (/ 16777216)%R. unfold l. cbn [length INR]. lra.
  - apply ok_bits. vm_compute. reflexivity.
Qed.
