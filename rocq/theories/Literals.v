(** * Values of the float literals

    Each literal of Float.v is given by bit pattern there; here its exact value,
    and (for decimals that are not dyadic) the proof that the pattern is the
    binary32 number nearest to the decimal written in the source. *)

From Coq Require Import ZArith Reals Bool List Lia Lra.
From Flocq Require Import Core IEEE754.BinarySingleNaN IEEE754.Binary IEEE754.Bits.
From Verif Require Import Base Spec Float F32Lemmas BitLemmas P_Trunc P_Floor.
Open Scope Z_scope.

Definition lit_m (b : Z) : Z :=
  let m := if bexp b =? 0 then bman b else 2 ^ 23 + bman b in
  if bsign b =? 0 then m else - m.
Definition lit_e (b : Z) : Z := if bexp b =? 0 then -149 else bexp b - 150.
Definition lit_ok (b : Z) : bool := (0 <=? b) && (b <? 2 ^ 32) && (bexp b <? 255).

Lemma lit_val : forall b, lit_ok b = true ->
  fin (from_bits b) /\ val (from_bits b) = (IZR (lit_m b) * bpow radix2 (lit_e b))%R.
Proof.
  intros b H. unfold lit_ok in H. apply andb_prop in H. destruct H as [H H3].
  apply andb_prop in H. destruct H as [H1 H2].
  apply Z.leb_le in H1. apply Z.ltb_lt in H2. apply Z.ltb_lt in H3.
  destruct (val_from_bits b (conj H1 H2) H3) as [A B]. split; [assumption|]. rewrite B.
  unfold bval, lit_m, lit_e. destruct (bexp b =? 0), (bsign b =? 0); rewrite ?opp_IZR; ring.
Qed.

(** Rewrite the value of a literal pattern to [m * 2^e] with numerals. *)
Ltac lit b :=
  let m := eval vm_compute in (lit_m b) in
  let e := eval vm_compute in (lit_e b) in
  let H := fresh "Hlit" in
  pose proof (proj2 (lit_val b eq_refl)) as H;
  change (lit_m b) with m in H; change (lit_e b) with e in H;
  rewrite H; clear H.

Ltac bpow_lit :=
  repeat match goal with
  | |- context [bpow radix2 (Zneg ?p)] =>
      let n := eval vm_compute in (Z.pow_pos 2 p) in
      change (bpow radix2 (Zneg p)) with (/ IZR n)%R
  | |- context [bpow radix2 (Zpos ?p)] =>
      let n := eval vm_compute in (Z.pow_pos 2 p) in
      change (bpow radix2 (Zpos p)) with (IZR n)
  | |- context [bpow radix2 0] => change (bpow radix2 0) with 1%R
  end.

Lemma rnd_near : forall m j r, 2 ^ 23 < m < 2 ^ 24 -> -149 <= j ->
  (Rabs (r * bpow radix2 (- j) - IZR m) < / 2)%R -> rnd r = (IZR m * bpow radix2 j)%R.
Proof.
  intros m j r Hm Hj H.
  assert (P : (bpow radix2 (- j) * bpow radix2 j = 1)%R).
  { rewrite <- bpow_plus, Z.add_opp_diag_l. reflexivity. }
  pose proof (bpow_gt_0 radix2 j) as Bj. pose proof (bpow_gt_0 radix2 (- j)) as Bj'.
  apply Rabs_lt_inv in H.
  assert (M1 : (IZR (2 ^ 23) + 1 <= IZR m)%R) by (rewrite <- plus_IZR; apply IZR_le; lia).
  assert (M2 : (IZR m + 1 <= IZR (2 ^ 24))%R) by (rewrite <- plus_IZR; apply IZR_le; lia).
  assert (Q : (0 <= IZR (2 ^ 23))%R) by (apply IZR_le; lia).
  assert (R1 : r = (r * bpow radix2 (- j) * bpow radix2 j)%R) by (rewrite Rmult_assoc, P; ring).
  rewrite (rnd_scaled r j); [|assumption|].
  - f_equal. f_equal. apply Znearest_imp. apply Rabs_lt. lra.
  - rewrite (Z.add_comm j), (Z.add_comm j 24), !bpow_plus.
    change (bpow radix2 23) with (IZR (2 ^ 23)). change (bpow radix2 24) with (IZR (2 ^ 24)).
    set (t := (r * bpow radix2 (- j))%R) in *. rewrite R1.
    rewrite Rabs_pos_eq by (apply Rmult_le_pos; lra).
    split; [apply Rmult_le_compat_r|apply Rmult_lt_compat_r]; lra.
Qed.

(** Exact values. *)
Local Ltac go c b :=
  split; [reflexivity|]; unfold c; lit b; bpow_lit; try lra.

Lemma zero_val : fin F32_ZERO /\ val F32_ZERO = 0%R.
Proof. split; reflexivity. Qed.
Lemma eps_val : fin F32_EPSILON /\ val F32_EPSILON = (/ 8388608)%R.
Proof. go F32_EPSILON 0x34000000. Qed.
Lemma c_0_25_val : fin c_0_25 /\ val c_0_25 = (/ 4)%R.
Proof. go c_0_25 0x3E800000. Qed.
Lemma c_0_5_val : fin c_0_5 /\ val c_0_5 = (/ 2)%R.
Proof. go c_0_5 0x3F000000. Qed.
Lemma c_2_val : fin c_2 /\ val c_2 = 2%R.
Proof. go c_2 0x40000000. Qed.
Lemma c_4_val : fin c_4 /\ val c_4 = 4%R.
Proof. go c_4 0x40800000. Qed.
Lemma c_8_val : fin c_8 /\ val c_8 = 8%R.
Proof. go c_8 0x41000000. Qed.
Lemma c_16_val : fin c_16 /\ val c_16 = 16%R.
Proof. go c_16 0x41800000. Qed.
Lemma c_28_val : fin c_28 /\ val c_28 = 28%R.
Proof. go c_28 0x41E00000. Qed.
Lemma c_56_val : fin c_56 /\ val c_56 = 56%R.
Proof. go c_56 0x42600000. Qed.
Lemma c_70_val : fin c_70 /\ val c_70 = 70%R.
Proof. go c_70 0x428C0000. Qed.
Lemma c_0_225_val : fin c_0_225 /\ val c_0_225 = (15099494 / 67108864)%R.
Proof. go c_0_225 0x3E666666. Qed.
Lemma c_PI_val : fin c_PI /\ val c_PI = (13176795 / 4194304)%R.
Proof. go c_PI 0x40490FDB. Qed.
Lemma c_FRAC_PI_2_val : fin c_FRAC_PI_2 /\ val c_FRAC_PI_2 = (13176795 / 8388608)%R.
Proof. go c_FRAC_PI_2 0x3FC90FDB. Qed.
Lemma c_FRAC_1_PI_val : fin c_FRAC_1_PI /\ val c_FRAC_1_PI = (10680707 / 33554432)%R.
Proof. go c_FRAC_1_PI 0x3EA2F983. Qed.
Lemma c_LOG2_E_val : fin c_LOG2_E /\ val c_LOG2_E = (12102203 / 8388608)%R.
Proof. go c_LOG2_E 0x3FB8AA3B. Qed.
Lemma c_LOG10_E_val : fin c_LOG10_E /\ val c_LOG10_E = (14572505 / 33554432)%R.
Proof. go c_LOG10_E 0x3EDE5BD9. Qed.
Lemma c_LN_2_val : fin c_LN_2 /\ val c_LN_2 = (11629080 / 16777216)%R.
Proof. go c_LN_2 0x3F317218. Qed.
Lemma c_E_val : fin c_E /\ val c_E = (11401300 / 4194304)%R.
Proof. go c_E 0x402DF854. Qed.
Lemma c_B_val : fin c_B /\ val c_B = (10003029 / 16777216)%R.
Proof. go c_B 0x3F18A255. Qed.
Lemma c_ln0_val : fin c_1_7417939 /\ val c_1_7417939 = (14611226 / 8388608)%R.
Proof. go c_1_7417939 0x3FDEF31A. Qed.
Lemma c_ln1_val : fin c_2_8212026 /\ val c_2_8212026 = (11832981 / 4194304)%R.
Proof. go c_2_8212026 0x40348E95. Qed.
Lemma c_ln2_val : fin c_1_4699568 /\ val c_1_4699568 = (12330891 / 8388608)%R.
Proof. go c_1_4699568 0x3FBC278B. Qed.
Lemma c_ln3_val : fin c_0_44717955 /\ val c_0_44717955 = (15004856 / 33554432)%R.
Proof. go c_0_44717955 0x3EE4F4B8. Qed.
Lemma c_ln4_val : fin c_0_056570851 /\ val c_0_056570851 = (15185622 / 268435456)%R.
Proof. go c_0_056570851 0x3D67B6D6. Qed.

(** Correct rounding of the decimals in the source. *)
Local Ltac near b :=
  let m := eval vm_compute in (lit_m b) in
  let e := eval vm_compute in (lit_e b) in
  lit b; apply rnd_near; [lia|lia|];
  apply Rabs_lt; simpl Z.opp; bpow_lit; lra.

Lemma lit_0_225 : rnd 0.225 = val c_0_225.
Proof. unfold c_0_225. near 0x3E666666. Qed.
Lemma lit_B : rnd 0.596227 = val c_B.
Proof. unfold c_B. near 0x3F18A255. Qed.
Lemma lit_ln0 : rnd 1.7417939 = val c_1_7417939.
Proof. unfold c_1_7417939. near 0x3FDEF31A. Qed.
Lemma lit_ln1 : rnd 2.8212026 = val c_2_8212026.
Proof. unfold c_2_8212026. near 0x40348E95. Qed.
Lemma lit_ln2 : rnd 1.4699568 = val c_1_4699568.
Proof. unfold c_1_4699568. near 0x3FBC278B. Qed.
Lemma lit_ln3 : rnd 0.44717955 = val c_0_44717955.
Proof. unfold c_0_44717955. near 0x3EE4F4B8. Qed.
Lemma lit_ln4 : rnd 0.056570851 = val c_0_056570851.
Proof. unfold c_0_056570851. near 0x3D67B6D6. Qed.
