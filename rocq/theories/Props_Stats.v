(** * Properties C69-C73: statistics *)

From Coq Require Import ZArith Reals Bool List Lia Lra.
From Flocq Require Import Core IEEE754.Binary IEEE754.Bits.
From Verif Require Import Base Spec Float Stats TestEnv F32Lemmas BitLemmas P_Trunc P_Floor Literals ErrLemmas P_RoundEdge
  NanLemmas P_Euclid P_Roots P_InvSqrt P_Recip P_Vector P_VecInt P_SumSq P_VecF32 P_Stats.
Import ListNotations.
Open Scope Z_scope.

(** ** C69 *)

Theorem C69_mean_definition : forall {E : Env} l, Z.of_nat (length l) < 2 ^ 31 ->
  mean l = Ok (fdiv (fold_left fadd l (f32_zero false)) (f32_of_Z (Z.of_nat (length l)))).
Proof. exact @mean_spec. Qed.
Print Assumptions C69_mean_definition.

Theorem C69_mean_empty_nan : forall {E : Env}, exists m, mean [] = Ok m /\ nan m.
Proof. exact @mean_empty. Qed.
Print Assumptions C69_mean_empty_nan.

(** The counter is an i32. *)
Theorem C69_mean_counter_panics : forall {E : Env} l, overflow_checks = true -> 2 ^ 31 <= Z.of_nat (length l) ->
  mean l = Panic.
Proof. exact @mean_long_panic. Qed.
Print Assumptions C69_mean_counter_panics.

Theorem C69_mean_accuracy : forall {E : Env} l M, (0 <= M)%R -> Forall fin l -> (forall a, In a l -> Rabs (val a) <= M)%R ->
  0 < Z.of_nat (length l) <= 2 ^ 20 -> (INR (length l) * M <= bpow radix2 126)%R ->
  exists m, mean l = Ok m /\ fin m /\
    (Rabs (val m - rsum l / INR (length l)) <= (INR (length l) + 2) * M * bpow radix2 (-24) + bpow radix2 (-150))%R.
Proof. exact @mean_error. Qed.
Print Assumptions C69_mean_accuracy.

(** mean [1, 2, 4] = 2.3333333. *)
Example C69_case : let l := [from_bits 0x3F800000; from_bits 0x40000000; from_bits 0x40800000] in
  Forall fin l /\ (forall a, In a l -> Rabs (val a) <= 4)%R /\ rsum l = 7%R /\
  (INR (length l) * 4 <= bpow radix2 126)%R /\ @mean env_debug l = Ok (from_bits 0x40155555).
Proof.
  intros l. split; [repeat constructor|].
  assert (L1 : val (from_bits 0x3F800000) = 1%R) by (lit 0x3F800000; bpow_lit; lra).
  assert (L2 : val (from_bits 0x40000000) = 2%R) by (lit 0x40000000; bpow_lit; lra).
  assert (L3 : val (from_bits 0x40800000) = 4%R) by (lit 0x40800000; bpow_lit; lra).
  split.
  { intros a H. cbn [In l] in H. destruct H as [H|[H|[H|[]]]]; subst a; rewrite ?L1, ?L2, ?L3; rewrite Rabs_pos_eq; lra. }
  split; [unfold l, rsum; cbn [fold_right]; rewrite L1, L2, L3; lra|].
  split.
  { apply Rle_trans with (bpow radix2 4); [unfold l; simpl; lra|apply bpow_le; lia]. }
  apply ok_bits. vm_compute. reflexivity.
Qed.

(** ** C70 *)

Theorem C70_variance_nonnegative : forall {E : Env} {T} (into : T -> f32) l v, l <> [] -> Z.of_nat (length l) < 2 ^ 64 ->
  variance into l = Ok v -> nan v \/ sign_bit v = false.
Proof. exact @variance_nonneg. Qed.
Print Assumptions C70_variance_nonnegative.

Theorem C70_variance_definition : forall {E : Env} {T} (into : T -> f32) l m, mean (map into l) = Ok m ->
  variance into l =
  Ok (fdiv (fold_left (fun s x => fadd s (fmul (fsub x m) (fsub x m))) (map into l) (f32_zero false))
           (fsub (f32_of_Z (Z.of_nat (length l))) (f32_of_Z 1))).
Proof.
  intros E T into l m H. rewrite (variance_eq into l m H). replace (f32_of_Z 1) with F32_ONE; [reflexivity|].
  apply to_bits_inj. vm_compute. reflexivity.
Qed.
Print Assumptions C70_variance_definition.

Theorem C70_one_element_nan : forall {E : Env} {T} (into : T -> f32) x, fin (into x) ->
  exists v, variance into [x] = Ok v /\ nan v.
Proof. exact @variance_one. Qed.
Print Assumptions C70_one_element_nan.

(** variance of the empty slice is -0.0, stddev of it is 1.5 * 2^64. *)
Theorem C70_empty_slice : forall {E : Env} {T} (into : T -> f32),
  variance into [] = Ok (f32_zero true) /\ stddev into [] = Ok (from_bits 0x5FC00000).
Proof. exact @variance_empty. Qed.
Print Assumptions C70_empty_slice.

(** variance [1, 2, 4] = 2.3333335, stddev = 1.5833334. *)
Example C70_case : let l := [from_bits 0x3F800000; from_bits 0x40000000; from_bits 0x40800000] in
  @variance env_debug f32 (fun x => x) l = Ok (from_bits 0x40155556).
Proof. apply ok_bits. vm_compute. reflexivity. Qed.

(** ** C71 *)

Theorem C71_stddev_accuracy : forall {E : Env} {T} (into : T -> f32) l v, variance into l = Ok v -> normal_pos v ->
  exists z, stddev into l = Ok z /\ normal_pos z /\
    ((1 - bpow radix2 (-24)) * sqrt (val v) <= val z <= 1.06067 * sqrt (val v))%R.
Proof. exact @stddev_accuracy. Qed.
Print Assumptions C71_stddev_accuracy.

Theorem C71_stddev_total : forall {E : Env} {T} (into : T -> f32) l, Z.of_nat (length l) < 2 ^ 31 ->
  exists m v sd, mean (map into l) = Ok m /\ variance into l = Ok v /\ stddev into l = Ok sd.
Proof. exact @stddev_total. Qed.
Print Assumptions C71_stddev_total.

Example C71_case : let l := [from_bits 0x3F800000; from_bits 0x40000000; from_bits 0x40800000] in
  @stddev env_debug f32 (fun x => x) l = Ok (from_bits 0x3FCAAAAB).
Proof. apply ok_bits. vm_compute. reflexivity. Qed.

(** ** C72 *)

Theorem C72_trim_selects : forall {E : Env} {T} (into : T -> f32) l t m sd,
  mean (map into l) = Ok m -> stddev into l = Ok sd ->
  trim_at into l t = Ok (filter (fun n => flt (fdiv (F32_abs (fsub (into n) m)) sd) t) l).
Proof. exact @trim_at_spec. Qed.
Print Assumptions C72_trim_selects.

(** The [k]-th call of [next], for every [k]; past the end always [None]. *)
Theorem C72_trim_iterator : forall {E : Env} {T} (into : T -> f32) l t m sd,
  mean (map into l) = Ok m -> stddev into l = Ok sd ->
  exists it, trim_new into l t = Ok it /\
  forall k, fst (trim_next into (trim_after into k it)) =
    nth_error (filter (fun n => flt (fdiv (F32_abs (fsub (into n) m)) sd) t) l) k.
Proof.
  intros E T into l t m sd M S. exists (mkTrim l m sd t). split; [exact (trim_new_spec into l t m sd M S)|].
  intros k. exact (trim_calls into k l m sd t).
Qed.
Print Assumptions C72_trim_iterator.

Theorem C72_trim_default : forall {E : Env} {T} (into : T -> f32) l, trim into l = trim_at into l (f32_of_Z 2).
Proof.
  intros E T into l. unfold trim. f_equal. apply to_bits_inj. vm_compute. reflexivity.
Qed.
Print Assumptions C72_trim_default.

(** trim_at(1.0) of [1, 1, 2, 1, 10] drops the 10. *)
Example C72_case : let l := [1; 1; 2; 1; 10] in
  @trim_at env_debug Z f32_of_Z l (from_bits 0x3F800000) = Ok [1; 1; 2; 1].
Proof. vm_compute. reflexivity. Qed.

(** ** C73 *)

Theorem C73_trim_one_element : forall {E : Env} {T} (into : T -> f32) x t, trim_at into [x] t = Ok [].
Proof. exact @trim_one. Qed.
Print Assumptions C73_trim_one_element.

Theorem C73_trim_nonfinite : forall {E : Env} {T} (into : T -> f32) l t x, Z.of_nat (length l) < 2 ^ 31 ->
  In x l -> is_finite (into x) = false -> trim_at into l t = Ok [].
Proof. exact @trim_nonfinite. Qed.
Print Assumptions C73_trim_nonfinite.

Theorem C73_trim_nan_threshold : forall {E : Env} {T} (into : T -> f32) l t, Z.of_nat (length l) < 2 ^ 31 -> nan t ->
  trim_at into l t = Ok [].
Proof. exact @trim_nan_threshold. Qed.
Print Assumptions C73_trim_nan_threshold.

Theorem C73_trim_nonpositive_threshold : forall {E : Env} {T} (into : T -> f32) l t, Z.of_nat (length l) < 2 ^ 31 ->
  fle t (f32_zero false) = true -> trim_at into l t = Ok [].
Proof. exact @trim_nonpositive. Qed.
Print Assumptions C73_trim_nonpositive_threshold.

(** Three values, one infinite. *)
Example C73_case : @trim env_debug f32 (fun x => x)
  [from_bits 0x3F800000; from_bits 0x7F800000; from_bits 0x40000000] = Ok [].
Proof. vm_compute. reflexivity. Qed.
