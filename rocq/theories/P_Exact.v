(** * Proofs: where sqrt, invsqrt and inv are exact *)

From Coq Require Import ZArith Znumtheory Zpow_facts Reals Bool List Lia Lra Psatz.
From Flocq Require Import Core IEEE754.BinarySingleNaN IEEE754.Binary IEEE754.Bits.
From Verif Require Import Base Spec Float F32Lemmas BitLemmas P_Trunc P_Floor Literals P_RoundEdge P_Euclid P_Roots P_InvSqrt.
Open Scope Z_scope.

(** mk_val with the mantissa as an integer *)
Lemma mk_valz : forall Ex M, 1 <= Ex <= 254 -> 0 <= M < 2 ^ 23 ->
  val (from_bits (Ex * 2 ^ 23 + M)) = (IZR (2 ^ 23 + M) * bpow radix2 (Ex - 150))%R.
Proof.
  intros Ex M HE HM. destruct (mk_val Ex M HE HM) as (_ & _ & _ & V). rewrite V.
  replace (Ex - 127) with (23 + (Ex - 150)) by ring. rewrite bpow_plus, plus_IZR.
  change (bpow radix2 23) with (IZR (2 ^ 23)).
  field. apply IZR_neq. lia.
Qed.

Lemma split_valz : forall x, normal_pos x ->
  let Ex := bexp (to_bits x) in let M := bman (to_bits x) in
  1 <= Ex <= 254 /\ 0 <= M < 2 ^ 23 /\ to_bits x = Ex * 2 ^ 23 + M /\ sign_bit x = false /\
  val x = (IZR (2 ^ 23 + M) * bpow radix2 (Ex - 150))%R.
Proof.
  intros x Hx. pose proof (normal_split x Hx) as N. cbv zeta in *.
  destruct N as (HE & HM & HT & HS & _).
  repeat split; trivial; try lia.
  rewrite <- (from_to_bits x) at 1. rewrite HT at 1. apply mk_valz; assumption.
Qed.

(** A power of two has mantissa zero. *)
Lemma pow2_between : forall M k, 0 <= M < 2 ^ 23 -> 2 ^ 23 + M = 2 ^ k -> M = 0.
Proof.
  intros M k HM H.
  destruct (Z.lt_ge_cases k 0) as [L|L]; [rewrite (Z.pow_neg_r 2 k) in H by lia; lia|].
  destruct (Z.lt_ge_cases k 24) as [L2|L2].
  - assert (2 ^ k <= 2 ^ 23) by (apply Z.pow_le_mono_r; lia). lia.
  - assert (2 ^ 24 <= 2 ^ k) by (apply Z.pow_le_mono_r; lia). lia.
Qed.

Lemma divides_pow2 : forall M k, 0 <= M < 2 ^ 23 -> 0 <= k -> (2 ^ 23 + M | 2 ^ k) -> M = 0.
Proof.
  intros M k HM Hk H.
  destruct (Zdivide_power_2 (2 ^ 23 + M) 2 k Hk ltac:(lia) prime_2 H) as (m & Hm).
  exact (pow2_between M m HM Hm).
Qed.

Lemma bpow_man : forall M e k, 0 <= M < 2 ^ 23 ->
  (IZR (2 ^ 23 + M) * bpow radix2 e = bpow radix2 k)%R -> M = 0.
Proof.
  intros M e k HM H.
  assert (G : (IZR (2 ^ 23 + M) = bpow radix2 (k - e))%R).
  { replace (k - e) with (k + - e) by ring. rewrite bpow_plus, <- H, Rmult_assoc, <- bpow_plus.
    replace (e + - e) with 0 by ring. change (bpow radix2 0) with 1%R. ring. }
  destruct (Z.lt_ge_cases (k - e) 0) as [L|L].
  - assert (B : (bpow radix2 (k - e) <= bpow radix2 0)%R) by (apply bpow_le; lia).
    rewrite <- G in B. change (bpow radix2 0) with 1%R in B. apply le_IZR in B. lia.
  - rewrite <- (IZR_Zpower radix2) in G by lia. apply eq_IZR in G.
    change (Zpower radix2 (k - e)) with (2 ^ (k - e)) in G. exact (pow2_between M _ HM G).
Qed.

(** ** inv *)

Lemma inv_exact : forall {E : Env} x, normal_pos x -> (val x <= bpow radix2 126)%R ->
  ((val (F32_inv x) * val x = 1)%R <-> exists k, val x = bpow radix2 k).
Proof.
  intros E x Hx Hle. pose proof (split_valz x Hx) as N. cbv zeta in N.
  set (Ex := bexp (to_bits x)) in *. set (M := bman (to_bits x)) in *.
  destruct N as (HE & HM & HT & HS & HV).
  assert (HB : Ex * 2 ^ 23 + M <= 253 * 2 ^ 23).
  { assert (C : (val x < bpow radix2 126)%R \/ val x = bpow radix2 126) by lra.
    destruct C as [C|C].
    - destruct (Z.lt_ge_cases Ex 253) as [L|L]; [lia|]. exfalso.
      rewrite HV in C.
      assert (bpow radix2 126 <= IZR (2 ^ 23 + M) * bpow radix2 (Ex - 150))%R; [|lra].
      replace 126 with (23 + 103) by ring. rewrite bpow_plus.
      apply Rmult_le_compat; try apply bpow_ge_0; [|apply bpow_le; lia].
      change (bpow radix2 23) with (IZR (2 ^ 23)). apply IZR_le. lia.
    - rewrite HV in C. assert (Z0 : M = 0) by (exact (bpow_man M _ _ HM C)).
      rewrite Z0 in C. change (IZR (2 ^ 23 + 0)) with (bpow radix2 23) in C. rewrite <- bpow_plus in C.
      apply bpow_inj in C. lia. }
  rewrite inv_bits by (rewrite HT; lia). rewrite HT.
  destruct (Z.eq_dec M 0) as [Z0|Z0].
  - rewrite Z0. replace (0x7F000000 - (Ex * 2 ^ 23 + 0)) with ((254 - Ex) * 2 ^ 23 + 0) by lia.
    rewrite mk_valz by lia. rewrite HV, Z0.
    change (IZR (2 ^ 23 + 0)) with (bpow radix2 23). rewrite <- !bpow_plus.
    split; intros _.
    + eexists. reflexivity.
    + replace (23 + (254 - Ex - 150) + (23 + (Ex - 150))) with 0 by ring. reflexivity.
  - replace (0x7F000000 - (Ex * 2 ^ 23 + M)) with ((253 - Ex) * 2 ^ 23 + (2 ^ 23 - M)) by lia.
    assert (HE2 : Ex <= 252) by lia.
    rewrite mk_valz by lia. rewrite HV. split.
    + intros H. exfalso.
      assert (G : (IZR ((2 ^ 23 + (2 ^ 23 - M)) * (2 ^ 23 + M)) = bpow radix2 47)%R).
      { rewrite mult_IZR.
        replace (bpow radix2 47) with (1 * bpow radix2 47)%R by ring. rewrite <- H.
        replace (IZR (2 ^ 23 + (2 ^ 23 - M)) * bpow radix2 (253 - Ex - 150) *
          (IZR (2 ^ 23 + M) * bpow radix2 (Ex - 150)) * bpow radix2 47)%R with
          (IZR (2 ^ 23 + (2 ^ 23 - M)) * IZR (2 ^ 23 + M) *
           (bpow radix2 (253 - Ex - 150) * bpow radix2 (Ex - 150) * bpow radix2 47))%R by ring.
        rewrite <- !bpow_plus. replace (253 - Ex - 150 + (Ex - 150) + 47) with 0 by ring. change (bpow radix2 0) with 1%R. ring. }
      change (bpow radix2 47) with (IZR (2 ^ 47)) in G. apply eq_IZR in G.
      assert (M * (2 ^ 23 - M) = 0) by lia. nia.
    + intros (k & Hk). exfalso. apply Z0. exact (bpow_man M _ _ HM Hk).
Qed.

(** ** sqrt *)

Lemma sqrt_exact : forall {E : Env} x, normal_pos x ->
  exists z, F32_sqrt x = Ok z /\
    (val z = sqrt (val x) <->
     exists k, val x = (bpow radix2 k * bpow radix2 k)%R \/
               val x = ((4095 * bpow radix2 k) * (4095 * bpow radix2 k))%R).
Proof.
  intros E x Hx. pose proof (split_valz x Hx) as N. cbv zeta in N.
  pose proof (normal_pos_gt0 x Hx) as Px.
  set (Ex := bexp (to_bits x)) in *. set (M := bman (to_bits x)) in *.
  destruct N as (HE & HM & HT & HS & HV).
  destruct (sqrt_square_bounds x Hx) as (z & Hz & Nz & _). exists z. split; [exact Hz|].
  rewrite sqrt_pos_bits in Hz by (trivial; apply fin_not_nan; apply Hx).
  injection Hz as Hz. rewrite HT in Hz.
  pose proof (normal_pos_gt0 z Nz) as Pz.
  assert (SQ : val z = sqrt (val x) <-> (val z * val z = val x)%R).
  { split; intros H.
    - rewrite H. apply sqrt_sqrt. lra.
    - rewrite <- H. rewrite sqrt_square; lra. }
  rewrite SQ. clear SQ.
  pose proof (Z.div_mod M 2 ltac:(lia)) as D. pose proof (Z.mod_pos_bound M 2 ltac:(lia)) as Bm.
  set (q := M / 2) in *. set (r := M mod 2) in *.
  (* the characterisation in terms of an integer equation *)
  assert (W : forall k, val x = (bpow radix2 k * bpow radix2 k)%R ->
    M = 0 /\ exists h, Ex - 127 = 2 * h).
  { intros k Hk. rewrite <- bpow_plus, HV in Hk. pose proof (bpow_man _ _ _ HM Hk) as Z0.
    split; [exact Z0|]. rewrite Z0 in Hk. change (IZR (2 ^ 23 + 0)) with (bpow radix2 23) in Hk.
    rewrite <- bpow_plus in Hk. apply bpow_inj in Hk. exists k. lia. }
  assert (W2 : forall k, val x = (4095 * bpow radix2 k * (4095 * bpow radix2 k))%R ->
    M = 2 ^ 23 - 2 ^ 13 + 1 /\ exists h, Ex - 127 = 2 * h + 1).
  { intros k Hk.
    assert (V2 : val x = (IZR (2 ^ 23 + (2 ^ 23 - 2 ^ 13 + 1)) * bpow radix2 (k + k))%R).
    { rewrite Hk, bpow_plus. replace (IZR (2 ^ 23 + (2 ^ 23 - 2 ^ 13 + 1))) with (4095 * 4095)%R by (rewrite <- mult_IZR; reflexivity).
      ring. }
    rewrite HV in V2.
    (* compare the two normal forms *)
    assert (EE : Ex - 150 = k + k).
    { assert (Mag : forall A e, 0 <= A < 2 ^ 23 -> mag_val _ _ (mag radix2 (IZR (2 ^ 23 + A) * bpow radix2 e)) = 24 + e).
      { intros A e HA. apply mag_unique_pos. split.
        - replace (24 + e - 1) with (23 + e) by ring. rewrite bpow_plus. apply Rmult_le_compat_r; [apply bpow_ge_0|].
          change (bpow radix2 23) with (IZR (2 ^ 23)). apply IZR_le. lia.
        - rewrite bpow_plus. apply Rmult_lt_compat_r; [apply bpow_gt_0|].
          change (bpow radix2 24) with (IZR (2 ^ 24)). apply IZR_lt. lia. }
      pose proof (Mag M (Ex - 150) HM) as G1.
      pose proof (Mag (2 ^ 23 - 2 ^ 13 + 1) (k + k) ltac:(lia)) as G2.
      rewrite V2 in G1. rewrite G1 in G2. lia. }
    rewrite EE in V2. apply Rmult_eq_reg_r in V2; [|apply Rgt_not_eq, bpow_gt_0].
    apply eq_IZR in V2. split; [lia|]. exists (k + 11). lia. }
  assert (SC : forall e, (0 < bpow radix2 e)%R) by (intros; apply bpow_gt_0).
  destruct (Z.Even_or_Odd (Ex - 127)) as [[h Hh]|[h Hh]].
  - assert (B : (Ex * 2 ^ 23 + M + 0x3F800000) / 2 = (h + 127) * 2 ^ 23 + q).
    { replace (Ex * 2 ^ 23 + M + 0x3F800000) with (M + ((h + 127) * 2 ^ 23) * 2) by lia.
      rewrite Z.div_add by lia. unfold q. ring. }
    rewrite B in Hz. assert (V := mk_valz (h + 127) q ltac:(lia) ltac:(lia)). rewrite Hz in V.
    split.
    + intros H. exists h. left.
      assert (G : (IZR ((2 ^ 23 + q) * (2 ^ 23 + q)) = IZR ((2 ^ 23 + M) * 2 ^ 23))%R).
      { apply Rmult_eq_reg_r with (bpow radix2 (2 * (h - 23))); [|apply Rgt_not_eq, bpow_gt_0].
        transitivity (val z * val z)%R.
        - rewrite V, mult_IZR. replace (2 * (h - 23)) with ((h + 127 - 150) + (h + 127 - 150)) by ring.
          rewrite bpow_plus. ring.
        - rewrite H, HV, mult_IZR. replace (Ex - 150) with (23 + 2 * (h - 23)) by lia. rewrite bpow_plus.
          change (bpow radix2 23) with (IZR (2 ^ 23)). ring. }
      apply eq_IZR in G.
      assert (Q : q * q = r * 2 ^ 23) by lia.
      assert (r = 0 \/ r = 1) as [R0|R1] by lia.
      * assert (q = 0) by nia. assert (Z0 : M = 0) by lia.
        rewrite HV, Z0. change (IZR (2 ^ 23 + 0)) with (bpow radix2 23).
        rewrite <- !bpow_plus. f_equal. lia.
      * exfalso. rewrite R1 in Q. change (1 * 2 ^ 23) with 8388608 in Q.
        assert (q <= 2896 \/ 2897 <= q) as [L|L] by lia; nia.
    + intros (k & [Hk|Hk]).
      * destruct (W k Hk) as [Z0 _]. assert (q = 0) by lia.
        rewrite V, HV. replace q with 0 by lia. rewrite Z0.
        change (IZR (2 ^ 23 + 0)) with (bpow radix2 23). rewrite <- !bpow_plus. f_equal. lia.
      * destruct (W2 k Hk) as [_ (h' & Hh')]. lia.
  - assert (B : (Ex * 2 ^ 23 + M + 0x3F800000) / 2 = (h + 127) * 2 ^ 23 + (2 ^ 22 + q)).
    { replace (Ex * 2 ^ 23 + M + 0x3F800000) with (M + ((h + 127) * 2 ^ 23 + 2 ^ 22) * 2) by lia.
      rewrite Z.div_add by lia. unfold q. ring. }
    rewrite B in Hz. assert (V := mk_valz (h + 127) (2 ^ 22 + q) ltac:(lia) ltac:(lia)). rewrite Hz in V.
    assert (VZ : (val z * val z = IZR ((2 ^ 23 + (2 ^ 22 + q)) * (2 ^ 23 + (2 ^ 22 + q))) * bpow radix2 (2 * (h - 23)))%R).
    { rewrite V, mult_IZR. replace (2 * (h - 23)) with ((h + 127 - 150) + (h + 127 - 150)) by ring.
      rewrite bpow_plus. ring. }
    assert (VX : (val x = IZR ((2 ^ 23 + M) * 2 ^ 24) * bpow radix2 (2 * (h - 23)))%R).
    { rewrite HV, mult_IZR. replace (Ex - 150) with (24 + 2 * (h - 23)) by lia. rewrite bpow_plus.
      change (bpow radix2 24) with (IZR (2 ^ 24)). ring. }
    split.
    + intros H. rewrite VZ, VX in H.
      apply Rmult_eq_reg_r in H; [|apply Rgt_not_eq, bpow_gt_0]. apply eq_IZR in H.
      assert (Q : (2 ^ 22 - q) * (2 ^ 22 - q) = r * 2 ^ 24) by lia.
      assert (r = 0 \/ r = 1) as [R0|R1] by lia.
      * exfalso. rewrite R0 in Q. assert (2 ^ 22 - q = 0) by nia. lia.
      * assert (Q' : 2 ^ 22 - q = 2 ^ 12).
        { rewrite R1 in Q. change (1 * 2 ^ 24) with (4096 * 4096) in Q. change (2 ^ 12) with 4096. nia. }
        exists (h - 11). right. rewrite VX.
        replace M with (2 ^ 23 - 2 ^ 13 + 1) by lia.
        replace (2 * (h - 23)) with ((h - 11) + (h - 11) + (-24)) by ring. rewrite !bpow_plus.
        change (bpow radix2 (-24)) with (/ 16777216)%R.
        change (IZR ((2 ^ 23 + (2 ^ 23 - 2 ^ 13 + 1)) * 2 ^ 24)) with (IZR (4095 * 4095 * 16777216)).
        rewrite !mult_IZR. field.
    + intros (k & [Hk|Hk]).
      * destruct (W k Hk) as [_ (h' & Hh')]. lia.
      * destruct (W2 k Hk) as [HM' _]. assert (q = 2 ^ 22 - 2 ^ 12) by lia.
        rewrite VZ, VX. f_equal. apply f_equal. nia.
Qed.

(** ** invsqrt *)

Lemma invsqrt_never_exact : forall {E : Env} x, normal_pos x ->
  exists z, F32_invsqrt x = Ok z /\ (val x * (val z * val z) <> 1)%R.
Proof.
  intros E x Hx. pose proof (split_valz x Hx) as N. cbv zeta in N.
  set (Ex := bexp (to_bits x)) in *. set (M := bman (to_bits x)) in *.
  destruct N as (HE & HM & HT & HS & HV).
  assert (HB : to_bits x / 2 <= 0x5F375A86).
  { pose proof (nonneg_bits x (fin_not_nan x (proj1 Hx)) HS).
    apply Z.div_le_upper_bound; lia. }
  rewrite invsqrt_bits by assumption. eexists. split; [reflexivity|]. rewrite HT.
  assert (HM2 : 0 <= M / 2 < 2 ^ 22) by (split; [apply Z.div_pos|apply Z.div_lt_upper_bound]; lia).
  (* from the real equation to an integer one *)
  assert (K : forall e A f p, 0 <= p -> (Ex - 150) + (f + f) = - p -> e = f ->
    (val x * ((IZR A * bpow radix2 e) * (IZR A * bpow radix2 e)) = 1)%R ->
    (2 ^ 23 + M) * (A * A) = 2 ^ p).
  { intros e A f p Hp He -> H. apply eq_IZR. rewrite !mult_IZR.
    change (IZR (2 ^ p)) with (IZR (Zpower radix2 p)). rewrite IZR_Zpower by lia.
    replace (bpow radix2 p) with (1 * bpow radix2 p)%R by ring. rewrite <- H, HV.
    replace (IZR (2 ^ 23 + M) * bpow radix2 (Ex - 150) *
      (IZR A * bpow radix2 f * (IZR A * bpow radix2 f)) * bpow radix2 p)%R with
      (IZR (2 ^ 23 + M) * (IZR A * IZR A) *
       (bpow radix2 (Ex - 150) * (bpow radix2 f * bpow radix2 f) * bpow radix2 p))%R by ring.
    rewrite <- !bpow_plus. replace (Ex - 150 + (f + f) + p) with 0 by lia. change (bpow radix2 0) with 1%R. ring. }
  assert (L : forall A p, 0 <= p -> (2 ^ 23 + M) * (A * A) = 2 ^ p -> M = 0).
  { intros A p Hp H. apply (divides_pow2 M p HM Hp). exists (A * A). lia. }
  destruct (Z.Even_or_Odd (Ex - 127)) as [[h Hh]|[h Hh]].
  - assert (B : 0x5F375A86 - (Ex * 2 ^ 23 + M) / 2 = (126 - h) * 2 ^ 23 + (7821958 - M / 2)).
    { replace (Ex * 2 ^ 23 + M) with (M + (h * 2 ^ 23 + 127 * 2 ^ 22) * 2) by lia.
      rewrite Z.div_add by lia. lia. }
    rewrite B, mk_valz by lia. intros H.
    assert (G := K _ _ (126 - h - 150) 71 ltac:(lia) ltac:(lia) eq_refl H).
    assert (Z0 : M = 0) by (apply (L _ 71 ltac:(lia) G)). rewrite Z0 in G. vm_compute in G. discriminate G.
  - destruct (Z.lt_ge_cases 3627654 (M / 2)) as [C|C].
    + assert (B : 0x5F375A86 - (Ex * 2 ^ 23 + M) / 2 = (125 - h) * 2 ^ 23 + (2 ^ 23 + 3627654 - M / 2)).
      { replace (Ex * 2 ^ 23 + M) with (M + (h * 2 ^ 23 + 2 ^ 29) * 2) by lia.
        rewrite Z.div_add by lia. lia. }
      rewrite B, mk_valz by lia. intros H.
      assert (G := K _ _ (125 - h - 150) 72 ltac:(lia) ltac:(lia) eq_refl H).
      assert (Z0 : M = 0) by (apply (L _ 72 ltac:(lia) G)). rewrite Z0 in C. vm_compute in C. discriminate C.
    + assert (B : 0x5F375A86 - (Ex * 2 ^ 23 + M) / 2 = (126 - h) * 2 ^ 23 + (3627654 - M / 2)).
      { replace (Ex * 2 ^ 23 + M) with (M + (h * 2 ^ 23 + 2 ^ 29) * 2) by lia.
        rewrite Z.div_add by lia. lia. }
      rewrite B, mk_valz by lia. intros H.
      assert (G := K _ _ (126 - h - 150) 70 ltac:(lia) ltac:(lia) eq_refl H).
      assert (Z0 : M = 0) by (apply (L _ 70 ltac:(lia) G)). rewrite Z0 in G. vm_compute in G. discriminate G.
Qed.
