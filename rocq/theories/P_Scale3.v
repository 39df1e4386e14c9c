(** * Proofs: scaling of atan2 and of the statistics *)

From Coq Require Import ZArith Reals Bool List Lia Lra Psatz.
From Flocq Require Import Core IEEE754.BinarySingleNaN IEEE754.Binary IEEE754.Bits.
From Verif Require Import Base Spec SpecMore Float Stats F32Lemmas BitLemmas P_Trunc P_Floor Literals ErrLemmas P_RoundEdge NanLemmas
  P_Euclid P_Roots P_InvSqrt P_Exact P_Recip P_Atan P_Atan2 P_SumSq P_VecF32 P_Quat P_Stats P_Stats2 P_Stats3 P_Scale P_Scale2.
Import ListNotations.
Open Scope Z_scope.

(** Nonnegative, zero or in a range: closed under rounded addition. *)
Lemma add_pos : forall {E : Env} k l u a a' b b', scaled k a a' -> scaled k b b' ->
  (0 <= val a)%R -> (0 <= val a')%R -> (0 <= val b)%R -> (0 <= val b')%R ->
  rg l u (val a) -> rg l u (val a') -> rg l u (val b) -> rg l u (val b') -> -149 <= l -> l <= u -> u <= 126 ->
  scaled k (fadd a b) (fadd a' b') /\ (val a <= val (fadd a b))%R /\ (val b <= val (fadd a b))%R /\ (0 <= val (fadd a' b'))%R /\
  rg l (u + 1) (val (fadd a b)) /\ rg l (u + 1) (val (fadd a' b')).
Proof.
  intros E k l u a a' b b' Sa Sb Pa Pa' Pb Pb' Ra Ra' Rb Rb' L LU U.
  pose proof (bpow_gt_0 radix2 l) as B0. pose proof (bpow_gt_0 radix2 u) as B1.
  assert (D : (bpow radix2 (u + 1) = 2 * bpow radix2 u)%R) by (rewrite Z.add_comm, bpow_plus; reflexivity).
  assert (U1 : (bpow radix2 (u + 1) <= bpow radix2 127)%R) by (apply bpow_le; lia).
  assert (SUM : forall x y, (0 <= x)%R -> (0 <= y)%R -> rg l u x -> rg l u y -> rg l (u + 1) (x + y) /\ (0 <= x + y <= bpow radix2 127)%R).
  { intros x y Px Py [->|Rx] [->|Ry].
    - split; [left; ring|lra].
    - rewrite Rabs_pos_eq in Ry by lra. split; [|lra]. right. rewrite Rplus_0_l, Rabs_pos_eq by lra. lra.
    - rewrite Rabs_pos_eq in Rx by lra. split; [|lra]. right. rewrite Rplus_0_r, Rabs_pos_eq by lra. lra.
    - rewrite Rabs_pos_eq in Rx by lra. rewrite Rabs_pos_eq in Ry by lra. split; [|lra]. right. rewrite Rabs_pos_eq by lra. lra. }
  destruct (SUM _ _ Pa Pb Ra Rb) as [S1 S2]. destruct (SUM _ _ Pa' Pb' Ra' Rb') as [S1' S2'].
  assert (H : (Rabs (val a + val b) <= bpow radix2 127)%R) by (rewrite Rabs_pos_eq; lra).
  assert (H' : (Rabs (val a' + val b') <= bpow radix2 127)%R) by (rewrite Rabs_pos_eq; lra).
  pose proof Sa as (Fa & Fa' & _). pose proof Sb as (Fb & Fb' & _).
  destruct (fadd_R a b Fa Fb (small_lt_128 127 _ ltac:(lia) H)) as [_ V].
  destruct (fadd_R a' b' Fa' Fb' (small_lt_128 127 _ ltac:(lia) H')) as [_ V'].
  split; [apply scaled_add; assumption|]. rewrite V, V'.
  split; [rewrite <- (rnd_fmt (val a)) at 1 by apply fmt_val; apply rnd_le; lra|].
  split; [rewrite <- (rnd_fmt (val b)) at 1 by apply fmt_val; apply rnd_le; lra|].
  split; [apply rnd_nonneg; lra|]. split; apply rg_rnd; trivial; lia.
Qed.

Lemma atan2_norm_scaled : forall {E : Env} k y x y' x', scaled k y y' -> scaled k x x' ->
  within 61 y -> within 61 x -> within 61 y' -> within 61 x' ->
  F32_atan2_norm y' x' = F32_atan2_norm y x.
Proof.
  intros E k y x y' x' Sy Sx Wy Wx Wy' Wx'.
  pose proof Sy as (Fy & Fy' & Vy & Gy). pose proof Sx as (Fx & Fx' & Vx & Gx).
  destruct (Req_dec (val x) 0) as [Zx|Nx]; [destruct (Req_dec (val y) 0) as [Zy|Ny]|].
  { assert (x' = x) by (apply fin_dec_eq; trivial; rewrite Vx, Zx; ring).
    assert (y' = y) by (apply fin_dec_eq; trivial; rewrite Vy, Zy; ring). subst. reflexivity. }
  all: assert (NZ : (val x <> 0 \/ val y <> 0)%R) by tauto.
  all: destruct c_B_val as [FB VB];
    assert (RB : rg (-1) 0 (val c_B)) by (right; rewrite VB; bpow_lit; rewrite Rabs_pos_eq; lra);
    destruct (fmul_rg (-1) 0 (-61) 61 0 k c_B c_B x x' (scaled_refl _ FB) Sx RB RB (proj2 Wx) (proj2 Wx')) as (S1 & R1 & R1'); try lia;
    destruct (fmul_rg (-1 + -61) (0 + 61) (-61) 61 (0 + k) k _ _ y y' S1 Sy R1 R1' (proj2 Wy) (proj2 Wy')) as (S2 & R2 & R2'); try lia;
    destruct (fmul_rg (-61) 61 (-61) 61 k k y y' y y' Sy Sy (proj2 Wy) (proj2 Wy') (proj2 Wy) (proj2 Wy')) as (S3 & R3 & R3'); try lia;
    destruct (fmul_rg (-61) 61 (-61) 61 k k x x' x x' Sx Sx (proj2 Wx) (proj2 Wx') (proj2 Wx) (proj2 Wx')) as (S4 & R4 & R4'); try lia.
  all: replace (0 + k + k) with (k + k) in S2 by ring.
  all: apply scaled_abs in S2.
  all: assert (A2 : rg (-123) 122 (val (F32_abs (fmul (fmul c_B x) y)))) by (rewrite abs_val; destruct R2 as [->|R2]; [left; apply Rabs_R0|right; rewrite Rabs_Rabsolu; exact R2]).
  all: assert (A2' : rg (-123) 122 (val (F32_abs (fmul (fmul c_B x') y')))) by (rewrite abs_val; destruct R2' as [->|R2']; [left; apply Rabs_R0|right; rewrite Rabs_Rabsolu; exact R2']).
  all: assert (W1 : forall r, rg (-61 + -61) (61 + 61) r -> rg (-123) 122 r) by (intros r [Hr|Hr]; [left; exact Hr|right; split; [eapply Rle_trans; [|apply Hr]; apply bpow_le; lia|apply Hr]]).
  all: assert (P2 : forall z, (0 <= val (F32_abs z))%R) by (intros z; rewrite abs_val; apply Rabs_pos).
  all: assert (SQ : forall z, fin z -> within 61 z -> (0 <= val (fmul z z))%R).
  1, 3: intros z Fz Wz; destruct (fmul_R z z Fz Fz) as [_ V]; [apply (small_lt_128 127); [lia|]; apply (rg_le (-61 + -61) (61 + 61)); [lia|]; apply rg_mul; exact (proj2 Wz)|]; rewrite V; apply rnd_nonneg; nra.
  all: destruct (add_pos (k + k) (-123) 122 _ _ _ _ S2 S3 (P2 _) (P2 _) (SQ y Fy Wy) (SQ y' Fy' Wy') A2 A2' (W1 _ R3) (W1 _ R3')) as (S5 & L5a & L5b & P5' & R5 & R5'); try lia.
  all: pose proof (SQ x Fx Wx) as PX; pose proof (SQ x' Fx' Wx') as PX'.
  all: destruct (add_pos (k + k) (-123) 122 _ _ _ _ S4 S2 PX PX' (P2 _) (P2 _) (W1 _ R4) (W1 _ R4') A2 A2') as (S6 & L6a & L6b & P6' & R6 & R6'); try lia.
  all: assert (P5 : (0 <= val (fadd (F32_abs (fmul (fmul c_B x) y)) (fmul y y)))%R) by (eapply Rle_trans; [apply P2|exact L5a]).
  all: assert (P6 : (0 <= val (fadd (fmul x x) (F32_abs (fmul (fmul c_B x) y))))%R) by (eapply Rle_trans; [exact PX|exact L6a]).
  all: destruct (add_pos (k + k) (-123) (122 + 1) _ _ _ _ S6 S5 P6 P6' P5 P5' R6 R6' R5 R5') as (S7 & L7a & L7b & _ & _); try lia.
  all: assert (NS : forall z, fin z -> within 61 z -> val z <> 0%R -> (0 < val (fmul z z))%R).
  1, 3: intros z Fz Wz Nz; destruct (fmul_R z z Fz Fz) as [_ V]; [apply (small_lt_128 127); [lia|]; apply (rg_le (-61 + -61) (61 + 61)); [lia|]; apply rg_mul; exact (proj2 Wz)|];
    pose proof (rg_rnd (-61 + -61) (61 + 61) _ ltac:(lia) ltac:(lia) (rg_mul _ _ _ _ _ _ (proj2 Wz) (proj2 Wz))) as Q; pose proof (SQ z Fz Wz) as Pz; rewrite V in *;
    pose proof (rg_mul _ _ _ _ _ _ (proj2 Wz) (proj2 Wz)) as QQ; destruct QQ as [QQ|QQ]; [apply Rmult_integral in QQ; tauto|];
    assert (K : (bpow radix2 (-61 + -61) <= rnd (val z * val z))%R) by (rewrite <- (rnd_fmt (bpow radix2 (-61 + -61))) by (apply fmt_bpow; lia); apply rnd_le; rewrite Rabs_pos_eq in QQ by nra; apply QQ);
    pose proof (bpow_gt_0 radix2 (-61 + -61)); lra.
  all: assert (PD : (0 < val (fadd (fadd (fmul x x) (F32_abs (fmul (fmul c_B x) y))) (fadd (F32_abs (fmul (fmul c_B x) y)) (fmul y y))))%R) by
    (destruct NZ as [NX|NY]; [pose proof (NS x Fx Wx NX); lra|pose proof (NS y Fy Wy NY); lra]).
  all: unfold F32_atan2_norm; rewrite !land_sign, Gx, Gy;
    rewrite (scaled_div_0 (k + k) _ _ _ _ S5 S7); [reflexivity|lra|].
  all: apply Rle_trans with (bpow radix2 0); [|apply bpow_le; lia]; change (bpow radix2 0) with 1%R;
    unfold Rdiv; rewrite Rabs_mult, Rabs_inv, (Rabs_pos_eq _ P5); rewrite Rabs_pos_eq by lra;
    apply Rmult_le_reg_r with (1 := PD); rewrite Rmult_assoc, Rinv_l by lra; lra.
Qed.

Lemma atan2_scaled : forall {E : Env} k y x y' x', scaled k y y' -> scaled k x x' ->
  within 61 y -> within 61 x -> within 61 y' -> within 61 x' -> F32_atan2 y' x' = F32_atan2 y x.
Proof. intros E k y x y' x' Sy Sx Wy Wx Wy' Wx'. unfold F32_atan2. rewrite (atan2_norm_scaled k y x y' x') by assumption. reflexivity. Qed.
