(** * Proofs: the trigonometric functions near zero *)

From Coq Require Import ZArith Reals Bool List Lia Lra Psatz.
From Flocq Require Import Core IEEE754.BinarySingleNaN IEEE754.Binary IEEE754.Bits.
From Verif Require Import Base Spec Float F32Lemmas BitLemmas P_Trunc P_Floor Literals ErrLemmas NanLemmas
  P_RoundEdge P_Euclid P_Roots P_InvSqrt RealBounds RealBounds2 P_Quat P_SumSq P_Atan.
Open Scope Z_scope.

(** ** sin, cos, tan for |x| <= 2^-25 *)

Lemma sin_arg_tiny : forall {E : Env} x, fin x -> (Rabs (val x) <= bpow radix2 (-25))%R ->
  fsub x (fdiv c_PI c_2) = from_bits 0xBFC90FDB.
Proof.
  intros E x Fx H.
  assert (D : fdiv c_PI c_2 = from_bits 0x3FC90FDB) by (apply to_bits_inj; vm_compute; reflexivity).
  rewrite D.
  assert (P : fin (from_bits 0x3FC90FDB) /\ val (from_bits 0x3FC90FDB) = (13176795 * bpow radix2 (-23))%R)
    by (split; [exact (proj1 (lit_val 0x3FC90FDB eq_refl))|lit 0x3FC90FDB; reflexivity]).
  assert (N : fin (from_bits 0xBFC90FDB) /\ val (from_bits 0xBFC90FDB) = (- (13176795 * bpow radix2 (-23)))%R)
    by (split; [exact (proj1 (lit_val 0xBFC90FDB eq_refl))|lit 0xBFC90FDB; bpow_lit; lra]).
  destruct P as [Fp Vp]. destruct N as [Fn Vn].
  change (bpow radix2 (-25)) with (/ 33554432)%R in H. apply Rabs_le_inv in H.
  assert (R : rnd (val x - val (from_bits 0x3FC90FDB)) = (- (13176795 * bpow radix2 (-23)))%R).
  { rewrite Vp. replace (val x - 13176795 * bpow radix2 (-23))%R with (- (13176795 * bpow radix2 (-23) - val x))%R by ring.
    rewrite rnd_opp. f_equal. apply rnd_near; [lia|lia|].
    change (bpow radix2 (- (-23))) with 8388608%R. change (bpow radix2 (-23)) with (/ 8388608)%R.
    apply Rabs_lt. split; lra. }
  destruct (fsub_R x (from_bits 0x3FC90FDB) Fx Fp) as [F V].
  { rewrite R. change (bpow radix2 (-23)) with (/ 8388608)%R. rewrite Rabs_Ropp, Rabs_pos_eq by lra.
    apply Rlt_trans with (bpow radix2 1); [change (bpow radix2 1) with 2%R; lra|apply bpow_lt; lia]. }
  apply val_inj_nz; trivial.
  - rewrite V, R, Vn. reflexivity.
  - rewrite V, R. change (bpow radix2 (-23)) with (/ 8388608)%R. lra.
Qed.

Lemma sin_tiny : forall {E : Env} x, fin x -> (Rabs (val x) <= bpow radix2 (-25))%R ->
  F32_sin x = from_bits 0.
Proof.
  intros E x Fx H. unfold F32_sin. rewrite sin_arg_tiny by assumption.
  apply to_bits_inj. vm_compute. reflexivity.
Qed.

Lemma rnd_quarter : forall r, (Rabs (r - / 4) <= / 166666666)%R -> rnd r = (/ 4)%R.
Proof.
  intros r H. apply Rabs_le_inv in H.
  assert (FQ : fmt (/ 4)) by (change (/ 4)%R with (bpow radix2 (-2)); apply fmt_bpow; lia).
  pose proof (rnd_err (-2) r) as Up. pose proof (rnd_err (-1) r) as Up2.
  (* the neighbours of 1/4 are 1/4 - 2^-26 and 1/4 + 2^-25 *)
  apply Rle_antisym.
  - assert (G : (rnd r < / 4 + bpow radix2 (-25))%R).
    { assert (A : (Rabs r <= bpow radix2 (-1))%R) by (change (bpow radix2 (-1)) with (/ 2)%R; apply Rabs_le; lra).
      specialize (Up2 ltac:(lia) A). apply Rabs_le_inv in Up2.
      change (bpow radix2 (-1 - 25)) with (/ 67108864)%R in Up2. change (bpow radix2 (-25)) with (/ 33554432)%R. lra. }
    apply Rnot_lt_le. intros C.
    assert (K : (succ radix2 (FLT_exp (-149) 24) (/ 4) <= rnd r)%R).
    { apply succ_le_lt; [apply vexp|exact FQ|apply fmt_rnd|exact C]. }
    rewrite succ_eq_pos in K by lra.
    replace (/ 4)%R with (bpow radix2 (-2)) in K by reflexivity.
    rewrite ulp_bpow in K. change (FLT_exp (-149) 24 (-2 + 1)) with (-25) in K.
    change (bpow radix2 (-2)) with (/ 4)%R in K. lra.
  - destruct (Rle_or_lt (/ 4) r) as [L|L].
    { rewrite <- (rnd_fmt _ FQ). apply rnd_le. exact L. }
    assert (G : (/ 4 - bpow radix2 (-26) < rnd r)%R).
    { assert (A : (Rabs r <= bpow radix2 (-2))%R) by (change (bpow radix2 (-2)) with (/ 4)%R; apply Rabs_le; lra).
      specialize (Up ltac:(lia) A). apply Rabs_le_inv in Up.
      change (bpow radix2 (-2 - 25)) with (/ 134217728)%R in Up. change (bpow radix2 (-26)) with (/ 67108864)%R. lra. }
    apply Rnot_lt_le. intros C.
    assert (K : (rnd r <= pred radix2 (FLT_exp (-149) 24) (/ 4))%R).
    { apply pred_ge_gt; [apply vexp|apply fmt_rnd|exact FQ|exact C]. }
    replace (/ 4)%R with (bpow radix2 (-2)) in K by reflexivity.
    rewrite pred_bpow in K. change (FLT_exp (-149) 24 (-2)) with (-26) in K.
    change (bpow radix2 (-2)) with (/ 4)%R in K. lra.
Qed.

Lemma cos_tiny : forall {E : Env} x, fin x -> (Rabs (val x) <= bpow radix2 (-25))%R ->
  F32_cos x = from_bits 0x3F800000.
Proof.
  intros E x Fx H. unfold F32_cos.
  assert (D : fdiv c_FRAC_1_PI c_2 = from_bits 0x3E22F983) by (apply to_bits_inj; vm_compute; reflexivity).
  rewrite D.
  assert (P : fin (from_bits 0x3E22F983) /\ (0 <= val (from_bits 0x3E22F983) <= / 6)%R)
    by (split; [exact (proj1 (lit_val 0x3E22F983 eq_refl))|lit 0x3E22F983; bpow_lit; lra]).
  destruct P as [Fp Vp].
  set (c := from_bits 0x3E22F983) in *. clearbody c.
  assert (M : (Rabs (val x * val c) <= / 200000000)%R).
  { rewrite Rabs_mult, (Rabs_pos_eq (val c)) by lra.
    change (bpow radix2 (-25)) with (/ 33554432)%R in H. pose proof (Rabs_pos (val x)). nra. }
  destruct (fmul_e (-20) x c Fx Fp ltac:(lia)) as (e & Fy & Vy & He).
  { eapply Rle_trans; [exact M|]. change (bpow radix2 (-20)) with (/ 1048576)%R. lra. }
  change (bpow radix2 (-20 - 25)) with (/ 35184372088832)%R in He.
  set (y := fmul x c) in *.
  assert (My : (Rabs (val y) <= / 166666666)%R).
  { rewrite Vy. eapply Rle_trans; [apply Rabs_triang|]. lra. }
  clearbody y. clear Vy He M. apply Rabs_le_inv in My.
  destruct c_0_25_val as [Fq Vq].
  assert (A : fadd y c_0_25 = c_0_25).
  { assert (R : rnd (val y + val c_0_25) = (/ 4)%R) by (apply rnd_quarter; rewrite Vq; apply Rabs_le; lra).
    destruct (fadd_R y c_0_25 Fy Fq) as [F V].
    { rewrite R, Rabs_pos_eq by lra. apply Rlt_trans with (bpow radix2 0); [change (bpow radix2 0) with 1%R; lra|apply bpow_lt; lia]. }
    apply val_inj_nz; trivial; rewrite V, R; lra. }
  assert (B : fsub y c_0_25 = from_bits 0xBE800000).
  { assert (N : fin (from_bits 0xBE800000) /\ val (from_bits 0xBE800000) = (- / 4)%R)
      by (split; [exact (proj1 (lit_val 0xBE800000 eq_refl))|lit 0xBE800000; bpow_lit; lra]).
    destruct N as [Fn Vn].
    assert (R : rnd (val y - val c_0_25) = (- / 4)%R).
    { rewrite Vq. replace (val y - / 4)%R with (- (/ 4 - val y))%R by ring. rewrite rnd_opp. f_equal.
      apply rnd_quarter. apply Rabs_le. lra. }
    destruct (fsub_R y c_0_25 Fy Fq) as [F V].
    { rewrite R, Rabs_Ropp, Rabs_pos_eq by lra. apply Rlt_trans with (bpow radix2 0); [change (bpow radix2 0) with 1%R; lra|apply bpow_lt; lia]. }
    apply val_inj_nz; trivial; rewrite V, R; lra. }
  assert (Q : fadd c_0_25 (F32_floor c_0_25) = c_0_25) by (apply to_bits_inj; vm_compute; reflexivity).
  cbv zeta. rewrite A, Q, B. apply to_bits_inj. vm_compute. reflexivity.
Qed.

Lemma tan_tiny : forall {E : Env} x, fin x -> (Rabs (val x) <= bpow radix2 (-25))%R ->
  F32_tan x = from_bits 0.
Proof.
  intros E x Fx H. unfold F32_tan. rewrite sin_tiny, cos_tiny by assumption.
  apply to_bits_inj. vm_compute. reflexivity.
Qed.

(** ** atan and asin for small arguments *)

Lemma rel_up : forall r a b, (bpow radix2 (-126) <= a <= r)%R -> (r <= b)%R ->
  ((1 - u24) * a <= rnd r <= (1 + u24) * b)%R.
Proof.
  intros r a b [Ha Hr] Hb. pose proof (bpow_gt_0 radix2 (-126)).
  pose proof (rnd_rel r) as R. rewrite (Rabs_pos_eq r) in R by lra. specialize (R ltac:(lra)).
  rewrite u24_eq in R. apply Rabs_le_inv in R. unfold u24 in *. split; lra.
Qed.

Lemma atan_small : forall {E : Env} x, fin x -> (bpow radix2 (-100) <= Rabs (val x) <= bpow radix2 (-12))%R ->
  fin (F32_atan x) /\ sign_bit (F32_atan x) = sign_bit x /\
  (0.936 * Rabs (val x) <= Rabs (val (F32_atan x)) <= 0.937 * Rabs (val x))%R.
Proof.
  intros E x Fx [L U].
  assert (H : (Rabs (val x) < bpow radix2 64)%R) by (eapply Rle_lt_trans; [exact U|apply bpow_lt; lia]).
  destruct (quadf_one x Fx H) as (Fq & Sq & Rq & _).
  destruct (atan_parts x Fx H) as (Fb & Fc & Pb & Pc & Eb & Ec & Fn & Fs & Fd).
  destruct (atan_acc x Fx H) as (FA & SA & _).
  split; [exact FA|]. split; [exact SA|]. clear FA SA.
  unfold F32_atan. rewrite atan_norm_eq, Sq, orb_false_r.
  set (t := Rabs (val x)) in *.
  set (b := F32_abs (fmul c_B x)) in *. set (c := fmul x x) in *.
  set (q := quadf F32_ONE b c) in *.
  assert (L' : (bpow radix2 (-126) * 67108864 <= t)%R).
  { change 67108864%R with (bpow radix2 26). rewrite <- bpow_plus. exact L. }
  assert (ET : (0 < eta <= bpow radix2 (-50) * t)%R).
  { split; [apply eta_pos|]. unfold eta. replace (-150) with (-50 + -100) by ring. rewrite bpow_plus.
    apply Rmult_le_compat_l; [apply bpow_ge_0|exact L]. }
  change (bpow radix2 (-50)) with (/ 1125899906842624)%R in ET.
  change (bpow radix2 (-12)) with (/ 4096)%R in U.
  pose proof (bpow_gt_0 radix2 (-126)) as P126. set (w := bpow radix2 (-126)) in *.
  apply Rabs_le_inv in Eb. apply Rabs_le_inv in Ec. destruct one_val as [F1 V1].
  assert (Bb : (0.596226 * t <= val b <= 0.596228 * t)%R) by (unfold u24, cB in *; lra).
  assert (Bc : (0 <= val c <= 0.000245 * t)%R) by (split; [exact Pc|]; unfold u24 in *; nra).
  assert (OV : forall r, (0 <= r <= 4)%R -> (Rabs (rnd r) < bpow radix2 128)%R).
  { intros r Hr. apply (small_lt_128 2); [lia|]. change (bpow radix2 2) with 4%R. rewrite Rabs_pos_eq; lra. }
  assert (Bn : (0.596225 * t <= val (fadd b c) <= 0.596474 * t)%R).
  { destruct (fadd_R b c Fb Fc) as [_ V]; [apply OV; lra|]. rewrite V.
    destruct (rel_up (val b + val c) (0.596226 * t) (0.596473 * t)) as [A B]; [unfold w in *; lra|lra|].
    unfold u24 in *; lra. }
  assert (Bs : (1 <= val (fadd F32_ONE b) <= 1.00015)%R).
  { destruct (fadd_R F32_ONE b F1 Fb) as [_ V]; [apply OV; lra|]. rewrite V, V1. split.
    - rewrite <- (rnd_fmt 1) at 1 by (apply (fmt_IZR 1); lia). apply rnd_le. lra.
    - destruct (rel_up (1 + val b) 1 1.000146) as [A B]; [|lra|unfold u24 in *; lra].
      split; [|lra]. apply Rle_trans with (bpow radix2 0); [apply bpow_le; lia|change (bpow radix2 0) with 1%R; lra]. }
  assert (Bd : (1 <= val (fadd (fadd F32_ONE b) (fadd b c)) <= 1.0003)%R).
  { destruct (fadd_R (fadd F32_ONE b) (fadd b c) Fs Fn) as [_ V]; [apply OV; lra|]. rewrite V. split.
    - rewrite <- (rnd_fmt 1) at 1 by (apply (fmt_IZR 1); lia). apply rnd_le. lra.
    - destruct (rel_up (val (fadd F32_ONE b) + val (fadd b c)) 1 1.000297) as [A B]; [|lra|unfold u24 in *; lra].
      split; [|lra]. apply Rle_trans with (bpow radix2 0); [apply bpow_le; lia|change (bpow radix2 0) with 1%R; lra]. }
  assert (Bq : (0.59604 * t <= val q <= 0.596475 * t)%R).
  { unfold q, quadf. set (n := val (fadd b c)) in *. set (d := val (fadd (fadd F32_ONE b) (fadd b c))) in *.
    assert (I : (0.9997 <= / d <= 1)%R).
    { split.
      - apply Rmult_le_reg_r with d; [lra|]. rewrite Rinv_l by lra. lra.
      - rewrite <- Rinv_1. apply Rinv_le_contravar; lra. }
    assert (Q : (0.596046 * t <= n / d <= 0.596474 * t)%R) by (unfold Rdiv; split; nra).
    destruct (fdiv_R (fadd b c) (fadd (fadd F32_ONE b) (fadd b c)) Fn Fd) as [_ V];
      [fold d; lra|fold n d; apply OV; lra|]. rewrite V. fold n d.
    destruct (rel_up (n / d) (0.596046 * t) (0.596474 * t)) as [A B]; [unfold w in *; lra|lra|].
    unfold u24 in *; lra. }
  destruct c_FRAC_PI_2_val as [Fp Vp].
  set (s := sign_bit x) in *.
  assert (Fws : fin (with_sign s q)) by (unfold fin; rewrite with_sign_fin; exact Fq).
  assert (Vws : Rabs (val (with_sign s q)) = val q).
  { rewrite with_sign_val. rewrite (Rabs_pos_eq (val q)) by lra. destruct s.
    - rewrite Rabs_mult, Rabs_left, (Rabs_pos_eq (val q)) by lra. ring.
    - rewrite Rmult_1_l. apply Rabs_pos_eq. lra. }
  assert (AR : (Rabs (val c_FRAC_PI_2 * val (with_sign s q)) = 13176795 / 8388608 * val q)%R).
  { rewrite Rabs_mult, Vws, Vp, Rabs_pos_eq by lra. reflexivity. }
  destruct (fmul_R c_FRAC_PI_2 (with_sign s q) Fp Fws) as [Fr Vr].
  { apply (small_lt_128 2); [lia|]. rewrite AR. change (bpow radix2 2) with 4%R. lra. }
  assert (Er : (Rabs (Rabs (val (fmul c_FRAC_PI_2 (with_sign s q))) - 13176795 / 8388608 * val q) <= u24 * (13176795 / 8388608 * val q))%R).
  { rewrite <- AR. eapply Rle_trans; [apply Rabs_triang_inv2|]. rewrite Vr, <- u24_eq. apply rnd_rel. rewrite AR. unfold w in *. lra. }
  apply Rabs_le_inv in Er.
  unfold u24 in *. lra.
Qed.

(** asin: 1 - x^2 rounds to 1, and invsqrt(1) = 0.96622. *)
Lemma asin_small : forall {E : Env} x, fin x -> (bpow radix2 (-99) <= Rabs (val x) <= bpow radix2 (-13))%R ->
  exists r, F32_asin x = Ok r /\ fin r /\ sign_bit r = sign_bit x /\
  (0.904 * Rabs (val x) <= Rabs (val r) <= 0.906 * Rabs (val x))%R.
Proof.
  intros E x Fx [L U]. destruct one_val as [F1 V1].
  assert (U' : (Rabs (val x) <= / 8192)%R) by exact U.
  assert (SQ : (0 <= val x * val x <= / 67108864)%R).
  { split; [apply Rle_0_sqr|]. rewrite <- (Rabs_pos_eq (val x * val x)) by apply Rle_0_sqr. rewrite Rabs_mult.
    pose proof (Rabs_pos (val x)). nra. }
  destruct (fmul_e (-26) x x Fx Fx ltac:(lia)) as (e & Fc & Vc & He).
  { rewrite Rabs_pos_eq by apply SQ. exact (proj2 SQ). }
  change (bpow radix2 (-26 - 25)) with (/ 2251799813685248)%R in He. apply Rabs_le_inv in He.
  assert (Pc : (0 <= val (fmul x x))%R).
  { destruct (fmul_R x x Fx Fx) as [_ V].
    - apply (small_lt_128 0); [lia|]. rewrite Rabs_pos_eq by apply SQ. change (bpow radix2 0) with 1%R. lra.
    - rewrite V. apply rnd_nonneg. apply SQ. }
  set (c := fmul x x) in *.
  assert (R1 : rnd (val F32_ONE - val c) = 1%R).
  { rewrite V1. apply Rle_antisym.
    - apply Rle_trans with (rnd 1); [apply rnd_le; lra|]. rewrite rnd_fmt; [lra|apply (fmt_IZR 1); lia].
    - assert (A : (Rabs (1 - val c) <= bpow radix2 0)%R) by (change (bpow radix2 0) with 1%R; apply Rabs_le; lra).
      pose proof (rnd_err 0 _ ltac:(lia) A) as B. apply Rabs_le_inv in B.
      change (bpow radix2 (0 - 25)) with (/ 33554432)%R in B.
      apply Rnot_lt_le. intros C.
      assert (FO : fmt 1) by (apply (fmt_IZR 1); lia).
      assert (K : (rnd (1 - val c) <= pred radix2 (FLT_exp (-149) 24) 1)%R).
      { apply pred_ge_gt; [apply vexp|apply fmt_rnd|exact FO|exact C]. }
      replace 1%R with (bpow radix2 0) in K at 2 by reflexivity.
      rewrite pred_bpow in K. change (FLT_exp (-149) 24 0) with (-24) in K.
      change (bpow radix2 0) with 1%R in K. change (bpow radix2 (-24)) with (/ 16777216)%R in K. lra. }
  assert (S1 : fsub F32_ONE c = F32_ONE).
  { destruct (fsub_R F32_ONE c F1 Fc) as [F V].
    - rewrite R1, Rabs_R1. change 1%R with (bpow radix2 0). apply bpow_lt. lia.
    - apply val_inj_nz; trivial; rewrite V, R1; lra. }
  unfold F32_asin. fold c. rewrite S1.
  assert (I : F32_invsqrt F32_ONE = Ok (from_bits 0x3F775A86)) by (apply ok_bits; vm_compute; reflexivity).
  rewrite I. unfold bind. eexists. split; [reflexivity|].
  assert (K : fin (from_bits 0x3F775A86) /\ (0.96622 <= val (from_bits 0x3F775A86) <= 0.966226)%R /\ sign_bit (from_bits 0x3F775A86) = false)
    by (split; [exact (proj1 (lit_val 0x3F775A86 eq_refl))|split; [lit 0x3F775A86; bpow_lit; lra|vm_compute; reflexivity]]).
  set (k := from_bits 0x3F775A86) in *. clearbody k. destruct K as (Fk & Vk & Sk).
  pose proof (Rabs_pos (val x)) as Px.
  assert (AR : (Rabs (val x * val k) = Rabs (val x) * val k)%R) by (rewrite Rabs_mult, (Rabs_pos_eq (val k)) by lra; reflexivity).
  assert (L' : (bpow radix2 (-100) * 2 <= Rabs (val x))%R).
  { change 2%R with (bpow radix2 1). rewrite <- bpow_plus. exact L. }
  pose proof (bpow_gt_0 radix2 (-100)) as P100.
  destruct (fmul_R x k Fx Fk) as [Fy Vy].
  { apply (small_lt_128 0); [lia|]. rewrite AR. change (bpow radix2 0) with 1%R. nra. }
  assert (By : (0.966219 * Rabs (val x) <= Rabs (val (fmul x k)) <= 0.966227 * Rabs (val x))%R).
  { assert (Er : (Rabs (Rabs (val (fmul x k)) - Rabs (val x) * val k) <= u24 * (Rabs (val x) * val k))%R).
    { rewrite <- AR. eapply Rle_trans; [apply Rabs_triang_inv2|]. rewrite Vy, <- u24_eq. apply rnd_rel. rewrite AR.
      apply Rle_trans with (bpow radix2 (-100)); [apply bpow_le; lia|]. nra. }
    apply Rabs_le_inv in Er. assert (0.96622 * Rabs (val x) <= Rabs (val x) * val k <= 0.966226 * Rabs (val x))%R by nra.
    unfold u24 in *. lra. }
  assert (Sy : sign_bit (fmul x k) = sign_bit x).
  { rewrite fmul_sign by (apply fin_not_nan; exact Fy). rewrite Sk. apply xorb_false_r. }
  destruct (atan_small (fmul x k) Fy) as (Fr & Sr & Br).
  { change (bpow radix2 (-12)) with (/ 4096)%R. split; lra. }
  split; [exact Fr|]. split; [rewrite Sr; exact Sy|]. lra.
Qed.
