(** * Proofs: recip *)

From Coq Require Import ZArith Reals Bool List Lia Lra Psatz.
From Flocq Require Import Core IEEE754.BinarySingleNaN IEEE754.Binary IEEE754.Bits.
From Verif Require Import Base Spec Float F32Lemmas BitLemmas P_Trunc P_Floor Literals ErrLemmas P_RoundEdge NanLemmas
  P_Euclid P_Roots P_InvSqrt.
Open Scope Z_scope.

Definition recip_guess (x : f32) : f32 := from_bits (wrap u32 (0x7EF127EA - to_bits x)).
Definition recip_poly {E : Env} (w : f32) : f32 :=
  fadd c_8 (fmul w (fadd (fneg c_28) (fmul w (fadd c_56 (fmul w
           (fadd (fneg c_70) (fmul w (fadd c_56 (fmul w (fadd (fneg c_28) (fmul w
           (fsub c_8 w)))))))))))).

Lemma recip_eq : forall {E : Env} x0,
  F32_recip x0 =
  let sx := if flt x0 F32_ZERO then fneg F32_ONE else F32_ONE in
  let x := fmul x0 sx in
  fmul (fmul (recip_guess x) (recip_poly (fmul x (recip_guess x)))) sx.
Proof. intros E x0. unfold F32_recip, recip_poly, recip_guess. cbv zeta. exact eq_refl. Qed.

(** The initial guess: x*v in [0.942, 1.0398]. *)
Lemma guess_spec : forall x, normal_pos x -> (val x <= bpow radix2 125)%R ->
  fin (recip_guess x) /\ (0 < val (recip_guess x))%R /\
  (0.942 <= val x * val (recip_guess x) <= 1.0398)%R.
Proof.
  intros x Hx Hu. pose proof (normal_split x Hx) as N. cbv zeta in N.
  set (Ex := bexp (to_bits x)) in *. set (M := bman (to_bits x)) in *.
  destruct N as (HE & HM & HT & HS & HV).
  pose proof (frac01 M HM) as HF.
  assert (I23 : IZR (2 ^ 23) = 8388608%R) by reflexivity.
  assert (HB : Ex <= 251 \/ (Ex = 252 /\ M = 0)).
  { destruct (Z.le_gt_cases Ex 251) as [L|L]; [left; assumption|right].
    destruct (Z.eq_dec Ex 252) as [X|X].
    - split; [assumption|]. rewrite HV, X in Hu. change (252 - 127) with 125 in Hu.
      pose proof (bpow_gt_0 radix2 125).
      assert (A : (IZR M / IZR (2 ^ 23) <= 0)%R) by nra.
      assert (IZR M = 0)%R.
      { rewrite I23 in A. assert (0 <= IZR M)%R by (apply IZR_le; lia). lra. }
      apply eq_IZR. assumption.
    - exfalso. rewrite HV in Hu.
      assert (bpow radix2 125 < bpow radix2 (Ex - 127))%R by (apply bpow_lt; lia).
      pose proof (bpow_gt_0 radix2 (Ex - 127)). nra. }
  set (m := (IZR M / IZR (2 ^ 23))%R) in *.
  assert (W : wrap u32 (0x7EF127EA - to_bits x) = 0x7EF127EA - to_bits x).
  { unfold wrap. change (ity_min u32) with 0. rewrite Z.sub_0_r, Z.add_0_r. apply Z.mod_small.
    change (2 ^ ity_bits u32) with (2 ^ 32). lia. }
  unfold recip_guess. rewrite W, HT.
  destruct (Z.le_gt_cases M 7415786) as [L|L].
  - replace (0x7EF127EA - (Ex * 2 ^ 23 + M)) with ((253 - Ex) * 2 ^ 23 + (7415786 - M)) by lia.
    destruct (mk_val (253 - Ex) (7415786 - M) ltac:(lia) ltac:(lia)) as (F & S & _ & V).
    assert (Y : (1 + IZR (7415786 - M) / IZR (2 ^ 23) = 1 + 7415786 / 8388608 - m)%R).
    { unfold m. rewrite minus_IZR, I23. field. }
    rewrite Y in V.
    assert (Lm : (m <= 7415786 / 8388608)%R).
    { unfold m. rewrite I23. apply Rmult_le_compat_r; [lra|]. apply IZR_le. assumption. }
    split; [assumption|]. split.
    + rewrite V. apply Rmult_lt_0_compat; [lra|apply bpow_gt_0].
    + assert (P : (bpow radix2 (Ex - 127) * bpow radix2 (253 - Ex - 127) = / 2)%R).
      { rewrite <- bpow_plus. replace (Ex - 127 + (253 - Ex - 127)) with (-1) by ring. reflexivity. }
      rewrite V, HV.
      replace ((1 + m) * bpow radix2 (Ex - 127) * ((1 + 7415786 / 8388608 - m) * bpow radix2 (253 - Ex - 127)))%R
        with ((1 + m) * (1 + 7415786 / 8388608 - m) * (bpow radix2 (Ex - 127) * bpow radix2 (253 - Ex - 127)))%R by ring.
      rewrite P. clear - Lm HF.
      pose proof (Rle_0_sqr (m - 0.442)) as Q. unfold Rsqr in Q.
      assert (0 <= m * (7415786 / 8388608 - m))%R by (apply Rmult_le_pos; lra). split; lra.
  - assert (Ex <= 251) by lia.
    replace (0x7EF127EA - (Ex * 2 ^ 23 + M)) with ((252 - Ex) * 2 ^ 23 + (15804394 - M)) by lia.
    destruct (mk_val (252 - Ex) (15804394 - M) ltac:(lia) ltac:(lia)) as (F & S & _ & V).
    assert (Y : (1 + IZR (15804394 - M) / IZR (2 ^ 23) = 1 + 15804394 / 8388608 - m)%R).
    { unfold m. rewrite minus_IZR, I23. field. }
    rewrite Y in V.
    assert (Lm : (7415786 / 8388608 <= m)%R).
    { unfold m. rewrite I23. apply Rmult_le_compat_r; [lra|]. apply IZR_le. lia. }
    split; [assumption|]. split.
    + rewrite V. apply Rmult_lt_0_compat; [lra|apply bpow_gt_0].
    + assert (P : (bpow radix2 (Ex - 127) * bpow radix2 (252 - Ex - 127) = / 4)%R).
      { rewrite <- bpow_plus. replace (Ex - 127 + (252 - Ex - 127)) with (-2) by ring. reflexivity. }
      rewrite V, HV.
      replace ((1 + m) * bpow radix2 (Ex - 127) * ((1 + 15804394 / 8388608 - m) * bpow radix2 (252 - Ex - 127)))%R
        with ((1 + m) * (1 + 15804394 / 8388608 - m) * (bpow radix2 (Ex - 127) * bpow radix2 (252 - Ex - 127)))%R by ring.
      rewrite P. clear - Lm HF.
      pose proof (Rle_0_sqr (m - 0.942)) as Q. unfold Rsqr in Q.
      assert (0 <= (m - 7415786 / 8388608) * (1 - m))%R by (apply Rmult_le_pos; lra). split; lra.
Qed.

(** The correction polynomial (1 - (1-w)^8)/w, evaluated in floating point. *)
Lemma poly_spec : forall {E : Env} w, fin w -> (0.9419 <= val w <= 1.0399)%R ->
  let t := (1 - val w)%R in
  fin (recip_poly w) /\
  (Rabs (val (recip_poly w) - (1 + t + t^2 + t^3 + t^4 + t^5 + t^6 + t^7)) <= 1.42e-5)%R.
Proof.
  intros E w Fw Hw t.
  assert (Wt : val w = (1 - t)%R) by (unfold t; ring).
  assert (Ht : (-0.0399 <= t <= 0.0581)%R) by (unfold t; lra).
  assert (Hb : (Rabs (val w) <= 1.04)%R) by (apply Rabs_le; lra).
  clearbody t.
  assert (T2 : (0 <= t^2 <= 0.0034)%R) by (split; nra).
  assert (T3 : (Rabs (t^3) <= 0.0002)%R).
  { replace (t^3)%R with (t * t^2)%R by ring. apply Rabs_le. split; nra. }
  assert (T4 : (0 <= t^4 <= 0.00002)%R).
  { replace (t^4)%R with (t^2 * t^2)%R by ring. split; nra. }
  apply Rabs_le_inv in T3.
  assert (T5 : (Rabs (t^5) <= 0.00001)%R).
  { replace (t^5)%R with (t * t^4)%R by ring. apply Rabs_le. split; nra. }
  assert (T6 : (0 <= t^6 <= 0.00001)%R).
  { replace (t^6)%R with (t^2 * t^4)%R by ring. split; nra. }
  assert (T7 : (Rabs (t^7) <= 0.00001)%R).
  { replace (t^7)%R with (t * t^6)%R by ring. apply Rabs_le. split; nra. }
  apply Rabs_le_inv in T5. apply Rabs_le_inv in T7.
  destruct c_8_val as [F8 V8]. destruct c_28_val as [F28 V28].
  destruct c_56_val as [F56 V56]. destruct c_70_val as [F70 V70].
  (* s0 = 8 - w *)
  destruct (fsub_e 3 c_8 w F8 Fw ltac:(lia)) as (e0 & G0 & V0 & E0).
  { rewrite V8, Wt. bpow_lit. apply Rabs_le. lra. }
  set (s0 := fsub c_8 w) in *.
  assert (H0 : (Rabs (val s0 - (7 + t)) <= / 4194304)%R).
  { rewrite V0, V8, Wt. simpl (3 - 25) in E0. revert E0. bpow_lit. intros E0.
    replace (8 - (1 - t) + e0 - (7 + t))%R with e0 by ring. assumption. }
  clear V0 E0 e0.
  assert (N28 : val (fneg c_28) = (-28)%R) by (rewrite fneg_val, V28; ring).
  assert (N70 : val (fneg c_70) = (-70)%R) by (rewrite fneg_val, V70; ring).
  Ltac hs k j c w s S eps Fc Fw Gs Hs Hb :=
    destruct (horner_step k j c w s S eps 1.04%R Fc Fw Gs Hs Hb ltac:(lia) ltac:(lia)).
  (* s1 *)
  assert (H1 : let z := fadd (fneg c_28) (fmul w s0) in fin z /\ (Rabs (val z - (-21 - 6 * t - t^2)) <= 1.45e-6)%R).
  { intros z. destruct (horner_step 3 5 (fneg c_28) w s0 (7 + t)%R (/ 4194304)%R 1.04%R
      (fneg_fin _ F28) Fw G0 H0 Hb ltac:(lia) ltac:(lia)) as [A B].
    - rewrite Wt. replace ((1 - t) * (7 + t))%R with (7 - 6 * t - t^2)%R by ring.
      bpow_lit. rewrite Rabs_pos_eq; lra.
    - rewrite Wt, N28. replace (-28 + (1 - t) * (7 + t))%R with (-21 - 6 * t - t^2)%R by ring.
      simpl (3 - 25). bpow_lit. rewrite Rabs_left; lra.
    - split; [exact A|]. revert B. fold z. rewrite Wt, N28.
      replace (-28 + (1 - t) * (7 + t))%R with (-21 - 6 * t - t^2)%R by ring.
      simpl (3 - 25). simpl (5 - 25). bpow_lit. intros B. lra. }
  cbv zeta in H1. set (s1 := fadd (fneg c_28) (fmul w s0)) in *. destruct H1 as [G1 H1].
  assert (H2 : let z := fadd c_56 (fmul w s1) in fin z /\ (Rabs (val z - (35 + 15 * t + 5 * t^2 + t^3)) <= 4.38e-6)%R).
  { intros z. destruct (horner_step 5 6 c_56 w s1 (-21 - 6 * t - t^2)%R 1.45e-6%R 1.04%R
      F56 Fw G1 H1 Hb ltac:(lia) ltac:(lia)) as [A B].
    - rewrite Wt. replace ((1 - t) * (-21 - 6 * t - t^2))%R with (-21 + 15 * t + 5 * t^2 + t^3)%R by ring.
      bpow_lit. rewrite Rabs_left; lra.
    - rewrite Wt, V56. replace (56 + (1 - t) * (-21 - 6 * t - t^2))%R with (35 + 15 * t + 5 * t^2 + t^3)%R by ring.
      simpl (5 - 25). bpow_lit. rewrite Rabs_pos_eq; lra.
    - split; [exact A|]. revert B. fold z. rewrite Wt, V56.
      replace (56 + (1 - t) * (-21 - 6 * t - t^2))%R with (35 + 15 * t + 5 * t^2 + t^3)%R by ring.
      simpl (5 - 25). simpl (6 - 25). bpow_lit. intros B. lra. }
  cbv zeta in H2. set (s2 := fadd c_56 (fmul w s1)) in *. destruct H2 as [G2 H2].
  assert (H3 : let z := fadd (fneg c_70) (fmul w s2) in fin z /\
    (Rabs (val z - (-35 - 20 * t - 10 * t^2 - 4 * t^3 - t^4)) <= 8.38e-6)%R).
  { intros z. destruct (horner_step 6 6 (fneg c_70) w s2 (35 + 15 * t + 5 * t^2 + t^3)%R 4.38e-6%R 1.04%R
      (fneg_fin _ F70) Fw G2 H2 Hb ltac:(lia) ltac:(lia)) as [A B].
    - rewrite Wt. replace ((1 - t) * (35 + 15 * t + 5 * t^2 + t^3))%R with (35 - 20 * t - 10 * t^2 - 4 * t^3 - t^4)%R by ring.
      bpow_lit. rewrite Rabs_pos_eq; lra.
    - rewrite Wt, N70. replace (-70 + (1 - t) * (35 + 15 * t + 5 * t^2 + t^3))%R
        with (-35 - 20 * t - 10 * t^2 - 4 * t^3 - t^4)%R by ring.
      simpl (6 - 25). bpow_lit. rewrite Rabs_left; lra.
    - split; [exact A|]. revert B. fold z. rewrite Wt, N70.
      replace (-70 + (1 - t) * (35 + 15 * t + 5 * t^2 + t^3))%R
        with (-35 - 20 * t - 10 * t^2 - 4 * t^3 - t^4)%R by ring.
      simpl (6 - 25). bpow_lit. intros B. lra. }
  cbv zeta in H3. set (s3 := fadd (fneg c_70) (fmul w s2)) in *. destruct H3 as [G3 H3].
  assert (H4 : let z := fadd c_56 (fmul w s3) in fin z /\
    (Rabs (val z - (21 + 15 * t + 10 * t^2 + 6 * t^3 + 3 * t^4 + t^5)) <= 1.16e-5)%R).
  { intros z. destruct (horner_step 6 5 c_56 w s3 (-35 - 20 * t - 10 * t^2 - 4 * t^3 - t^4)%R 8.38e-6%R 1.04%R
      F56 Fw G3 H3 Hb ltac:(lia) ltac:(lia)) as [A B].
    - rewrite Wt. replace ((1 - t) * (-35 - 20 * t - 10 * t^2 - 4 * t^3 - t^4))%R
        with (-35 + 15 * t + 10 * t^2 + 6 * t^3 + 3 * t^4 + t^5)%R by ring.
      bpow_lit. rewrite Rabs_left; lra.
    - rewrite Wt, V56. replace (56 + (1 - t) * (-35 - 20 * t - 10 * t^2 - 4 * t^3 - t^4))%R
        with (21 + 15 * t + 10 * t^2 + 6 * t^3 + 3 * t^4 + t^5)%R by ring.
      simpl (6 - 25). bpow_lit. rewrite Rabs_pos_eq; lra.
    - split; [exact A|]. revert B. fold z. rewrite Wt, V56.
      replace (56 + (1 - t) * (-35 - 20 * t - 10 * t^2 - 4 * t^3 - t^4))%R
        with (21 + 15 * t + 10 * t^2 + 6 * t^3 + 3 * t^4 + t^5)%R by ring.
      simpl (6 - 25). simpl (5 - 25). bpow_lit. intros B. lra. }
  cbv zeta in H4. set (s4 := fadd c_56 (fmul w s3)) in *. destruct H4 as [G4 H4].
  assert (H5 : let z := fadd (fneg c_28) (fmul w s4) in fin z /\
    (Rabs (val z - (-7 - 6 * t - 5 * t^2 - 4 * t^3 - 3 * t^4 - 2 * t^5 - t^6)) <= 1.33e-5)%R).
  { intros z. destruct (horner_step 5 3 (fneg c_28) w s4 (21 + 15 * t + 10 * t^2 + 6 * t^3 + 3 * t^4 + t^5)%R 1.16e-5%R 1.04%R
      (fneg_fin _ F28) Fw G4 H4 Hb ltac:(lia) ltac:(lia)) as [A B].
    - rewrite Wt. replace ((1 - t) * (21 + 15 * t + 10 * t^2 + 6 * t^3 + 3 * t^4 + t^5))%R
        with (21 - 6 * t - 5 * t^2 - 4 * t^3 - 3 * t^4 - 2 * t^5 - t^6)%R by ring.
      bpow_lit. rewrite Rabs_pos_eq; lra.
    - rewrite Wt, N28. replace (-28 + (1 - t) * (21 + 15 * t + 10 * t^2 + 6 * t^3 + 3 * t^4 + t^5))%R
        with (-7 - 6 * t - 5 * t^2 - 4 * t^3 - 3 * t^4 - 2 * t^5 - t^6)%R by ring.
      simpl (5 - 25). bpow_lit. rewrite Rabs_left; lra.
    - split; [exact A|]. revert B. fold z. rewrite Wt, N28.
      replace (-28 + (1 - t) * (21 + 15 * t + 10 * t^2 + 6 * t^3 + 3 * t^4 + t^5))%R
        with (-7 - 6 * t - 5 * t^2 - 4 * t^3 - 3 * t^4 - 2 * t^5 - t^6)%R by ring.
      simpl (5 - 25). simpl (3 - 25). bpow_lit. intros B. lra. }
  cbv zeta in H5. set (s5 := fadd (fneg c_28) (fmul w s4)) in *. destruct H5 as [G5 H5].
  destruct (horner_step 3 1 c_8 w s5 (-7 - 6 * t - 5 * t^2 - 4 * t^3 - 3 * t^4 - 2 * t^5 - t^6)%R 1.33e-5%R 1.04%R
      F8 Fw G5 H5 Hb ltac:(lia) ltac:(lia)) as [A B].
  - rewrite Wt. replace ((1 - t) * (-7 - 6 * t - 5 * t^2 - 4 * t^3 - 3 * t^4 - 2 * t^5 - t^6))%R
      with (-7 + t + t^2 + t^3 + t^4 + t^5 + t^6 + t^7)%R by ring.
    bpow_lit. rewrite Rabs_left; lra.
  - rewrite Wt, V8. replace (8 + (1 - t) * (-7 - 6 * t - 5 * t^2 - 4 * t^3 - 3 * t^4 - 2 * t^5 - t^6))%R
      with (1 + t + t^2 + t^3 + t^4 + t^5 + t^6 + t^7)%R by ring.
    simpl (3 - 25). bpow_lit. rewrite Rabs_pos_eq; lra.
  - split; [exact A|]. unfold recip_poly. fold s0 s1 s2 s3 s4 s5. revert B. rewrite Wt, V8.
    replace (8 + (1 - t) * (-7 - 6 * t - 5 * t^2 - 4 * t^3 - 3 * t^4 - 2 * t^5 - t^6))%R
      with (1 + t + t^2 + t^3 + t^4 + t^5 + t^6 + t^7)%R by ring.
    simpl (3 - 25). simpl (1 - 25). bpow_lit. intros B. lra.
Qed.

Lemma recip_pos : forall {E : Env} x, normal_pos x -> (val x <= bpow radix2 125)%R ->
  let r := fmul (recip_guess x) (recip_poly (fmul x (recip_guess x))) in
  fin r /\ (Rabs (val x * val r - 1) <= 1.5e-5)%R.
Proof.
  intros E x Hx Hu r. destruct (guess_spec x Hx Hu) as (Fv & Pv & Hv).
  set (v := recip_guess x) in *.
  destruct (fmul_e 1 x v (proj1 Hx) Fv ltac:(lia)) as (e & Fw & Vw & He).
  { bpow_lit. apply Rabs_le. lra. }
  set (w := fmul x v) in *.
  simpl (1 - 25) in He. revert He. bpow_lit. intros He. apply Rabs_le_inv in He.
  destruct (poly_spec w Fw) as [Fp Hp]; [lra|]. cbv zeta in Hp.
  set (t := (1 - val w)%R) in *. set (p := recip_poly w) in *.
  assert (Wt : val w = (1 - t)%R) by (unfold t; ring).
  assert (Ht : (-0.0399 <= t <= 0.0581)%R) by (unfold t; lra).
  (* w * poly = 1 - t^8 *)
  set (P := (1 + t + t^2 + t^3 + t^4 + t^5 + t^6 + t^7)%R) in *.
  assert (HP : (val w * P = 1 - t^8)%R) by (rewrite Wt; unfold P; ring).
  assert (T8 : (0 <= t^8 <= 1e-8)%R).
  { assert (T2 : (0 <= t^2 <= 0.0034)%R) by (split; nra).
    assert (T4 : (0 <= t^4 <= 0.00002)%R) by (replace (t^4)%R with (t^2 * t^2)%R by ring; split; nra).
    replace (t^8)%R with (t^4 * t^4)%R by ring. split; nra. }
  apply Rabs_le_inv in Hp.
  assert (Wb : (0.9419 <= val w <= 1.0399)%R) by lra.
  assert (Pb : (0.96 <= P <= 1.062)%R) by (clear - HP T8 Wb; split; nra).
  assert (XVP : (Rabs (val x * val v * val p - 1) <= 1.49e-5)%R).
  { replace (val x * val v)%R with (val w - e)%R by lra.
    assert (D : (Rabs (val p - P) <= 1.42e-5)%R) by (apply Rabs_le; lra).
    replace ((val w - e) * val p - 1)%R with ((val w - e) * (val p - P) + (- t^8 - e * P))%R
      by (replace (- t^8)%R with (val w * P - 1)%R by lra; ring).
    apply Rle_trans with (1 := Rabs_triang _ _). rewrite Rabs_mult.
    assert (A1 : (Rabs (val w - e) <= 1.0398)%R) by (apply Rabs_le; lra).
    assert (A2 : (Rabs (- t ^ 8 - e * P) <= 1e-7)%R) by (apply Rabs_le; split; nra).
    assert (A3 : (Rabs (val w - e) * Rabs (val p - P) <= 1.0398 * 1.42e-5)%R)
      by (apply Rmult_le_compat; try apply Rabs_pos; assumption).
    lra. }
  apply Rabs_le_inv in XVP.
  pose proof (normal_pos_gt0 x Hx) as Px. destruct Hx as [Fx Lx].
  assert (Q : (val v * val p = (val x * val v * val p) / val x)%R) by (field; lra).
  set (q := (val v * val p)%R) in *.
  assert (Xq : (val x * q = val x * val v * val p)%R) by (unfold q; ring).
  assert (Q1 : (bpow radix2 (-126) <= q <= bpow radix2 127)%R).
  { assert (B1 : (bpow radix2 125 * bpow radix2 (-126) = / 2)%R) by (rewrite <- bpow_plus; reflexivity).
    assert (B2 : (bpow radix2 (-126) * bpow radix2 127 = 2)%R) by (rewrite <- bpow_plus; reflexivity).
    pose proof (bpow_gt_0 radix2 (-126)). pose proof (bpow_gt_0 radix2 127).
    split.
    - destruct (Rle_lt_dec (bpow radix2 (-126)) q) as [A|A]; [assumption|exfalso].
      assert (val x * q <= bpow radix2 125 * bpow radix2 (-126))%R.
      { destruct (Rle_lt_dec 0 q); [apply Rmult_le_compat; lra|].
        pose proof (bpow_gt_0 radix2 125). nra. }
      lra.
    - destruct (Rle_lt_dec q (bpow radix2 127)) as [A|A]; [assumption|exfalso].
      assert (bpow radix2 (-126) * bpow radix2 127 <= val x * q)%R by (apply Rmult_le_compat; lra).
      lra. }
  pose proof (bpow_gt_0 radix2 (-126)).
  assert (Qa : Rabs q = q) by (apply Rabs_pos_eq; lra).
  destruct (fmul_R v p Fv Fp) as [Fr Vr].
  { fold q. apply (small_lt_128 127); [lia|]. rewrite Qa. lra. }
  fold q in Vr. split; [assumption|].
  destruct (rnd_rel_d q) as (d & Hd & Bd); [rewrite Qa; lra|].
  change (fmul v p) with r in Vr. rewrite Vr, Hd.
  revert Bd. bpow_lit. intros Bd. apply Rabs_le_inv in Bd.
  replace (val x * (q * (1 + d)) - 1)%R with ((val x * q - 1) + val x * q * d)%R by ring.
  rewrite Xq. set (y := (val x * val v * val p)%R) in *. clearbody y.
  apply Rabs_le. split; nra.
Qed.

Lemma abs_normal_pos : forall x, fin x -> (bpow radix2 (-126) <= Rabs (val x))%R -> normal_pos (F32_abs x).
Proof.
  intros x F H. split; [unfold fin; rewrite abs_fin; exact F|rewrite abs_val; exact H].
Qed.

Lemma recip_pos' : forall {E : Env} x, normal_pos x -> (val x <= bpow radix2 125)%R ->
  exists r, r = fmul (recip_guess x) (recip_poly (fmul x (recip_guess x))) /\
  fin r /\ (Rabs (val x * val r - 1) <= 1.5e-5)%R.
Proof.
  intros E x H1 H2. eexists. split; [exact eq_refl|]. exact (recip_pos x H1 H2).
Qed.

Lemma recip_unfold_neg : forall {E : Env} x, fin x -> (val x < 0)%R ->
  F32_recip x = fmul (fmul (recip_guess (F32_abs x)) (recip_poly (fmul (F32_abs x) (recip_guess (F32_abs x)))))
    (fneg F32_ONE).
Proof.
  intros E x Fx L. rewrite recip_eq. cbv zeta.
  assert (C : flt x F32_ZERO = true).
  { rewrite (flt_R x F32_ZERO Fx (proj1 zero_val)), (proj2 zero_val). apply Rlt_bool_true. assumption. }
  rewrite C. destruct (fmul_mone x Fx) as [F1 V1].
  assert (X : fmul x (fneg F32_ONE) = F32_abs x).
  { apply val_inj_nz; [assumption| | |].
    - unfold fin. rewrite abs_fin. exact Fx.
    - rewrite V1, abs_val, Rabs_left; trivial.
    - rewrite V1. lra. }
  rewrite X. exact eq_refl.
Qed.

Lemma recip_unfold_pos : forall {E : Env} x, fin x -> (0 < val x)%R ->
  F32_recip x = fmul (fmul (recip_guess x) (recip_poly (fmul x (recip_guess x)))) F32_ONE.
Proof.
  intros E x Fx L. rewrite recip_eq. cbv zeta.
  assert (C : flt x F32_ZERO = false).
  { rewrite (flt_R x F32_ZERO Fx (proj1 zero_val)), (proj2 zero_val). apply Rlt_bool_false. lra. }
  rewrite C. destruct (fmul_one x Fx) as [F1 V1].
  assert (X : fmul x F32_ONE = x).
  { apply val_inj_nz; trivial. rewrite V1. lra. }
  rewrite X. exact eq_refl.
Qed.

Lemma recip_accuracy : forall {E : Env} x, fin x ->
  (bpow radix2 (-126) <= Rabs (val x) <= bpow radix2 125)%R ->
  fin (F32_recip x) /\ (Rabs (val x * val (F32_recip x) - 1) <= 1.5e-5)%R.
Proof.
  intros E x Fx Hx. pose proof (bpow_gt_0 radix2 (-126)) as B0.
  destruct (Rlt_le_dec (val x) 0) as [L|L].
  - pose proof (abs_normal_pos x Fx (proj1 Hx)) as N.
    rewrite recip_unfold_neg by assumption.
    destruct (recip_pos' (F32_abs x) N) as (r & Hr & A & B); [rewrite abs_val; apply Hx|]. rewrite <- Hr.
    destruct (fmul_mone r A) as [F2 V2]. split; [assumption|].
    rewrite V2. rewrite abs_val, (Rabs_left (val x)) in B by assumption.
    replace (val x * - val r)%R with (- val x * val r)%R by ring. assumption.
  - rewrite Rabs_pos_eq in Hx by assumption.
    assert (N : normal_pos x) by (split; [assumption|apply Hx]).
    rewrite recip_unfold_pos by (trivial; lra).
    destruct (recip_pos' x N) as (r & Hr & A & B); [apply Hx|]. rewrite <- Hr.
    destruct (fmul_one r A) as [F2 V2]. split; [assumption|]. rewrite V2. assumption.
Qed.

(** ** Edge values and symmetry *)

Lemma recip_edges : forall {E : Env},
  F32_recip (f32_zero false) = f32_inf false /\
  F32_recip (f32_zero true) = f32_inf true /\
  F32_recip (f32_inf false) = f32_inf true /\
  F32_recip (f32_inf true) = f32_inf false /\
  F32_recip (from_bits 0x7F7FFFFF) = f32_inf true.
Proof.
  intros E. split; [|split; [|split; [|split]]]; apply to_bits_inj; vm_compute; reflexivity.
Qed.

Lemma recip_nan : forall {E : Env} x, nan x -> nan (F32_recip x).
Proof.
  intros E x N. rewrite recip_eq. cbv zeta.
  rewrite (flt_nan x F32_ZERO) by (left; exact N).
  apply fmul_nan. left. apply fmul_nan. right. unfold recip_poly.
  apply fadd_nan. right. apply fmul_nan. left. apply fmul_nan. left. apply fmul_nan. left. exact N.
Qed.

Lemma recip_odd : forall {E : Env} x, is_nan x = false -> feq x F32_ZERO = false ->
  (nan (F32_recip x) /\ nan (F32_recip (fneg x))) \/ F32_recip (fneg x) = fneg (F32_recip x).
Proof.
  intros E x N Z. rewrite !recip_eq. cbv zeta.
  assert (S : flt (fneg x) F32_ZERO = negb (flt x F32_ZERO)).
  { destruct x as [s|s|s p H|s m e H]; try discriminate; destruct s; reflexivity. }
  assert (N' : is_nan (fneg x) = false) by (rewrite fneg_is_nan; exact N).
  rewrite S. destruct (flt x F32_ZERO) eqn:L; simpl negb; cbv iota.
  - rewrite (fmul_mone_id x N), (fmul_one_id (fneg x) N').
    set (r := fmul (recip_guess (fneg x)) _). clearbody r.
    destruct (is_nan r) eqn:R.
    + left. split; apply fmul_nan; left; exact R.
    + right. rewrite (fmul_mone_id r R), (fmul_one_id r R), fneg_involutive. reflexivity.
  - rewrite (fmul_mone_id (fneg x) N'), (fmul_one_id x N), fneg_involutive.
    set (r := fmul (recip_guess x) _). clearbody r.
    destruct (is_nan r) eqn:R.
    + left. split; apply fmul_nan; left; exact R.
    + right. rewrite (fmul_mone_id r R), (fmul_one_id r R). reflexivity.
Qed.

(** "recip(x) is close to 1/x" fails for large finite x. *)
Lemma recip_large_wrong : forall {E : Env}, exists x, fin x /\ (bpow radix2 127 < val x)%R /\
  F32_recip x = f32_inf true.
Proof.
  intros E. exists (from_bits 0x7F7FFFFF). split; [reflexivity|]. split.
  - lit 0x7F7FFFFF. bpow_lit. lra.
  - apply recip_edges.
Qed.

(** ** hypot *)

Lemma sum_squares : forall {E : Env} a b, fin a -> fin b ->
  (bpow radix2 (-126) <= val a * val a <= bpow radix2 125 \/ val a = 0)%R ->
  (bpow radix2 (-126) <= val b * val b <= bpow radix2 125 \/ val b = 0)%R ->
  (val a <> 0 \/ val b <> 0)%R ->
  let s := fadd (fmul a a) (fmul b b) in let r := (val a * val a + val b * val b)%R in
  normal_pos s /\ ((1 - bpow radix2 (-24)) * (1 - bpow radix2 (-24)) * r <= val s <=
    (1 + bpow radix2 (-24)) * (1 + bpow radix2 (-24)) * r)%R.
Proof.
  intros E a b Fa Fb Ha Hb Hz s r.
  assert (U : (bpow radix2 (-24) = / 16777216)%R) by (bpow_lit; lra).
  pose proof (bpow_gt_0 radix2 (-126)) as B126. pose proof (bpow_gt_0 radix2 125) as B125.
  assert (SQ : forall c, fin c -> (bpow radix2 (-126) <= val c * val c <= bpow radix2 125 \/ val c = 0)%R ->
    fin (fmul c c) /\ (val (fmul c c) <= bpow radix2 125)%R /\
    ((1 - / 16777216) * (val c * val c) <= val (fmul c c) <= (1 + / 16777216) * (val c * val c))%R /\
    (val c <> 0%R -> (bpow radix2 (-126) <= val (fmul c c))%R)).
  { intros c Fc [H|H].
    - assert (Pc : Rabs (val c * val c) = (val c * val c)%R) by (apply Rabs_pos_eq; lra).
      destruct (fmul_R c c Fc Fc) as [A B].
      { apply (small_lt_128 125); [lia|]. rewrite Pc. lra. }
      split; [assumption|]. rewrite B. split; [|split].
      + rewrite <- (rnd_fmt _ (fmt_bpow 125 ltac:(lia))). apply rnd_le. lra.
      + pose proof (rnd_rel (val c * val c)) as R. rewrite Pc, U in R.
        specialize (R ltac:(lra)). apply Rabs_le_inv in R. lra.
      + intros _. rewrite <- (rnd_fmt _ (fmt_bpow (-126) ltac:(lia))). apply rnd_le. lra.
    - destruct (fmul_R c c Fc Fc) as [A B].
      { apply (small_lt_128 125); [lia|]. rewrite H, Rmult_0_l, Rabs_R0. lra. }
      assert (V : val (fmul c c) = 0%R).
      { rewrite B, H, Rmult_0_l. apply rnd_fmt. apply generic_format_0. }
      split; [assumption|]. rewrite V, H. split; [lra|]. split; [lra|]. intros C; congruence. }
  destruct (SQ a Fa Ha) as (A1 & A2 & A3 & A4). destruct (SQ b Fb Hb) as (C1 & C2 & C3 & C4).
  pose proof (Rle_0_sqr (val a)) as Q1. pose proof (Rle_0_sqr (val b)) as Q2. unfold Rsqr in Q1, Q2.
  set (p := val (fmul a a)) in *. set (q := val (fmul b b)) in *.
  assert (L : (bpow radix2 (-126) <= p + q)%R).
  { assert (0 <= p)%R by nra. assert (0 <= q)%R by nra.
    destruct Hz as [Hz|Hz]; [specialize (A4 Hz)|specialize (C4 Hz)]; lra. }
  assert (B126' : (bpow radix2 126 = 2 * bpow radix2 125)%R).
  { change 126 with (1 + 125). rewrite bpow_plus. reflexivity. }
  assert (Ps : Rabs (p + q) = (p + q)%R) by (apply Rabs_pos_eq; lra).
  destruct (fadd_R (fmul a a) (fmul b b) A1 C1) as [S1 S2].
  { fold p q. apply (small_lt_128 126); [lia|]. rewrite Ps. lra. }
  fold p q in S2. fold s in S1, S2.
  split.
  - split; [assumption|]. rewrite S2. rewrite <- (rnd_fmt _ (fmt_bpow (-126) ltac:(lia))). apply rnd_le. assumption.
  - pose proof (rnd_rel (p + q)) as R. rewrite Ps, U in R. specialize (R L). apply Rabs_le_inv in R.
    rewrite S2, U. unfold r. split; nra.
Qed.

Lemma hypot_accuracy : forall {E : Env} a b, fin a -> fin b ->
  (bpow radix2 (-126) <= val a * val a <= bpow radix2 125 \/ val a = 0)%R ->
  (bpow radix2 (-126) <= val b * val b <= bpow radix2 125 \/ val b = 0)%R ->
  (val a <> 0 \/ val b <> 0)%R ->
  let h := sqrt (val a * val a + val b * val b) in
  exists z, F32_hypot a b = Ok z /\ normal_pos z /\
    ((1 - bpow radix2 (-22)) * h <= val z <= 1.0607 * h)%R.
Proof.
  intros E a b Fa Fb Ha Hb Hz h.
  destruct (sum_squares a b Fa Fb Ha Hb Hz) as [N B]. cbv zeta in N, B.
  destruct (sqrt_accuracy _ N) as (z & A1 & A2 & A3). exists z.
  split; [exact A1|]. split; [assumption|].
  pose proof (Rle_0_sqr (val a)) as Q1. pose proof (Rle_0_sqr (val b)) as Q2. unfold Rsqr in Q1, Q2.
  set (r := (val a * val a + val b * val b)%R) in *. set (s := val (fadd _ _)) in *.
  assert (R0 : (0 <= r)%R) by (unfold r; lra).
  assert (Ps : (0 < s)%R) by (exact (normal_pos_gt0 _ N)).
  assert (U : (bpow radix2 (-24) = / 16777216)%R) by (bpow_lit; lra).
  assert (U2 : (bpow radix2 (-22) = / 4194304)%R) by (bpow_lit; lra).
  rewrite U in *. rewrite U2.
  assert (S1 : (sqrt s <= (1 + / 16777216) * h)%R).
  { unfold h. rewrite <- (sqrt_square (1 + / 16777216)) by lra. rewrite <- sqrt_mult_alt by lra.
    apply sqrt_le_1_alt. lra. }
  assert (S2 : ((1 - / 16777216) * h <= sqrt s)%R).
  { unfold h. rewrite <- (sqrt_square (1 - / 16777216)) by lra. rewrite <- sqrt_mult_alt by lra.
    apply sqrt_le_1_alt. lra. }
  assert (h0 : (0 <= h)%R) by apply sqrt_pos.
  split; nra.
Qed.

Lemma hypot_total : forall {E : Env} a b, exists z, F32_hypot a b = Ok z.
Proof. intros E a b. apply sqrt_total. Qed.

Lemma fadd_comm : forall {E : Env} x y, is_nan (fadd x y) = false -> fadd y x = fadd x y.
Proof.
  intros E x y N.
  destruct (is_finite x) eqn:Fx; destruct (is_finite y) eqn:Fy.
  - pose proof (Bplus_correct 24 128 prec24 emax128 nan_add mode_NE x y Fx Fy) as C1.
    pose proof (Bplus_correct 24 128 prec24 emax128 nan_add mode_NE y x Fy Fx) as C2.
    rewrite (Rplus_comm (B2R 24 128 y)) in C2. fold (fadd x y) in C1. fold (fadd y x) in C2.
    destruct (Rlt_bool _ _).
    + destruct C1 as (V1 & F1 & S1). destruct C2 as (V2 & F2 & S2).
      apply fin_dec_eq; [exact F2|exact F1|unfold val; congruence|].
      unfold sign_bit. rewrite S1, S2. destruct (Rcompare _ _); try reflexivity. apply andb_comm.
    + destruct C1 as [C1 S]. destruct C2 as [C2 _]. rewrite <- S, <- C1 in C2.
      apply B2FF_inj in C2. exact C2.
  - destruct y as [s|s|s p H|s m e H]; try discriminate Fy.
    + destruct x; try discriminate Fx; reflexivity.
    + exfalso. assert (C : nan (fadd x (B754_nan s p H))) by (apply fadd_nan; right; reflexivity).
      unfold nan in C. congruence.
  - destruct x as [s|s|s p H|s m e H]; try discriminate Fx.
    + destruct y; try discriminate Fy; reflexivity.
    + exfalso. assert (C : nan (fadd (B754_nan s p H) y)) by (apply fadd_nan; left; reflexivity).
      unfold nan in C. congruence.
  - destruct (is_nan x) eqn:Nx.
    { exfalso. assert (C : nan (fadd x y)) by (apply fadd_nan; left; exact Nx). unfold nan in C. congruence. }
    destruct (is_nan y) eqn:Ny.
    { exfalso. assert (C : nan (fadd x y)) by (apply fadd_nan; right; exact Ny). unfold nan in C. congruence. }
    destruct x as [s|s|s p H|s m e H]; try discriminate. destruct y as [s'|s'|s' p' H'|s' m' e' H']; try discriminate.
    destruct s, s'; try reflexivity;
      exfalso; refine (eq_true_false_abs _ (build_nan_nan _) N).
Qed.

Lemma fmul_ext : forall {E : Env} x y x' y', fin x -> fin y -> fin x' -> fin y' ->
  (val x * val y = val x' * val y')%R ->
  xorb (sign_bit x) (sign_bit y) = xorb (sign_bit x') (sign_bit y') -> fmul x y = fmul x' y'.
Proof.
  intros E x y x' y' Fx Fy Fx' Fy' V S.
  pose proof (Bmult_correct 24 128 prec24 emax128 nan_mul mode_NE x y) as C1.
  pose proof (Bmult_correct 24 128 prec24 emax128 nan_mul mode_NE x' y') as C2.
  fold (val x) (val y) in C1. fold (val x') (val y') in C2. rewrite <- V in C2.
  fold (fmul x y) in C1. fold (fmul x' y') in C2. fold (sign_bit x) (sign_bit y) in C1.
  fold (sign_bit x') (sign_bit y') in C2. rewrite <- S in C2.
  fold (is_finite x) (is_finite y) in C1. fold (is_finite x') (is_finite y') in C2.
  unfold fin in *. rewrite Fx, Fy in C1. rewrite Fx', Fy' in C2.
  destruct (Rlt_bool _ _).
  - destruct C1 as (V1 & F1 & S1). destruct C2 as (V2 & F2 & S2).
    apply fin_dec_eq; [exact F1|exact F2|unfold val; congruence|].
    unfold sign_bit. rewrite S1, S2; [reflexivity| |]; apply fin_not_nan; assumption.
  - rewrite <- C1 in C2. apply B2FF_inj in C2. symmetry. exact C2.
Qed.

Lemma fmul_neg_neg : forall {E : Env} x, is_nan x = false -> fmul (fneg x) (fneg x) = fmul x x.
Proof.
  intros E x N. destruct (is_finite x) eqn:F.
  - apply fmul_ext; try assumption; try (apply fneg_fin; assumption).
    + rewrite fneg_val. ring.
    + rewrite !xorb_nilpotent. reflexivity.
  - destruct x as [s|s|s p H|s m e H]; try discriminate. destruct s; reflexivity.
Qed.

(** hypot is symmetric and ignores signs, up to the choice of NaN. *)
Lemma hypot_sym : forall {E : Env} a b, is_nan (fadd (fmul a a) (fmul b b)) = false ->
  F32_hypot b a = F32_hypot a b.
Proof. intros E a b N. unfold F32_hypot. rewrite (fadd_comm _ _ N). reflexivity. Qed.

Lemma sq_not_nan : forall {E : Env} x, is_nan x = false -> is_nan (fmul x x) = false.
Proof.
  intros E x N. destruct (is_finite x) eqn:F.
  - pose proof (Bmult_correct 24 128 prec24 emax128 nan_mul mode_NE x x) as C. fold (fmul x x) in C.
    destruct (Rlt_bool _ _).
    + destruct C as (_ & C & _). unfold is_finite in F. rewrite F in C. apply fin_not_nan. exact C.
    + revert C. unfold is_nan. destruct (fmul x x); intros C; try reflexivity. discriminate C.
  - destruct x as [s|s|s p H|s m e H]; try discriminate. destruct s; reflexivity.
Qed.

Lemma sq_sign : forall {E : Env} x, is_nan x = false -> sign_bit (fmul x x) = false.
Proof.
  intros E x N. rewrite fmul_sign by (apply sq_not_nan; exact N). apply xorb_nilpotent.
Qed.

Lemma fadd_not_nan : forall {E : Env} x y, is_nan x = false -> is_nan y = false ->
  sign_bit x = sign_bit y -> is_nan (fadd x y) = false.
Proof.
  intros E x y Nx Ny S. destruct (is_finite x) eqn:Fx; destruct (is_finite y) eqn:Fy.
  - pose proof (Bplus_correct 24 128 prec24 emax128 nan_add mode_NE x y Fx Fy) as C. fold (fadd x y) in C.
    destruct (Rlt_bool _ _).
    + destruct C as (_ & C & _). apply fin_not_nan. exact C.
    + destruct C as [C _]. revert C. unfold is_nan. destruct (fadd x y); intros C; try reflexivity. discriminate C.
  - destruct y as [s|s|s p H|s m e H]; try discriminate. destruct x; try discriminate; reflexivity.
  - destruct x as [s|s|s p H|s m e H]; try discriminate. destruct y; try discriminate; reflexivity.
  - destruct x as [s|s|s p H|s m e H]; try discriminate. destruct y as [s'|s'|s' p' H'|s' m' e' H']; try discriminate.
    simpl in S. subst s'. destruct s; reflexivity.
Qed.

Lemma hypot_symmetry : forall {E : Env} a b, is_nan a = false -> is_nan b = false ->
  F32_hypot b a = F32_hypot a b /\ F32_hypot (fneg a) b = F32_hypot a b /\ F32_hypot a (fneg b) = F32_hypot a b.
Proof.
  intros E a b Na Nb. split; [|split].
  - apply hypot_sym. apply fadd_not_nan.
    + apply sq_not_nan; assumption.
    + apply sq_not_nan; assumption.
    + rewrite !sq_sign by assumption. reflexivity.
  - unfold F32_hypot. rewrite fmul_neg_neg by assumption. reflexivity.
  - unfold F32_hypot. rewrite fmul_neg_neg by assumption. reflexivity.
Qed.

(** ** mul_add *)

Lemma mul_add_spec : forall {E : Env} x a b, fin x -> fin a -> fin b ->
  (Rabs (rnd (val x * val a)) < bpow radix2 128)%R ->
  (Rabs (rnd (rnd (val x * val a) + val b)) < bpow radix2 128)%R ->
  fin (F32_mul_add x a b) /\ val (F32_mul_add x a b) = rnd (rnd (val x * val a) + val b).
Proof.
  intros E x a b Fx Fa Fb H1 H2. unfold F32_mul_add.
  destruct (fmul_R x a Fx Fa H1) as [A B]. rewrite <- B in H2 |- *.
  exact (fadd_R _ b A Fb H2).
Qed.

(** x = 1 + 2^-12: x*x - (1 + 2^-11) is 2^-24, but mul_add gives 0. *)
Lemma mul_add_not_fused : forall {E : Env}, exists x a b, fin x /\ fin a /\ fin b /\
  rnd (val x * val a + val b) = bpow radix2 (-24) /\ F32_mul_add x a b = f32_zero false.
Proof.
  intros E. exists (from_bits 0x3F800800), (from_bits 0x3F800800), (from_bits 0xBF801000).
  split; [reflexivity|]. split; [reflexivity|]. split; [reflexivity|]. split.
  - lit 0x3F800800. lit 0xBF801000.
    rewrite <- (rnd_fmt (bpow radix2 (-24))) by (apply fmt_bpow; lia). f_equal. bpow_lit. lra.
  - apply to_bits_inj. vm_compute. reflexivity.
Qed.
