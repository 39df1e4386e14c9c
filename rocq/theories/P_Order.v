(** * Order facts: sign of the logarithms, monotonicity and bounds of exp, cosh >= 1 *)

From Coq Require Import ZArith Reals Bool List Lia Lra.
From Flocq Require Import Core Sterbenz IEEE754.BinarySingleNaN IEEE754.Binary IEEE754.Bits.
From Verif Require Import Base Spec Float F32Lemmas BitLemmas Literals ErrLemmas NanLemmas
  RealBounds RealBounds2 RealBounds3 RealBounds4 RealBounds6 P_Trunc P_Floor P_RoundEdge P_Euclid P_Roots P_InvSqrt P_SumSq
  P_Quat P_Trig P_Atan P_Atan2 P_Ln P_Exp P_Cosh.
Open Scope Z_scope.

(** ** Sign of ln *)

Lemma ln_work_pos : forall {E : Env} w, fin w -> (1 <= val w)%R -> fin (ln_work w) /\ (0.00004 <= val (ln_work w) <= 88.8)%R.
Proof.
  intros E w Fw H. destruct (ln_work_acc w Fw H) as [F D]. split; [exact F|]. apply Rabs_le_inv in D.
  destruct (ln_val_range w Fw H) as [L0 L1]. split; [|lra].
  destruct (Rle_or_lt 2 (val w)) as [G|G].
  { assert (ln 2 <= ln (val w))%R by (destruct G as [G|G]; [left; apply ln_increasing; lra|rewrite <- G; lra]).
    pose proof ln2_bounds. lra. }
  clear D L0 L1.
  assert (NP : normal_pos w). { split; [exact Fw|]. apply Rle_trans with (2 := H). change 1%R with (bpow radix2 0). apply bpow_le; lia. }
  pose proof (normal_split w NP) as S. cbv zeta in S. unfold ln_work in *. rewrite extract_exponent_value_eq in *.
  assert (E7 : bexp (to_bits w) = 127).
  { pose proof (bexp_ge w 0 Fw ltac:(lia)) as A. pose proof (bexp_lt w 1 Fw ltac:(lia)) as B.
    rewrite Rabs_pos_eq in A, B by lra. revert A B. bpow_lit. intros A B. specialize (A ltac:(lra)). specialize (B ltac:(lra)). lia. }
  rewrite E7 in *. destruct S as (_ & HM & HT & HS & HV).
  rewrite land_exp in * by (rewrite HT; lia). rewrite E7 in *.
  change (as_u32 (127 - 127)) with 0 in *. change (from_bits (127 * 2 ^ 23)) with F32_ONE in *.
  destruct (of_Z_small 0 ltac:(lia)) as [Fe Ve]. set (e := f32_of_Z 0) in *. clearbody e.
  destruct one_val as [FO VO]. destruct c_LN_2_val as [FL VL].
  assert (Q : (val w / val F32_ONE = val w)%R) by (rewrite VO; field).
  destruct (fdiv_R w F32_ONE Fw FO) as [Fy Vy]; [rewrite VO; lra|rewrite Q; apply (small_lt_128 1); [lia|apply Rabs_le; bpow_lit; lra]|].
  rewrite Q, rnd_fmt in Vy by (apply fmt_val; exact Fw). set (y := fdiv w F32_ONE) in *. clearbody y.
  destruct (poly_acc y Fy ltac:(lra)) as (FP & BP & DP). set (P := ln_1to2_polynomial y) in *. clearbody P.
  pose proof (lnpoly_pos (val y) ltac:(lra)) as LP.
  pose proof (lnpoly_range (val y) ltac:(lra)) as LR.
  destruct (fmul_R e c_LN_2 Fe FL) as [Fm Vm]; [rewrite Ve; simpl IZR; rewrite Rmult_0_l, rnd_fmt by apply generic_format_0; rewrite Rabs_R0; apply bpow_gt_0|].
  rewrite Ve in Vm. simpl IZR in Vm. rewrite Rmult_0_l, rnd_fmt in Vm by apply generic_format_0. set (m := fmul e c_LN_2) in *. clearbody m.
  apply Rabs_le_inv in DP.
  destruct (fadd_R m P Fm FP) as [Fs Vs]; [apply (small_lt_128 1); [lia|rewrite Vm; apply Rabs_le; bpow_lit; lra]|].
  rewrite Vs, Vm, Rplus_0_l, rnd_fmt by (apply fmt_val; exact FP). lra.
Qed.

Lemma not_near_one : forall {E : Env} x, fin x -> flt (F32_abs (fsub x F32_ONE)) F32_EPSILON = false ->
  (/ 8388608 <= Rabs (val x - 1))%R.
Proof.
  intros E x Fx H. destruct one_val as [FO VO]. destruct eps_val as [Fe Ve]. apply Rnot_lt_le. intros C.
  assert (A : (Rabs (rnd (val x - val F32_ONE)) <= bpow radix2 (-23))%R).
  { apply (rnd_abs_le (-23)); [lia|]. rewrite VO. bpow_lit. lra. }
  destruct (fsub_R x F32_ONE Fx FO) as [F V].
  { apply Rle_lt_trans with (1 := A). apply bpow_lt. lia. }
  rewrite VO in *. rewrite flt_R, abs_val, Ve, V in H by (trivial; unfold fin; rewrite abs_fin; exact F).
  destruct (Rlt_bool_spec (Rabs (rnd (val x - 1))) (/ 8388608)) as [K|K]; [discriminate|].
  (* the difference is exact *)
  assert (X : rnd (val x - 1) = (val x - 1)%R).
  { apply rnd_fmt. rewrite <- VO. apply Rabs_lt_inv in C. apply (sterbenz radix2 (FLT_exp (-149) 24)); [apply fmt_val; exact Fx|apply fmt_val; exact FO|rewrite VO; lra]. }
  rewrite X in K. lra.
Qed.

(** The three cases of the sign of ln, for every positive finite argument. *)
Lemma ln_sign : forall {E : Env} x, fin x -> (0 < val x)%R ->
  ((/ 8388608 <= val x - 1)%R /\ fin (F32_ln x) /\ (0.00004 <= val (F32_ln x) <= 88.8)%R) \/
  ((Rabs (val x - 1) < / 8388608)%R /\ F32_ln x = F32_ZERO) \/
  ((/ 8388608 <= 1 - val x)%R /\ fin (F32_ln x) /\ (- 88.8 <= val (F32_ln x) <= - 0.00004)%R).
Proof.
  intros E x Fx P. destruct (flt (F32_abs (fsub x F32_ONE)) F32_EPSILON) eqn:N.
  { right; left. split; [exact (near_one x Fx N)|]. rewrite ln_eq, N. reflexivity. }
  pose proof (not_near_one x Fx N) as K. destruct one_val as [FO VO].
  destruct (Rle_or_lt 1 (val x)) as [G|G].
  - left. rewrite Rabs_pos_eq in K by lra. split; [exact K|]. rewrite ln_eq, N, flt_R, VO, Rlt_bool_false by assumption.
    exact (ln_work_pos x Fx G).
  - right; right. rewrite Rabs_left in K by lra. split; [lra|].
    destruct (Rlt_or_le (val x) (bpow radix2 (-126))) as [L|L].
    { assert (S : sign_bit x = false) by (destruct (sign_bit x) eqn:S; [pose proof (sign_val_neg x S); lra|reflexivity]).
      destruct (ln_subnormal x Fx S L) as [F B]. split; [exact F|lra]. }
    rewrite ln_eq, N, flt_R, VO, Rlt_bool_true by assumption.
    destruct (inv_accuracy x (conj Fx L)) as [[Fi Ni] [I1 I2]].
    { apply Rle_trans with 1%R; [lra|]. change 1%R with (bpow radix2 0). apply bpow_le; lia. }
    pose proof (normal_pos_gt0 _ (conj Fi Ni)) as Pi. set (i := F32_inv x) in *. clearbody i.
    assert (Gi : (1 <= val i)%R).
    { apply Rnot_lt_le. intros C. assert (val x * val i <= val x * 1)%R by (apply Rmult_le_compat_l; lra). lra. }
    destruct (ln_work_pos i Fi Gi) as [Fw Dw]. split; [apply fneg_fin; exact Fw|]. rewrite fneg_val. lra.
Qed.

Lemma gt_one : forall x, fin x -> (1 < val x)%R -> (/ 8388608 <= val x - 1)%R.
Proof.
  intros x F H. pose proof (next_float 0x3F800000 x ltac:(lia) F) as N.
  revert N. lit 0x3F800000. change (0x3F800000 + 1) with 0x3F800001. lit 0x3F800001. bpow_lit. intros N. lra.
Qed.

Lemma ln_sign_iff : forall {E : Env} x, fin x -> (0 < val x)%R -> fin (F32_ln x) /\
  ((0 < val (F32_ln x))%R <-> (1 < val x)%R) /\ ((val (F32_ln x) < 0)%R <-> (val x <= 1 - / 8388608)%R).
Proof.
  intros E x F P. destruct zero_val as [FZ VZ]. destruct (ln_sign x F P) as [(A & B & C)|[(A & B)|(A & B & C)]].
  - split; [exact B|]. split; split; intros; lra.
  - rewrite B, VZ. split; [exact FZ|]. apply Rabs_lt_inv in A. split; split; intros Q; try lra. pose proof (gt_one x F Q). lra.
  - split; [exact B|]. split; split; intros; lra.
Qed.

Lemma scale_sign : forall {E : Env} L c, fin L -> fin c -> (0.4 <= val c <= 1.5)%R ->
  (0.00004 <= Rabs (val L) <= 88.8)%R \/ L = F32_ZERO -> fin (fmul L c) /\
  ((0 < val (fmul L c))%R <-> (0 < val L)%R) /\ ((val (fmul L c) < 0)%R <-> (val L < 0)%R).
Proof.
  intros E L c FL Fc Bc H. destruct zero_val as [FZ VZ].
  assert (B : (Rabs (val L * val c) <= 134)%R).
  { rewrite Rabs_mult, (Rabs_pos_eq (val c)) by lra. apply Rle_trans with (88.8 * 1.5)%R; [|lra].
    apply Rmult_le_compat; try apply Rabs_pos; try lra. destruct H as [H|H]; [lra|]. rewrite H, VZ, Rabs_R0. lra. }
  destruct (fmul_R L c FL Fc) as [F V]; [apply (small_lt_128 8); [lia|bpow_lit; lra]|]. split; [exact F|]. rewrite V.
  destruct H as [H|H].
  - assert (G : (bpow radix2 (-20) <= Rabs (val L * val c))%R).
    { rewrite Rabs_mult, (Rabs_pos_eq (val c)) by lra. bpow_lit. apply Rle_trans with (0.00004 * 0.4)%R; [lra|]. apply Rmult_le_compat; lra. }
    assert (PP : forall u, (bpow radix2 (-20) <= u)%R -> (0 < rnd u)%R).
    { intros u Hu. apply Rlt_le_trans with (bpow radix2 (-20)); [apply bpow_gt_0|].
      rewrite <- (rnd_fmt (bpow radix2 (-20))) by (apply fmt_bpow; lia). apply rnd_le. exact Hu. }
    destruct (Rle_or_lt 0 (val L)) as [S|S].
    + rewrite Rabs_pos_eq in G by (apply Rmult_le_pos; lra). pose proof (PP _ G). rewrite (Rabs_pos_eq (val L)) in H by lra.
      split; split; intros; lra.
    + rewrite Rabs_left in G by (rewrite Rmult_comm; assert (0 < val c * - val L)%R by (apply Rmult_lt_0_compat; lra); lra).
      pose proof (PP _ G) as Q. rewrite rnd_opp in Q. split; split; intros; lra.
  - rewrite H, VZ, Rmult_0_l, rnd_fmt by apply generic_format_0. split; split; intros; lra.
Qed.

Lemma log2_sign_iff : forall {E : Env} x, fin x -> (0 < val x)%R -> fin (F32_log2 x) /\
  ((0 < val (F32_log2 x))%R <-> (1 < val x)%R) /\ ((val (F32_log2 x) < 0)%R <-> (val x <= 1 - / 8388608)%R).
Proof.
  intros E x F P. destruct (ln_sign_iff x F P) as (FL & S1 & S2). destruct c_LOG2_E_val as [Fc Vc].
  destruct (scale_sign (F32_ln x) c_LOG2_E FL Fc) as (A & B & C).
  - rewrite Vc. lra.
  - destruct (ln_sign x F P) as [(_ & _ & D)|[(_ & D)|(_ & _ & D)]]; [left; rewrite Rabs_pos_eq; lra|right; exact D|left; rewrite Rabs_left1; lra].
  - unfold F32_log2. split; [exact A|]. rewrite B, C. split; assumption.
Qed.

Lemma log10_sign_iff : forall {E : Env} x, fin x -> (0 < val x)%R -> fin (F32_log10 x) /\
  ((0 < val (F32_log10 x))%R <-> (1 < val x)%R) /\ ((val (F32_log10 x) < 0)%R <-> (val x <= 1 - / 8388608)%R).
Proof.
  intros E x F P. destruct (ln_sign_iff x F P) as (FL & S1 & S2). destruct c_LOG10_E_val as [Fc Vc].
  destruct (scale_sign (F32_ln x) c_LOG10_E FL Fc) as (A & B & C).
  - rewrite Vc. lra.
  - destruct (ln_sign x F P) as [(_ & _ & D)|[(_ & D)|(_ & _ & D)]]; [left; rewrite Rabs_pos_eq; lra|right; exact D|left; rewrite Rabs_left1; lra].
  - unfold F32_log10. split; [exact A|]. rewrite B, C. split; assumption.
Qed.

(** ** The series is monotone on nonnegative arguments *)

Lemma step_mono : forall {E : Env} c k r1 r2 t1 t2, fin c -> val c = k -> (1 <= k)%R -> fin r1 -> fin r2 -> fin t1 -> fin t2 ->
  (0 <= val r1 <= val r2)%R -> (val r2 <= 0.6932)%R -> (1 <= val t1 <= val t2)%R -> (val t2 <= 4)%R ->
  let s r t := fadd F32_ONE (fmul (fdiv r c) t) in
  fin (s r1 t1) /\ fin (s r2 t2) /\ (1 <= val (s r1 t1) <= val (s r2 t2))%R /\ (val (s r2 t2) <= 4)%R.
Proof.
  intros E c k r1 r2 t1 t2 Fc Vc Hk F1 F2 G1 G2 Hr Br Ht Bt s. destruct one_val as [FO VO].
  assert (f34 : rnd 0.75 = 0.75%R). { apply rnd_fmt. replace 0.75%R with (IZR 3 * bpow radix2 (-2))%R by (bpow_lit; lra). apply fmt_scaled; lia. }
  assert (f3 : rnd 3 = 3%R). { apply rnd_fmt. replace 3%R with (IZR 3 * bpow radix2 0)%R by (bpow_lit; lra). apply fmt_scaled; lia. }
  assert (f4 : rnd 4 = 4%R). { apply rnd_fmt. replace 4%R with (IZR 4 * bpow radix2 0)%R by (bpow_lit; lra). apply fmt_scaled; lia. }
  assert (f1 : rnd 1 = 1%R). { apply rnd_fmt. replace 1%R with (IZR 1 * bpow radix2 0)%R by (bpow_lit; lra). apply fmt_scaled; lia. }
  assert (ik : (0 < / k <= 1)%R) by (split; [apply Rinv_0_lt_compat; lra|rewrite <- Rinv_1; apply Rinv_le; lra]).
  assert (Q : forall r, (0 <= val r <= 0.6932)%R -> fin r -> fin (fdiv r c) /\ val (fdiv r c) = rnd (val r * / k) /\ (0 <= val (fdiv r c) <= 0.75)%R).
  { intros r H F. assert (0 <= val r * / k <= 0.75)%R.
    { split; [apply Rmult_le_pos; lra|]. apply Rle_trans with (0.75 * 1)%R; [apply Rmult_le_compat; lra|lra]. }
    destruct (fdiv_R r c F Fc) as [A B]; [lra|rewrite Vc; unfold Rdiv; apply (small_lt_128 0); [lia|apply Rabs_le; bpow_lit; lra]|].
    rewrite Vc in B. refine (conj A (conj B _)). rewrite B. split; [apply rnd_nonneg; apply H0|]. rewrite <- f34. apply rnd_le, H0. }
  destruct (Q r1 ltac:(lra) F1) as (A1 & A2 & A3). destruct (Q r2 ltac:(lra) F2) as (B1 & B2 & B3).
  assert (LQ : (val (fdiv r1 c) <= val (fdiv r2 c))%R) by (rewrite A2, B2; apply rnd_le, Rmult_le_compat_r; lra).
  unfold s. set (q1 := fdiv r1 c) in *. set (q2 := fdiv r2 c) in *. clearbody q1 q2.
  assert (M : forall q t, fin q -> fin t -> (0 <= val q <= 0.75)%R -> (1 <= val t <= 4)%R ->
     fin (fmul q t) /\ val (fmul q t) = rnd (val q * val t) /\ (0 <= val (fmul q t) <= 3)%R).
  { intros q t Fq Ft Hq Hq2. assert (0 <= val q * val t <= 3)%R.
    { split; [apply Rmult_le_pos; lra|]. apply Rle_trans with (0.75 * 4)%R; [apply Rmult_le_compat; lra|lra]. }
    destruct (fmul_R q t Fq Ft) as [A B]; [apply (small_lt_128 2); [lia|apply Rabs_le; bpow_lit; lra]|].
    refine (conj A (conj B _)). rewrite B. split; [apply rnd_nonneg; apply H|]. rewrite <- f3. apply rnd_le, H. }
  destruct (M q1 t1 A1 G1 A3 ltac:(lra)) as (C1 & C2 & C3). destruct (M q2 t2 B1 G2 B3 ltac:(lra)) as (D1 & D2 & D3).
  assert (LM : (val (fmul q1 t1) <= val (fmul q2 t2))%R) by (rewrite C2, D2; apply rnd_le, Rmult_le_compat; lra).
  set (p1 := fmul q1 t1) in *. set (p2 := fmul q2 t2) in *. clearbody p1 p2.
  destruct (fadd_R F32_ONE p1 FO C1) as [X1 X2]; [rewrite VO; apply (small_lt_128 2); [lia|apply Rabs_le; bpow_lit; lra]|].
  destruct (fadd_R F32_ONE p2 FO D1) as [Y1 Y2]; [rewrite VO; apply (small_lt_128 2); [lia|apply Rabs_le; bpow_lit; lra]|].
  rewrite X2, Y2, VO. refine (conj X1 (conj Y1 (conj (conj _ _) _))).
  - rewrite <- f1 at 1. apply rnd_le. lra.
  - apply rnd_le. lra.
  - rewrite <- f4. apply rnd_le. lra.
Qed.

Lemma smallx_mono : forall {E : Env} r1 r2, fin r1 -> fin r2 -> (0 <= val r1 <= val r2)%R -> (val r2 <= 0.6932)%R ->
  (val (F32_exp_smallx r1 4) <= val (F32_exp_smallx r2 4))%R.
Proof.
  intros E r1 r2 F1 F2 H B. rewrite !smallx_unfold. destruct one_val as [FO VO].
  destruct (of_Z_small 1 ltac:(lia)) as [G1 W1]. destruct (of_Z_small 2 ltac:(lia)) as [G2 W2].
  destruct (of_Z_small 3 ltac:(lia)) as [G3 W3]. destruct (of_Z_small 4 ltac:(lia)) as [G4 W4].
  set (c1 := f32_of_Z 1) in *. set (c2 := f32_of_Z 2) in *. set (c3 := f32_of_Z 3) in *. set (c4 := f32_of_Z 4) in *.
  clearbody c1 c2 c3 c4.
  destruct (step_mono c4 4 r1 r2 F32_ONE F32_ONE G4 W4 ltac:(lra) F1 F2 FO FO H B ltac:(rewrite VO; lra) ltac:(rewrite VO; lra)) as (A1 & A2 & A3 & A4). cbv zeta in *.
  destruct (step_mono c3 3 r1 r2 _ _ G3 W3 ltac:(lra) F1 F2 A1 A2 H B A3 A4) as (B1 & B2 & B3 & B4). cbv zeta in *.
  destruct (step_mono c2 2 r1 r2 _ _ G2 W2 ltac:(lra) F1 F2 B1 B2 H B B3 B4) as (C1 & C2 & C3 & C4). cbv zeta in *.
  destruct (step_mono c1 1 r1 r2 _ _ G1 W1 ltac:(lra) F1 F2 C1 C2 H B C3 C4) as (D1 & D2 & D3 & D4). cbv zeta in *.
  apply D3.
Qed.

(** The value computed on the main path: [val t * 2^n]. *)
Definition reg_t {E : Env} (x : f32) : f32 :=
  F32_exp_smallx (fmul (match F32_fract (fmul x c_LOG2_E) with Ok z => z | _ => F32_ZERO end) c_LN_2) 4.
Definition reg_n {E : Env} (x : f32) : Z := Ztrunc (val (fmul x c_LOG2_E)).
Definition reg_val {E : Env} (x : f32) : R := (val (reg_t x) * bpow radix2 (reg_n x))%R.

Lemma reg_facts : forall {E : Env} x, fin x -> (0 <= val x <= 88.72283172607421875)%R ->
  let y := fmul x c_LOG2_E in exists z, F32_fract y = Ok z /\ fin z /\ reg_t x = F32_exp_smallx (fmul z c_LN_2) 4 /\
  val z = (val y - IZR (reg_n x))%R /\ (0 <= val z < 1)%R /\ 0 <= reg_n x <= 127 /\
  fin y /\ val y = rnd (val x * (12102203 / 8388608)) /\ fin (reg_t x) /\ (1 <= val (reg_t x) < 2)%R /\
  (exp_short x = false -> exists r, F32_exp x = Ok r /\ fin r /\ val r = reg_val x).
Proof.
  intros E x F H y. destruct (y_fin x F ltac:(apply Rabs_le; lra)) as [Fy Vy]. fold y in Fy, Vy.
  destruct y_consts as (Q1 & _).
  assert (By : (0 <= val y <= 128 - 2 / 131072)%R).
  { rewrite Vy. split; [apply rnd_nonneg; lra|rewrite <- Q1; apply rnd_le; lra]. }
  destruct (series_facts y) as (z & t & Z & Et & Fz & Bz & Sz & Ft & St & Dt & P & N).
  destruct (fract_exact y Fy) as (z' & Z' & _ & _ & Vz & _); [apply Rabs_lt; bpow_lit; lra|].
  rewrite Z in Z'. injection Z' as <-.
  assert (ET : reg_t x = t) by (unfold reg_t; fold y; rewrite Z; symmetry; exact Et).
  assert (Nn : 0 <= reg_n x <= 127).
  { unfold reg_n. fold y. rewrite Ztrunc_floor by apply By. split; [apply Zfloor_lub; apply By|].
    assert (Zfloor (val y) < 128); [|lia]. apply lt_IZR. pose proof (Zfloor_lb (val y)). lra. }
  assert (Zr : (0 <= val z < 1)%R).
  { rewrite Vz. rewrite Ztrunc_floor by apply By. pose proof (Zfloor_lb (val y)). pose proof (Zfloor_ub (val y)). lra. }
  assert (T12 : (1 <= val t < 2)%R /\ bexp (to_bits t) = 127).
  { destruct (scaled_fract z Fz Bz) as (Fr & Dr & Br & Pr & Nr). cbv zeta in Fr, Dr, Br, Pr, Nr.
    specialize (Pr (proj1 Zr)). destruct (smallx_sides _ Fr Br) as [P1 _]. specialize (P1 Pr). rewrite <- Et in P1.
    apply Rabs_le_inv in Br. pose proof (expp_ge _ ltac:(split; [exact Pr|apply Br])) as G. apply Rabs_le_inv in Dt.
    assert (U : (1 <= val t < 2)%R) by lra. split; [exact U|].
    pose proof (bexp_ge t 0 Ft ltac:(lia)) as L1. pose proof (bexp_lt t 1 Ft ltac:(lia)) as L2.
    rewrite Rabs_pos_eq in L1, L2 by lra. revert L1 L2. bpow_lit. intros L1 L2. specialize (L1 ltac:(lra)). specialize (L2 ltac:(lra)). lia. }
  exists z. rewrite ET. refine (conj Z (conj Fz (conj Et (conj Vz (conj Zr (conj Nn (conj Fy (conj Vy (conj Ft (conj (proj1 T12) _)))))))))).
  intros SH. rewrite (exp_split x z SH Z), <- Et. fold y. rewrite trunc_i32_exact by (trivial; apply Rabs_lt; bpow_lit; lra).
  destruct (finish_normal t (Ztrunc (val y)) Ft St) as (r & R1 & R2 & _ & R4); [lia|unfold reg_n in Nn; fold y in Nn; lia|].
  exists r. refine (conj R1 (conj R2 _)). rewrite R4. unfold reg_val. rewrite ET. reflexivity.
Qed.

Lemma reg_mono : forall {E : Env} x1 x2, fin x1 -> fin x2 -> (0 <= val x1 <= val x2)%R -> (val x2 <= 88.72283172607421875)%R ->
  (reg_val x1 <= reg_val x2)%R.
Proof.
  intros E x1 x2 F1 F2 H B.
  destruct (reg_facts x1 F1 ltac:(lra)) as (z1 & Z1 & G1 & T1 & V1 & R1 & N1 & Y1 & W1 & U1 & X1 & _). cbv zeta in *.
  destruct (reg_facts x2 F2 ltac:(lra)) as (z2 & Z2 & G2 & T2 & V2 & R2 & N2 & Y2 & W2 & U2 & X2 & _). cbv zeta in *.
  assert (LY : (val (fmul x1 c_LOG2_E) <= val (fmul x2 c_LOG2_E))%R) by (rewrite W1, W2; apply rnd_le; lra).
  assert (LN : reg_n x1 <= reg_n x2) by (unfold reg_n; apply Ztrunc_le; exact LY).
  unfold reg_val. destruct (Z.eq_dec (reg_n x1) (reg_n x2)) as [EQ|NE].
  - rewrite EQ in *. apply Rmult_le_compat_r; [apply bpow_ge_0|]. rewrite T1, T2.
    assert (LZ : (val z1 <= val z2)%R) by lra.
    destruct (scaled_fract z1 G1 ltac:(apply Rabs_lt; lra)) as (A1 & _ & A2 & A3 & _). cbv zeta in *. specialize (A3 (proj1 R1)).
    destruct (scaled_fract z2 G2 ltac:(apply Rabs_lt; lra)) as (B1 & _ & B2 & B3 & _). cbv zeta in *.
    apply smallx_mono; trivial; [|apply Rabs_le_inv in B2; apply B2]. split; [exact A3|].
    destruct c_LN_2_val as [FL VL].
    destruct (fmul_R z1 c_LN_2 G1 FL) as [_ K1].
    { rewrite VL. apply (small_lt_128 0); [lia|]. bpow_lit. apply Rabs_le. lra. }
    destruct (fmul_R z2 c_LN_2 G2 FL) as [_ K2].
    { rewrite VL. apply (small_lt_128 0); [lia|]. bpow_lit. apply Rabs_le. lra. }
    rewrite K1, K2, VL. apply rnd_le. lra.
  - apply Rle_trans with (bpow radix2 (reg_n x1 + 1)).
    + rewrite Z.add_comm, bpow_plus. change (bpow radix2 1) with 2%R. apply Rmult_le_compat_r; [apply bpow_ge_0|lra].
    + apply Rle_trans with (bpow radix2 (reg_n x2)); [apply bpow_le; lia|]. rewrite <- (Rmult_1_l (bpow radix2 (reg_n x2))) at 1.
      apply Rmult_le_compat_r; [apply bpow_ge_0|lra].
Qed.

Lemma reg_ge1 : forall {E : Env} x, fin x -> (0 <= val x <= 88.72283172607421875)%R -> (1 <= reg_val x)%R.
Proof.
  intros E x F H. destruct (reg_facts x F H) as (z & _ & _ & _ & _ & _ & N & _ & _ & _ & X & _). cbv zeta in *. unfold reg_val.
  apply Rle_trans with (1 * bpow radix2 0)%R; [bpow_lit; lra|]. apply Rmult_le_compat; [lra|apply bpow_ge_0|lra|apply bpow_le; lia].
Qed.

(** The three cases of exp on nonnegative arguments. *)
Lemma exp_cases : forall {E : Env} x, fin x -> (0 <= val x <= 88.72283172607421875)%R -> exists r, F32_exp x = Ok r /\ fin r /\
  ((val x = 0%R /\ val r = 1%R) \/ ((Rabs (val x - 1) < / 8388608)%R /\ r = c_E) \/
   ((/ 8388608 <= Rabs (val x - 1))%R /\ (0 < val x)%R /\ val r = reg_val x)).
Proof.
  intros E x F H. destruct (exp_short x) eqn:S.
  - unfold exp_short in S. unfold F32_exp, F32_exp_ln2_approx. destruct zero_val as [FZ VZ]. destruct one_val as [FO VO]. destruct mone_val as [FM VM].
    destruct (feq x F32_ZERO) eqn:Z.
    { exists F32_ONE. rewrite feq_R, VZ in Z by assumption.
      assert (V : val x = 0%R) by (destruct (Req_bool_spec (val x) 0); [assumption|discriminate]).
      refine (conj eq_refl (conj FO _)). left. split; [exact V|exact VO]. }
    destruct (flt (F32_abs (fsub x F32_ONE)) F32_EPSILON) eqn:N1.
    { exists c_E. destruct c_E_val as [FE VE]. refine (conj eq_refl (conj FE _)). right; left. split; [exact (near_one x F N1)|reflexivity]. }
    destruct (flt (F32_abs (fsub x (fneg F32_ONE))) F32_EPSILON) eqn:N2; [|discriminate].
    exfalso. apply near_const in N2; [|exact F|exact FM]. rewrite VM in N2. apply Rabs_lt_inv in N2. lra.
  - destruct (reg_facts x F H) as (z & Z & _ & _ & _ & _ & _ & _ & _ & _ & _ & A). cbv zeta in *. destruct (A S) as (r & R1 & R2 & R3).
    exists r. refine (conj R1 (conj R2 _)). right; right. unfold exp_short in S. apply orb_false_iff in S. destruct S as [S _].
    apply orb_false_iff in S. destruct S as [S1 S2]. split; [exact (not_near_one x F S2)|]. split; [|exact R3].
    destruct zero_val as [FZ VZ]. rewrite feq_R, VZ in S1 by assumption. destruct (Req_bool_spec (val x) 0) as [K|K]; [discriminate|lra].
Qed.

Lemma reg_one : forall {E : Env}, (reg_val F32_ONE <= val c_E <= 1.00002 * reg_val F32_ONE)%R.
Proof.
  intros E. destruct c_E_val as [FE VE]. destruct one_val as [FO VO].
  destruct (reg_facts F32_ONE FO ltac:(rewrite VO; lra)) as (z & Z & Gz & T & V & _ & _ & _ & W & _ & _). cbv zeta in *.
  assert (Y : fmul F32_ONE c_LOG2_E = from_bits 0x3FB8AA3B) by (apply to_bits_inj; vm_compute; reflexivity).
  unfold reg_val, reg_n in *. rewrite Y in *.
  assert (VY : val (from_bits 0x3FB8AA3B) = (12102203 / 8388608)%R) by (lit 0x3FB8AA3B; bpow_lit; lra). rewrite VY in *.
  assert (N : Ztrunc (12102203 / 8388608) = 1) by (rewrite Ztrunc_floor by lra; apply Zfloor_imp; simpl IZR; lra). rewrite N in *.
  assert (TT : reg_t F32_ONE = from_bits 0x3FADF78C).
  { unfold reg_t. rewrite Y. apply to_bits_inj; vm_compute; reflexivity. }
  rewrite TT, VE. lit 0x3FADF78C. bpow_lit. lra.
Qed.

Lemma exp_mono : forall {E : Env} x1 x2, fin x1 -> fin x2 -> (0 <= val x1 <= val x2)%R -> (val x2 <= 88.72283172607421875)%R ->
  exists r1 r2, F32_exp x1 = Ok r1 /\ F32_exp x2 = Ok r2 /\ fin r1 /\ fin r2 /\
   (~ ((1 - / 16777216 <= val x1 <= 1)%R /\ (1 < val x2)%R) -> (val r1 <= val r2)%R) /\
   (val r1 <= 1.00002 * val r2)%R.
Proof.
  intros E x1 x2 F1 F2 H B. destruct one_val as [FO VO]. destruct (@reg_one E) as [O1 O2].
  assert (CE : (1 <= val c_E)%R) by (destruct c_E_val as [FE VE]; rewrite VE; lra).
  destruct (exp_cases x1 F1 ltac:(lra)) as (r1 & A1 & A2 & A3). destruct (exp_cases x2 F2 ltac:(lra)) as (r2 & B1 & B2 & B3).
  exists r1, r2. refine (conj A1 (conj B1 (conj A2 (conj B2 _)))).
  assert (G2 : (1 <= val r2)%R).
  { destruct B3 as [[_ V]|[[_ V]|(_ & _ & V)]]; rewrite V; [lra|exact CE|apply reg_ge1; [exact F2|lra]]. }
  assert (K : (~ ((1 - / 16777216 <= val x1 <= 1)%R /\ (1 < val x2)%R) -> (val r1 <= val r2)%R)).
  { intros NX. destruct A3 as [[_ V]|[[D V]|(D & P1 & V)]].
    - rewrite V. exact G2.
    - destruct B3 as [[X _]|[[D2 V2]|(D2 & P2 & V2)]].
      + apply Rabs_lt_inv in D. lra.
      + rewrite V, V2. lra.
      + exfalso. apply Rabs_lt_inv in D.
        assert (U1 : (val x1 <= 1)%R) by (apply Rnot_lt_le; intros C; pose proof (gt_one x1 F1 C); lra).
        assert (L1 : (1 - / 16777216 <= val x1)%R).
        { pose proof (next_float 0x3F7FFFFE x1 ltac:(lia) F1) as K. revert K. change (0x3F7FFFFE + 1) with 0x3F7FFFFF.
          lit 0x3F7FFFFE. lit 0x3F7FFFFF. bpow_lit. lra. }
        apply NX. split; [lra|]. destruct (Rle_or_lt (val x2) 1) as [Q|Q]; [|exact Q]. exfalso.
        rewrite Rabs_left1 in D2 by lra. lra.
    - rewrite V. destruct B3 as [[X _]|[[D2 V2]|(D2 & P2 & V2)]]; rewrite ?V2.
      + lra.
      + apply Rle_trans with (2 := O1). apply reg_mono; trivial; [|rewrite VO; lra]. rewrite VO. split; [lra|].
        apply Rnot_lt_le. intros C. pose proof (gt_one x1 F1 C). apply Rabs_lt_inv in D2. lra.
      + apply reg_mono; trivial; lra. }
  split; [exact K|].
  destruct A3 as [[_ V]|[[D V]|(D & P1 & V)]].
  - lra.
  - destruct B3 as [[X _]|[[D2 V2]|(D2 & P2 & V2)]].
    + apply Rabs_lt_inv in D. lra.
    + rewrite V, V2. lra.
    + rewrite V, V2. apply Rle_trans with (1 := O2). apply Rmult_le_compat_l; [lra|]. apply reg_mono; trivial. rewrite VO. split; [lra|].
      apply Rnot_lt_le. intros C. rewrite Rabs_left1 in D2 by lra. apply Rabs_lt_inv in D. lra.
  - assert (val r1 <= val r2)%R; [|lra]. apply K. intros [C1 C2]. apply Rabs_ge_inv in D. destruct D as [D|D]; lra.
Qed.

(** ** exp against 1 *)

Lemma exp_ge1 : forall {E : Env} x, fin x -> (0 <= val x <= 88.72283172607421875)%R ->
  exists r, F32_exp x = Ok r /\ fin r /\ (1 <= val r)%R.
Proof.
  intros E x F H. destruct (exp_cases x F H) as (r & A & B & C). exists r. refine (conj A (conj B _)).
  destruct C as [[_ V]|[[_ V]|(_ & _ & V)]]; rewrite V; [lra| |apply reg_ge1; assumption].
  destruct c_E_val as [_ VE]. rewrite VE. lra.
Qed.

(** On |x| <= 1/2 exp is the series alone. *)
Lemma exp_small_path : forall {E : Env} x, fin x -> (Rabs (val x) <= 0.5)%R -> (val x <> 0)%R ->
  let r := fmul (fmul x c_LOG2_E) c_LN_2 in
  exists t, F32_exp x = Ok t /\ fin t /\ fin r /\ (Rabs (val r) <= 0.6932)%R /\ val t = val (F32_exp_smallx r 4) /\
    ((0 < val x)%R -> (0 <= val r)%R) /\ ((val x < 0)%R -> (val r <= 0)%R).
Proof.
  intros E x F H NZ r. apply Rabs_le_inv in H as H'. destruct zero_val as [FZ VZ]. destruct one_val as [FO VO]. destruct mone_val as [FM VM].
  destruct (y_fin x F ltac:(apply Rabs_le; lra)) as [Fy Vy].
  assert (SH : exp_short x = false).
  { unfold exp_short. rewrite feq_R, VZ by assumption. rewrite Req_bool_false by exact NZ.
    destruct (flt (F32_abs (fsub x F32_ONE)) F32_EPSILON) eqn:N1; [apply near_one in N1; [|exact F]; apply Rabs_lt_inv in N1; lra|].
    destruct (flt (F32_abs (fsub x (fneg F32_ONE))) F32_EPSILON) eqn:N2; [|reflexivity].
    apply near_const in N2; [|exact F|exact FM]. rewrite VM in N2. apply Rabs_lt_inv in N2. lra. }
  assert (By : (Rabs (val (fmul x c_LOG2_E)) < 1)%R).
  { rewrite Vy. apply Rle_lt_trans with 0.75%R; [|lra].
    assert (f34 : rnd 0.75 = 0.75%R). { apply rnd_fmt. replace 0.75%R with (IZR 3 * bpow radix2 (-2))%R by (bpow_lit; lra). apply fmt_scaled; lia. }
    apply Rabs_le. split; [|rewrite <- f34; apply rnd_le; lra]. rewrite <- f34 at 1. rewrite <- rnd_opp. apply rnd_le. lra. }
  unfold r. set (y := fmul x c_LOG2_E) in *.
  assert (Be : bexp (to_bits y) < 127).
  { pose proof (bexp_lt y 0 Fy ltac:(lia)) as L. change (bpow radix2 0) with 1%R in L. specialize (L By). lia. }
  destruct (series_facts y) as (z & t & Z & Et & Fz & Bz & Sz & Ft & St & Dt & P & N).
  rewrite fract_small in Z by exact Be. injection Z as <-.
  assert (T0 : Ztrunc (val y) = 0).
  { apply Rabs_lt_inv in By. destruct (Rle_or_lt 0 (val y)) as [S|S].
    - rewrite Ztrunc_floor by exact S. apply Zfloor_imp. simpl IZR. lra.
    - rewrite Ztrunc_ceil by lra. apply Zceil_imp. simpl IZR. lra. }
  assert (A : F32_exp x = exp_finish t 0).
  { rewrite (exp_split x y SH); [|fold y; rewrite fract_small by exact Be; reflexivity]. fold y. rewrite <- Et.
    rewrite trunc_i32_exact by (trivial; apply Rlt_trans with (1 := By); change 1%R with (bpow radix2 0); apply bpow_lt; lia).
    rewrite T0. reflexivity. }
  assert (BB : 126 <= bexp (to_bits t) <= 127) by (destruct (sign_bit y); [apply N; reflexivity|destruct (P eq_refl); lia]).
  destruct (finish_normal t 0 Ft St ltac:(lia) ltac:(lia)) as (q & R1 & R2 & _ & R4). exists q. rewrite A.
  destruct (scaled_fract y Fy By) as (Fr & _ & Br & Pr & Nr). cbv zeta in Fr, Br, Pr, Nr.
  refine (conj R1 (conj R2 (conj Fr (conj Br (conj _ (conj _ _)))))).
  - rewrite R4, Et. bpow_lit. ring.
  - intros S. apply Pr. rewrite Vy. apply rnd_nonneg. lra.
  - intros S. apply Nr. rewrite Vy. rewrite <- (rnd_fmt 0) by apply generic_format_0. apply rnd_le. lra.
Qed.

Lemma exp_le1 : forall {E : Env} x, fin x -> (val x <= 0)%R ->
  exists r, F32_exp x = Ok r /\ fin r /\ (0 <= val r <= 1)%R.
Proof.
  intros E x F H. destruct (Req_EM_T (val x) 0) as [Z|Z].
  { destruct (exp_cases x F ltac:(lra)) as (r & A & B & C). exists r. refine (conj A (conj B _)).
    destruct C as [[_ V]|[[C _]|(_ & C & _)]]; [lra| |lra]. apply Rabs_lt_inv in C. lra. }
  assert (NX : (val x < 0)%R) by (destruct H as [H|H]; [exact H|contradiction]).
  destruct (Rle_or_lt (- 0.5) (val x)) as [L|L].
  { destruct (exp_small_path x F ltac:(apply Rabs_le; lra) Z) as (t & A & B & Fr & Br & V & _ & Nr). cbv zeta in *.
    destruct (smallx_sides _ Fr Br) as [_ P2]. specialize (P2 (Nr NX)).
    destruct (smallx_acc _ Fr Br) as [_ D]. apply Rabs_le_inv in D. apply Rabs_le_inv in Br.
    specialize (Nr NX). set (rr := val (fmul (fmul x c_LOG2_E) c_LN_2)) in *. clearbody rr. pose proof (expp_le rr ltac:(lra)). exists t. refine (conj A (conj B _)). rewrite V. lra. }
  destruct (Rle_or_lt (- 87.3365478515625) (val x)) as [M|M].
  { destruct (exp_acc_neg x F ltac:(lra)) as (r & A & B & C & D). exists r. refine (conj A (conj B _)). split; [lra|].
    apply Rabs_le_inv in D. assert (exp (val x) <= exp (- 0.5))%R by (left; apply exp_increasing; exact L).
    pose proof exp_mhalf. lra. }
  destruct (Rlt_or_le (- 88.029693603515625) (val x)) as [G|G].
  - destruct (exp_gradual x F (conj G M)) as (r & A & B & C). exists r. refine (conj A (conj B _)). split; [lra|].
    apply Rle_trans with (1 := proj2 C). change 1%R with (bpow radix2 0). apply bpow_le. lia.
  - exists F32_ZERO. destruct zero_val as [FZ VZ]. rewrite VZ. split; [|split; [exact FZ|lra]].
    apply exp_under; [apply fin_not_nan; exact F| |intros; exact G].
    destruct (sign_bit x) eqn:S; [reflexivity|]. pose proof (sign_val_pos x S). lra.
Qed.

(** ** cosh >= 1 *)

(** The series never falls below the rounded linear term. *)
Lemma smallx_linear : forall {E : Env} r, fin r -> (Rabs (val r) <= 0.6932)%R -> (rnd (1 + val r) <= val (F32_exp_smallx r 4))%R.
Proof.
  intros E r Fr Br. rewrite smallx_unfold. destruct one_val as [FO VO].
  destruct (of_Z_small 1 ltac:(lia)) as [G1 W1]. destruct (of_Z_small 2 ltac:(lia)) as [G2 W2].
  destruct (of_Z_small 3 ltac:(lia)) as [G3 W3]. destruct (of_Z_small 4 ltac:(lia)) as [G4 W4].
  set (c1 := f32_of_Z 1) in *. set (c2 := f32_of_Z 2) in *. set (c3 := f32_of_Z 3) in *. set (c4 := f32_of_Z 4) in *.
  clearbody c1 c2 c3 c4. apply Rabs_le_inv in Br as Br'.
  destruct (smallx_step r c4 4 F32_ONE 1 0 Fr Br G4 W4 ltac:(lra) FO) as [F4 D4]; [apply Rabs_le; lra|rewrite VO; apply Rabs_le; lra|lra|].
  cbv zeta in F4, D4. set (t4 := fadd F32_ONE (fmul (fdiv r c4) F32_ONE)) in *. clearbody t4.
  set (T4 := (1 + val r / 4 * 1)%R) in *.
  assert (R4 : (0.82 <= T4 <= 1.18)%R) by (unfold T4; lra).
  destruct (smallx_step r c3 3 t4 T4 0.00000025 Fr Br G3 W3 ltac:(lra) F4) as [F3 D3]; [apply Rabs_le; lra|lra|lra|].
  cbv zeta in F3, D3. set (t3 := fadd F32_ONE (fmul (fdiv r c3) t4)) in *. clearbody t3.
  set (T3 := (1 + val r / 3 * T4)%R) in *.
  assert (R3 : (0.7 <= T3 <= 1.3)%R).
  { assert (K : (Rabs (val r / 3 * T4) <= 0.2311 * 1.18)%R) by (rewrite Rabs_mult; apply Rmult_le_compat; try apply Rabs_pos; apply Rabs_le; lra).
    apply Rabs_le_inv in K. unfold T3. lra. }
  destruct (smallx_step r c2 2 t3 T3 0.00000043 Fr Br G2 W2 ltac:(lra) F3) as [F2 D2]; [apply Rabs_le; lra|lra|lra|].
  cbv zeta in F2, D2.
  assert (B3 : (0.69 <= val t3 <= 1.31)%R) by (apply Rabs_le_inv in D3; lra).
  (* t2 is on the same side of 1 as r of 0 *)
  assert (M2 : ((0 <= val r)%R -> (1 <= val (fadd F32_ONE (fmul (fdiv r c2) t3)))%R) /\ ((val r <= 0)%R -> (val (fadd F32_ONE (fmul (fdiv r c2) t3)) <= 1)%R)).
  { destruct (fdiv_R r c2 Fr G2) as [Fq Vq]; [rewrite W2; lra|rewrite W2; apply (small_lt_128 0); [lia|bpow_lit; unfold Rdiv; apply Rabs_le; lra]|]. rewrite W2 in Vq.
    assert (Bq : (Rabs (val (fdiv r c2)) <= bpow radix2 (-1))%R) by (rewrite Vq; apply (rnd_abs_le (-1)); [lia|bpow_lit; unfold Rdiv; apply Rabs_le; lra]).
    assert (Sq : ((0 <= val r)%R -> (0 <= val (fdiv r c2))%R) /\ ((val r <= 0)%R -> (val (fdiv r c2) <= 0)%R)).
    { rewrite Vq. split; intros S; [apply rnd_nonneg; lra|]. rewrite <- (rnd_fmt 0) by apply generic_format_0. apply rnd_le. lra. }
    set (q := fdiv r c2) in *. clearbody q. revert Bq. bpow_lit. intros Bq.
    assert (B : (Rabs (val q * val t3) <= 1)%R).
    { rewrite Rabs_mult. apply Rle_trans with (/ 2 * 1.31)%R; [apply Rmult_le_compat; try apply Rabs_pos; [exact Bq|apply Rabs_le; lra]|lra]. }
    destruct (fmul_R q t3 Fq F3) as [Fp Vp]; [apply (small_lt_128 0); [lia|bpow_lit; lra]|].
    assert (Bp : (Rabs (val (fmul q t3)) <= bpow radix2 0)%R) by (rewrite Vp; apply (rnd_abs_le 0); [lia|bpow_lit; lra]).
    destruct (fadd_R F32_ONE (fmul q t3) FO Fp) as [Ft Vt].
    { apply (small_lt_128 2); [lia|]. rewrite VO. revert Bp. bpow_lit. intros Bp. apply Rabs_le_inv in Bp. apply Rabs_le. lra. }
    rewrite Vt, VO. destruct Sq as [Sq1 Sq2]. split; intros S.
    - assert (0 <= val (fmul q t3))%R by (rewrite Vp; apply rnd_nonneg, Rmult_le_pos; [apply Sq1; exact S|lra]).
      rewrite <- (rnd_fmt 1) at 1 by (rewrite <- VO; apply fmt_val; exact FO). apply rnd_le. lra.
    - assert (val (fmul q t3) <= 0)%R.
      { rewrite Vp. rewrite <- (rnd_fmt 0) by apply generic_format_0. apply rnd_le. specialize (Sq2 S).
        assert (0 <= (- val q) * val t3)%R by (apply Rmult_le_pos; lra). lra. }
      rewrite <- (rnd_fmt 1) at 2 by (rewrite <- VO; apply fmt_val; exact FO). apply rnd_le. lra. }
  set (t2 := fadd F32_ONE (fmul (fdiv r c2) t3)) in *. clearbody t2.
  set (T2 := (1 + val r / 2 * T3)%R) in *.
  assert (R2 : (0.5 <= T2 <= 1.5)%R).
  { assert (K : (Rabs (val r / 2 * T3) <= 0.3466 * 1.3)%R) by (rewrite Rabs_mult; apply Rmult_le_compat; try apply Rabs_pos; apply Rabs_le; lra).
    apply Rabs_le_inv in K. unfold T2. lra. }
  apply Rabs_le_inv in D2.
  assert (V2 : (0.4 <= val t2 <= 1.6)%R) by lra.
  assert (Q1 : (val r / val c1 = val r)%R) by (rewrite W1; unfold Rdiv; rewrite Rinv_1; ring).
  destruct (fdiv_R r c1 Fr G1) as [Fq Vq]; [rewrite W1; lra|rewrite Q1; apply (small_lt_128 1); [lia|bpow_lit; lra]|].
  rewrite Q1, rnd_fmt in Vq by (apply fmt_val; exact Fr). set (q := fdiv r c1) in *. clearbody q.
  assert (B : (Rabs (val q * val t2) <= 1.2)%R).
  { rewrite Vq, Rabs_mult. apply Rle_trans with (0.6932 * 1.6)%R; [apply Rmult_le_compat; try apply Rabs_pos; [exact Br|apply Rabs_le; lra]|lra]. }
  destruct (fmul_R q t2 Fq F2) as [Fp Vp]; [apply (small_lt_128 1); [lia|bpow_lit; lra]|].
  assert (Bp : (Rabs (val (fmul q t2)) <= bpow radix2 1)%R) by (rewrite Vp; apply (rnd_abs_le 1); [lia|bpow_lit; lra]).
  destruct (fadd_R F32_ONE (fmul q t2) FO Fp) as [Ft Vt].
  { apply (small_lt_128 2); [lia|]. rewrite VO. revert Bp. bpow_lit. intros Bp. apply Rabs_le_inv in Bp. apply Rabs_le. lra. }
  rewrite Vt, VO. apply rnd_le. apply Rplus_le_compat_l. rewrite Vp, Vq.
  rewrite <- (rnd_fmt (val r)) at 1 by (apply fmt_val; exact Fr). apply rnd_le.
  destruct M2 as [M1 M2]. destruct (Rle_or_lt 0 (val r)) as [S|S].
  - specialize (M1 S). rewrite <- (Rmult_1_r (val r)) at 1. apply Rmult_le_compat_l; lra.
  - specialize (M2 ltac:(lra)). assert (0 <= (- val r) * (1 - val t2))%R by (apply Rmult_le_pos; lra). lra.
Qed.

Lemma tie_two : forall {E : Env}, rnd (2 - / 16777216) = 2%R.
Proof.
  intros E. destruct one_val as [FO VO].
  destruct (fadd_R F32_ONE (from_bits 0x3F7FFFFF) FO eq_refl) as [_ V].
  { rewrite VO. lit 0x3F7FFFFF. apply (small_lt_128 1); [lia|]. bpow_lit. apply Rabs_le. lra. }
  assert (K : fadd F32_ONE (from_bits 0x3F7FFFFF) = from_bits 0x40000000) by (apply to_bits_inj; vm_compute; reflexivity).
  rewrite K, VO in V. revert V. lit 0x40000000. lit 0x3F7FFFFF. bpow_lit. intros V.
  replace (2 - / 16777216)%R with (1 + 16777215 * / 16777216)%R by lra. lra.
Qed.

(** Two floats just above and below 1 with a sum above 2 - 1.75 * 2^-24 have sum at least 2 - 2^-24. *)
Lemma grid_sum : forall a b, fin a -> fin b -> sign_bit a = false -> sign_bit b = false -> (1 <= val a < 2)%R -> (/ 2 <= val b <= 1)%R ->
  (2 - 1.75 * / 16777216 <= val a + val b)%R -> (2 - / 16777216 <= val a + val b)%R.
Proof.
  intros a b Fa Fb Sa Sb Ha Hb H.
  assert (X : exists m, val a = (IZR m * / 16777216)%R).
  { assert (B : bexp (to_bits a) = 127).
    { pose proof (bexp_ge a 0 Fa ltac:(lia)) as L1. pose proof (bexp_lt a 1 Fa ltac:(lia)) as L2.
      rewrite Rabs_pos_eq in L1, L2 by lra. revert L1 L2. bpow_lit. intros L1 L2. specialize (L1 ltac:(lra)). specialize (L2 ltac:(lra)). lia. }
    rewrite (val_normal a Fa) by lia. unfold sgn. rewrite Sa, B. exists (2 * (2 ^ 23 + bman (to_bits a))).
    rewrite mult_IZR. change (127 - 150) with (-23). bpow_lit. field. }
  assert (Y : exists m, val b = (IZR m * / 16777216)%R).
  { assert (B : 126 <= bexp (to_bits b) <= 127).
    { pose proof (bexp_ge b (-1) Fb ltac:(lia)) as L1. pose proof (bexp_lt b 1 Fb ltac:(lia)) as L2.
      rewrite Rabs_pos_eq in L1, L2 by lra. revert L1 L2. bpow_lit. intros L1 L2. specialize (L1 ltac:(lra)). specialize (L2 ltac:(lra)). lia. }
    rewrite (val_normal b Fb) by lia. unfold sgn. rewrite Sb.
    assert (C : bexp (to_bits b) = 126 \/ bexp (to_bits b) = 127) by lia. destruct C as [C|C]; rewrite C.
    - exists (2 ^ 23 + bman (to_bits b)). change (126 - 150) with (-24). bpow_lit. field.
    - exists (2 * (2 ^ 23 + bman (to_bits b))). rewrite mult_IZR. change (127 - 150) with (-23). bpow_lit. field. }
  destruct X as [m X]. destruct Y as [n Y]. rewrite X, Y in *.
  assert (K : (IZR 33554430 < IZR (m + n))%R) by (rewrite plus_IZR; lra). apply lt_IZR in K.
  assert (G : 33554431 <= m + n) by lia. apply IZR_le in G. rewrite plus_IZR in G. lra.
Qed.

Lemma cosh_ge1_pos : forall {E : Env} x, fin x -> (0 <= val x <= 88.72283172607421875)%R ->
  exists r, F32_cosh x = Ok r /\ fin r /\ (1 <= val r)%R.
Proof.
  intros E x F H. destruct (cosh_acc_pos x F H) as (r & A & B & C). exists r. refine (conj A (conj B _)).
  destruct (Rle_or_lt 0.5 (val x)) as [L|L].
  { apply Rabs_le_inv in C. pose proof (exp_pos (val x)) as P. rewrite exp_Ropp in C.
    set (u := exp (val x)) in *. assert (U : (1.64 <= u)%R).
    { apply Rle_trans with (1 := exp_half). unfold u. destruct L as [L|L]; [left; apply exp_increasing; exact L|rewrite <- L; apply Rle_refl]. }
    assert (G : (2.2 <= 0.99924 * u + 0.9976 * / u)%R).
    { assert (0 <= (u - 1.64) * (0.99924 - 0.9976 * / 1.64 * / u))%R.
      { apply Rmult_le_pos; [lra|]. assert (/ u <= / 1.64)%R by (apply Rinv_le; lra). lra. }
      replace ((u - 1.64) * (0.99924 - 0.9976 * / 1.64 * / u))%R with (0.99924 * u + 0.9976 * / u - 0.99924 * 1.64 - 0.9976 * / 1.64)%R in H0 by (field; lra). lra. }
    lra. }
  unfold F32_cosh in A. destruct (Req_EM_T (val x) 0) as [Z|Z].
  { destruct (exp_cases x F ltac:(lra)) as (a & A1 & A2 & A3).
    destruct (exp_cases (fneg x) (fneg_fin x F) ltac:(rewrite fneg_val; lra)) as (b & B1 & B2 & B3). rewrite fneg_val in B3.
    rewrite A1, B1 in A. unfold bind in A. injection A as <-.
    assert (VA : val a = 1%R). { destruct A3 as [[_ V]|[[V _]|(_ & V & _)]]; [exact V| |lra]. apply Rabs_lt_inv in V. lra. }
    assert (VB : val b = 1%R). { destruct B3 as [[_ V]|[[V _]|(_ & V & _)]]; [exact V| |lra]. apply Rabs_lt_inv in V. lra. }
    assert (Sg : forall q, val q = 1%R -> sign_bit q = false).
    { intros q V. destruct (sign_bit q) eqn:S; [pose proof (sign_val_neg q S); lra|reflexivity]. }
    rewrite (one_bits a A2 (Sg a VA) VA), (one_bits b B2 (Sg b VB) VB).
    assert (K : fdiv (fadd F32_ONE F32_ONE) c_2 = F32_ONE) by (apply to_bits_inj; vm_compute; reflexivity).
    rewrite K. destruct one_val as [_ V1]. rewrite V1. lra. }
  destruct (exp_small_path x F ltac:(apply Rabs_le; lra) Z) as (a & A1 & A2 & Fr & Br & A3 & Pr & _). cbv zeta in *.
  destruct (exp_small_path (fneg x) (fneg_fin x F) ltac:(rewrite fneg_val; apply Rabs_le; lra) ltac:(rewrite fneg_val; lra)) as (b & B1 & B2 & Gr & Cr & B3 & _ & Nr). cbv zeta in *.
  rewrite A1, B1 in A. unfold bind in A. injection A as <-. rewrite fneg_val in Nr. specialize (Pr ltac:(lra)). specialize (Nr ltac:(lra)).
  assert (RR : val (fmul (fmul (fneg x) c_LOG2_E) c_LN_2) = (- val (fmul (fmul x c_LOG2_E) c_LN_2))%R).
  { destruct (y_fin x F ltac:(apply Rabs_le; lra)) as [Fy Vy].
    destruct (y_fin (fneg x) (fneg_fin x F) ltac:(rewrite fneg_val; apply Rabs_le; lra)) as [Fy' Vy']. rewrite fneg_val in Vy'.
    assert (Y : val (fmul (fneg x) c_LOG2_E) = (- val (fmul x c_LOG2_E))%R) by (rewrite Vy', Vy, <- rnd_opp; f_equal; ring).
    assert (BY : (Rabs (val (fmul x c_LOG2_E)) <= bpow radix2 0)%R) by (rewrite Vy; apply (rnd_abs_le 0); [lia|bpow_lit; apply Rabs_le; lra]).
    destruct c_LN_2_val as [FL VL].
    assert (BP : (Rabs (val (fmul x c_LOG2_E) * val c_LN_2) <= 1)%R).
    { rewrite Rabs_mult, VL. revert BY. bpow_lit. intros BY. apply Rle_trans with (1 * 1)%R; [|lra]. apply Rmult_le_compat; try apply Rabs_pos; [lra|apply Rabs_le; lra]. }
    destruct (fmul_R (fmul x c_LOG2_E) c_LN_2 Fy FL) as [_ K1]; [apply (small_lt_128 0); [lia|bpow_lit; lra]|].
    destruct (fmul_R (fmul (fneg x) c_LOG2_E) c_LN_2 Fy' FL) as [_ K2].
    { rewrite Y, <- Ropp_mult_distr_l. apply (small_lt_128 0); [lia|]. rewrite Rabs_Ropp. bpow_lit. lra. }
    rewrite K1, K2, Y, <- rnd_opp. f_equal. ring. }
  pose proof (smallx_linear _ Fr Br) as LA. pose proof (smallx_linear _ Gr Cr) as LB. rewrite <- A3 in LA. rewrite <- B3 in LB.
  destruct (smallx_sides _ Fr Br) as [SA _]. specialize (SA Pr). rewrite <- A3 in SA.
  destruct (smallx_sides _ Gr Cr) as [_ SB]. specialize (SB Nr). rewrite <- B3 in SB.
  destruct (smallx_acc _ Fr Br) as [_ DA]. rewrite <- A3 in DA. apply Rabs_le_inv in DA.
  destruct (smallx_acc _ Gr Cr) as [_ DB]. rewrite <- B3 in DB. apply Rabs_le_inv in DB.
  rewrite RR in LB, Nr, Cr, DB. set (rr := val (fmul (fmul x c_LOG2_E) c_LN_2)) in *. clearbody rr.
  apply Rabs_le_inv in Cr. pose proof (expp_le (- rr) ltac:(lra)) as EB.
  apply Rabs_le_inv in Br. pose proof (expp_ge rr ltac:(lra)) as EA.
  pose proof (rnd_err 1 (1 + rr) ltac:(lia)) as E1. assert (Q1 : (Rabs (1 + rr) <= bpow radix2 1)%R) by (bpow_lit; apply Rabs_le; lra). specialize (E1 Q1).
  pose proof (rnd_err 0 (1 + - rr) ltac:(lia)) as E2. assert (Q2 : (Rabs (1 + - rr) <= bpow radix2 0)%R) by (bpow_lit; apply Rabs_le; lra). specialize (E2 Q2).
  change (1 - 25) with (-24) in E1. change (0 - 25) with (-25) in E2. revert E1 E2. bpow_lit. intros E1 E2.
  apply Rabs_le_inv in E1. apply Rabs_le_inv in E2.
  assert (Sg : forall q, (0 < val q)%R -> sign_bit q = false).
  { intros q V. destruct (sign_bit q) eqn:S; [pose proof (sign_val_neg q S); lra|reflexivity]. }
  pose proof (grid_sum a b A2 B2 (Sg a ltac:(lra)) (Sg b ltac:(lra)) ltac:(lra) ltac:(lra) ltac:(lra)) as GS.
  destruct (fadd_R a b A2 B2) as [Fs Vs]; [apply (small_lt_128 2); [lia|bpow_lit; apply Rabs_le; lra]|].
  assert (S2 : (2 <= val (fadd a b))%R) by (rewrite Vs, <- (@tie_two E); apply rnd_le; exact GS).
  assert (S4 : (Rabs (val (fadd a b)) <= bpow radix2 2)%R) by (rewrite Vs; apply (rnd_abs_le 2); [lia|bpow_lit; apply Rabs_le; lra]).
  revert S4. bpow_lit. intros S4. apply Rabs_le_inv in S4. destruct c_2_val as [F2 V2].
  destruct (fdiv_R (fadd a b) c_2 Fs F2) as [Fd Vd]; [rewrite V2; lra|rewrite V2; apply (small_lt_128 2); [lia|bpow_lit; unfold Rdiv; apply Rabs_le; lra]|].
  rewrite Vd, V2. destruct one_val as [FO VO]. rewrite <- (rnd_fmt 1) at 1 by (rewrite <- VO; apply fmt_val; exact FO). apply rnd_le. lra.
Qed.

Lemma cosh_ge1 : forall {E : Env} x, fin x -> (Rabs (val x) <= 88.72283172607421875)%R ->
  exists r, F32_cosh x = Ok r /\ fin r /\ (1 <= val r)%R.
Proof.
  intros E x F H. apply Rabs_le_inv in H. destruct (Rle_or_lt 0 (val x)) as [S|S]; [apply cosh_ge1_pos; [exact F|lra]|].
  assert (Fn : fin (fneg x)) by (apply fneg_fin; exact F). pose proof (fneg_val x) as Vn.
  destruct (cosh_ge1_pos (fneg x) Fn ltac:(rewrite Vn; lra)) as (r & A & B & C).
  pose proof (cosh_even x) as Ev. rewrite A in Ev. destruct (F32_cosh x) as [r'| |]; try contradiction.
  destruct Ev as [Ev|[_ Ev]].
  2:{ exfalso. pose proof (fin_not_nan r B) as Nr. unfold nan in Ev. congruence. }
  exists r'. subst r'. exact (conj eq_refl (conj B C)).
Qed.
