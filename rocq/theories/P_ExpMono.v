(** * Proofs for C127: exp and cosh keep the order up to a few roundings *)

From Coq Require Import ZArith Reals Bool List Lia Lra.
From Flocq Require Import Core IEEE754.BinarySingleNaN IEEE754.Binary IEEE754.Bits.
From Verif Require Import Base Spec Float F32Lemmas BitLemmas Literals ErrLemmas NanLemmas
  RealBounds RealBounds4 RealBounds5 RealBounds8 P_Trunc P_Floor P_RoundEdge P_Euclid P_Roots P_InvSqrt P_SumSq P_Quat P_Trig P_Atan P_Atan2 P_Ln P_Exp P_Cosh P_Order P_Mono P_Powf P_TrigMono.
Open Scope Z_scope.

(** ** The argument reduction as real functions *)

Definition c2e : R := (12102203 / 8388608)%R.
Definition cl2 : R := (11629080 / 16777216)%R.
Definition YX (X : R) : R := rnd (X * c2e).
Definition NX (X : R) : Z := Ztrunc (YX X).
Definition RX (X : R) : R := rnd ((YX X - IZR (NX X)) * cl2).
(** The series at the reduced argument, in exact arithmetic, times the power of two. *)
Definition EV (X : R) : R := (expp (RX X) * bpow radix2 (NX X))%R.

Lemma cl2_fmt : rnd cl2 = cl2.
Proof. destruct c_LN_2_val as [F V]. fold cl2 in V. rewrite <- V. apply rnd_fmt, fmt_val. Qed.

Lemma trunc_frac : forall y, ((0 <= y)%R -> (0 <= y - IZR (Ztrunc y) < 1)%R) /\ ((y <= 0)%R -> (-1 < y - IZR (Ztrunc y) <= 0)%R).
Proof.
  intros y. split; intros H.
  - rewrite Ztrunc_floor by exact H. pose proof (Zfloor_lb y). pose proof (Zfloor_ub y). lra.
  - rewrite Ztrunc_ceil by exact H. pose proof (Zceil_ub y). pose proof (Zceil_lb y). lra.
Qed.

Lemma RX_sign : forall X, ((0 <= YX X)%R -> (0 <= RX X <= 0.6932)%R) /\ ((YX X <= 0)%R -> (-0.6932 <= RX X <= 0)%R).
Proof.
  intros X. destruct (trunc_frac (YX X)) as [P N]. fold (NX X) in P, N. unfold RX. set (z := (YX X - IZR (NX X))%R) in *. split; intros H.
  - specialize (P H). split; [apply rnd_nonneg; unfold cl2; lra|]. apply Rle_trans with (rnd cl2); [apply rnd_le; unfold cl2; lra|rewrite cl2_fmt; unfold cl2; lra].
  - specialize (N H). replace (z * cl2)%R with (- (- z * cl2))%R by ring. rewrite rnd_opp.
    assert (0 <= rnd (- z * cl2) <= 0.6932)%R; [|lra]. split; [apply rnd_nonneg; unfold cl2; lra|]. apply Rle_trans with (rnd cl2); [apply rnd_le; unfold cl2; lra|rewrite cl2_fmt; unfold cl2; lra].
Qed.

Lemma RX_range : forall X, (-0.6932 <= RX X <= 0.6932)%R.
Proof. intros X. destruct (RX_sign X) as [P N]. destruct (Rle_or_lt 0 (YX X)) as [H|H]; [specialize (P H)|specialize (N ltac:(lra))]; lra. Qed.

Lemma NR_order : forall X X', (X <= X')%R -> NX X = NX X' /\ (RX X <= RX X')%R \/ NX X + 1 <= NX X'.
Proof.
  intros X X' H. assert (Y : (YX X <= YX X')%R) by (apply rnd_le; unfold c2e; lra). pose proof (Ztrunc_le _ _ Y) as L. fold (NX X) in L. fold (NX X') in L.
  destruct (Z.eq_dec (NX X) (NX X')) as [Q|Q]; [left|right; lia]. split; [exact Q|]. unfold RX. rewrite Q. apply rnd_le. unfold cl2. lra.
Qed.

Lemma N_sign : forall X, (1 <= NX X -> (0 <= YX X)%R) /\ (NX X <= -1 -> (YX X <= 0)%R).
Proof.
  intros X. unfold NX. split; intros H; apply Rnot_lt_le; intros C.
  - rewrite Ztrunc_ceil in H by lra. pose proof (Zceil_glb 0 (YX X) ltac:(simpl; lra)). lia.
  - rewrite Ztrunc_floor in H by lra. pose proof (Zfloor_lub 0 (YX X) ltac:(simpl; lra)). lia.
Qed.

Lemma expp_mono : forall a b, (-0.6932 <= a)%R -> (a <= b)%R -> (b <= 0.6932)%R -> (expp a <= expp b)%R.
Proof. intros a b A B C. pose proof (expp_slope a b A B C) as S. pose proof (expp_range a ltac:(lra)). assert (0 <= expp a * (0.97 * (b - a)))%R by (apply Rmult_le_pos; lra). lra. Qed.

(** A higher binade gains a factor above 1.0005. *)
Lemma EV_up : forall X X', NX X + 1 <= NX X' -> (EV X * 1.0005 <= EV X')%R.
Proof.
  intros X X' L. unfold EV. pose proof (RX_range X) as B. pose proof (RX_range X') as B'. destruct (N_sign X) as [_ S]. destruct (N_sign X') as [S' _]. destruct (RX_sign X) as [_ P]. destruct (RX_sign X') as [P' _].
  pose proof (bpow_gt_0 radix2 (NX X)) as G. assert (K : (bpow radix2 (NX X) * 2 <= bpow radix2 (NX X'))%R) by (change 2%R with (bpow radix2 1); rewrite <- bpow_plus; apply bpow_le; exact L).
  pose proof (expp_range (RX X) B) as E. pose proof (expp_range (RX X') B') as E'. set (b := bpow radix2 (NX X)) in *. set (b' := bpow radix2 (NX X')) in *. destruct (Z.le_gt_cases 1 (NX X')) as [C|C].
  - specialize (P' (S' C)). pose proof (expp_mono 0 (RX X') ltac:(lra) ltac:(lra) ltac:(lra)) as M. rewrite expp_0 in M. destruct (expp_ends (RX X) B) as [U _].
    apply Rle_trans with (1.9999 * b)%R; [replace (expp (RX X) * b * 1.0005)%R with (expp (RX X) * 1.0005 * b)%R by ring; apply Rmult_le_compat_r; lra|].
    apply Rle_trans with (1 * b')%R; [lra|apply Rmult_le_compat_r; lra].
  - specialize (P (S ltac:(lia))). pose proof (expp_mono (RX X) 0 ltac:(lra) ltac:(lra) ltac:(lra)) as M. rewrite expp_0 in M.
    apply Rle_trans with (1.0005 * b)%R; [replace (expp (RX X) * b * 1.0005)%R with (expp (RX X) * (1.0005 * b))%R by ring; rewrite <- (Rmult_1_l (1.0005 * b)) at 2; apply Rmult_le_compat_r; lra|].
    apply Rle_trans with (0.501 * b')%R; [lra|apply Rmult_le_compat_r; lra].
Qed.

Lemma EV_pos : forall X, (0 < EV X)%R.
Proof. intros X. unfold EV. pose proof (expp_range (RX X) (RX_range X)). apply Rmult_lt_0_compat; [lra|apply bpow_gt_0]. Qed.

Lemma EV_mono : forall X X', (X <= X')%R -> (EV X <= EV X')%R.
Proof.
  intros X X' H. destruct (NR_order X X' H) as [[Q L]|L].
  - unfold EV. rewrite Q. apply Rmult_le_compat_r; [apply bpow_ge_0|]. pose proof (RX_range X). pose proof (RX_range X'). apply expp_mono; lra.
  - pose proof (EV_up X X' L). pose proof (EV_pos X). lra.
Qed.

(** Arguments d apart. *)
Definition top : R := 88.72283172607421875%R.

Lemma EV_gap : forall X X' d, (Rabs X <= top)%R -> (Rabs X' <= top)%R -> (X + d <= X')%R -> (0 <= d <= 0.0001)%R -> (EV X * (1 + (0.969 * d - 0.0000053)) <= EV X')%R.
Proof.
  intros X X' d B B' H Hd. destruct (NR_order X X' ltac:(lra)) as [[Q L]|L].
  2:{ pose proof (EV_up X X' L). pose proof (EV_pos X). apply Rle_trans with (2 := H0). apply Rmult_le_compat_l; lra. }
  assert (YE : forall x, (Rabs x <= top)%R -> (Rabs (YX x - x * c2e) <= / 262144)%R).
  { intros x Bx. apply (rnd_err 7); [lia|]. apply Rabs_le_inv in Bx. unfold top in Bx. change (bpow radix2 7) with 128%R. apply Rabs_le. unfold c2e. lra. }
  assert (RE : forall x, (Rabs (RX x - (YX x - IZR (NX x)) * cl2) <= / 33554432)%R).
  { intros x. apply (rnd_err 0); [lia|]. change (bpow radix2 0) with 1%R. destruct (trunc_frac (YX x)) as [P N]. fold (NX x) in P, N. apply Rabs_le. unfold cl2. destruct (Rle_or_lt 0 (YX x)) as [S|S]; [specialize (P S)|specialize (N ltac:(lra))]; lra. }
  pose proof (YE X B) as Y1. pose proof (YE X' B') as Y2. pose proof (RE X) as R1. pose proof (RE X') as R2. rewrite <- Q in R2.
  apply Rabs_le_inv in Y1. apply Rabs_le_inv in Y2. apply Rabs_le_inv in R1. apply Rabs_le_inv in R2.
  assert (G : (d - 0.00000536 <= RX X' - RX X)%R) by (unfold c2e, cl2 in *; lra).
  pose proof (RX_range X) as U. pose proof (RX_range X') as U'. pose proof (expp_slope (RX X) (RX X') ltac:(lra) L ltac:(lra)) as S. pose proof (expp_range (RX X) U) as E.
  unfold EV. rewrite <- Q. pose proof (bpow_gt_0 radix2 (NX X)) as P. replace (expp (RX X) * bpow radix2 (NX X) * (1 + (0.969 * d - 0.0000053)))%R with (expp (RX X) * (1 + (0.969 * d - 0.0000053)) * bpow radix2 (NX X))%R by ring.
  apply Rmult_le_compat_r; [lra|]. apply Rle_trans with (2 := S). apply Rmult_le_compat_l; [lra|]. lra.
Qed.

(** ** Symmetry, and the even combination *)

Lemma YX_opp : forall X, YX (- X) = (- YX X)%R.
Proof. intros X. unfold YX. replace (- X * c2e)%R with (- (X * c2e))%R by ring. apply rnd_opp. Qed.

Lemma NX_opp : forall X, NX (- X) = - NX X.
Proof. intros X. unfold NX. rewrite YX_opp. apply Ztrunc_opp. Qed.

Lemma RX_opp : forall X, RX (- X) = (- RX X)%R.
Proof. intros X. unfold RX. rewrite YX_opp, NX_opp, opp_IZR. replace ((- YX X - - IZR (NX X)) * cl2)%R with (- ((YX X - IZR (NX X)) * cl2))%R by ring. apply rnd_opp. Qed.

Definition CV (X : R) : R := (EV X + EV (- X))%R.

Lemma CV_eq : forall X, CV X = (expp (RX X) * bpow radix2 (NX X) + expp (- RX X) * bpow radix2 (- NX X))%R.
Proof. intros X. unfold CV, EV. rewrite RX_opp, NX_opp. reflexivity. Qed.

Lemma CV_step : forall n r r', 0 <= n -> (0 <= r <= r')%R -> (r' <= 0.6932)%R ->
  (expp r * bpow radix2 n + expp (- r) * bpow radix2 (- n) <= expp r' * bpow radix2 n + expp (- r') * bpow radix2 (- n))%R.
Proof.
  intros n r r' Hn H H'. pose proof (expp_even r r' ltac:(lra) ltac:(lra)) as V. pose proof (expp_mono (- r') (- r) ltac:(lra) ltac:(lra) ltac:(lra)) as M.
  assert (P : (bpow radix2 (- n) <= bpow radix2 n)%R) by (apply bpow_le; lia). pose proof (bpow_gt_0 radix2 (- n)) as P0.
  set (D := (expp r' - expp r)%R). set (D' := (expp (- r) - expp (- r'))%R). assert (DD : (D' <= D)%R) by (unfold D, D'; lra). assert (D0 : (0 <= D')%R) by (unfold D'; lra).
  assert (I : (D' * bpow radix2 (- n) <= D * bpow radix2 n)%R) by (apply Rmult_le_compat; lra). unfold D, D' in I. lra.
Qed.

Lemma CV_mono : forall X X', (0 <= X <= X')%R -> (CV X <= CV X')%R.
Proof.
  intros X X' H. rewrite !CV_eq. assert (Y0 : (0 <= YX X)%R) by (apply rnd_nonneg; unfold c2e; lra). assert (Y0' : (0 <= YX X')%R) by (apply rnd_nonneg; unfold c2e; lra).
  assert (N0 : 0 <= NX X) by (unfold NX; rewrite Ztrunc_floor by exact Y0; apply Zfloor_lub; exact Y0).
  destruct (RX_sign X) as [P _]. specialize (P Y0). destruct (RX_sign X') as [P' _]. specialize (P' Y0').
  destruct (NR_order X X' ltac:(lra)) as [[Q L]|L].
  - rewrite <- Q. apply CV_step; [exact N0|lra|lra].
  - set (n := NX X) in *. set (n' := NX X') in *.
    apply Rle_trans with (expp (1733 / 2500) * bpow radix2 n + expp (- (1733 / 2500)) * bpow radix2 (- n))%R; [apply CV_step; [exact N0|lra|lra]|].
    apply Rle_trans with (expp 0 * bpow radix2 n' + expp (- 0) * bpow radix2 (- n'))%R; [|apply CV_step; [lia|lra|lra]].
    rewrite Ropp_0, expp_0, !Rmult_1_l.
    assert (K : (bpow radix2 (n + 1) + bpow radix2 (- (n + 1)) <= bpow radix2 n' + bpow radix2 (- n'))%R).
    { replace n' with (n + 1 + (n' - (n + 1))) by ring. set (k := n' - (n + 1)). assert (k0 : 0 <= k) by (unfold k; lia). set (m := n + 1). rewrite Z.opp_add_distr, !bpow_plus.
      assert (A1 : (1 <= bpow radix2 k)%R) by (change 1%R with (bpow radix2 0); apply bpow_le; lia). assert (I : (bpow radix2 k * bpow radix2 (- k) = 1)%R) by (rewrite <- bpow_plus, Z.add_opp_diag_r; reflexivity).
      assert (M : (bpow radix2 (- m) <= bpow radix2 m)%R) by (apply bpow_le; unfold m; lia). pose proof (bpow_gt_0 radix2 (- m)) as G. pose proof (bpow_gt_0 radix2 (- k)) as Gk.
      set (a := bpow radix2 m) in *. set (b := bpow radix2 (- m)) in *. set (t := bpow radix2 k) in *. set (s := bpow radix2 (- k)) in *.
      assert (s1 : (s <= 1)%R) by (rewrite <- I; rewrite <- (Rmult_1_l s) at 1; apply Rmult_le_compat_r; lra).
      assert (J1 : (b * (1 - s) <= b * (t - 1))%R). { apply Rmult_le_compat_l; [lra|]. assert (0 <= (t - 1) * (1 - s))%R by (apply Rmult_le_pos; lra). lra. }
      assert (J2 : (b * (t - 1) <= a * (t - 1))%R) by (apply Rmult_le_compat_r; lra). lra. }
    apply Rle_trans with (2 := K). rewrite Z.opp_add_distr, !bpow_plus. change (bpow radix2 1) with 2%R. change (bpow radix2 (- (1))) with (/ 2)%R.
    pose proof (bpow_gt_0 radix2 (- n)) as G. assert (G1 : (bpow radix2 (- n) <= bpow radix2 n)%R) by (apply bpow_le; lia).
    unfold expp. lra.
Qed.

(** ** exp against EV *)

Lemma exp_form : forall {E : Env} x, fin x -> exp_short x = false -> (- 87.3365478515625 <= val x <= top)%R ->
  exists r, F32_exp x = Ok r /\ fin r /\ (Rabs (val r - EV (val x)) <= 0.0000007 * bpow radix2 (NX (val x)))%R.
Proof.
  intros E x F SH H. unfold top in H.
  destruct (y_fin x F ltac:(apply Rabs_le; lra)) as [Fy Vy].
  destruct (exp_main x SH) as (z & t & A & Z & Et & Fz & Bz & Sz & Ft & St & Dt & P & N). cbv zeta in A, Z, Sz, P, N.
  destruct y_consts as (Q1 & _ & _ & _ & _ & Q2 & _).
  assert (By : (- 126 <= val (fmul x c_LOG2_E) <= 128 - 2 / 131072)%R).
  { rewrite Vy. split; [|rewrite <- Q1; apply rnd_le; lra]. replace (-126)%R with (Ropp 126) by lra. rewrite <- Q2, <- rnd_opp. apply rnd_le. lra. }
  fold c2e in Vy. fold (YX (val x)) in Vy.
  set (y := fmul x c_LOG2_E) in *. clearbody y.
  destruct (fract_exact y Fy) as (z' & Z' & _ & _ & Vz & _); [apply Rabs_lt; bpow_lit; lra|].
  rewrite Z in Z'. injection Z' as <-.
  rewrite trunc_i32_exact in A by (trivial; apply Rabs_lt; bpow_lit; lra). rewrite Vy in A, Vz. fold (NX (val x)) in A, Vz. set (n := NX (val x)) in *.
  assert (R : exists r, exp_finish t n = Ok r /\ fin r /\ val r = (val t * bpow radix2 n)%R).
  { destruct (sign_bit y) eqn:S.
    - destruct (N eq_refl) as [Bt Be]. pose proof (sign_val_neg y S) as Ny. rewrite Vy in Ny, By.
      assert (Ln : -126 <= n <= 0).
      { unfold n, NX. rewrite Ztrunc_ceil by exact Ny. split; [|apply Zceil_glb; exact Ny].
        apply le_IZR. pose proof (Zceil_ub (YX (val x))). simpl IZR at 1. lra. }
      destruct (Z.eq_dec (bexp (to_bits t)) 127) as [E7|E7].
      + destruct (finish_normal t n Ft St) as (r & R1 & R2 & R3 & R4); [lia|lia|]. exists r. exact (conj R1 (conj R2 R4)).
      + destruct (Z.eq_dec n (-126)) as [N6|N6].
        * exfalso. apply E7. rewrite N6 in Vz.
          assert (Zy : YX (val x) = (-126)%R). { assert (IZR n >= YX (val x))%R by (unfold n, NX; rewrite Ztrunc_ceil by exact Ny; apply Rle_ge, Zceil_ub). rewrite N6 in H0. lra. }
          assert (Z0 : z = f32_zero true).
          { apply fin_dec_eq; [exact Fz|reflexivity| |exact Sz]. rewrite Vz, Zy. unfold val, f32_zero. simpl. ring. }
          rewrite Et, Z0. vm_compute. reflexivity.
        * destruct (finish_normal t n Ft St) as (r & R1 & R2 & R3 & R4); [lia|lia|]. exists r. exact (conj R1 (conj R2 R4)).
    - destruct (P eq_refl) as [Bt Be]. pose proof (sign_val_pos y S) as Py. rewrite Vy in Py, By.
      assert (Ln : 0 <= n <= 127).
      { unfold n, NX. rewrite Ztrunc_floor by exact Py. split; [apply Zfloor_lub; exact Py|].
        assert (Zfloor (YX (val x)) < 128); [|lia]. apply lt_IZR. pose proof (Zfloor_lb (YX (val x))). lra. }
      destruct (finish_normal t n Ft St) as (r & R1 & R2 & R3 & R4); [lia|lia|]. exists r. exact (conj R1 (conj R2 R4)). }
  destruct R as (r & R1 & R2 & R4). exists r. rewrite A. refine (conj R1 (conj R2 _)).
  destruct (scaled_fract z Fz Bz) as (Fr & _). cbv zeta in Fr. destruct c_LN_2_val as [FL VL]. rewrite (fmul_fin_val z c_LN_2 Fz FL Fr), VL, Vz in Dt. fold cl2 in Dt. fold n in Dt. change (rnd ((YX (val x) - IZR n) * cl2)) with (RX (val x)) in Dt.
  pose proof (bpow_gt_0 radix2 n) as Pn. unfold EV. fold n. rewrite R4, <- Rmult_minus_distr_r, Rabs_mult, (Rabs_pos_eq (bpow radix2 n)) by lra. apply Rmult_le_compat_r; lra.
Qed.

(** At the constants: the argument is within 2^-23 of 1 or -1. *)
Lemma EV_one : forall X, (Rabs (X - 1) < / 8388608)%R -> NX X = 1 /\ (0.306852 <= RX X <= 0.306854)%R.
Proof.
  intros X H. apply Rabs_lt_inv in H. assert (Y : (Rabs (YX X - X * c2e) <= / 16777216)%R) by (apply (rnd_err 1); [lia|]; change (bpow radix2 1) with 2%R; apply Rabs_le; unfold c2e; lra). apply Rabs_le_inv in Y.
  assert (N : NX X = 1) by (unfold NX; rewrite Ztrunc_floor by (unfold c2e in Y; lra); apply Zfloor_imp; simpl IZR; unfold c2e in Y; lra). split; [exact N|].
  assert (R : (Rabs (RX X - (YX X - IZR (NX X)) * cl2) <= / 33554432)%R) by (apply (rnd_err 0); [lia|]; change (bpow radix2 0) with 1%R; rewrite N; apply Rabs_le; unfold c2e, cl2 in *; lra).
  apply Rabs_le_inv in R. rewrite N in R. unfold c2e, cl2 in *. lra.
Qed.

Lemma exp_eval : forall {E : Env} x, fin x -> (- 87.3365478515625 <= val x <= top)%R ->
  exists r, F32_exp x = Ok r /\ fin r /\
  ((Rabs (val x - 1) < / 8388608 /\ EV (val x) <= val r <= EV (val x) * 1.00003)%R \/
   (Rabs (val x + 1) < / 8388608 /\ EV (val x) * 0.999969 <= val r <= EV (val x))%R \/
   (Rabs (val r - EV (val x)) <= 0.0000007 * bpow radix2 (NX (val x)))%R).
Proof.
  intros E x F H. destruct (exp_short x) eqn:S.
  2:{ destruct (exp_form x F S H) as (r & A & B & C). exists r. exact (conj A (conj B (or_intror (or_intror C)))). }
  unfold exp_short in S. unfold F32_exp, F32_exp_ln2_approx.
  destruct zero_val as [FZ VZ]. destruct one_val as [FO VO]. destruct mone_val as [FM VM].
  destruct (feq x F32_ZERO) eqn:Z.
  { exists F32_ONE. rewrite feq_R, VZ in Z by assumption.
    assert (V : val x = 0%R) by (destruct (Req_bool_spec (val x) 0); [assumption|discriminate]).
    refine (conj eq_refl (conj FO (or_intror (or_intror _)))). rewrite V, VO.
    assert (Y0 : YX 0 = 0%R) by (unfold YX; rewrite Rmult_0_l; apply rnd_fmt, generic_format_0). assert (N0 : NX 0 = 0) by (unfold NX; rewrite Y0; exact (Ztrunc_IZR 0)).
    assert (R0 : RX 0 = 0%R) by (unfold RX; rewrite Y0, N0; replace ((0 - 0) * cl2)%R with 0%R by ring; apply rnd_fmt, generic_format_0).
    unfold EV. rewrite R0, N0, expp_0. simpl. apply Rabs_le. lra. }
  destruct (flt (F32_abs (fsub x F32_ONE)) F32_EPSILON) eqn:N1.
  { apply near_const in N1; [|exact F|exact FO]. rewrite VO in N1. exists c_E. destruct c_E_val as [FE VE]. refine (conj eq_refl (conj FE (or_introl (conj N1 _)))).
    destruct (EV_one _ N1) as [Q R]. destruct (expp_e _ R) as [K _]. unfold EV. rewrite Q, VE. change (bpow radix2 1) with 2%R. lra. }
  destruct (flt (F32_abs (fsub x (fneg F32_ONE))) F32_EPSILON) eqn:N2; [|discriminate].
  apply near_const in N2; [|exact F|exact FM]. rewrite VM in N2. replace (val x - -1)%R with (val x + 1)%R in N2 by ring.
  assert (Q : fdiv F32_ONE c_E = from_bits 0x3EBC5AB2) by (apply to_bits_inj; vm_compute; reflexivity).
  exists (fdiv F32_ONE c_E). rewrite Q. refine (conj eq_refl (conj eq_refl (or_intror (or_introl (conj N2 _))))). lit 0x3EBC5AB2.
  assert (N3 : (Rabs (- val x - 1) < / 8388608)%R) by (rewrite <- Rabs_Ropp; replace (- (- val x - 1))%R with (val x + 1)%R by ring; exact N2).
  destruct (EV_one _ N3) as [P R]. destruct (expp_e _ R) as [_ K]. unfold EV. rewrite <- (Ropp_involutive (val x)), RX_opp, NX_opp, P. change (bpow radix2 (- (1))) with (/ 2)%R. bpow_lit. lra.
Qed.

(** Consequence: relative to EV. *)
Lemma exp_rel_EV : forall {E : Env} x, fin x -> (- 87.3365478515625 <= val x <= top)%R ->
  exists r, F32_exp x = Ok r /\ fin r /\
  ((Rabs (val x - 1) < / 8388608 /\ EV (val x) <= val r <= EV (val x) * 1.00003)%R \/
   (Rabs (val x + 1) < / 8388608 /\ EV (val x) * 0.999969 <= val r <= EV (val x))%R \/
   (EV (val x) * (1 - 0.0000014) <= val r <= EV (val x) * (1 + 0.0000014))%R).
Proof.
  intros E x F H. destruct (exp_eval x F H) as (r & A & B & C). exists r. refine (conj A (conj B _)). destruct C as [C|[C|C]]; [left; exact C|right; left; exact C|right; right].
  pose proof (expp_range _ (RX_range (val x))) as P. pose proof (bpow_gt_0 radix2 (NX (val x))) as G. unfold EV in *. apply Rabs_le_inv in C.
  assert (0.501 * bpow radix2 (NX (val x)) <= expp (RX (val x)) * bpow radix2 (NX (val x)))%R by (apply Rmult_le_compat_r; lra). lra.
Qed.

(** ** exp keeps the order up to rounding *)

Lemma exp_order : forall {E : Env} x y, fin x -> fin y -> (- 87.3365478515625 <= val x)%R -> (val x <= val y)%R -> (val y <= 88.72283172607421875)%R ->
  exists r s, F32_exp x = Ok r /\ F32_exp y = Ok s /\ fin r /\ fin s /\ (0 < val r)%R /\ (0 < val s)%R /\ (val r <= val s * 1.000034)%R /\
  ((/ 8388608 <= Rabs (val x - 1))%R -> (/ 8388608 <= Rabs (val y + 1))%R -> (val r <= val s * 1.000003)%R) /\
  ((val x + 0.00005 <= val y)%R -> (val r < val s)%R).
Proof.
  intros E x y Fx Fy Lx H Ly. fold top in Ly. assert (TT : top = 88.72283172607421875%R) by reflexivity.
  destruct (exp_rel_EV x Fx ltac:(lra)) as (r & R1 & R2 & R3). destruct (exp_rel_EV y Fy ltac:(lra)) as (s & S1 & S2 & S3).
  pose proof (EV_mono _ _ H) as M. pose proof (EV_pos (val x)) as Px. pose proof (EV_pos (val y)) as Py.
  exists r, s. refine (conj R1 (conj S1 (conj R2 (conj S2 _)))).
  assert (G : (val x + 0.00005 <= val y)%R -> (EV (val x) * 1.000043 <= EV (val y))%R).
  { intros D. pose proof (EV_gap (val x) (val y) 0.00005 ltac:(apply Rabs_le; lra) ltac:(apply Rabs_le; lra) D ltac:(lra)). lra. }
  set (a := EV (val x)) in *. set (b := EV (val y)) in *. clearbody a b.
  assert (Q : (Rabs (val x - 1) < / 8388608)%R -> (Rabs (val y + 1) < / 8388608)%R -> False) by (intros U1 U2; apply Rabs_lt_inv in U1; apply Rabs_lt_inv in U2; lra).
  destruct R3 as [[R3 R4]|[[R3 R4]|R4]]; destruct S3 as [[S3 S4]|[[S3 S4]|S4]]; try (exfalso; exact (Q R3 S3));
    (split; [lra|split; [lra|split; [lra|split; [intros K1 K2; lra|intros D; specialize (G D); lra]]]]).
Qed.

(** ** cosh *)

Lemma neg_exp : forall {E : Env} x, fin x -> (0 <= val x <= top)%R -> exists b, F32_exp (fneg x) = Ok b /\ fin b /\
  ((Rabs (val x - 1) < / 8388608 /\ EV (- val x) * 0.999969 <= val b <= EV (- val x))%R \/
   (Rabs (val b - EV (- val x)) <= 0.0000007 * bpow radix2 (- NX (val x)) + / 1000000000)%R /\ ((val x <= 87)%R -> (Rabs (val b - EV (- val x)) <= 0.0000007 * bpow radix2 (- NX (val x)))%R)).
Proof.
  intros E x F H. unfold top in H. assert (Fn : fin (fneg x)) by (apply fneg_fin; exact F). pose proof (fneg_val x) as Vn.
  destruct (Rle_or_lt (val x) 87.3365478515625) as [L|L].
  - destruct (exp_eval (fneg x) Fn) as (b & B1 & B2 & B3); [rewrite Vn; unfold top; lra|]. exists b. refine (conj B1 (conj B2 _)). rewrite Vn in B3. rewrite NX_opp in B3.
    destruct B3 as [[B3 _]|[B3|B3]]; [exfalso; apply Rabs_lt_inv in B3; lra|left|right].
    + destruct B3 as [B3 B4]. split; [|exact B4]. rewrite <- Rabs_Ropp. replace (- (val x - 1))%R with (- val x + 1)%R by ring. exact B3.
    + split; [lra|intros _; exact B3].
  - assert (K : exists b, F32_exp (fneg x) = Ok b /\ fin b /\ (0 <= val b <= bpow radix2 (-126))%R).
    { destruct (Rlt_or_le (val x) 88.029693603515625) as [L2|L2].
      - destruct (exp_gradual (fneg x) Fn) as (b & B1 & B2 & B3); [rewrite Vn; lra|]. exists b. exact (conj B1 (conj B2 B3)).
      - exists F32_ZERO. destruct zero_val as [FZ VZ]. rewrite exp_under.
        + refine (conj eq_refl (conj FZ _)). rewrite VZ. pose proof (bpow_gt_0 radix2 (-126)). lra.
        + apply fin_not_nan. exact Fn.
        + destruct (sign_bit (fneg x)) eqn:S; [reflexivity|]. pose proof (sign_val_pos _ S). lra.
        + intros _. lra. }
    destruct K as (b & B1 & B2 & B3). exists b. refine (conj B1 (conj B2 (or_intror (conj _ _)))); [|intros C; lra].
    assert (P : (bpow radix2 (-126) <= / 4000000000)%R) by (apply Rle_trans with (bpow radix2 (-32)); [apply bpow_le; lia|bpow_lit; lra]).
    assert (N : 100 <= NX (val x)).
    { unfold NX. assert (Y : (100 <= YX (val x))%R) by (rewrite <- (rnd_fmt 100) by (apply (fmt_IZR 100); vm_compute; discriminate); apply rnd_le; unfold c2e; lra).
      rewrite Ztrunc_floor by lra. apply Zfloor_lub. exact Y. }
    unfold EV. rewrite NX_opp. pose proof (expp_range _ (RX_range (- val x))) as R. pose proof (bpow_gt_0 radix2 (- NX (val x))) as G.
    assert (G2 : (bpow radix2 (- NX (val x)) <= / 4000000000)%R) by (apply Rle_trans with (bpow radix2 (-32)); [apply bpow_le; lia|bpow_lit; lra]).
    set (g := bpow radix2 (- NX (val x))) in *. assert (0 <= expp (RX (- val x)) * g <= 1.999 * g)%R by (split; [apply Rmult_le_pos; lra|apply Rmult_le_compat_r; lra]). apply Rabs_le. lra.
Qed.

Lemma inf_half : forall {E : Env} s, fin (fdiv s c_2) -> fin s.
Proof.
  intros E s H. destruct (is_finite s) eqn:K; [exact K|exfalso]. destruct s as [t|t|t p Kp|t m e Km]; try discriminate K.
  - destruct t; vm_compute in H; discriminate H.
  - pose proof (fdiv_nan (B754_nan t p Kp) c_2 (or_introl eq_refl)) as Q. apply fin_not_nan in H. unfold nan in Q. congruence.
Qed.

Lemma half_val : forall {E : Env} a b, fin a -> fin b -> fin (fdiv (fadd a b) c_2) -> (0.5 <= val a + val b)%R ->
  ((val a + val b) / 2 * (1 - 0.00000013) <= val (fdiv (fadd a b) c_2) <= (val a + val b) / 2 * (1 + 0.00000013))%R.
Proof.
  intros E a b Fa Fb F H. pose proof (inf_half _ F) as Fs. pose proof (fadd_fin_val a b Fa Fb Fs) as Vs. set (s := fadd a b) in *. clearbody s. destruct c_2_val as [F2 V2].
  assert (Rl : forall v, (0.2 <= v)%R -> (v * (1 - / 16777216) <= rnd v <= v * (1 + / 16777216))%R).
  { intros v Hv. pose proof (rnd_rel v) as R. rewrite (Rabs_pos_eq v) in R by lra. rewrite u24_eq in R. unfold u24 in R. specialize (R ltac:(apply Rle_trans with (bpow radix2 (-3)); [apply bpow_le; lia|bpow_lit; lra])). apply Rabs_le_inv in R. lra. }
  pose proof (Rl (val a + val b)%R ltac:(lra)) as R1. rewrite <- Vs in R1.
  pose proof (abs_B2R_lt_emax 24 128 s) as Ms. change (Rabs (val s) < bpow radix2 128)%R in Ms. rewrite Rabs_pos_eq in Ms by lra.
  destruct (fdiv_R s c_2 Fs F2) as [_ Vr]; [lra| |].
  { rewrite V2. apply (small_lt_128 127); [lia|]. rewrite Rabs_pos_eq by lra. change 128 with (1 + 127) in Ms. rewrite bpow_plus in Ms. change (bpow radix2 1) with 2%R in Ms. lra. }
  rewrite V2 in Vr. rewrite Vr. pose proof (Rl (val s / 2)%R ltac:(lra)) as R2. lra.
Qed.

Lemma cosh_eval : forall {E : Env} x, fin x -> (0 <= val x <= top)%R -> exists c, F32_cosh x = Ok c /\ fin c /\
  (CV (val x) / 2 * (1 - 0.0000045) <= val c <= CV (val x) / 2 * (1 + 0.000027))%R /\ (2 <= CV (val x))%R /\
  ((/ 8388608 <= Rabs (val x - 1))%R -> (CV (val x) / 2 * (1 - 0.00000085) <= val c <= CV (val x) / 2 * (1 + 0.00000085))%R).
Proof.
  intros E x F H. destruct (cosh_acc_pos x F H) as (c & C1 & C2 & _). exists c. refine (conj C1 (conj C2 _)).
  destruct (exp_eval x F) as (a & A1 & A2 & A3); [unfold top in *; lra|]. destruct (neg_exp x F H) as (b & B1 & B2 & B3).
  unfold F32_cosh in C1. rewrite A1, B1 in C1. unfold bind in C1. assert (Q : fdiv (fadd a b) c_2 = c) by (injection C1; intros; assumption). subst c. clear C1.
  assert (Y0 : (0 <= YX (val x))%R) by (apply rnd_nonneg; unfold c2e; lra). assert (N0 : 0 <= NX (val x)) by (unfold NX; rewrite Ztrunc_floor by exact Y0; apply Zfloor_lub; exact Y0).
  destruct (RX_sign (val x)) as [P _]. specialize (P Y0).
  pose proof (CV_step (NX (val x)) 0 (RX (val x)) N0 ltac:(lra) ltac:(lra)) as CL. rewrite Ropp_0, expp_0, !Rmult_1_l, <- CV_eq in CL.
  assert (n1 : (1 <= bpow radix2 (NX (val x)))%R) by (change 1%R with (bpow radix2 0); apply bpow_le; exact N0). pose proof (bpow_gt_0 radix2 (- NX (val x))) as n2.
  assert (nn : (2 <= bpow radix2 (NX (val x)) + bpow radix2 (- NX (val x)))%R).
  { assert (I : (bpow radix2 (NX (val x)) * bpow radix2 (- NX (val x)) = 1)%R) by (rewrite <- bpow_plus, Z.add_opp_diag_r; reflexivity).
    set (p := bpow radix2 (NX (val x))) in *. set (q := bpow radix2 (- NX (val x))) in *. pose proof (Rle_0_sqr (p - 1)) as S. unfold Rsqr in S.
    assert (0 <= q * ((p - 1) * (p - 1)))%R by (apply Rmult_le_pos; lra). replace (q * ((p - 1) * (p - 1)))%R with (p * (p * q) - 2 * (p * q) + q)%R in H0 by ring. rewrite I in H0. lra. }
  assert (SV : (/ 8388608 <= Rabs (val x - 1))%R -> (CV (val x) * (1 - 0.000000702) <= val a + val b <= CV (val x) * (1 + 0.000000702))%R).
  { intros N. destruct A3 as [[A3 _]|[[A3 _]|A3]]; [exfalso; lra|exfalso; apply Rabs_lt_inv in A3; lra|]. destruct B3 as [[B3 _]|[B3 _]]; [exfalso; lra|].
    apply Rabs_le_inv in A3. apply Rabs_le_inv in B3. unfold CV in *. lra. }
  assert (SA : (CV (val x) * (1 - 0.0000043) <= val a + val b <= CV (val x) * (1 + 0.0000268))%R).
  { destruct (Rlt_or_le (Rabs (val x - 1)) (/ 8388608)) as [N|N]; [|specialize (SV N); lra]. clear SV. destruct (EV_one _ N) as [N1 R]. destruct (expp_e _ R) as [K1 K2].
    unfold CV in *. unfold EV in *. rewrite NX_opp, RX_opp, N1 in *. change (bpow radix2 1) with 2%R in *. change (bpow radix2 (- (1))) with (/ 2)%R in *. apply Rabs_lt_inv in N.
    destruct A3 as [[_ A3]|[[A3 _]|A3]]; [|exfalso; apply Rabs_lt_inv in A3; lra|apply Rabs_le_inv in A3]; (destruct B3 as [[_ B3]|[_ B3]]; [|specialize (B3 ltac:(lra)); apply Rabs_le_inv in B3]); lra. }
  pose proof (half_val a b A2 B2 C2 ltac:(lra)) as HV. set (v := val (fdiv (fadd a b) c_2)) in *. clearbody v. set (C := CV (val x)) in *. clearbody C.
  split; [lra|split; [lra|]]. intros N. specialize (SV N). lra.
Qed.

Lemma cosh_order : forall {E : Env} x y, fin x -> fin y -> (0 <= val x)%R -> (val x <= val y)%R -> (val y <= 88.72283172607421875)%R ->
  exists r s, F32_cosh x = Ok r /\ F32_cosh y = Ok s /\ fin r /\ fin s /\ (val r <= val s * 1.000032)%R /\
  ((/ 8388608 <= Rabs (val x - 1))%R -> (/ 8388608 <= Rabs (val y - 1))%R -> (val r <= val s * 1.000002)%R).
Proof.
  intros E x y Fx Fy Lx H Ly. fold top in Ly. destruct (cosh_eval x Fx ltac:(lra)) as (r & R1 & R2 & R3 & R4 & R5). destruct (cosh_eval y Fy ltac:(lra)) as (s & S1 & S2 & S3 & S4 & S5).
  pose proof (CV_mono (val x) (val y) ltac:(lra)) as M. exists r, s. refine (conj R1 (conj S1 (conj R2 (conj S2 (conj _ _))))); [lra|]. intros K1 K2. specialize (R5 K1). specialize (S5 K2). lra.
Qed.

Lemma cosh_fold : forall {E : Env} x, fin x -> exists x', fin x' /\ val x' = Rabs (val x) /\ forall r, fin r -> F32_cosh x' = Ok r -> F32_cosh x = Ok r.
Proof.
  intros E x F. destruct (Rle_or_lt 0 (val x)) as [S|S].
  - exists x. refine (conj F (conj _ (fun r _ H => H))). rewrite Rabs_pos_eq by exact S. reflexivity.
  - exists (fneg x). refine (conj (fneg_fin x F) (conj _ _)). rewrite fneg_val, Rabs_left by exact S. reflexivity.
    intros r Fr A. pose proof (cosh_even x) as Ev. rewrite A in Ev. destruct (F32_cosh x) as [r'| |]; try contradiction.
    destruct Ev as [Ev|[_ Ev]]; [rewrite Ev; reflexivity|]. exfalso. pose proof (fin_not_nan r Fr) as Nr. unfold nan in Ev. congruence.
Qed.

Lemma cosh_order_abs : forall {E : Env} x y, fin x -> fin y -> (Rabs (val x) <= Rabs (val y) <= 88.72283172607421875)%R ->
  exists r s, F32_cosh x = Ok r /\ F32_cosh y = Ok s /\ fin r /\ fin s /\ (val r <= val s * 1.000032)%R /\
  ((/ 8388608 <= Rabs (Rabs (val x) - 1))%R -> (/ 8388608 <= Rabs (Rabs (val y) - 1))%R -> (val r <= val s * 1.000002)%R).
Proof.
  intros E x y Fx Fy H. destruct (cosh_fold x Fx) as (x' & Fx' & Vx & Ex). destruct (cosh_fold y Fy) as (y' & Fy' & Vy & Ey).
  pose proof (Rabs_pos (val x)) as P. rewrite <- Vx, <- Vy in H. rewrite <- Vx in P. destruct (cosh_order x' y' Fx' Fy' ltac:(lra) ltac:(lra) ltac:(lra)) as (r & s & R & S & Fr & Fs & K).
  rewrite Vx, Vy in K. exists r, s. exact (conj (Ex r Fr R) (conj (Ey s Fs S) (conj Fr (conj Fs K)))).
Qed.

Lemma exp_low : forall {E : Env} x, fin x -> (val x < - 87.3365478515625)%R -> exists r, F32_exp x = Ok r /\ fin r /\ (0 <= val r <= bpow radix2 (-126))%R.
Proof.
  intros E x F L. destruct (Rlt_or_le (- 88.029693603515625) (val x)) as [L2|L2]; [apply exp_gradual; [exact F|lra]|].
  exists F32_ZERO. destruct zero_val as [FZ VZ]. rewrite exp_under.
  - refine (conj eq_refl (conj FZ _)). rewrite VZ. pose proof (bpow_gt_0 radix2 (-126)). lra.
  - apply fin_not_nan. exact F.
  - destruct (sign_bit x) eqn:S; [reflexivity|]. pose proof (sign_val_pos _ S). lra.
  - intros _. lra.
Qed.

Lemma exp_order_all : forall {E : Env} x y, fin x -> fin y -> (val x <= val y)%R -> (val y <= 88.72283172607421875)%R ->
  exists r s, F32_exp x = Ok r /\ F32_exp y = Ok s /\ fin r /\ fin s /\ (val r <= val s * 1.000034 + bpow radix2 (-126))%R.
Proof.
  intros E x y Fx Fy H Ly. pose proof (bpow_gt_0 radix2 (-126)) as G.
  destruct (Rle_or_lt (- 87.3365478515625) (val x)) as [Lx|Lx].
  - destruct (exp_order x y Fx Fy Lx H Ly) as (r & s & A & B & Fr & Fs & _ & _ & K & _). exists r, s. refine (conj A (conj B (conj Fr (conj Fs _)))). lra.
  - destruct (exp_low x Fx Lx) as (r & A & Fr & K). destruct (Rle_or_lt (- 87.3365478515625) (val y)) as [Ly2|Ly2].
    + destruct (exp_order y y Fy Fy Ly2 ltac:(lra) Ly) as (s & s' & B & _ & Fs & _ & Ps & _). exists r, s. refine (conj A (conj B (conj Fr (conj Fs _)))). lra.
    + destruct (exp_low y Fy Ly2) as (s & B & Fs & Ks). exists r, s. refine (conj A (conj B (conj Fr (conj Fs _)))). lra.
Qed.
