(** * Proofs for C105: accuracy of variance and stddev *)

From Coq Require Import ZArith Reals Bool List Lia Lra.
From Flocq Require Import Core IEEE754.Binary IEEE754.Bits Plus_error Relative.
From Verif Require Import Base Spec SpecMore Float Stats F32Lemmas BitLemmas P_Trunc P_Floor Literals ErrLemmas P_RoundEdge
  NanLemmas P_Euclid P_Roots P_InvSqrt P_Recip P_Vector P_VecInt P_SumSq P_VecF32 P_Stats P_Quat.
Import ListNotations.
Open Scope Z_scope.

Lemma rnd_plus_rel : forall x y, fmt x -> fmt y -> (Rabs (rnd (x + y) - (x + y)) <= u24 * Rabs (x + y))%R.
Proof.
  intros x y Fx Fy. unfold rnd.
  destruct (FLT_plus_error_N_ex radix2 (-149) 24 (fun x => negb (Z.even x)) x y Fx Fy) as (e & He & ->).
  replace ((x + y) * (1 + e) - (x + y))%R with (e * (x + y))%R by ring. rewrite Rabs_mult.
  apply Rmult_le_compat_r; [apply Rabs_pos|]. eapply Rle_trans; [exact He|].
  assert (U : u_ro radix2 24 = u24).
  { unfold u_ro, u24. change (/ 2 * / 8388608 = / 16777216)%R. field. }
  rewrite U. unfold Rdiv. rewrite <- (Rmult_1_r u24) at 3. apply Rmult_le_compat_l; [unfold u24; lra|].
  rewrite <- Rinv_1. apply Rinv_le; unfold u24; lra.
Qed.

(** ** The deviation about any centre *)

Lemma rdev_app : forall c l a, rdev c (l ++ [a]) = (rdev c l + (val a - c) * (val a - c))%R.
Proof. intros c l a. induction l as [|b l IH]; simpl; [lra|]. unfold rdev in *. simpl. rewrite IH. lra. Qed.

Lemma rdev_nonneg : forall c l, (0 <= rdev c l)%R.
Proof.
  intros c l. induction l as [|a l IH]; [simpl; lra|]. change (rdev c (a :: l)) with ((val a - c) * (val a - c) + rdev c l)%R.
  pose proof (Rle_0_sqr (val a - c)). unfold Rsqr in *. lra.
Qed.

Lemma rdev_shift : forall c m l, (rdev m l = rdev c l + 2 * (c - m) * (rsum l - INR (length l) * c) + INR (length l) * ((m - c) * (m - c)))%R.
Proof.
  intros c m l. induction l as [|a l IH]; [simpl; ring|].
  change (rdev m (a :: l)) with ((val a - m) * (val a - m) + rdev m l)%R.
  change (rdev c (a :: l)) with ((val a - c) * (val a - c) + rdev c l)%R.
  change (rsum (a :: l)) with (val a + rsum l)%R. change (length (a :: l)) with (S (length l)). rewrite S_INR, IH. ring.
Qed.

Lemma rdev_mean : forall m l, l <> [] -> (rdev m l = rdev (rmean l) l + INR (length l) * ((m - rmean l) * (m - rmean l)))%R.
Proof.
  intros m l N. rewrite (rdev_shift (rmean l) m l).
  assert (L : (0 < INR (length l))%R) by (apply lt_0_INR; destruct l; [congruence|simpl; lia]).
  replace (rsum l - INR (length l) * rmean l)%R with 0%R; [ring|]. unfold rmean. field. lra.
Qed.

Lemma rdev_bound : forall c l D, (forall a, In a l -> Rabs (val a - c) <= D)%R -> (rdev c l <= INR (length l) * (D * D))%R.
Proof.
  intros c l D. induction l as [|a l IH]; intros H; [simpl; lra|].
  change (rdev c (a :: l)) with ((val a - c) * (val a - c) + rdev c l)%R. change (length (a :: l)) with (S (length l)). rewrite S_INR.
  pose proof (IH (fun b I => H b (or_intror I))).
  assert ((val a - c) * (val a - c) <= D * D)%R.
  { eapply Rle_trans; [apply Rle_abs|]. rewrite Rabs_mult. apply Rmult_le_compat; try apply Rabs_pos; apply H; left; reflexivity. }
  lra.
Qed.

(** ** One squared deviation in f32 *)

Lemma sq_dev : forall {E : Env} x m D, fin x -> fin m -> (Rabs (val x - val m) <= D)%R -> (D <= bpow radix2 62)%R ->
  let n := fsub x m in let d := ((val x - val m) * (val x - val m))%R in
  fin (fmul n n) /\ (Rabs (val (fmul n n) - d) <= 3.1 * u24 * d + eta)%R.
Proof.
  intros E x m D Fx Fm H L n d. 
  assert (D0 : (0 <= D)%R) by (pose proof (Rabs_pos (val x - val m)); lra).
  destruct (fsub_R x m Fx Fm) as [Fn Vn].
  { apply (small_lt_128 62); [lia|]. lra. }
  fold n in Fn, Vn.
  pose proof (rnd_plus_rel (val x) (- val m) (fmt_val x)) as R.
  assert (Fo : fmt (- val m)) by (apply generic_format_opp, fmt_val). specialize (R Fo).
  change (val x + - val m)%R with (val x - val m)%R in R. rewrite <- Vn in R.
  set (t := (val x - val m)%R) in *. set (e := (val n - t)%R) in *.
  assert (Vn' : val n = (t + e)%R) by (unfold e; ring).
  assert (B2 : (Rabs (val n) <= 2 * bpow radix2 62)%R).
  { rewrite Vn'. eapply Rle_trans; [apply Rabs_triang|]. unfold u24 in R. lra. }
  assert (SQ : (Rabs (val n * val n) <= bpow radix2 126)%R).
  { rewrite Rabs_mult. apply Rle_trans with ((2 * bpow radix2 62) * (2 * bpow radix2 62))%R.
    - apply Rmult_le_compat; try apply Rabs_pos; assumption.
    - replace (2 * bpow radix2 62)%R with (bpow radix2 63) by (change 63 with (1 + 62); rewrite bpow_plus; reflexivity).
      rewrite <- bpow_plus. apply Rle_refl. }
  destruct (fmul_R n n Fn Fn) as [Fq Vq]; [apply (small_lt_128 126); [lia|exact SQ]|].
  split; [exact Fq|]. rewrite Vq.
  pose proof (rnd_err_mixed (val n * val n)) as Q. rewrite u24_eq in Q. fold eta in Q.
  assert (d0 : (0 <= d)%R) by apply Rle_0_sqr.
  assert (dt : (Rabs t * Rabs t = d)%R) by (rewrite <- Rabs_mult; apply Rabs_pos_eq; exact d0).
  assert (A : (Rabs (val n * val n - d) <= 2.01 * u24 * d)%R).
  { rewrite Vn'. replace ((t + e) * (t + e) - d)%R with (2 * (t * e) + e * e)%R by (unfold d; ring).
    eapply Rle_trans; [apply Rabs_triang|]. rewrite !Rabs_mult, (Rabs_pos_eq 2) by lra.
    assert (Rabs t * Rabs e <= Rabs t * (u24 * Rabs t))%R by (apply Rmult_le_compat_l; [apply Rabs_pos|exact R]).
    assert (Rabs e * Rabs e <= (u24 * Rabs t) * (u24 * Rabs t))%R by (apply Rmult_le_compat; try apply Rabs_pos; exact R).
    replace (Rabs t * (u24 * Rabs t))%R with (u24 * d)%R in * by (rewrite <- dt; ring).
    replace (u24 * Rabs t * (u24 * Rabs t))%R with (u24 * u24 * d)%R in * by (rewrite <- dt; ring). unfold u24 in *. lra. }
  replace (rnd (val n * val n) - d)%R with ((rnd (val n * val n) - val n * val n) + (val n * val n - d))%R by ring.
  eapply Rle_trans; [apply Rabs_triang|].
  assert (Rabs (val n * val n) <= d + 2.01 * u24 * d)%R.
  { replace (val n * val n)%R with (d + (val n * val n - d))%R by ring. eapply Rle_trans; [apply Rabs_triang|].
    rewrite (Rabs_pos_eq d) by exact d0. lra. }
  unfold u24 in *. lra.
Qed.

(** ** The sum *)

Lemma sum_dev_error : forall {E : Env} l m D, Forall fin l -> fin m -> (forall a, In a l -> Rabs (val a - val m) <= D)%R ->
  (D <= bpow radix2 62)%R -> Z.of_nat (length l) <= 2 ^ 20 -> (INR (length l) * (D * D) <= bpow radix2 124)%R ->
  let s := sum_sq_dev l m in let T := rdev (val m) l in
  fin s /\ (Rabs (val s - T) <= 1.1 * (INR (length l) + 4) * u24 * T + 1.1 * INR (length l) * eta)%R.
Proof.
  intros E l m D. induction l as [|a l IH] using rev_ind; intros F Fm B HD K L.
  - cbv zeta. unfold sum_sq_dev. cbn [fold_left]. split; [reflexivity|]. change (val (f32_zero false)) with 0%R.
    simpl. rewrite Rminus_0_r, Rabs_R0. lra.
  - apply Forall_app in F. destruct F as [Fl Fa]. apply Forall_inv in Fa.
    rewrite app_length in *. cbn [length] in *. rewrite plus_INR in *. change (INR 1) with 1%R in *.
    assert (Ba : (Rabs (val a - val m) <= D)%R) by (apply B, in_or_app; right; left; reflexivity).
    assert (Bl : forall b, In b l -> (Rabs (val b - val m) <= D)%R) by (intros b I; apply B, in_or_app; left; exact I).
    pose proof (pos_INR (length l)) as n0. assert (DD : (0 <= D * D)%R) by apply Rle_0_sqr.
    destruct (IH Fl Fm Bl HD ltac:(lia)) as [Fs Es]; [lra|]. clear IH.
    pose proof (rdev_bound (val m) l D Bl) as TB. pose proof (rdev_nonneg (val m) l) as T0.
    destruct (sq_dev a m D Fa Fm Ba HD) as [Fq Eq]. cbv zeta in *.
    unfold sum_sq_dev in *. rewrite fold_left_app. cbn [fold_left]. rewrite rdev_app.
    set (s := fold_left _ l (f32_zero false)) in *. set (T := rdev (val m) l) in *. set (d := ((val a - val m) * (val a - val m))%R) in *.
    set (q := fmul _ _) in *. set (n := INR (length l)) in *.
    assert (d0 : (0 <= d)%R) by apply Rle_0_sqr.
    assert (dD : (d <= D * D)%R).
    { unfold d. eapply Rle_trans; [apply Rle_abs|]. rewrite Rabs_mult. apply Rmult_le_compat; try apply Rabs_pos; exact Ba. }
    assert (n1 : (n <= 1048576)%R) by (apply INR_small; lia).
    assert (E124 : (eta * 1048577 <= / 1000 * bpow radix2 124)%R).
    { assert (eta <= bpow radix2 0)%R by (apply bpow_le; lia). change (bpow radix2 0) with 1%R in *.
      assert (bpow radix2 40 <= bpow radix2 124)%R by (apply bpow_le; lia). change (bpow radix2 40) with 1099511627776%R in *. lra. }
    pose proof eta_pos as e0.
    assert (nT : (0 <= n * T)%R) by (apply Rmult_le_pos; lra).
    assert (nTb : (n * T <= 1048576 * T)%R) by (apply Rmult_le_compat_r; lra).
    assert (ne : (0 <= n * eta <= 1048576 * eta)%R) by (split; [apply Rmult_le_pos; lra|apply Rmult_le_compat_r; lra]).
    replace (1.1 * (n + 4) * u24 * T)%R with (1.1 * u24 * (n * T) + 4.4 * u24 * T)%R in Es by (unfold u24; lra).
    replace (1.1 * n * eta)%R with (1.1 * (n * eta))%R in Es by ring.
    assert (Bs : (Rabs (val s + val q) <= 2 * (T + d) + 2 * eta * 1048577)%R).
    { apply Rabs_le_inv in Es. apply Rabs_le_inv in Eq. apply Rabs_le. unfold u24 in *. lra. }
    assert (D125 : (bpow radix2 127 = 8 * bpow radix2 124)%R) by (change 127 with (3 + 124); rewrite bpow_plus; reflexivity).
    destruct (fadd_R s q Fs Fq) as [Fz Vz].
    { apply (small_lt_128 127); [lia|]. rewrite D125. lra. }
    split; [exact Fz|]. rewrite Vz.
    pose proof (rnd_plus_rel (val s) (val q) (fmt_val s) (fmt_val q)) as R.
    apply Rabs_le_inv in R. apply Rabs_le_inv in Es. apply Rabs_le_inv in Eq.
    assert (A : (Rabs (val s + val q) <= T + d + (1.1 * u24 * (n * T) + 4.4 * u24 * T + 1.1 * (n * eta)) + (3.1 * u24 * d + eta))%R).
    { apply Rabs_le. lra. }
    assert (uA : (u24 * Rabs (val s + val q) <= u24 * (T + d + (1.1 * u24 * (n * T) + 4.4 * u24 * T + 1.1 * (n * eta)) + (3.1 * u24 * d + eta)))%R).
    { apply Rmult_le_compat_l; [unfold u24; lra|exact A]. }
    assert (nd : (0 <= n * d)%R) by (apply Rmult_le_pos; lra).
    replace (1.1 * (n + 1 + 4) * u24 * (T + d))%R with (1.1 * u24 * (n * T) + 5.5 * u24 * T + 1.1 * u24 * (n * d) + 5.5 * u24 * d)%R by (unfold u24; lra).
    replace (1.1 * (n + 1) * eta)%R with (1.1 * (n * eta) + 1.1 * eta)%R by ring.
    set (rr := rnd (val s + val q)) in *. clearbody rr. set (ab := Rabs (val s + val q)) in *. clearbody ab.
    apply Rabs_le. unfold u24 in *. lra.
Qed.

(** ** variance *)

Lemma variance_error : forall {E : Env} l M, (0 <= M)%R -> Forall fin l -> (forall a, In a l -> Rabs (val a) <= M)%R ->
  2 <= Z.of_nat (length l) <= 2 ^ 20 -> (INR (length l) * (M * M) <= bpow radix2 120)%R ->
  let n := INR (length l) in let delta := ((n + 2) * M * bpow radix2 (-24) + bpow radix2 (-150))%R in
  exists v, variance (fun x => x) l = Ok v /\ fin v /\
    (Rabs (val v - rvariance l) <= (n + 5) * bpow radix2 (-23) * rvariance l + 3 * (delta * delta) + bpow radix2 (-147))%R.
Proof.
  intros E l M M0 F B K L n delta.
  assert (n2 : (2 <= n)%R) by (unfold n; change 2%R with (INR 2); apply le_INR; lia).
  assert (n1 : (n <= 1048576)%R) by (apply INR_small; lia).
  assert (M60 : (M <= bpow radix2 60)%R).
  { apply Rsqr_incr_0; [|exact M0|apply bpow_ge_0]. unfold Rsqr. rewrite <- bpow_plus. change (60 + 60) with 120.
    apply Rle_trans with (n * (M * M))%R; [|exact L]. rewrite <- (Rmult_1_l (M * M)) at 1. apply Rmult_le_compat_r; [apply Rle_0_sqr|lra]. }
  assert (b126 : (1048576 * bpow radix2 60 <= bpow radix2 126)%R).
  { change 1048576%R with (bpow radix2 20). rewrite <- bpow_plus. apply bpow_le. lia. }
  destruct (mean_error l M M0 F B ltac:(lia)) as (m & Em & Fm & Dm).
  { fold n. apply Rle_trans with (1048576 * bpow radix2 60)%R; [apply Rmult_le_compat; lra|exact b126]. }
  fold n in Dm. change (rsum l / n)%R with (rmean l) in Dm. fold delta in Dm.
  assert (Nl : l <> []) by (intros ->; simpl in K; lia).
  pose proof (rdev_mean (val m) l Nl) as RM. fold n in RM.
  (* the exact mean is at most M *)
  assert (Bm : (Rabs (rmean l) <= M)%R).
  { pose proof (rsum_bound l M M0 B) as BS. fold n in BS. unfold rmean. fold n. unfold Rdiv. rewrite Rabs_mult, Rabs_inv, (Rabs_pos_eq n) by lra.
    apply Rmult_le_reg_r with n; [lra|]. rewrite Rmult_assoc, Rinv_l, Rmult_1_r by lra. lra. }
  assert (e0 : (0 < eta)%R) by apply eta_pos.
  assert (dl : (delta <= / 15 * M + eta)%R).
  { unfold delta. rewrite u24_eq. fold eta. assert ((n + 2) * M <= 1048578 * M)%R by (apply Rmult_le_compat_r; lra). unfold u24. lra. }
  set (D := (2.1 * M + eta)%R).
  assert (BD : forall a, In a l -> (Rabs (val a - val m) <= D)%R).
  { intros a I. pose proof (B a I) as Ba. apply Rabs_le_inv in Dm. apply Rabs_le_inv in Ba. apply Rabs_le_inv in Bm.
    unfold D. apply Rabs_le. lra. }
  assert (D0 : (0 <= D)%R) by (unfold D; lra).
  assert (eta1 : (eta <= / 1099511627776)%R).
  { unfold eta. change (/ 1099511627776)%R with (bpow radix2 (-40)). apply bpow_le. lia. }
  assert (bp : (1 <= bpow radix2 60)%R) by (change 1%R with (bpow radix2 0); apply bpow_le; lia).
  assert (b124 : (bpow radix2 124 = 16 * bpow radix2 120)%R) by (change 124 with (4 + 120); rewrite bpow_plus; reflexivity).
  assert (b62 : (bpow radix2 62 = 4 * bpow radix2 60)%R) by (change 62 with (2 + 60); rewrite bpow_plus; reflexivity).
  assert (b120 : (bpow radix2 60 * bpow radix2 60 = bpow radix2 120)%R) by (rewrite <- bpow_plus; reflexivity).
  assert (b100 : (bpow radix2 100 <= bpow radix2 120)%R) by (apply bpow_le; lia).
  assert (b100' : (1048576 * bpow radix2 60 <= bpow radix2 100)%R) by (change 1048576%R with (bpow radix2 20); rewrite <- bpow_plus; apply bpow_le; lia).
  assert (LD : (n * (D * D) <= bpow radix2 124)%R).
  { replace (n * (D * D))%R with (4.41 * (n * (M * M)) + n * (4.2 * (M * eta) + eta * eta))%R by (unfold D; lra).
    assert (Me : (0 <= M * eta <= bpow radix2 60 * 1)%R) by (split; [apply Rmult_le_pos; lra|apply Rmult_le_compat; lra]).
    assert (ee : (0 <= eta * eta <= 1 * 1)%R) by (split; [apply Rmult_le_pos; lra|apply Rmult_le_compat; lra]).
    assert (n * (4.2 * (M * eta) + eta * eta) <= 1048576 * (6 * bpow radix2 60))%R by (apply Rmult_le_compat; lra). fold n in L. lra. }
  destruct (sum_dev_error l m D F Fm BD ltac:(unfold D; lra) ltac:(lia) LD) as [Fs Es]. cbv zeta in Es. fold n in Es.
  rewrite (variance_eq (fun x => x) l m); [|rewrite map_id; exact Em]. rewrite map_id.
  eexists. split; [reflexivity|].
  destruct (f32_of_Z_exact (Z.of_nat (length l))) as [Fn Vn]; [lia|]. rewrite <- INR_IZR_INZ in Vn. fold n in Vn.
  assert (Fd : fin (fsub (f32_of_Z (Z.of_nat (length l))) F32_ONE) /\ val (fsub (f32_of_Z (Z.of_nat (length l))) F32_ONE) = (n - 1)%R).
  { destruct one_val as [F1 V1]. assert (X : (n - 1 = IZR (Z.of_nat (length l) - 1))%R) by (rewrite minus_IZR, <- INR_IZR_INZ; reflexivity).
    assert (Y : rnd (n - 1) = (n - 1)%R) by (rewrite X; apply rnd_fmt, fmt_IZR; lia).
    destruct (fsub_R (f32_of_Z (Z.of_nat (length l))) F32_ONE Fn F1) as [A1 A2]; rewrite Vn, V1 in *.
    - apply (small_lt_128 20); [lia|]. change (bpow radix2 20) with 1048576%R. rewrite Rabs_pos_eq by lra. lra.
    - split; [exact A1|]. rewrite A2. exact Y. }
  destruct Fd as [Fd Vd]. set (den := fsub _ F32_ONE) in *.
  set (s := sum_sq_dev l m) in *. set (T := rdev (val m) l) in *.
  pose proof (rdev_nonneg (val m) l) as T0. fold T in T0.
  pose proof (rdev_bound (val m) l D BD) as TB. fold T n in TB.
  pose proof (rdev_nonneg (rmean l) l) as S0. set (S := rdev (rmean l) l) in *.
  assert (nT : (0 <= n * T <= 1048576 * T)%R) by (split; [apply Rmult_le_pos; lra|apply Rmult_le_compat_r; lra]).
  assert (Bs : (Rabs (val s) <= bpow radix2 125)%R).
  { apply Rabs_le_inv in Es. 
    replace (1.1 * (n + 4) * u24 * T)%R with (1.1 * u24 * (n * T) + 4.4 * u24 * T)%R in Es by (unfold u24; lra).
    assert (n * eta <= 1048576 * eta)%R by (apply Rmult_le_compat_r; lra).
    replace (1.1 * n * eta)%R with (1.1 * (n * eta))%R in Es by ring.
    assert (bpow radix2 125 = 2 * bpow radix2 124)%R by (change 125 with (1 + 124); rewrite bpow_plus; reflexivity).
    apply Rabs_le. unfold u24 in *. lra. }
  assert (Q0 : (Rabs (val s / (n - 1)) <= bpow radix2 125)%R).
  { unfold Rdiv. rewrite Rabs_mult, Rabs_inv, (Rabs_pos_eq (n - 1)) by lra. rewrite <- (Rmult_1_r (bpow radix2 125)).
    apply Rmult_le_compat; [apply Rabs_pos|left; apply Rinv_0_lt_compat; lra|exact Bs|].
    rewrite <- Rinv_1. apply Rinv_le; lra. }
  destruct (fdiv_R s den Fs Fd) as [Fv Vv]; rewrite Vd in *; [lra|apply (small_lt_128 125); [lia|exact Q0]|].
  split; [exact Fv|]. rewrite Vv.
  pose proof (rnd_err_mixed (val s / (n - 1))) as R. rewrite u24_eq in R. fold eta in R.
  (* divide everything by n-1 *)
  set (i := (/ (n - 1))%R).
  assert (i0 : (0 < i <= 1)%R).
  { split; [apply Rinv_0_lt_compat; lra|]. rewrite <- Rinv_1. apply Rinv_le; lra. }
  assert (ni : (1 <= n * i <= 2)%R).
  { assert (EE : (n * i = 1 + i)%R) by (unfold i; field; lra). lra. }
  change (val s / (n - 1))%R with (val s * i)%R in *. unfold rvariance. fold n. fold S. change (S / (n - 1))%R with (S * i)%R.
  set (V := (S * i)%R). assert (V0 : (0 <= V)%R) by (apply Rmult_le_pos; lra).
  assert (dd : ((val m - rmean l) * (val m - rmean l) <= delta * delta)%R).
  { eapply Rle_trans; [apply Rle_abs|]. rewrite Rabs_mult. apply Rmult_le_compat; try apply Rabs_pos; exact Dm. }
  assert (mm : (0 <= (val m - rmean l) * (val m - rmean l))%R) by apply Rle_0_sqr.
  set (mu2 := ((val m - rmean l) * (val m - rmean l))%R) in *.
  assert (Ti : (T * i = V + n * i * mu2)%R) by (rewrite RM; unfold V; ring).
  assert (nm : (0 <= n * i * mu2 <= 2 * (delta * delta))%R).
  { split; [apply Rmult_le_pos; lra|]. apply Rmult_le_compat; lra. }
  set (W := (T * i)%R) in *.
  assert (A : (Rabs (val s * i - W) <= 1.1 * u24 * (n * W) + 4.4 * u24 * W + 2.2 * eta)%R).
  { replace (val s * i - W)%R with ((val s - T) * i)%R by (unfold W; ring). rewrite Rabs_mult, (Rabs_pos_eq i) by lra.
    apply Rle_trans with ((1.1 * (n + 4) * u24 * T + 1.1 * n * eta) * i)%R; [apply Rmult_le_compat_r; lra|].
    replace ((1.1 * (n + 4) * u24 * T + 1.1 * n * eta) * i)%R with (1.1 * u24 * (n * W) + 4.4 * u24 * W + 1.1 * eta * (n * i))%R by (unfold W, u24; lra).
    assert (1.1 * eta * (n * i) <= 1.1 * eta * 2)%R by (apply Rmult_le_compat_l; lra). lra. }
  assert (W0 : (0 <= W)%R) by (apply Rmult_le_pos; lra).
  assert (nW : (0 <= n * W <= 1048576 * W)%R) by (split; [apply Rmult_le_pos; lra|apply Rmult_le_compat_r; lra]).
  assert (Ab : (Rabs (val s * i) <= W + (1.1 * u24 * (n * W) + 4.4 * u24 * W + 2.2 * eta))%R).
  { replace (val s * i)%R with (W + (val s * i - W))%R by ring. eapply Rle_trans; [apply Rabs_triang|].
    rewrite (Rabs_pos_eq W) by exact W0. lra. }
  assert (uAb : (u24 * Rabs (val s * i) <= u24 * (W + (1.1 * u24 * (n * W) + 4.4 * u24 * W + 2.2 * eta)))%R)
    by (apply Rmult_le_compat_l; [unfold u24; lra|exact Ab]).
  assert (nW2 : (n * W = n * V + n * (n * i * mu2))%R) by (rewrite Ti; ring).
  assert (nmu : (0 <= n * (n * i * mu2) <= 1048576 * (n * i * mu2))%R) by (split; [apply Rmult_le_pos; lra|apply Rmult_le_compat_r; lra]).
  assert (nV : (0 <= n * V)%R) by (apply Rmult_le_pos; lra).
  replace ((n + 5) * bpow radix2 (-23) * V)%R with (2 * u24 * (n * V) + 10 * u24 * V)%R.
  2:{ change (bpow radix2 (-23)) with (/ 8388608)%R. unfold u24. field. }
  assert (e147 : (bpow radix2 (-147) = 8 * eta)%R).
  { unfold eta. change (-147) with (3 + -150). rewrite bpow_plus. reflexivity. }
  rewrite e147.
  apply Rabs_le_inv in R. apply Rabs_le_inv in A.
  set (rr := rnd _) in *. clearbody rr. set (ab := Rabs (val s * i)) in *. clearbody ab.
  set (si := (val s * i)%R) in *. clearbody si. clear Ab Q0 Bs.
  set (d2 := (delta * delta)%R) in *. clearbody d2. set (g := (n * i * mu2)%R) in *. clearbody g. clearbody V W mu2.
  apply Rabs_le. unfold u24 in *. lra.
Qed.

(** When the mean's error is at most a hundredth of the deviation, stddev is as good as sqrt. *)
Lemma stddev_error : forall {E : Env} l M, (0 <= M)%R -> Forall fin l -> (forall a, In a l -> Rabs (val a) <= M)%R ->
  2 <= Z.of_nat (length l) <= 2 ^ 10 -> (INR (length l) * (M * M) <= bpow radix2 120)%R ->
  let sigma := sqrt (rvariance l) in
  (bpow radix2 (-50) <= sigma)%R ->
  ((INR (length l) + 2) * M * bpow radix2 (-24) + bpow radix2 (-150) <= 0.01 * sigma)%R ->
  exists z, stddev (fun x => x) l = Ok z /\ normal_pos z /\ (0.9997 * sigma <= val z <= 1.061 * sigma)%R.
Proof.
  intros E l M M0 F B L LM sigma S0 D.
  assert (bp : (0 < bpow radix2 (-50))%R) by apply bpow_gt_0.
  assert (V0 : (0 < rvariance l)%R).
  { destruct (Rlt_or_le 0 (rvariance l)) as [H|H]; [exact H|]. unfold sigma in S0. rewrite sqrt_neg_0 in S0 by exact H. lra. }
  assert (SS : (sigma * sigma = rvariance l)%R) by (apply sqrt_sqrt; lra).
  destruct (variance_error l M M0 F B) as (v & Ev & Fv & Hv).
  { lia. }
  { exact LM. }
  cbv zeta in Hv. set (n := INR (length l)) in *. set (delta := ((n + 2) * M * bpow radix2 (-24) + bpow radix2 (-150))%R) in *.
  assert (n1 : (2 <= n <= 1024)%R).
  { unfold n. change 2%R with (INR 2). split; [apply le_INR; lia|]. rewrite INR_IZR_INZ. apply IZR_le. lia. }
  assert (d0 : (0 <= delta)%R).
  { unfold delta. pose proof (bpow_gt_0 radix2 (-24)). pose proof (bpow_gt_0 radix2 (-150)).
    apply Rplus_le_le_0_compat; [|lra]. apply Rmult_le_pos; [apply Rmult_le_pos|]; lra. }
  assert (dd : (delta * delta <= 0.0001 * rvariance l)%R).
  { rewrite <- SS. replace (0.0001 * (sigma * sigma))%R with ((0.01 * sigma) * (0.01 * sigma))%R by lra. apply Rmult_le_compat; lra. }
  assert (Vb : (bpow radix2 (-100) <= rvariance l)%R).
  { rewrite <- SS. change (-100) with (-50 + -50). rewrite bpow_plus. apply Rmult_le_compat; lra. }
  assert (T : (bpow radix2 (-147) <= / 1099511627776 * rvariance l)%R).
  { apply Rle_trans with (bpow radix2 (-40) * bpow radix2 (-100))%R.
    - rewrite <- bpow_plus. apply bpow_le. lia.
    - change (/ 1099511627776)%R with (bpow radix2 (-40)). apply Rmult_le_compat_l; [apply bpow_ge_0|exact Vb]. }
  assert (N : ((n + 5) * bpow radix2 (-23) * rvariance l <= 0.000123 * rvariance l)%R).
  { change (bpow radix2 (-23)) with (/ 8388608)%R. apply Rmult_le_compat_r; lra. }
  assert (H : (Rabs (val v - rvariance l) <= 0.00043 * rvariance l)%R) by lra.
  apply Rabs_le_inv in H.
  assert (NP : normal_pos v).
  { split; [exact Fv|]. apply Rle_trans with (bpow radix2 (-1) * bpow radix2 (-100))%R.
    - rewrite <- bpow_plus. apply bpow_le. lia.
    - change (bpow radix2 (-1)) with (/ 2)%R. lra. }
  destruct (stddev_accuracy (fun x => x) l v Ev NP) as (z & Ez & Nz & Hz).
  exists z. split; [exact Ez|]. split; [exact Nz|].
  assert (s0 : (0 < sigma)%R) by lra.
  assert (Q1 : (0.99978 * sigma <= sqrt (val v))%R).
  { rewrite <- (sqrt_square (0.99978 * sigma)) by lra. apply sqrt_le_1_alt.
    replace (0.99978 * sigma * (0.99978 * sigma))%R with (0.99978 * 0.99978 * (sigma * sigma))%R by ring. rewrite SS. lra. }
  assert (Q2 : (sqrt (val v) <= 1.00022 * sigma)%R).
  { rewrite <- (sqrt_square (1.00022 * sigma)) by lra. apply sqrt_le_1_alt.
    replace (1.00022 * sigma * (1.00022 * sigma))%R with (1.00022 * 1.00022 * (sigma * sigma))%R by ring. rewrite SS. lra. }
  rewrite u24_eq in Hz. unfold u24 in Hz. split; lra.
Qed.
