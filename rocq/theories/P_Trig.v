(** * Proofs: cos, sin, tan *)

From Coq Require Import ZArith Reals Bool List Lia Lra Psatz.
From Flocq Require Import Core IEEE754.BinarySingleNaN IEEE754.Binary IEEE754.Bits Sterbenz Mult_error.
From Verif Require Import Base Spec Float F32Lemmas BitLemmas P_Trunc P_Floor Literals ErrLemmas P_RoundEdge
  NanLemmas P_SumSq P_Stats P_Quat RealBounds RealBounds2.
Open Scope Z_scope.

Lemma eta_tiny : (0 < eta <= / 1000000000000)%R.
Proof.
  split; [apply eta_pos|]. unfold eta. apply Rle_trans with (bpow radix2 (-40)); [apply bpow_le; lia|].
  bpow_lit. lra.
Qed.

Lemma tr_tight : forall x X B B' e, tr x X B e -> (Rabs X <= B')%R -> tr x X B' e.
Proof. intros x X B B' e (F & _ & K) L. split; [exact F|]. split; assumption. Qed.

Lemma tr_abs : forall x X B e, tr x X B e -> tr (F32_abs x) (Rabs X) B e.
Proof.
  intros x X B e (F & A & C). split; [unfold fin; rewrite abs_fin; exact F|]. rewrite Rabs_Rabsolu. split; [exact A|].
  rewrite abs_val. eapply Rle_trans; [apply Rabs_triang_inv2|exact C].
Qed.

Lemma tr_const : forall (c : f32) (v : R), fin c /\ val c = v -> tr c v (Rabs v) 0.
Proof. intros c v [F V]. subst v. apply tr_in; [exact F|lra]. Qed.

(** 1/(2 pi) as computed: FRAC_1_PI / 2, exact. *)
Lemma inv2pi_val : forall {E : Env}, fin (fdiv c_FRAC_1_PI c_2) /\ val (fdiv c_FRAC_1_PI c_2) = (10680707 / 67108864)%R.
Proof.
  intros E. destruct c_FRAC_1_PI_val as [A B]. destruct c_2_val as [C D].
  assert (N : (val c_2 <> 0)%R) by (rewrite D; lra).
  assert (X : (val c_FRAC_1_PI / val c_2 = IZR 10680707 * bpow radix2 (-26))%R).
  { rewrite B, D. bpow_lit. lra. }
  destruct (fdiv_R c_FRAC_1_PI c_2 A C N) as [F V].
  - apply (small_lt_128 0); [lia|]. rewrite B, D. simpl. apply Rabs_le. lra.
  - split; [exact F|]. rewrite V, X, rnd_fmt; [bpow_lit; lra|]. apply fmt_scaled; lia.
Qed.

Lemma halfpi_val : forall {E : Env}, fin (fdiv c_PI c_2) /\ val (fdiv c_PI c_2) = (13176795 / 8388608)%R.
Proof.
  intros E. destruct c_PI_val as [A B]. destruct c_2_val as [C D].
  assert (N : (val c_2 <> 0)%R) by (rewrite D; lra).
  assert (X : (val c_PI / val c_2 = IZR 13176795 * bpow radix2 (-23))%R).
  { rewrite B, D. bpow_lit. lra. }
  destruct (fdiv_R c_PI c_2 A C N) as [F V].
  - apply (small_lt_128 1); [lia|]. rewrite B, D. simpl. apply Rabs_le. lra.
  - split; [exact F|]. rewrite V, X, rnd_fmt; [bpow_lit; lra|]. apply fmt_scaled; lia.
Qed.

(** The reduced argument: lines 10-11 of cos.rs. *)
Definition cos_red {E : Env} (x : f32) : f32 :=
  let x := fmul x (fdiv c_FRAC_1_PI c_2) in fsub x (fadd c_0_25 (F32_floor (fadd x c_0_25))).
Definition cos_par {E : Env} (x : f32) : f32 := fmul x (fmul c_16 (fsub (F32_abs x) c_0_5)).
Lemma cos_split : forall {E : Env} x, F32_cos x =
  fadd (cos_par (cos_red x)) (fmul (fmul c_0_225 (cos_par (cos_red x))) (fsub (F32_abs (cos_par (cos_red x))) F32_ONE)).
Proof. reflexivity. Qed.

Lemma cos_reduce : forall {E : Env} x, fin x -> (Rabs (val x) <= 1048576)%R ->
  exists n : Z, fin (cos_red x) /\ (Rabs (val (cos_red x)) <= 0.508)%R /\
    (Rabs (val x / (2 * PI) - / 4 - IZR n - val (cos_red x)) <= 0.00000001592 * Rabs (val x) + 0.00000003)%R.
Proof.
  intros E x Fx Hx. destruct (inv2pi_val) as [Fk Vk]. destruct c_0_25_val as [Fq Vq].
  unfold cos_red. set (x1 := fmul x (fdiv c_FRAC_1_PI c_2)).
  pose proof (Rabs_pos (val x)) as P0. pose proof eta_tiny as ET.
  assert (X1 : fin x1 /\ (Rabs (val x1 - val x * (10680707 / 67108864)) <= u24 * (Rabs (val x) * 0.15915494) + eta)%R).
  { destruct (fmul_R x (fdiv c_FRAC_1_PI c_2) Fx Fk) as [A B].
    - apply (small_lt_128 20); [lia|]. rewrite Vk, Rabs_mult, (Rabs_pos_eq (10680707 / 67108864)) by lra.
      change (bpow radix2 20) with 1048576%R. nra.
    - split; [exact A|]. unfold x1. rewrite B, Vk. pose proof (rnd_err_mixed (val x * (10680707 / 67108864))) as R.
      rewrite u24_eq in R. fold eta in R. rewrite (Rabs_mult (val x)), (Rabs_pos_eq (10680707 / 67108864)) in R by lra.
      unfold u24 in *. lra. }
  destruct X1 as [F1 E1].
  assert (B1 : (Rabs (val x1) <= 166900)%R).
  { replace (val x1) with (val x * (10680707 / 67108864) + (val x1 - val x * (10680707 / 67108864)))%R by ring.
    eapply Rle_trans; [apply Rabs_triang|]. rewrite Rabs_mult, (Rabs_pos_eq (10680707 / 67108864)) by lra.
    unfold u24 in *. lra. }
  destruct (fadd_e 18 x1 c_0_25 F1 Fq ltac:(lia)) as (e2 & F2 & V2 & E2).
  { rewrite Vq. change (bpow radix2 18) with 262144%R. eapply Rle_trans; [apply Rabs_triang|]. rewrite (Rabs_pos_eq (/ 4)) by lra. lra. }
  change (bpow radix2 (18 - 25)) with (/ 128)%R in E2. rewrite Vq in V2.
  set (t := fadd x1 c_0_25) in *.
  apply Rabs_le_inv in B1. apply Rabs_le_inv in E2.
  destruct (floor_exact t F2) as [F3 V3].
  { apply Rabs_le. change (bpow radix2 31) with 2147483648%R. lra. }
  set (n := Zfloor (val t)) in *. pose proof (Zfloor_lb (val t)) as N1. pose proof (Zfloor_ub (val t)) as N2. fold n in N1, N2.
  assert (Nb : - 170000 <= n <= 170000).
  { split; apply le_IZR; [apply Rle_trans with (val t - 1)%R|]; lra. }
  assert (S : fin (fadd c_0_25 (F32_floor t)) /\ val (fadd c_0_25 (F32_floor t)) = (/ 4 + IZR n)%R).
  { assert (Hn : (-170000 <= IZR n <= 170000)%R) by (split; apply IZR_le; lia).
    destruct (fadd_R c_0_25 (F32_floor t) Fq F3) as [A B].
    - apply (small_lt_128 20); [lia|]. change (bpow radix2 20) with 1048576%R. rewrite Vq, V3. apply Rabs_le. lra.
    - split; [exact A|]. rewrite B, Vq, V3.
      replace (/ 4 + IZR n)%R with (IZR (4 * n + 1) * bpow radix2 (-2))%R.
      + apply rnd_fmt, fmt_scaled; lia.
      + rewrite plus_IZR, mult_IZR. bpow_lit. lra. }
  destruct S as [F4 V4].
  destruct (fsub_e 0 x1 (fadd c_0_25 (F32_floor t)) F1 F4 ltac:(lia)) as (e5 & F5 & V5 & E5).
  { rewrite V4. change (bpow radix2 0) with 1%R. apply Rabs_le. lra. }
  change (bpow radix2 (0 - 25)) with (/ 33554432)%R in E5. rewrite V4 in V5.
  pose proof (Rabs_le_inv _ _ E5) as E5'.
  exists n. split; [exact F5|]. rewrite V5. split; [apply Rabs_le; lra|].
  replace (val x / (2 * PI) - / 4 - IZR n - (val x1 - (/ 4 + IZR n) + e5))%R with
    (val x * (/ PI / 2 - 10680707 / 67108864) - (val x1 - val x * (10680707 / 67108864)) - e5)%R.
  2:{ field. apply PI_neq0. }
  assert (K : (Rabs (val x * (/ PI / 2 - 10680707 / 67108864)) <= Rabs (val x) * 0.00000000643)%R).
  { rewrite Rabs_mult. apply Rmult_le_compat_l; [exact P0|]. pose proof inv_PI_bounds. apply Rabs_le. lra. }
  apply Rabs_le_inv in K. apply Rabs_le_inv in E1. unfold u24 in *. apply Rabs_le. lra.
Qed.

(** ** The polynomial *)

Lemma y_bound : forall r, (Rabs r <= 0.508)%R -> (Rabs (r * (16 * (Rabs r - / 2))) <= 1)%R.
Proof.
  intros r H. rewrite Rabs_mult. set (s := Rabs r) in *. pose proof (Rabs_pos r) as P. fold s in P.
  rewrite (Rabs_mult 16), (Rabs_pos_eq 16) by lra.
  destruct (Rle_or_lt s (/ 2)) as [L|L].
  - rewrite Rabs_left1 by lra. pose proof (Rle_0_sqr (s - / 4)) as Q. unfold Rsqr in Q. lra.
  - rewrite Rabs_pos_eq by lra. assert (s * (s - / 2) <= 0.508 * 0.008)%R by (apply Rmult_le_compat; lra). lra.
Qed.

Lemma cos_par_tr : forall {E : Env} r, fin r -> (Rabs (val r) <= 0.508)%R ->
  tr (cos_par r) (val r * (16 * (Rabs (val r) - / 2))) 1 (30 * u24).
Proof.
  intros E r Fr Hr. pose proof eta_tiny as ET. pose proof (Rabs_pos (val r)) as P.
  assert (b127 : (1000000 <= bpow radix2 127)%R).
  { apply Rle_trans with (bpow radix2 20); [change (bpow radix2 20) with 1048576%R; lra|apply bpow_le; lia]. }
  assert (T1 : tr (fsub (F32_abs r) c_0_5) (Rabs (val r) - / 2) (/ 2) (1.01 * u24)).
  { eapply tr_weaken; [|apply Rle_refl|].
    - eapply tr_tight.
      + eapply tr_sub; [apply tr_abs, tr_in; [exact Fr|exact Hr]|apply tr_const, c_0_5_val|].
        rewrite (Rabs_pos_eq (/ 2)) by lra. lra.
      + apply Rabs_le. lra.
    - rewrite (Rabs_pos_eq (/ 2)) by lra. unfold u24. lra. }
  assert (T2 : tr (fmul c_16 (fsub (F32_abs r) c_0_5)) (16 * (Rabs (val r) - / 2)) 8 (25 * u24)).
  { eapply tr_weaken; [eapply tr_mul; [apply tr_const, c_16_val|exact T1|]| |].
    - rewrite (Rabs_pos_eq 16) by lra. unfold u24. lra.
    - rewrite (Rabs_pos_eq 16) by lra. lra.
    - rewrite (Rabs_pos_eq 16) by lra. unfold u24 in *. lra. }
  unfold cos_par. eapply tr_weaken; [eapply tr_tight; [eapply tr_mul; [apply (tr_in r 0.508); assumption|exact T2|]|]|apply Rle_refl|].
  - unfold u24; lra.
  - apply y_bound; exact Hr.
  - unfold u24 in *; lra.
Qed.

Lemma cos_poly : forall {E : Env} r, fin r -> (Rabs (val r) <= 0.508)%R ->
  let y := cos_par r in
  let z := fadd y (fmul (fmul c_0_225 y) (fsub (F32_abs y) F32_ONE)) in
  fin z /\ (Rabs (val z - par (val r)) <= 60 * u24)%R.
Proof.
  intros E r Fr Hr y z. pose proof eta_tiny as ET. pose proof (cos_par_tr r Fr Hr) as Ty. fold y in Ty.
  assert (b127 : (1000000 <= bpow radix2 127)%R).
  { apply Rle_trans with (bpow radix2 20); [change (bpow radix2 20) with 1048576%R; lra|apply bpow_le; lia]. }
  set (Y := (val r * (16 * (Rabs (val r) - / 2)))%R) in *.
  assert (HY : (Rabs Y <= 1)%R) by (destruct Ty as (_ & ? & _); assumption). pose proof (Rabs_pos Y) as PY.
  assert (C : Rabs (15099494 / 67108864) = (15099494 / 67108864)%R) by (apply Rabs_pos_eq; lra).
  assert (T1 : tr (fmul c_0_225 y) (15099494 / 67108864 * Y) 0.226 (8 * u24)).
  { eapply tr_weaken; [eapply tr_mul; [apply tr_const, c_0_225_val|exact Ty|]| |].
    - rewrite C. unfold u24; lra.
    - rewrite C. lra.
    - rewrite C. unfold u24 in *; lra. }
  assert (T2 : tr (fsub (F32_abs y) F32_ONE) (Rabs Y - 1) 1 (33 * u24)).
  { eapply tr_weaken; [eapply tr_tight; [eapply tr_sub; [apply tr_abs; exact Ty|apply tr_const, one_val|]|]|apply Rle_refl|].
    - rewrite Rabs_R1. unfold u24; lra.
    - apply Rabs_le. lra.
    - rewrite Rabs_R1. unfold u24; lra. }
  assert (T3 : tr (fmul (fmul c_0_225 y) (fsub (F32_abs y) F32_ONE)) (15099494 / 67108864 * Y * (Rabs Y - 1)) 0.226 (16 * u24)).
  { eapply tr_weaken; [eapply tr_mul; [exact T1|exact T2|]| |].
    - unfold u24; lra.
    - lra.
    - unfold u24 in *; lra. }
  assert (T4 : tr z (Y + 15099494 / 67108864 * Y * (Rabs Y - 1)) 1.226 (60 * u24)).
  { eapply tr_weaken; [eapply tr_add; [exact Ty|exact T3|]| |].
    - unfold u24; lra.
    - lra.
    - unfold u24; lra. }
  destruct T4 as (F & _ & D). split; [exact F|]. exact D.
Qed.

Lemma cos_shift : forall (n : Z) a, cos (a + 2 * IZR n * PI) = cos a.
Proof.
  intros n a. destruct (Z_le_dec 0 n) as [H|H].
  - rewrite <- (Z2Nat.id n H). rewrite <- INR_IZR_INZ. apply cos_period.
  - assert (Hm : 0 <= - n) by lia. rewrite <- (cos_period (a + 2 * IZR n * PI) (Z.to_nat (- n))).
    rewrite INR_IZR_INZ, Z2Nat.id by exact Hm. f_equal. rewrite opp_IZR. ring.
Qed.

Lemma cos_acc : forall {E : Env} x, fin x -> (Rabs (val x) <= 1048576)%R ->
  fin (F32_cos x) /\ (Rabs (val (F32_cos x) - cos (val x)) <= 0.00112 + 0.0000001001 * Rabs (val x))%R.
Proof.
  intros E x Fx Hx. destruct (cos_reduce x Fx Hx) as (n & Fr & Hr & D).
  rewrite cos_split. set (r := cos_red x) in *.
  destruct (cos_poly r Fr Hr) as [Fz Dz]. split; [exact Fz|].
  set (z := fadd _ _) in *.
  pose proof (par_sin (val r) Hr) as Q.
  set (d := (val x / (2 * PI) - / 4 - IZR n - val r)%R) in *.
  assert (X : (val x = (2 * PI * (val r + d) + PI / 2) + 2 * IZR n * PI)%R).
  { unfold d. field. apply PI_neq0. }
  assert (C : cos (val x) = (- sin (2 * PI * (val r + d)))%R).
  { rewrite X at 1. rewrite cos_shift. rewrite cos_plus, cos_PI2, sin_PI2. ring. }
  rewrite C. pose proof (sin_lip (2 * PI * (val r + d)) (2 * PI * val r)) as L.
  replace (2 * PI * (val r + d) - 2 * PI * val r)%R with (2 * PI * d)%R in L by ring.
  rewrite Rabs_mult in L. rewrite (Rabs_pos_eq (2 * PI)) in L by (pose proof PI_RGT_0; lra).
  pose proof PI_bounds as PB. pose proof (Rabs_pos d) as Pd. pose proof (Rabs_pos (val x)) as Px.
  assert (L2 : (2 * PI * Rabs d <= 6.2831853072 * (0.00000001592 * Rabs (val x) + 0.00000003))%R).
  { apply Rmult_le_compat; lra. }
  replace (val z - - sin (2 * PI * (val r + d)))%R with
    ((val z - par (val r)) + ((par (val r) + sin (2 * PI * val r)) + (sin (2 * PI * (val r + d)) - sin (2 * PI * val r))))%R by ring.
  apply Rabs_le_inv in Dz. apply Rabs_le_inv in Q. 
  assert (L' : (Rabs (sin (2 * PI * (val r + d)) - sin (2 * PI * val r)) <= 6.2831853072 * (0.00000001592 * Rabs (val x) + 0.00000003))%R) by lra.
  apply Rabs_le_inv in L'. unfold u24 in *. apply Rabs_le. lra.
Qed.

Lemma sin_acc : forall {E : Env} x, fin x -> (Rabs (val x) <= 1048574)%R ->
  fin (F32_sin x) /\ (Rabs (val (F32_sin x) - sin (val x)) <= 0.00113 + 0.00000016 * Rabs (val x))%R.
Proof.
  intros E x Fx Hx. unfold F32_sin. destruct halfpi_val as [Fh Vh]. pose proof (Rabs_pos (val x)) as P0.
  assert (T : tr (fsub x (fdiv c_PI c_2)) (val x - 13176795 / 8388608) (Rabs (val x) + 1.5708) (u24 * (Rabs (val x) + 1.5708))).
  { assert (b127 : (2000000 <= bpow radix2 127)%R).
    { apply Rle_trans with (bpow radix2 21); [change (bpow radix2 21) with 2097152%R; lra|apply bpow_le; lia]. }
    assert (C : Rabs (13176795 / 8388608) = (13176795 / 8388608)%R) by (apply Rabs_pos_eq; lra).
    eapply tr_weaken; [eapply tr_sub; [apply (tr_in x (Rabs (val x))); [exact Fx|lra]|apply tr_const; split; [exact Fh|exact Vh]|]| |].
    - rewrite C. lra.
    - rewrite C. lra.
    - rewrite C. unfold u24; lra. }
  set (x' := fsub x _) in *. destruct T as (Fx' & Bx & Ex).
  assert (Hx' : (Rabs (val x') <= Rabs (val x) + 1.5708 + u24 * (Rabs (val x) + 1.5708))%R).
  { replace (val x') with ((val x - 13176795 / 8388608) + (val x' - (val x - 13176795 / 8388608)))%R by ring.
    eapply Rle_trans; [apply Rabs_triang|]. lra. }
  destruct (cos_acc x' Fx') as [F D]. { unfold u24 in *; lra. }
  split; [exact F|].
  assert (S : sin (val x) = cos (val x - PI / 2)).
  {
    rewrite cos_minus, cos_PI2, sin_PI2. ring. }
  rewrite S. pose proof (cos_lip (val x') (val x - PI / 2)) as L.
  assert (Lb : (Rabs (val x' - (val x - PI / 2)) <= u24 * (Rabs (val x) + 1.5708) + 0.00000005)%R).
  { replace (val x' - (val x - PI / 2))%R with ((val x' - (val x - 13176795 / 8388608)) + (PI / 2 - 13176795 / 8388608))%R by ring.
    eapply Rle_trans; [apply Rabs_triang|]. pose proof PI_bounds.
    assert (Rabs (PI / 2 - 13176795 / 8388608) <= 0.00000005)%R by (apply Rabs_le; lra). lra. }
  replace (val (F32_cos x') - cos (val x - PI / 2))%R with ((val (F32_cos x') - cos (val x')) + (cos (val x') - cos (val x - PI / 2)))%R by ring.
  eapply Rle_trans; [apply Rabs_triang|]. unfold u24 in *. lra.
Qed.

(** ** |cos| <= 1 *)

Lemma rnd_below_mid : forall r, (r < 1 + / 16777216)%R -> (rnd r <= 1)%R.
Proof.
  intros r H. unfold rnd. apply round_N_le_midp; [apply FLT_exp_valid; reflexivity| |].
  - apply (fmt_bpow 0). lia.
  - assert (S : succ radix2 (FLT_exp (-149) 24) 1 = (1 + / 8388608)%R).
    { unfold succ. rewrite Rle_bool_true by lra. f_equal. change 1%R with (bpow radix2 0) at 1.
      rewrite ulp_bpow. unfold FLT_exp. change (Z.max (0 + 1 - 24) (-149)) with (-23). bpow_lit. reflexivity. }
    change (SpecFloat.fexp 24 128) with (FLT_exp (-149) 24) || idtac. rewrite S. lra.
Qed.

Lemma fmt_16 : forall r, fmt r -> fmt (16 * r)%R.
Proof.
  intros r H. rewrite Rmult_comm. change 16%R with (bpow radix2 4). apply mult_bpow_pos_exact_FLT; [exact H|lia].
Qed.

Lemma cos_par_bounded : forall {E : Env} r, fin r -> (Rabs (val r) <= 0.508)%R ->
  fin (cos_par r) /\ (Rabs (val (cos_par r)) <= 1)%R.
Proof.
  intros E r Fr Hr. destruct c_0_5_val as [F5 V5]. destruct c_16_val as [F16 V16].
  pose proof (Rabs_pos (val r)) as P. unfold cos_par.
  assert (Fa : fin (F32_abs r)) by (unfold fin; rewrite abs_fin; exact Fr).
  assert (A : exists e, fin (fsub (F32_abs r) c_0_5) /\ val (fsub (F32_abs r) c_0_5) = (Rabs (val r) - / 2 + e)%R /\
    (Rabs e <= / 67108864)%R /\ (/ 4 <= Rabs (val r) -> e = 0)%R).
  { destruct (fsub_e (-1) (F32_abs r) c_0_5 Fa F5 ltac:(lia)) as (e & A1 & A2 & A3).
    - rewrite abs_val, V5. change (bpow radix2 (-1)) with (/ 2)%R. apply Rabs_le. lra.
    - exists e. rewrite abs_val, V5 in A2. change (bpow radix2 (-1 - 25)) with (/ 67108864)%R in A3.
      split; [exact A1|]. split; [exact A2|]. split; [exact A3|]. intros H4.
      destruct (fsub_R (F32_abs r) c_0_5 Fa F5) as [_ B2].
      + apply (small_lt_128 0); [lia|]. rewrite abs_val, V5. simpl. apply Rabs_le. lra.
      + rewrite abs_val, V5 in B2. rewrite rnd_fmt in B2; [lra|].
        apply (sterbenz radix2 (FLT_exp (-149) 24)); [rewrite <- abs_val; apply fmt_val|rewrite <- V5; apply fmt_val|lra]. }
  destruct A as (e & A1 & A2 & A3 & A4). set (a := fsub _ _) in *. pose proof (Rabs_le_inv _ _ A3) as A3'.
  assert (M : fin (fmul c_16 a) /\ val (fmul c_16 a) = (16 * val a)%R).
  { destruct (fmul_R c_16 a F16 A1) as [B1 B2].
    - apply (small_lt_128 4); [lia|]. rewrite V16, A2, Rabs_mult, (Rabs_pos_eq 16) by lra. change (bpow radix2 4) with 16%R.
      assert (Rabs (Rabs (val r) - / 2 + e) <= 1)%R by (apply Rabs_le; lra). lra.
    - split; [exact B1|]. rewrite B2, V16. apply rnd_fmt, fmt_16, fmt_val. }
  destruct M as [M1 M2].
  assert (K : (Rabs (val r * val (fmul c_16 a)) < 1 + / 16777216)%R).
  { rewrite M2, A2, Rabs_mult, (Rabs_mult 16), (Rabs_pos_eq 16) by lra. set (s := Rabs (val r)) in *.
    destruct (Rle_or_lt (/ 4) s) as [H4|H4].
    - rewrite (A4 H4), Rplus_0_r. pose proof (y_bound (val r) Hr) as Y. rewrite Rabs_mult, (Rabs_mult 16), (Rabs_pos_eq 16) in Y by lra.
      fold s in Y. lra.
    - rewrite Rabs_left1 by lra. pose proof (Rle_0_sqr (s - / 4)) as Q. unfold Rsqr in Q.
      assert (s * - e <= s * / 67108864)%R by (apply Rmult_le_compat_l; lra). lra. }
  destruct (fmul_R r (fmul c_16 a) Fr M1) as [B1 B2].
  - apply (small_lt_128 1); [lia|]. simpl. lra.
  - split; [exact B1|]. rewrite B2. apply Rabs_lt_inv in K. apply Rabs_le. split; [|apply rnd_below_mid; lra].
    apply Ropp_le_cancel. rewrite Ropp_involutive, <- rnd_opp. apply rnd_below_mid. lra.
Qed.

Lemma rnd_sign_nonpos : forall r, (r <= 0)%R -> (rnd r <= 0)%R.
Proof. intros r H. rewrite <- (Ropp_involutive r), rnd_opp. pose proof (rnd_nonneg (- r) ltac:(lra)). lra. Qed.

Lemma correction_bounded : forall {E : Env} y, fin y -> (Rabs (val y) <= 1)%R ->
  let z := fadd y (fmul (fmul c_0_225 y) (fsub (F32_abs y) F32_ONE)) in fin z /\ (Rabs (val z) <= 1)%R.
Proof.
  intros E y Fy Hy z. destruct c_0_225_val as [Fc Vc]. destruct one_val as [F1 V1].
  pose proof (Rabs_pos (val y)) as P.
  assert (Fa : fin (F32_abs y)) by (unfold fin; rewrite abs_fin; exact Fy).
  assert (W : fin (fmul c_0_225 y) /\ val (fmul c_0_225 y) = rnd (15099494 / 67108864 * val y) /\ (Rabs (val (fmul c_0_225 y)) <= 1)%R).
  { assert (B : (Rabs (val c_0_225 * val y) <= bpow radix2 0)%R).
    { rewrite Vc, Rabs_mult, Rabs_pos_eq by lra. simpl. lra. }
    destruct (fmul_R c_0_225 y Fc Fy (small_lt_128 0 _ ltac:(lia) B)) as [A C].
    split; [exact A|]. rewrite C. pose proof (rnd_abs_le 0 _ ltac:(lia) B) as R. change (bpow radix2 0) with 1%R in R. rewrite Vc in *. split; [reflexivity|exact R]. }
  destruct W as (W1 & W2 & W3).
  assert (D : fin (fsub (F32_abs y) F32_ONE) /\ (-1 <= val (fsub (F32_abs y) F32_ONE) <= 0)%R).
  { assert (B : (Rabs (val (F32_abs y) - val F32_ONE) <= bpow radix2 0)%R).
    { rewrite abs_val, V1. simpl. apply Rabs_le. lra. }
    destruct (fsub_R (F32_abs y) F32_ONE Fa F1 (small_lt_128 0 _ ltac:(lia) B)) as [A C].
    split; [exact A|]. pose proof (rnd_abs_le 0 _ ltac:(lia) B) as R. change (bpow radix2 0) with 1%R in R. rewrite <- C in R. apply Rabs_le_inv in R.
    split; [lra|]. rewrite C. apply rnd_sign_nonpos. rewrite abs_val, V1. lra. }
  destruct D as (D1 & D2). set (w := fmul c_0_225 y) in *. set (d := fsub (F32_abs y) F32_ONE) in *.
  assert (Q : fin (fmul w d) /\ val (fmul w d) = rnd (val w * val d) /\ (Rabs (val (fmul w d)) <= 1)%R).
  { assert (B : (Rabs (val w * val d) <= bpow radix2 0)%R).
    { rewrite Rabs_mult. simpl. replace 1%R with (1 * 1)%R by ring. apply Rmult_le_compat; try apply Rabs_pos; [exact W3|apply Rabs_le; lra]. }
    destruct (fmul_R w d W1 D1 (small_lt_128 0 _ ltac:(lia) B)) as [A C].
    split; [exact A|]. split; [exact C|]. rewrite C. pose proof (rnd_abs_le 0 _ ltac:(lia) B) as R. change (bpow radix2 0) with 1%R in R. exact R. }
  destruct Q as (Q1 & Q2 & Q3). set (p := fmul w d) in *. apply Rabs_le_inv in Q3. pose proof (Rabs_le_inv _ _ Hy) as Hy'.
  assert (B : (Rabs (val y + val p) <= bpow radix2 0)%R).
  { simpl. apply Rabs_le. destruct (Rle_or_lt 0 (val y)) as [S|S].
    - assert (0 <= val w)%R by (rewrite W2; apply rnd_nonneg; apply Rmult_le_pos; lra).
      assert (val p <= 0)%R.
      { rewrite Q2. apply rnd_sign_nonpos. assert (0 <= val w * - val d)%R by (apply Rmult_le_pos; lra). lra. }
      lra.
    - assert (val w <= 0)%R by (rewrite W2; apply rnd_sign_nonpos; lra).
      assert (0 <= val p)%R.
      { rewrite Q2. apply rnd_nonneg. assert (0 <= - val w * - val d)%R by (apply Rmult_le_pos; lra). lra. }
      lra. }
  destruct (fadd_R y p Fy Q1 (small_lt_128 0 _ ltac:(lia) B)) as [A C].
  split; [exact A|]. pose proof (rnd_abs_le 0 _ ltac:(lia) B) as R. change (bpow radix2 0) with 1%R in R. rewrite <- C in R. exact R.
Qed.

Lemma cos_bounded : forall {E : Env} x, fin x -> (Rabs (val x) <= 1048576)%R ->
  fin (F32_cos x) /\ (Rabs (val (F32_cos x)) <= 1)%R.
Proof.
  intros E x Fx Hx. destruct (cos_reduce x Fx Hx) as (n & Fr & Hr & _). rewrite cos_split.
  destruct (cos_par_bounded _ Fr Hr) as [Fy Hy]. exact (correction_bounded _ Fy Hy).
Qed.

Lemma sin_arg : forall {E : Env} x, fin x -> (Rabs (val x) <= 1048574)%R ->
  fin (fsub x (fdiv c_PI c_2)) /\ (Rabs (val (fsub x (fdiv c_PI c_2))) <= 1048576)%R.
Proof.
  intros E x Fx Hx. destruct halfpi_val as [Fh Vh].
  assert (B : (Rabs (val x - val (fdiv c_PI c_2)) <= bpow radix2 20)%R).
  { rewrite Vh. change (bpow radix2 20) with 1048576%R. apply Rabs_le_inv in Hx. apply Rabs_le. lra. }
  destruct (fsub_R x (fdiv c_PI c_2) Fx Fh (small_lt_128 20 _ ltac:(lia) B)) as [A C].
  split; [exact A|]. rewrite C. exact (rnd_abs_le 20 _ ltac:(lia) B).
Qed.

Lemma sin_bounded : forall {E : Env} x, fin x -> (Rabs (val x) <= 1048574)%R ->
  fin (F32_sin x) /\ (Rabs (val (F32_sin x)) <= 1)%R.
Proof. intros E x Fx Hx. destruct (sin_arg x Fx Hx) as [A B]. exact (cos_bounded _ A B). Qed.

(** ** tan *)

Lemma tan_acc : forall {E : Env} x, fin x -> (Rabs (val x) <= 1048574)%R ->
  let e := (0.00113 + 0.00000016 * Rabs (val x))%R in
  (2 * e <= Rabs (cos (val x)))%R ->
  fin (F32_tan x) /\
  (Rabs (val (F32_tan x) - tan (val x)) <= 1.01 * e * (1 + Rabs (tan (val x))) / (Rabs (cos (val x)) - e))%R.
Proof.
  intros E x Fx Hx e He. unfold F32_tan.
  destruct (sin_acc x Fx Hx) as [Fs Ds]. destruct (cos_acc x Fx ltac:(lra)) as [Fc Dc].
  destruct (sin_bounded x Fx Hx) as [_ Bs].
  pose proof (Rabs_pos (val x)) as P. fold e in Ds.
  assert (Dc' : (Rabs (val (F32_cos x) - cos (val x)) <= e)%R) by (unfold e; lra). clear Dc.
  assert (e0 : (0.00113 <= e)%R) by (unfold e; lra).
  set (s := val (F32_sin x)) in *. set (c := val (F32_cos x)) in *. set (S := sin (val x)) in *. set (C := cos (val x)) in *.
  set (g := (Rabs C - e)%R). assert (g0 : (0.00113 <= g)%R) by (unfold g; lra).
  assert (cg : (g <= Rabs c)%R).
  { unfold g. pose proof (Rabs_triang_inv C (C - c)) as T. replace (C - (C - c))%R with c in T by ring.
    rewrite (Rabs_minus_sym C c) in T. lra. }
  assert (c0 : c <> 0%R) by (intros H; rewrite H, Rabs_R0 in cg; lra).
  assert (C0 : C <> 0%R) by (intros H; rewrite H, Rabs_R0 in He; lra).
  assert (Q : (Rabs (s / c) <= / g)%R).
  { unfold Rdiv. rewrite Rabs_mult, Rabs_inv. replace (/ g)%R with (1 * / g)%R by ring.
    apply Rmult_le_compat; [apply Rabs_pos|apply Rlt_le, Rinv_0_lt_compat; lra|exact Bs|apply Rinv_le_contravar; lra]. }
  assert (g1 : (/ g <= 1000)%R).
  { apply Rmult_le_reg_l with g; [lra|]. rewrite Rinv_r by lra. lra. }
  assert (gi : (0 < / g)%R) by (apply Rinv_0_lt_compat; lra).
  destruct (fdiv_R (F32_sin x) (F32_cos x) Fs Fc c0) as [F V].
  { apply (small_lt_128 10); [lia|]. change (bpow radix2 10) with 1024%R. fold s c. lra. }
  split; [exact F|]. rewrite V. fold s c. pose proof (rnd_err_mixed (s / c)) as R. rewrite u24_eq in R. fold eta in R.
  pose proof eta_tiny as ET.
  assert (R' : (Rabs (rnd (s / c) - s / c) <= 0.000005 * / g)%R).
  { eapply Rle_trans; [exact R|]. assert (u24 * Rabs (s / c) <= u24 * / g)%R by (apply Rmult_le_compat_l; [unfold u24; lra|exact Q]).
    assert (/ 2 <= / g)%R.
    { apply Rinv_le_contravar; [lra|]. unfold g. assert (Rabs C <= 1)%R by (apply Rabs_le; pose proof (COS_bound (val x)) as CB; fold C in CB; lra). lra. }
    unfold u24 in *. lra. }
  assert (D : (Rabs (s / c - S / C) <= e * (1 + Rabs (S / C)) * / g)%R).
  { replace (s / c - S / C)%R with (((s - S) - (c - C) * (S / C)) * / c)%R by (field; split; assumption).
    rewrite Rabs_mult, Rabs_inv. apply Rmult_le_compat; [apply Rabs_pos|apply Rlt_le, Rinv_0_lt_compat; lra| |apply Rinv_le_contravar; lra].
    unfold Rminus at 1. eapply Rle_trans; [apply Rabs_triang|]. rewrite Rabs_Ropp, Rabs_mult.
    pose proof (Rabs_pos (S / C)) as PS.
    assert (Rabs (c - C) * Rabs (S / C) <= e * Rabs (S / C))%R by (apply Rmult_le_compat_r; assumption). lra. }
  replace (rnd (s / c) - tan (val x))%R with ((rnd (s / c) - s / c) + (s / c - S / C))%R by (unfold tan; fold S C; ring).
  eapply Rle_trans; [apply Rabs_triang|]. unfold tan. fold S C.
  replace (1.01 * e * (1 + Rabs (S / C)) / g)%R with (1.01 * (e * (1 + Rabs (S / C)) * / g))%R by (field; lra).
  set (k := (e * (1 + Rabs (S / C)) * / g)%R) in *.
  assert (k0 : (0.00113 * / g <= k)%R).
  { unfold k. apply Rmult_le_compat_r; [lra|]. pose proof (Rabs_pos (S / C)) as PS.
    assert (0 <= e * Rabs (S / C))%R by (apply Rmult_le_pos; lra). lra. }
  lra.
Qed.

Lemma tan_1_2 : forall {E : Env} x, fin x -> (Rabs (val x) <= 1.2)%R ->
  fin (F32_tan x) /\ (Rabs (val (F32_tan x) - tan (val x)) <= 0.0114)%R.
Proof.
  intros E x Fx Hx. pose proof (cos_1_2 (val x) Hx) as C. pose proof (sin_1_2 (val x) Hx) as S. pose proof (Rabs_pos (val x)) as P.
  destruct (tan_acc x Fx ltac:(lra)) as [F D].
  - rewrite (Rabs_pos_eq (cos (val x))); lra.
  - split; [exact F|]. eapply Rle_trans; [exact D|]. rewrite (Rabs_pos_eq (cos (val x))) by lra.
    assert (T : (Rabs (tan (val x)) <= 2.577)%R).
    { unfold tan, Rdiv. rewrite Rabs_mult, Rabs_inv, (Rabs_pos_eq (cos (val x))) by lra.
      apply Rmult_le_reg_r with (cos (val x)); [lra|]. rewrite Rmult_assoc, Rinv_l by lra. lra. }
    set (e := (0.00113 + 0.00000016 * Rabs (val x))%R). assert (e1 : (0.00113 <= e <= 0.0011302)%R) by (unfold e; lra).
    apply Rmult_le_reg_r with (cos (val x) - e)%R; [lra|]. unfold Rdiv. rewrite Rmult_assoc, Rinv_l by lra. rewrite Rmult_1_r.
    pose proof (Rabs_pos (tan (val x))) as PT.
    assert (e * (1 + Rabs (tan (val x))) <= 0.0011302 * 3.577)%R by (apply Rmult_le_compat; lra). lra.
Qed.

(** ** Counterexamples *)

Lemma cos_002_wrong : forall {E : Env}, exists x, fin x /\ (0 < val x <= 12870)%R /\
  fin (F32_cos x) /\ (Rabs (val (F32_cos x) - cos (val x)) > 0.002)%R.
Proof.
  intros E. exists (from_bits 0x4649168C).
  assert (R : F32_cos (from_bits 0x4649168C) = from_bits 0xBDCD2D8C) by (apply to_bits_inj; vm_compute; reflexivity).
  rewrite R. lit 0x4649168C. lit 0xBDCD2D8C. split; [reflexivity|]. split; [bpow_lit; lra|]. split; [reflexivity|].
  pose proof cos_at_12869 as C. bpow_lit. change (13178508 * / 1024)%R with (13178508 / 1024)%R.
  rewrite Rabs_pos_eq; lra.
Qed.

Lemma sin_002_wrong : forall {E : Env}, exists x, fin x /\ (0 < val x <= 16045)%R /\
  fin (F32_sin x) /\ (Rabs (val (F32_sin x) - sin (val x)) > 0.002)%R.
Proof.
  intros E. exists (from_bits 0x467AB135).
  assert (R : F32_sin (from_bits 0x467AB135) = from_bits 0xBE3D679E) by (apply to_bits_inj; vm_compute; reflexivity).
  rewrite R. lit 0x467AB135. lit 0xBE3D679E. split; [reflexivity|]. split; [bpow_lit; lra|]. split; [reflexivity|].
  pose proof sin_at_16044 as C. bpow_lit. change (16429365 * / 1024)%R with (16429365 / 1024)%R.
  rewrite Rabs_pos_eq; lra.
Qed.

Lemma tan_06_wrong : forall {E : Env}, exists x, fin x /\ (0 < val x <= 1.56)%R /\
  fin (F32_tan x) /\ (val (F32_tan x) - tan (val x) > 1.19)%R.
Proof.
  intros E. exists (from_bits 0x3FC7AE14).
  assert (R : F32_tan (from_bits 0x3FC7AE14) = from_bits 0x42BB9F11) by (apply to_bits_inj; vm_compute; reflexivity).
  rewrite R. lit 0x3FC7AE14. lit 0x42BB9F11. split; [reflexivity|]. split; [bpow_lit; lra|]. split; [reflexivity|].
  pose proof tan_at_1_56 as C. bpow_lit. change (13086228 * / 8388608)%R with (13086228 / 8388608)%R. lra.
Qed.

Lemma cos_unbounded : forall {E : Env}, exists x, fin x /\ fin (F32_cos x) /\ (val (F32_cos x) > 200000000000)%R.
Proof.
  intros E. exists (from_bits 0x50490FDC).
  assert (R : F32_cos (from_bits 0x50490FDC) = from_bits 0x5265806B) by (apply to_bits_inj; vm_compute; reflexivity).
  rewrite R. lit 0x5265806B. split; [reflexivity|]. split; [reflexivity|]. bpow_lit. lra.
Qed.

