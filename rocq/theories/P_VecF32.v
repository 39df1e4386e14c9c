(** * Proofs: float vectors *)

From Coq Require Import ZArith Reals Bool List Lia Lra Psatz.
From Flocq Require Import Core IEEE754.BinarySingleNaN IEEE754.Binary IEEE754.Bits.
From Verif Require Import Base Spec Float Vector F32Lemmas BitLemmas P_Trunc P_Floor Literals ErrLemmas P_RoundEdge
  NanLemmas P_Euclid P_Roots P_InvSqrt P_Recip P_Vector P_SumSq.
Import ListNotations.
Open Scope Z_scope.

Lemma same_refl : forall x, same x x.
Proof. left. reflexivity. Qed.
Lemma same_sym : forall x y, same x y -> same y x.
Proof. intros x y [->|[A B]]; [left; reflexivity|right; auto]. Qed.
Lemma same_trans : forall x y z, same x y -> same y z -> same x z.
Proof.
  intros x y z [->|[A B]] H; [assumption|]. destruct H as [<-|[C D]]; right; auto.
Qed.

Lemma fadd_same : forall {E : Env} x y x' y', same x x' -> same y y' -> same (fadd x y) (fadd x' y').
Proof.
  intros E x y x' y' [->|[A B]] [->|[C D]]; try (left; reflexivity); right; split; apply fadd_nan; auto.
Qed.
Lemma fmul_same : forall {E : Env} x y x' y', same x x' -> same y y' -> same (fmul x y) (fmul x' y').
Proof.
  intros E x y x' y' [->|[A B]] [->|[C D]]; try (left; reflexivity); right; split; apply fmul_nan; auto.
Qed.
Lemma fsub_same : forall {E : Env} x y x' y', same x x' -> same y y' -> same (fsub x y) (fsub x' y').
Proof.
  intros E x y x' y' [->|[A B]] [->|[C D]]; try (left; reflexivity); right; split; apply fsub_nan; auto.
Qed.

Lemma fmul_comm : forall {E : Env} x y, same (fmul x y) (fmul y x).
Proof.
  intros E x y. destruct (is_finite x) eqn:Fx; destruct (is_finite y) eqn:Fy.
  - left. apply fmul_ext; trivial; [ring|apply xorb_comm].
  - destruct y as [s|s|s p H|s m e H]; try discriminate; destruct x as [s'|s'|s' p' H'|s' m' e' H']; try discriminate;
      try (left; destruct s, s'; reflexivity);
      right; split; try (apply fmul_nan; auto; fail); refine (build_nan_nan _).
  - destruct y as [s|s|s p H|s m e H]; try discriminate; destruct x as [s'|s'|s' p' H'|s' m' e' H']; try discriminate;
      try (left; destruct s, s'; reflexivity);
      right; split; try (apply fmul_nan; auto; fail); refine (build_nan_nan _).
  - destruct y as [s|s|s p H|s m e H]; try discriminate; destruct x as [s'|s'|s' p' H'|s' m' e' H']; try discriminate;
      try (left; destruct s, s'; reflexivity);
      right; split; try (apply fmul_nan; auto; fail); refine (build_nan_nan _).
Qed.

Lemma fadd_comm_same : forall {E : Env} x y, same (fadd x y) (fadd y x).
Proof.
  intros E x y. destruct (is_nan (fadd x y)) eqn:N; [|left; symmetry; apply fadd_comm; exact N].
  destruct (is_nan (fadd y x)) eqn:M; [right; split; assumption|].
  left. apply fadd_comm. exact M.
Qed.

(** x - y and y - x. *)
Lemma fsub_swap : forall {E : Env} x y,
  (nan (fsub x y) /\ nan (fsub y x)) \/ (is_nan (fsub x y) = false /\ fsub y x = fneg (fsub x y)) \/
  (fin (fsub x y) /\ fin (fsub y x) /\ val (fsub x y) = 0%R /\ val (fsub y x) = 0%R).
Proof.
  intros E x y. destruct (is_finite x) eqn:Fx; destruct (is_finite y) eqn:Fy.
  - pose proof (Bminus_correct 24 128 prec24 emax128 nan_sub mode_NE x y Fx Fy) as C1.
    pose proof (Bminus_correct 24 128 prec24 emax128 nan_sub mode_NE y x Fy Fx) as C2.
    fold (fsub x y) in C1. fold (fsub y x) in C2.
    assert (R : (round radix2 (SpecFloat.fexp 24 128) (round_mode mode_NE) (B2R 24 128 y - B2R 24 128 x) =
      - round radix2 (SpecFloat.fexp 24 128) (round_mode mode_NE) (B2R 24 128 x - B2R 24 128 y))%R).
    { replace (B2R 24 128 y - B2R 24 128 x)%R with (- (B2R 24 128 x - B2R 24 128 y))%R by ring.
      apply round_NE_opp. }
    rewrite R in C2. rewrite Rabs_Ropp in C2.
    destruct (Rlt_bool (Rabs _) _).
    + destruct C1 as (V1 & F1 & _), C2 as (V2 & F2 & _).
      assert (F1' : fin (fsub x y)) by exact F1.
      set (r := round radix2 _ _ _) in *. destruct (Req_dec r 0) as [Z|Z].
      * right. right. unfold fin, val, is_finite. rewrite V1, V2, Z. repeat split; trivial. ring.
      * right. left. split; [apply fin_not_nan; exact F1'|].
        apply B2R_inj.
        -- destruct (fsub y x); try discriminate; trivial. exfalso. apply Z. simpl in V2. lra.
        -- destruct (fsub x y); try discriminate; trivial. exfalso. apply Z. simpl in V1. lra.
        -- rewrite V2. change (B2R 24 128 (fneg (fsub x y))) with (val (fneg (fsub x y))). rewrite fneg_val.
           unfold val. rewrite V1. reflexivity.
    + right. left. destruct C1 as [C1 S1], C2 as [C2 S2].
      destruct (fsub x y) as [a|a|a p H|a m e H]; try discriminate;
      destruct (fsub y x) as [b|b|b p' H'|b m' e' H']; try discriminate.
      split; [reflexivity|].
      simpl in *. unfold overflow_to_inf in *. simpl in *. inversion C1. inversion C2. subst.
      rewrite S2, negb_involutive in *. destruct (Bsign 24 128 x); rewrite ?negb_involutive; try reflexivity;
        rewrite S2; try reflexivity.
  - destruct y as [s|s|s p H|s m e H]; try discriminate; destruct x as [s'|s'|s' p' H'|s' m' e' H']; try discriminate;
      try (left; split; apply fsub_nan; ((left; reflexivity) || (right; reflexivity))); right; left; (split; [reflexivity|destruct s, s'; reflexivity]).
  - destruct y as [s|s|s p H|s m e H]; try discriminate; destruct x as [s'|s'|s' p' H'|s' m' e' H']; try discriminate;
      try (left; split; apply fsub_nan; ((left; reflexivity) || (right; reflexivity))); right; left; (split; [reflexivity|destruct s, s'; reflexivity]).
  - destruct y as [s|s|s p H|s m e H]; try discriminate; destruct x as [s'|s'|s' p' H'|s' m' e' H']; try discriminate;
      try (left; split; apply fsub_nan; ((left; reflexivity) || (right; reflexivity))).
    unfold fsub; simpl. destruct s, s'; simpl; try (right; left; split; reflexivity);
    left; split; refine (build_nan_nan _).
Qed.

Lemma feq_refl_nn : forall x, is_nan x = false -> feq x x = true.
Proof.
  intros x N. destruct (is_finite x) eqn:F.
  - rewrite feq_R by assumption. apply Req_bool_true. reflexivity.
  - destruct x as [s|s|s p H|s m e H]; try discriminate. destruct s; reflexivity.
Qed.

Lemma fsub_anti : forall {E : Env} x y,
  (nan (fsub x y) /\ nan (fsub y x)) \/ feq (fsub x y) (fneg (fsub y x)) = true.
Proof.
  intros E x y. destruct (fsub_swap x y) as [N|[H|(A & B & C & D)]]; [left; assumption|right..].
  - destruct H as [N H]. rewrite H, fneg_involutive. apply feq_refl_nn; exact N.
  - rewrite feq_R; [|assumption|apply fneg_fin; assumption]. rewrite fneg_val, C, D. apply Req_bool_true. ring.
Qed.

Lemma sq_swap : forall {E : Env} x y,
  same (fmul (fsub x y) (fsub x y)) (fmul (fsub y x) (fsub y x)).
Proof.
  intros E x y. destruct (fsub_swap x y) as [[A B]|[[N H]|(A & B & C & D)]].
  - right. split; apply fmul_nan; auto.
  - left. rewrite H. symmetry. apply fmul_neg_neg. exact N.
  - left. apply fmul_ext; trivial; [rewrite C, D; reflexivity|rewrite !xorb_nilpotent; reflexivity].
Qed.

(** ** Sums *)

Lemma fold_same : forall {E : Env} l l' a a', Forall2 same l l' -> same a a' ->
  same (fold_left fadd l a) (fold_left fadd l' a').
Proof.
  intros E l l' a a' F. revert a a'. induction F as [|x y l l' S F IH]; intros a a' H; simpl; [assumption|].
  apply IH. apply fadd_same; assumption.
Qed.
Lemma sqrt_same : forall {E : Env} x y, same x y -> F32_sqrt x = F32_sqrt y.
Proof.
  intros E x y [->|[A B]]; [reflexivity|]. unfold F32_sqrt, fge. rewrite !fle_nan by auto. reflexivity.
Qed.

Lemma distance_lists : forall {E : Env} {C} (into : C -> f32) l m,
  F32_sqrt (F32_sum (map (fun n => fmul n n) (map (fun ab => fsub (into (fst ab)) (into (snd ab))) (combine l m)))) =
  F32_sqrt (F32_sum (map (fun n => fmul n n) (map (fun ab => fsub (into (fst ab)) (into (snd ab))) (combine m l)))).
Proof.
  intros E C into l m. apply sqrt_same. unfold F32_sum. apply fold_same; [|apply same_refl].
  revert m. induction l as [|a l IH]; intros [|b m]; simpl; try constructor; [apply sq_swap|apply IH].
Qed.

Lemma distance_sym : forall {E : Env} {V C} {T : VectorT V C} (into : C -> f32) v w,
  vt_distance into v w = vt_distance into w v.
Proof. intros E V C T into v w. unfold vt_distance. apply distance_lists. Qed.

Lemma distance_total : forall {E : Env} {V C} {T : VectorT V C} (into : C -> f32) v w,
  exists d, vt_distance into v w = Ok d.
Proof. intros E V C T into v w. apply sqrt_total. Qed.
Lemma magnitude_total : forall {E : Env} {V C} {T : VectorT V C} (into : C -> f32) v,
  exists d, vt_magnitude into v = Ok d.
Proof. intros E V C T into v. apply sqrt_total. Qed.

(** x - x for finite x is +0. *)
Lemma fsub_self : forall {E : Env} x, fin x -> fsub x x = f32_zero false.
Proof.
  intros E x F. pose proof (Bminus_correct 24 128 prec24 emax128 nan_sub mode_NE x x F F) as C.
  fold (fsub x x) in C. unfold Rminus in C. rewrite Rplus_opp_r in C. rewrite round_0 in C by apply valid_rnd_round_mode.
  rewrite Rabs_R0 in C. rewrite Rlt_bool_true in C by apply bpow_gt_0.
  destruct C as (V & Fi & S). rewrite Rcompare_Eq in S by reflexivity.
  assert (S' : Bsign 24 128 (fsub x x) = false).
  { rewrite S. destruct (Bsign 24 128 x); reflexivity. }
  apply fin_dec_eq; [exact Fi|reflexivity|exact V|exact S'].
Qed.

Lemma zero_sum2 : forall {E : Env} n, (0 < n)%nat -> F32_sum (repeat (f32_zero false) n) = f32_zero false.
Proof.
  intros E n N. destruct n as [|n]; [lia|]. unfold F32_sum. simpl.
  replace (fadd (f32_zero sum_start) (f32_zero false)) with (f32_zero false)
    by (destruct sum_start; reflexivity).
  clear N. induction n as [|n IH]; [reflexivity|]. simpl. exact IH.
Qed.

Lemma v2_distance_self : forall {E : Env} {C} (into : C -> f32) (v : Vector2d C),
  fin (into (v2x v)) -> fin (into (v2y v)) -> vt_distance into v v = Ok (from_bits 0x1FC00000).
Proof.
  intros E C into v Fx Fy. unfold vt_distance. rewrite v2_items. unfold v2_to_array. cbn [combine map fst snd].
  rewrite !fsub_self by assumption.
  change (fmul (f32_zero false) (f32_zero false)) with (f32_zero false).
  change [f32_zero false; f32_zero false] with (repeat (f32_zero false) 2). rewrite zero_sum2 by lia. apply sqrt_edges.
Qed.
Lemma v3_distance_self : forall {E : Env} {C} (into : C -> f32) (v : Vector3d C),
  fin (into (v3x v)) -> fin (into (v3y v)) -> fin (into (v3z v)) -> vt_distance into v v = Ok (from_bits 0x1FC00000).
Proof.
  intros E C into v Fx Fy Fz. unfold vt_distance. rewrite v3_items. unfold v3_to_array. cbn [combine map fst snd].
  rewrite !fsub_self by assumption.
  change (fmul (f32_zero false) (f32_zero false)) with (f32_zero false).
  change [f32_zero false; f32_zero false; f32_zero false] with (repeat (f32_zero false) 3). rewrite zero_sum2 by lia. apply sqrt_edges.
Qed.

(** ** Accuracy of the norm *)

Lemma rsumsq_pos : forall l, (0 <= rsumsq l)%R.
Proof.
  intros l. induction l as [|a l IH]; simpl; [lra|]. pose proof (Rle_0_sqr (val a)) as Q. unfold Rsqr in Q. lra.
Qed.

Lemma fold_approx : forall {E : Env} l k s T, Forall sq_ok l -> (1 <= k)%nat -> (k + length l <= 8)%nat ->
  approx k s T -> (T + rsumsq l <= bpow radix2 126)%R ->
  approx (k + length l) (fold_left fadd (map (fun a => fmul a a) l) s) (T + rsumsq l).
Proof.
  intros E l k s T F. revert k s T. induction F as [|a l Fa F IH]; intros k s T K1 K A L.
  - simpl. change (rsumsq []) with 0%R. rewrite Nat.add_0_r, Rplus_0_r. assumption.
  - change (rsumsq (a :: l)) with (val a * val a + rsumsq l)%R in *. cbn [length map fold_left] in *.
    replace (T + (val a * val a + rsumsq l))%R with (T + val a * val a + rsumsq l)%R in * by ring.
    replace (k + S (length l))%nat with (S k + length l)%nat by lia. pose proof (rsumsq_pos l).
    apply IH; [lia|lia| |assumption].
    apply approx_add; [lia|assumption| |lra]. apply (approx_weaken 1); [lia|]. apply sq_approx. assumption.
Qed.

Lemma sum_approx : forall {E : Env} l, Forall sq_ok l -> (length l <= 7)%nat ->
  (rsumsq l <= bpow radix2 126)%R ->
  approx (1 + length l) (F32_sum (map (fun a => fmul a a) l)) (rsumsq l).
Proof.
  intros E l F K L. unfold F32_sum. rewrite <- (Rplus_0_l (rsumsq l)).
  apply (fold_approx l 1); [assumption|lia|lia|apply approx_zero; lia|lra].
Qed.

Lemma norm_accuracy : forall {E : Env} l, Forall sq_ok l -> (length l <= 7)%nat ->
  (0 < rsumsq l <= bpow radix2 126)%R ->
  exists z, F32_sqrt (F32_sum (map (fun a => fmul a a) l)) = Ok z /\ normal_pos z /\
    ((1 - bpow radix2 (-20)) * sqrt (rsumsq l) <= val z <= 1.0607 * sqrt (rsumsq l))%R.
Proof.
  intros E l F K L. apply (approx_sqrt (1 + length l)); [lia| |lra]. apply sum_approx; trivial; lra.
Qed.

Lemma v2_magnitude_acc : forall {E : Env} {C} (into : C -> f32) (v : Vector2d C) (l := map into (v2_to_array v)),
  Forall sq_ok l -> (0 < rsumsq l <= bpow radix2 126)%R ->
  exists z, vt_magnitude into v = Ok z /\ normal_pos z /\
    ((1 - bpow radix2 (-20)) * sqrt (rsumsq l) <= val z <= 1.0607 * sqrt (rsumsq l))%R.
Proof. intros E C into v l F L. exact (norm_accuracy l F ltac:(simpl; lia) L). Qed.
Lemma v3_magnitude_acc : forall {E : Env} {C} (into : C -> f32) (v : Vector3d C) (l := map into (v3_to_array v)),
  Forall sq_ok l -> (0 < rsumsq l <= bpow radix2 126)%R ->
  exists z, vt_magnitude into v = Ok z /\ normal_pos z /\
    ((1 - bpow radix2 (-20)) * sqrt (rsumsq l) <= val z <= 1.0607 * sqrt (rsumsq l))%R.
Proof. intros E C into v l F L. exact (norm_accuracy l F ltac:(simpl; lia) L). Qed.

(** The distance is the norm of the rounded differences. *)
Lemma v2_distance_acc : forall {E : Env} {C} (into : C -> f32) (v w : Vector2d C)
  (l := [fsub (into (v2x v)) (into (v2x w)); fsub (into (v2y v)) (into (v2y w))]),
  Forall sq_ok l -> (0 < rsumsq l <= bpow radix2 126)%R ->
  exists z, vt_distance into v w = Ok z /\ normal_pos z /\
    ((1 - bpow radix2 (-20)) * sqrt (rsumsq l) <= val z <= 1.0607 * sqrt (rsumsq l))%R.
Proof. intros E C into v w l F L. exact (norm_accuracy l F ltac:(simpl; lia) L). Qed.
Lemma v3_distance_acc : forall {E : Env} {C} (into : C -> f32) (v w : Vector3d C)
  (l := [fsub (into (v3x v)) (into (v3x w)); fsub (into (v3y v)) (into (v3y w)); fsub (into (v3z v)) (into (v3z w))]),
  Forall sq_ok l -> (0 < rsumsq l <= bpow radix2 126)%R ->
  exists z, vt_distance into v w = Ok z /\ normal_pos z /\
    ((1 - bpow radix2 (-20)) * sqrt (rsumsq l) <= val z <= 1.0607 * sqrt (rsumsq l))%R.
Proof. intros E C into v w l F L. exact (norm_accuracy l F ltac:(simpl; lia) L). Qed.

(** ** Normalization *)

Lemma sq_le_sum : forall l a, In a l -> (val a * val a <= rsumsq l)%R.
Proof.
  intros l a. induction l as [|b l IH]; intros H; [destruct H|]. simpl.
  pose proof (rsumsq_pos l). pose proof (Rle_0_sqr (val b)) as Q. unfold Rsqr in Q.
  destruct H as [->|H]; [lra|]. specialize (IH H). lra.
Qed.

Lemma normalize_list : forall {E : Env} l z, Forall fin l -> (length l <= 4)%nat -> normal_pos z ->
  (0 < rsumsq l)%R ->
  ((1 - bpow radix2 (-20)) * sqrt (rsumsq l) <= val z <= 1.0607 * sqrt (rsumsq l))%R ->
  Forall fin (map (fun a => fdiv a z) l) /\
  (0.942 <= sqrt (rsumsq (map (fun a => fdiv a z) l)) <= 1.00001)%R.
Proof.
  intros E l z F K N P B.
  assert (V : (bpow radix2 (-20) = / 1048576)%R) by (bpow_lit; lra). rewrite V in B.
  pose proof (normal_pos_gt0 z N) as Z0. destruct N as [Fz _].
  set (h := sqrt (rsumsq l)) in *.
  assert (H0 : (0 < h)%R) by (apply sqrt_lt_R0; assumption).
  assert (HH : (h * h = rsumsq l)%R) by (apply sqrt_sqrt; lra).
  (* each quotient *)
  assert (Q : forall a, In a l -> exists e, fin (fdiv a z) /\ val (fdiv a z) = (val a / val z + e)%R /\
              (Rabs e <= / 16777216)%R /\ (Rabs (val a / val z) <= 1.00001)%R).
  { intros a I. pose proof (sq_le_sum l a I) as S. rewrite <- HH in S.
    assert (A : (Rabs (val a) <= h)%R).
    { apply Rsqr_incr_0_var; [|lra]. unfold Rsqr. rewrite <- Rabs_mult, Rabs_pos_eq by apply Rle_0_sqr. assumption. }
    assert (D : (Rabs (val a / val z) <= 1.00001)%R).
    { unfold Rdiv. rewrite Rabs_mult, Rabs_inv, (Rabs_pos_eq (val z)) by lra.
      apply Rmult_le_reg_r with (val z); [assumption|]. rewrite Rmult_assoc, Rinv_l by lra. lra. }
    destruct (fdiv_e 1 a z) as (e & Fe & Ve & Be); trivial.
    - rewrite Forall_forall in F. apply F. assumption.
    - lra.
    - lia.
    - change (bpow radix2 1) with 2%R. lra.
    - exists e. split; [assumption|]. split; [assumption|]. split; [|assumption].
      change (1 - 25) with (-24) in Be. rewrite u24_eq in Be. exact Be. }
  assert (Z2 : (0 < / (val z * val z))%R) by (apply Rinv_0_lt_compat; apply Rmult_lt_0_compat; assumption).
  assert (S : forall m, (forall a, In a m -> In a l) ->
    Forall fin (map (fun a => fdiv a z) m) /\
    (Rabs (rsumsq (map (fun a => fdiv a z) m) - rsumsq m * / (val z * val z)) <= INR (length m) * 2e-7)%R).
  { intros m. induction m as [|a m IH]; intros I.
    - split; [constructor|]. simpl. rewrite Rmult_0_l, Rminus_0_r, Rabs_R0. lra.
    - destruct IH as [I1 I2]; [intros b J; apply I; right; assumption|].
      destruct (Q a (I a (or_introl eq_refl))) as (e & Fe & Ve & Be & Bt).
      split; [constructor; assumption|]. rewrite map_cons. cbn [rsumsq fold_right] in *.
      fold (rsumsq (map (fun a => fdiv a z) m)). fold (rsumsq m). change (length (a :: m)) with (S (length m)).
      rewrite S_INR, Ve. set (t := (val a / val z)%R) in *.
      replace ((t + e) * (t + e) + rsumsq (map (fun a0 => fdiv a0 z) m) - (val a * val a + rsumsq m) * / (val z * val z))%R
        with ((2 * t * e + e * e) + (rsumsq (map (fun a0 => fdiv a0 z) m) - rsumsq m * / (val z * val z)))%R.
      2:{ unfold t. field. lra. }
      eapply Rle_trans; [apply Rabs_triang|].
      assert (Rabs (2 * t * e + e * e) <= 2e-7)%R; [|lra].
      eapply Rle_trans; [apply Rabs_triang|]. rewrite !Rabs_mult, (Rabs_pos_eq 2) by lra.
      pose proof (Rabs_pos t). pose proof (Rabs_pos e).
      assert (Rabs t * Rabs e <= 1.00001 * / 16777216)%R by (apply Rmult_le_compat; lra).
      assert (Rabs e * Rabs e <= / 16777216 * / 16777216)%R by (apply Rmult_le_compat; lra). lra. }
  destruct (S l (fun a H => H)) as [S1 S2]. split; [assumption|].
  assert (L4 : (INR (length l) <= 4)%R) by (replace 4%R with (INR 4) by (simpl; lra); apply le_INR; assumption).
  assert (S3 : (Rabs (rsumsq (map (fun a => fdiv a z) l) - rsumsq l * / (val z * val z)) <= 8e-7)%R) by lra.
  apply Rabs_le_inv in S3.
  assert (T1 : (0.8888 <= rsumsq l * / (val z * val z) <= 1.000005)%R).
  { rewrite <- HH. assert (val z * val z <= 1.0607 * h * (1.0607 * h))%R by (apply Rmult_le_compat; lra).
    assert ((1 - / 1048576) * h * ((1 - / 1048576) * h) <= val z * val z)%R by (apply Rmult_le_compat; lra).
    assert (0 < h * h)%R by (apply Rmult_lt_0_compat; assumption).
    split; apply Rmult_le_reg_r with (val z * val z)%R; try (apply Rmult_lt_0_compat; assumption);
      rewrite Rmult_assoc, Rinv_l, Rmult_1_r; try (apply Rgt_not_eq; apply Rmult_lt_0_compat; assumption); lra. }
  split.
  - rewrite <- (sqrt_square 0.942) by lra. apply sqrt_le_1_alt. lra.
  - rewrite <- (sqrt_square 1.00001) by lra. apply sqrt_le_1_alt. lra.
Qed.

Definition idf (x : f32) : f32 := x.

Lemma map_idf : forall l, map idf l = l.
Proof. intros l. unfold idf. apply map_id. Qed.

Lemma sq_ok_fin : forall l, Forall sq_ok l -> Forall fin l.
Proof. intros l H. eapply Forall_impl; [|exact H]. intros a [A _]. exact A. Qed.

Lemma v2_normalized_acc : forall {E : Env} (v : Vector2d f32), let l := v2_to_array v in
  Forall sq_ok l -> (0 < rsumsq l <= bpow radix2 126)%R ->
  exists w, vt_normalized idf idf v = Ok w /\ Forall fin (v2_to_array w) /\
    (0.942 <= sqrt (rsumsq (v2_to_array w)) <= 1.00001)%R.
Proof.
  intros E v l F L. destruct (v2_magnitude_acc idf v) as (z & A & B & C).
  { rewrite map_idf. exact F. } { rewrite map_idf. exact L. }
  rewrite map_idf in C. fold l in C.
  unfold vt_normalized. rewrite A. cbn [bind]. rewrite v2_map_spec. eexists. split; [reflexivity|].
  exact (normalize_list l z (sq_ok_fin l F) ltac:(simpl; lia) B ltac:(lra) C).
Qed.
Lemma v3_normalized_acc : forall {E : Env} (v : Vector3d f32), let l := v3_to_array v in
  Forall sq_ok l -> (0 < rsumsq l <= bpow radix2 126)%R ->
  exists w, vt_normalized idf idf v = Ok w /\ Forall fin (v3_to_array w) /\
    (0.942 <= sqrt (rsumsq (v3_to_array w)) <= 1.00001)%R.
Proof.
  intros E v l F L. destruct (v3_magnitude_acc idf v) as (z & A & B & C).
  { rewrite map_idf. exact F. } { rewrite map_idf. exact L. }
  rewrite map_idf in C. fold l in C.
  unfold vt_normalized. rewrite A. cbn [bind]. rewrite v3_map_spec. eexists. split; [reflexivity|].
  exact (normalize_list l z (sq_ok_fin l F) ltac:(simpl; lia) B ltac:(lra) C).
Qed.

Lemma v2_normalized_zero : forall {E : Env} s t,
  vt_normalized idf idf (mkV2 (f32_zero s) (f32_zero t)) = Ok (mkV2 (f32_zero s) (f32_zero t)).
Proof.
  intros E s t. unfold vt_normalized, vt_magnitude. rewrite v2_items. unfold v2_to_array, idf. cbn [map v2x v2y].
  replace (fmul (f32_zero s) (f32_zero s)) with (f32_zero false) by (destruct s; reflexivity).
  replace (fmul (f32_zero t) (f32_zero t)) with (f32_zero false) by (destruct t; reflexivity).
  change [f32_zero false; f32_zero false] with (repeat (f32_zero false) 2). rewrite zero_sum2 by lia.
  rewrite (proj1 sqrt_edges). cbn [bind]. rewrite v2_map_spec. cbn [v2x v2y]. destruct s, t; reflexivity.
Qed.
Lemma v3_normalized_zero : forall {E : Env} s t u,
  vt_normalized idf idf (mkV3 (f32_zero s) (f32_zero t) (f32_zero u)) = Ok (mkV3 (f32_zero s) (f32_zero t) (f32_zero u)).
Proof.
  intros E s t u. unfold vt_normalized, vt_magnitude. rewrite v3_items. unfold v3_to_array, idf. cbn [map v3x v3y v3z].
  replace (fmul (f32_zero s) (f32_zero s)) with (f32_zero false) by (destruct s; reflexivity).
  replace (fmul (f32_zero t) (f32_zero t)) with (f32_zero false) by (destruct t; reflexivity).
  replace (fmul (f32_zero u) (f32_zero u)) with (f32_zero false) by (destruct u; reflexivity).
  change [f32_zero false; f32_zero false; f32_zero false] with (repeat (f32_zero false) 3). rewrite zero_sum2 by lia.
  rewrite (proj1 sqrt_edges). cbn [bind]. rewrite v3_map_spec. cbn [v3x v3y v3z]. destruct s, t, u; reflexivity.
Qed.

(** ** dot and cross *)

Lemma v2_dot_f32_sym : forall {E : Env} v w, exists a b,
  v2_dot (H := comp_f32) v w = Ok a /\ v2_dot (H := comp_f32) w v = Ok b /\ same a b.
Proof.
  intros E v w. do 2 eexists. split; [reflexivity|]. split; [reflexivity|]. apply fadd_same; apply fmul_comm.
Qed.
Lemma v3_dot_f32_sym : forall {E : Env} v w, exists a b,
  v3_dot (H := comp_f32) v w = Ok a /\ v3_dot (H := comp_f32) w v = Ok b /\ same a b.
Proof.
  intros E v w. do 2 eexists. split; [reflexivity|]. split; [reflexivity|].
  apply fadd_same; [apply fadd_same|]; apply fmul_comm.
Qed.

Lemma opposite_same : forall x x' y, same x x' -> opposite x' y -> opposite x y.
Proof.
  intros x x' y [->|[A B]] H; [assumption|]. left. destruct H as [[C D]|H]; [auto|].
  rewrite feq_nan in H by auto. discriminate.
Qed.

Lemma v3_cross_f32_anti : forall {E : Env} v w, exists a b,
  v3_cross (H := comp_f32) v w = Ok a /\ v3_cross (H := comp_f32) w v = Ok b /\
  opposite (v3x a) (v3x b) /\ opposite (v3y a) (v3y b) /\ opposite (v3z a) (v3z b).
Proof.
  intros E v w. do 2 eexists. split; [reflexivity|]. split; [reflexivity|]. cbn [v3x v3y v3z].
  assert (G : forall a b c d, opposite (fsub (fmul a b) (fmul c d)) (fsub (fmul d c) (fmul b a))).
  { intros a b c d. apply (opposite_same _ (fsub (fmul b a) (fmul d c))).
    - apply fsub_same; apply fmul_comm.
    - apply fsub_anti. }
  split; [|split]; apply G.
Qed.

Lemma v3_cross_f32_self : forall {E : Env} v c, v3_cross (H := comp_f32) v v = Ok c ->
  fin (fmul (v3y v) (v3z v)) -> fin (fmul (v3z v) (v3x v)) -> fin (fmul (v3x v) (v3y v)) ->
  c = mkV3 (f32_zero false) (f32_zero false) (f32_zero false).
Proof.
  intros E v c H A B C. injection H as <-.
  assert (G : forall a b, fin (fmul a b) -> fsub (fmul a b) (fmul b a) = f32_zero false).
  { intros a b F. destruct (fmul_comm a b) as [<-|[N _]]; [apply fsub_self; exact F|].
    exfalso. unfold nan in N. rewrite (fin_not_nan _ F) in N. discriminate. }
  rewrite !G by assumption. reflexivity.
Qed.

Lemma zero_mul : forall {E : Env} s y, fin y -> fin (fmul (f32_zero s) y) /\ val (fmul (f32_zero s) y) = 0%R /\
  fin (fmul y (f32_zero s)) /\ val (fmul y (f32_zero s)) = 0%R.
Proof.
  intros E s y F. destruct y as [t|t|t p H|t m e H]; try discriminate; repeat split.
Qed.
Lemma zero_sub : forall {E : Env} x y, fin x -> fin y -> val x = 0%R -> val y = 0%R ->
  fin (fsub x y) /\ val (fsub x y) = 0%R.
Proof.
  intros E x y Fx Fy Vx Vy. destruct (fsub_R x y Fx Fy) as [A B].
  { apply (small_lt_128 0); [lia|]. rewrite Vx, Vy, Rminus_0_r, Rabs_R0. simpl. lra. }
  split; [assumption|]. rewrite B, Vx, Vy, Rminus_0_r. apply rnd_fmt. apply generic_format_0.
Qed.
Lemma zero_mul_inf : forall {E : Env} s t, nan (fmul (f32_inf s) (f32_zero t)) /\ nan (fmul (f32_zero t) (f32_inf s)).
Proof. intros E s t. split; refine (build_nan_nan _). Qed.

Lemma v2_cross_f32 : forall {E : Env} v w, exists c p,
  v2_cross (H := comp_f32) v w = Ok c /\ v2_perpendicular_dot (H := comp_f32) v w = Ok p /\ v3z c = p /\
  (fin (v2y v) -> fin (v2y w) -> fin (v3x c) /\ val (v3x c) = 0%R) /\
  (fin (v2x v) -> fin (v2x w) -> fin (v3y c) /\ val (v3y c) = 0%R) /\
  (is_finite (v2y v) = false \/ is_finite (v2y w) = false -> nan (v3x c)) /\
  (is_finite (v2x v) = false \/ is_finite (v2x w) = false -> nan (v3y c)).
Proof.
  intros E v w. do 2 eexists. split; [reflexivity|]. split; [reflexivity|]. split; [reflexivity|].
  cbn [v3x v3y v3z v3_of_v2 c_default comp_f32].
  assert (X : forall y, is_finite y = false -> nan (fmul y (f32_zero false)) /\ nan (fmul (f32_zero false) y)).
  { intros y F. destruct y as [s|s|s p H|s m e H]; try discriminate.
    - apply zero_mul_inf.
    - split; apply fmul_nan; [left|right]; reflexivity. }
  split; [|split; [|split]].
  - intros A B. apply zero_sub; apply zero_mul; assumption.
  - intros A B. apply zero_sub; apply zero_mul; assumption.
  - intros [H|H]; apply fsub_nan; [left|right]; apply X; assumption.
  - intros [H|H]; apply fsub_nan; [right|left]; apply X; assumption.
Qed.
