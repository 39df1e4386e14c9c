(** * Proofs: exact means, constant samples, negated samples *)

From Coq Require Import ZArith Reals Bool List Lia Lra Permutation.
From Flocq Require Import Core IEEE754.BinarySingleNaN IEEE754.Binary IEEE754.Bits.
From Verif Require Import Base Spec SpecMore Float Stats F32Lemmas BitLemmas P_Trunc P_Floor Literals ErrLemmas P_RoundEdge
  NanLemmas P_Euclid P_Roots P_InvSqrt P_SumSq P_Stats P_Quat.
Import ListNotations.
Open Scope Z_scope.

(** ** Samples on a common grid *)

Lemma sum_exact : forall {E : Env} e l ks s K, -149 <= e <= 100 ->
  Forall2 (fun a k => fin a /\ val a = (IZR k * bpow radix2 e)%R) l ks ->
  fin s -> val s = (IZR K * bpow radix2 e)%R -> Z.abs K + zsum (map Z.abs ks) <= 2 ^ 24 ->
  fin (fold_left fadd l s) /\ val (fold_left fadd l s) = (IZR (K + zsum ks) * bpow radix2 e)%R.
Proof.
  intros E e l ks s K He H. revert s K. induction H as [|a k l ks [Fa Va] H IH]; intros s K Fs Vs B.
  - simpl. rewrite Z.add_0_r. split; assumption.
  - cbn [fold_left]. cbn [map zsum fold_right] in *. unfold zsum in *. cbn [map fold_right] in *.
    fold (zsum ks) in *. fold (zsum (map Z.abs ks)) in *.
    assert (P : 0 <= zsum (map Z.abs ks)).
    { clear. unfold zsum. induction ks as [|k ks IH]; simpl; lia. }
    assert (S : (val s + val a = IZR (K + k) * bpow radix2 e)%R) by (rewrite Vs, Va, plus_IZR; ring).
    assert (R : rnd (val s + val a) = (IZR (K + k) * bpow radix2 e)%R).
    { rewrite S. apply rnd_fmt. apply fmt_scaled; lia. }
    destruct (fadd_R s a Fs Fa) as [F V].
    { rewrite R, Rabs_mult, <- abs_IZR, (Rabs_pos_eq (bpow radix2 e)) by apply bpow_ge_0.
      apply Rle_lt_trans with (bpow radix2 24 * bpow radix2 100)%R.
      - apply Rmult_le_compat; [apply IZR_le; lia|apply bpow_ge_0| |apply bpow_le; lia].
        change (bpow radix2 24) with (IZR (2 ^ 24)). apply IZR_le. lia.
      - rewrite <- bpow_plus. apply bpow_lt. lia. }
    destruct (IH (fadd s a) (K + k) F) as [A B'].
    + rewrite V. exact R.
    + lia.
    + split; [exact A|]. rewrite B'. f_equal. f_equal. lia.
Qed.

Lemma mean_exact : forall {E : Env} e l ks, -149 <= e <= 100 ->
  Forall2 (fun a k => fin a /\ val a = (IZR k * bpow radix2 e)%R) l ks ->
  zsum (map Z.abs ks) <= 2 ^ 24 -> 0 < Z.of_nat (length l) <= 2 ^ 24 ->
  exists m, mean l = Ok m /\ fin m /\
    val m = rnd (IZR (zsum ks) * bpow radix2 e / IZR (Z.of_nat (length l))).
Proof.
  intros E e l ks He H B L. rewrite mean_spec by lia.
  destruct (sum_exact e l ks (f32_zero false) 0 He H eq_refl) as [F V].
  { unfold val. simpl. ring. }
  { simpl. exact B. }
  rewrite Z.add_0_l in V.
  destruct (f32_of_Z_exact (Z.of_nat (length l))) as [Fn Vn]; [lia|].
  assert (Ln : (1 <= IZR (Z.of_nat (length l)))%R) by (apply IZR_le; lia).
  assert (AK : Z.abs (zsum ks) <= 2 ^ 24).
  { apply Z.le_trans with (2 := B). clear. unfold zsum. induction ks as [|k ks IH]; simpl in *; lia. }
  destruct (fdiv_R (fold_left fadd l (f32_zero false)) (f32_of_Z (Z.of_nat (length l))) F Fn) as [A C].
  - rewrite Vn. lra.
  - apply (small_lt_128 124); [lia|]. rewrite V, Vn. unfold Rdiv.
    rewrite Rabs_mult, Rabs_inv, (Rabs_pos_eq (IZR (Z.of_nat (length l)))) by lra.
    rewrite Rabs_mult, <- abs_IZR, (Rabs_pos_eq (bpow radix2 e)) by apply bpow_ge_0.
    assert (I : (0 < / IZR (Z.of_nat (length l)) <= 1)%R).
    { split; [apply Rinv_0_lt_compat; lra|]. rewrite <- Rinv_1. apply Rinv_le_contravar; lra. }
    apply Rle_trans with (bpow radix2 24 * bpow radix2 100 * 1)%R.
    + apply Rmult_le_compat; try lra.
      * apply Rmult_le_pos; [apply IZR_le; lia|apply bpow_ge_0].
      * apply Rmult_le_compat; [apply IZR_le; lia|apply bpow_ge_0| |apply bpow_le; lia].
        change (bpow radix2 24) with (IZR (2 ^ 24)). apply IZR_le. lia.
    + rewrite Rmult_1_r, <- bpow_plus. apply bpow_le. lia.
  - eexists. split; [reflexivity|]. split; [exact A|]. rewrite C, V, Vn. reflexivity.
Qed.

(** Integer element types. *)
Lemma mean_integers : forall {E : Env} ks, zsum (map Z.abs ks) <= 2 ^ 24 -> 0 < Z.of_nat (length ks) <= 2 ^ 24 ->
  exists m, mean (map f32_of_Z ks) = Ok m /\ fin m /\ val m = rnd (IZR (zsum ks) / IZR (Z.of_nat (length ks))).
Proof.
  intros E ks B L.
  assert (H : Forall2 (fun a k => fin a /\ val a = (IZR k * bpow radix2 0)%R) (map f32_of_Z ks) ks).
  { clear L. induction ks as [|k ks IH]; [constructor|]. unfold zsum in B. cbn [map fold_right] in B.
    fold (zsum (map Z.abs ks)) in B.
    assert (P : 0 <= zsum (map Z.abs ks)).
    { clear. unfold zsum. induction ks as [|k ks IH]; simpl; lia. }
    constructor; [|apply IH; lia]. destruct (f32_of_Z_exact k) as [F V]; [lia|]. split; [exact F|].
    rewrite V. change (bpow radix2 0) with 1%R. ring. }
  destruct (mean_exact 0 (map f32_of_Z ks) ks ltac:(lia) H B) as (m & M & F & V); [rewrite map_length; exact L|].
  exists m. split; [exact M|]. split; [exact F|]. rewrite V, map_length. f_equal.
  change (bpow radix2 0) with 1%R. unfold Rdiv. ring.
Qed.

(** ** Constant samples *)

Lemma zsum_repeat : forall k n, zsum (repeat k n) = Z.of_nat n * k.
Proof.
  intros k n. induction n as [|n IH]; [reflexivity|]. cbn [repeat]. unfold zsum in *. cbn [fold_right].
  rewrite IH. lia.
Qed.

Lemma mean_constant : forall {E : Env} x k e n, fin x -> val x = (IZR k * bpow radix2 e)%R -> -149 <= e <= 100 ->
  (0 < n)%nat -> Z.of_nat n * Z.max 1 (Z.abs k) <= 2 ^ 24 ->
  exists m, mean (repeat x n) = Ok m /\ fin m /\ val m = val x.
Proof.
  intros E x k e n Fx Vx He Hn B.
  destruct (mean_exact e (repeat x n) (repeat k n) He) as (m & M & F & V).
  - clear B Hn. induction n as [|n IH]; [constructor|]. cbn [repeat]. constructor; [split; assumption|exact IH].
  - replace (map Z.abs (repeat k n)) with (repeat (Z.abs k) n) by (clear; induction n; simpl; [reflexivity|f_equal; assumption]).
    rewrite zsum_repeat. nia.
  - rewrite repeat_length. nia.
  - exists m. split; [exact M|]. split; [exact F|]. rewrite V, zsum_repeat, repeat_length, mult_IZR.
    assert (N : (IZR (Z.of_nat n) <> 0)%R) by (apply IZR_neq; lia).
    replace (IZR (Z.of_nat n) * IZR k * bpow radix2 e / IZR (Z.of_nat n))%R with (IZR k * bpow radix2 e)%R by (field; exact N).
    rewrite Vx. apply rnd_fmt. apply fmt_scaled; nia.
Qed.

Lemma sq_dev_const : forall {E : Env} l m, fin m -> (forall a, In a l -> fin a /\ val a = val m) ->
  sum_sq_dev l m = f32_zero false.
Proof.
  intros E l m Fm. unfold sum_sq_dev. induction l as [|a l IH]; intros H; [reflexivity|].
  cbn [fold_left]. destruct (H a (or_introl eq_refl)) as [Fa Va].
  destruct (fsub_eq_zero a m Fa Fm Va) as [A B]. destruct (val_zero_inv _ A B) as [s S]. cbv zeta. rewrite S.
  replace (fadd (f32_zero false) (fmul (f32_zero s) (f32_zero s))) with (f32_zero false) by (destruct s; reflexivity).
  apply IH. intros b Hb. apply H. right. exact Hb.
Qed.

Lemma count_minus_one : forall {E : Env} n, (2 <= n)%nat -> Z.of_nat n <= 2 ^ 24 ->
  let d := fsub (f32_of_Z (Z.of_nat n)) F32_ONE in fin d /\ (1 <= val d)%R /\ sign_bit d = false.
Proof.
  intros E n Hn B d. destruct (f32_of_Z_exact (Z.of_nat n)) as [Fn Vn]; [lia|]. destruct one_val as [F1 V1].
  destruct (fsub_R (f32_of_Z (Z.of_nat n)) F32_ONE Fn F1) as [F V].
  - apply (small_lt_128 24); [lia|]. rewrite Vn, V1, <- minus_IZR, <- abs_IZR.
    change (bpow radix2 24) with (IZR (2 ^ 24)). apply IZR_le. lia.
  - assert (G : (1 <= val d)%R).
    { unfold d. rewrite V, Vn, V1, <- minus_IZR. rewrite rnd_fmt by (apply fmt_IZR; lia). apply IZR_le. lia. }
    split; [exact F|]. split; [exact G|]. destruct (sign_bit d) eqn:S; [|reflexivity].
    pose proof (sign_val_neg d S). lra.
Qed.

Lemma zero_div : forall {E : Env} s d, fin d -> (0 < val d)%R -> sign_bit d = false -> fdiv (f32_zero s) d = f32_zero s.
Proof.
  intros E s d F P S. destruct d as [b|b|b p H|b m e H]; try discriminate.
  - unfold val in P. simpl in P. lra.
  - unfold sign_bit in S. simpl in S. subst b. destruct s; reflexivity.
Qed.

Lemma variance_constant : forall {E : Env} x k e n, fin x -> val x = (IZR k * bpow radix2 e)%R -> -149 <= e <= 100 ->
  (2 <= n)%nat -> Z.of_nat n * Z.max 1 (Z.abs k) <= 2 ^ 24 ->
  variance (fun x => x) (repeat x n) = Ok (f32_zero false) /\
  stddev (fun x => x) (repeat x n) = Ok (from_bits 0x1FC00000) /\
  forall t, fin t -> (0 < val t)%R -> trim_at (fun x => x) (repeat x n) t = Ok (repeat x n).
Proof.
  intros E x k e n Fx Vx He Hn B.
  destruct (mean_constant x k e n Fx Vx He ltac:(lia) B) as (m & M & Fm & Vm).
  assert (M' : mean (map (fun x => x) (repeat x n)) = Ok m) by (rewrite map_id; exact M).
  assert (V : variance (fun x => x) (repeat x n) = Ok (f32_zero false)).
  { rewrite (variance_eq _ _ m M'), map_id. f_equal.
    rewrite sq_dev_const; [|exact Fm|intros a Ha; apply repeat_spec in Ha; subst a; split; [exact Fx|symmetry; exact Vm]].
    rewrite repeat_length. destruct (count_minus_one n Hn ltac:(nia)) as (Fd & Gd & Sd). apply zero_div; trivial. lra. }
  assert (S : stddev (fun x => x) (repeat x n) = Ok (from_bits 0x1FC00000)).
  { unfold stddev. rewrite V. cbn [bind]. apply sqrt_edges. }
  split; [exact V|]. split; [exact S|]. intros t Ft Pt.
  rewrite (trim_at_spec _ _ t m _ M' S). f_equal.
  assert (K : flt (fdiv (F32_abs (fsub x m)) (from_bits 0x1FC00000)) t = true).
  { destruct (fsub_eq_zero x m Fx Fm (eq_sym Vm)) as [A C]. destruct (val_zero_inv _ A C) as [s Z]. rewrite Z.
    replace (F32_abs (f32_zero s)) with (f32_zero false) by (apply to_bits_inj; destruct s; reflexivity).
    replace (fdiv (f32_zero false) (from_bits 0x1FC00000)) with (f32_zero false) by (apply to_bits_inj; vm_compute; reflexivity).
    rewrite flt_R by (trivial; reflexivity). apply Rlt_bool_true. unfold val at 1. simpl. exact Pt. }
  clear - K. induction n as [|n IH]; [reflexivity|]. cbn [repeat filter]. rewrite K. f_equal. exact IH.
Qed.

(** Without the size condition three equal samples can have a mean that differs from them. *)
Lemma mean_three : forall {E : Env}, exists c m v, fin c /\ (1 < val c < 2)%R /\
  mean [c; c; c] = Ok m /\ fin m /\ (val m < val c)%R /\
  variance (fun x => x) [c; c; c] = Ok v /\ fin v /\ (0 < val v)%R.
Proof.
  intros E. exists (from_bits 0x3FAAAAAE), (from_bits 0x3FAAAAAD), (from_bits 0x28C00000).
  split; [reflexivity|]. split; [lit 0x3FAAAAAE; bpow_lit; lra|].
  split; [apply ok_bits; vm_compute; reflexivity|]. split; [reflexivity|].
  split; [lit 0x3FAAAAAE; lit 0x3FAAAAAD; bpow_lit; lra|].
  split; [apply ok_bits; vm_compute; reflexivity|]. split; [reflexivity|].
  lit 0x28C00000. bpow_lit. lra.
Qed.

(** The mean depends on the order of the samples. *)
Lemma mean_order : forall {E : Env}, exists l l' m m', Permutation l l' /\ mean l = Ok m /\ mean l' = Ok m' /\
  fin m /\ fin m' /\ val m = 0%R /\ (0.3 < val m')%R.
Proof.
  intros E. exists [from_bits 0x4B800000; from_bits 0x3F800000; from_bits 0xCB800000],
    [from_bits 0x4B800000; from_bits 0xCB800000; from_bits 0x3F800000], (from_bits 0), (from_bits 0x3EAAAAAB).
  split; [apply perm_skip, perm_swap|].
  split; [apply ok_bits; vm_compute; reflexivity|]. split; [apply ok_bits; vm_compute; reflexivity|].
  split; [reflexivity|]. split; [reflexivity|]. split; [reflexivity|].
  lit 0x3EAAAAAB. bpow_lit. lra.
Qed.

(** ** Negated samples *)

Lemma negates_fneg : forall x, negates x (fneg x).
Proof.
  intros x. destruct (is_nan x) eqn:N; [left; split; [exact N|apply fneg_nan; exact N]|].
  destruct (is_finite x) eqn:F.
  - right. left. split; [exact F|]. split; [apply fneg_fin; exact F|apply fneg_val].
  - right. right. destruct x as [s|s|s p H|s m e H]; try discriminate. exists s. split; reflexivity.
Qed.

Lemma negates_zero : forall s s', negates (f32_zero s) (f32_zero s').
Proof. intros s s'. right. left. split; [reflexivity|]. split; [reflexivity|]. unfold val. simpl. ring. Qed.

(** Values outside the float range round to the infinity of the sign of the exact value. *)
Lemma fadd_over_sign : forall {E : Env} x y, fin x -> fin y -> is_finite (fadd x y) = false ->
  exists s, fadd x y = f32_inf s /\ sign_bit x = s /\ (bpow radix2 128 <= Rabs (rnd (val x + val y)))%R.
Proof.
  intros E x y Fx Fy H. destruct (Rlt_or_le (Rabs (rnd (val x + val y))) (bpow radix2 128)) as [L|L].
  - destruct (fadd_R x y Fx Fy L) as [F _]. unfold fin in F. congruence.
  - pose proof (Bplus_correct 24 128 prec24 emax128 nan_add mode_NE x y Fx Fy) as C.
    fold (fadd x y) in C. fold (val x) (val y) in C. change (round radix2 (SpecFloat.fexp 24 128) (round_mode mode_NE) (val x + val y)) with (rnd (val x + val y)) in C.
    rewrite Rlt_bool_false in C by exact L. destruct C as [C _].
    exists (sign_bit x). split; [|split; [reflexivity|exact L]].
    apply B2FF_inj. rewrite C. reflexivity.
Qed.

Lemma negates_fadd : forall {E : Env} a b a' b', negates a a' -> negates b b' -> negates (fadd a b) (fadd a' b').
Proof.
  intros E a b a' b' Ha Hb.
  destruct Ha as [[Na Na']|[(Fa & Fa' & Va)|(s & -> & ->)]].
  { left. split; apply fadd_nan; left; assumption. }
  - destruct Hb as [[Nb Nb']|[(Fb & Fb' & Vb)|(s & -> & ->)]].
    { left. split; apply fadd_nan; right; assumption. }
    + assert (RR : rnd (val a' + val b') = (- rnd (val a + val b))%R).
      { rewrite Va, Vb, <- rnd_opp. f_equal. ring. }
      destruct (Rlt_or_le (Rabs (rnd (val a + val b))) (bpow radix2 128)) as [L|L].
      * destruct (fadd_R a b Fa Fb L) as [F V].
        destruct (fadd_R a' b' Fa' Fb') as [F' V']; [rewrite RR, Rabs_Ropp; exact L|].
        right. left. split; [exact F|]. split; [exact F'|]. rewrite V', V. exact RR.
      * assert (I : is_finite (fadd a b) = false).
        { destruct (is_finite (fadd a b)) eqn:I; [exfalso|reflexivity].
          pose proof (Bplus_correct 24 128 prec24 emax128 nan_add mode_NE a b Fa Fb) as C.
          fold (fadd a b) in C. fold (val a) (val b) in C. change (round radix2 (SpecFloat.fexp 24 128) (round_mode mode_NE) (val a + val b)) with (rnd (val a + val b)) in C.
          rewrite Rlt_bool_false in C by exact L. destruct C as [C _].
          destruct (fadd a b); discriminate. }
        assert (I' : is_finite (fadd a' b') = false).
        { destruct (is_finite (fadd a' b')) eqn:I'; [exfalso|reflexivity].
          pose proof (Bplus_correct 24 128 prec24 emax128 nan_add mode_NE a' b' Fa' Fb') as C.
          fold (fadd a' b') in C. fold (val a') (val b') in C. change (round radix2 (SpecFloat.fexp 24 128) (round_mode mode_NE) (val a' + val b')) with (rnd (val a' + val b')) in C.
          rewrite Rlt_bool_false in C by (rewrite RR, Rabs_Ropp; exact L). destruct C as [C _].
          destruct (fadd a' b'); discriminate. }
        destruct (fadd_over_sign a b Fa Fb I) as (s & A & S & _).
        destruct (fadd_over_sign a' b' Fa' Fb' I') as (s' & A' & S' & _).
        right. right. exists s. rewrite A, A'. split; [reflexivity|]. f_equal.
        (* a is not zero, since one summand cannot overflow alone *)
        assert (Za : val a <> 0%R).
        { intros Z. rewrite Z, Rplus_0_l, rnd_fmt in L by apply fmt_val.
          pose proof (abs_B2R_lt_emax 24 128 b) as Q. fold (val b) in Q. lra. }
        rewrite <- S, <- S'. destruct (sign_bit a) eqn:Sa, (sign_bit a') eqn:Sa'; trivial; exfalso.
        -- pose proof (sign_val_neg a Sa). pose proof (sign_val_neg a' Sa'). lra.
        -- pose proof (sign_val_pos a Sa). pose proof (sign_val_pos a' Sa'). lra.
    + right. right. exists s. destruct a as [q|q|q p H|q m e H]; try discriminate;
        destruct a' as [q'|q'|q' p' H'|q' m' e' H']; try discriminate; split; reflexivity.
  - destruct Hb as [[Nb Nb']|[(Fb & Fb' & Vb)|(s' & -> & ->)]].
    { left. split; apply fadd_nan; right; assumption. }
    + right. right. exists s. destruct b as [q|q|q p H|q m e H]; try discriminate;
        destruct b' as [q'|q'|q' p' H'|q' m' e' H']; try discriminate; split; reflexivity.
    + destruct s, s'; try (right; right; eexists; split; reflexivity); left; split; refine (build_nan_nan _).
Qed.

Lemma negates_same_l : forall a b c, same a b -> negates a c -> negates b c.
Proof.
  intros a b c [->|[A B]] H; [exact H|]. destruct H as [[N N']|[(F & F' & V)|(s & -> & ->)]].
  - left. split; assumption.
  - unfold fin, nan in *. rewrite (fin_not_nan a F) in A. discriminate.
  - discriminate A.
Qed.
Lemma negates_same_r : forall a b c, same a b -> negates c a -> negates c b.
Proof.
  intros a b c [->|[A B]] H; [exact H|]. destruct H as [[N N']|[(F & F' & V)|(s & -> & ->)]].
  - left. split; assumption.
  - unfold fin, nan in *. rewrite (fin_not_nan a F') in A. discriminate.
  - discriminate A.
Qed.
Lemma negates_neg_both : forall a b, negates a b -> negates (fneg a) (fneg b).
Proof.
  intros a b [[N N']|[(F & F' & V)|(s & -> & ->)]].
  - left. split; apply fneg_nan; assumption.
  - right. left. split; [apply fneg_fin; exact F|]. split; [apply fneg_fin; exact F'|]. rewrite !fneg_val, V. reflexivity.
  - right. right. exists (negb s). split; reflexivity.
Qed.

Lemma negates_fsub : forall {E : Env} a b a' b', negates a a' -> negates b b' -> negates (fsub a b) (fsub a' b').
Proof.
  intros E a b a' b' Ha Hb.
  pose proof (negates_fadd a (fneg b) a' (fneg b') Ha (negates_neg_both _ _ Hb)) as H.
  pose proof (fsub_fneg a (fneg b)) as S. pose proof (fsub_fneg a' (fneg b')) as S'.
  rewrite fneg_involutive in S, S'.
  assert (Y : forall x y, same x y -> same y x) by (intros x y [->|[A B]]; [left; reflexivity|right; split; assumption]).
  apply (negates_same_l _ _ _ (Y _ _ S)). apply (negates_same_r _ _ _ (Y _ _ S')). exact H.
Qed.

Lemma negates_fdiv : forall {E : Env} a a' d, negates a a' -> fin d -> (1 <= val d)%R -> sign_bit d = false ->
  negates (fdiv a d) (fdiv a' d).
Proof.
  intros E a a' d Ha Fd Vd Sd.
  destruct Ha as [[Na Na']|[(Fa & Fa' & Va)|(s & -> & ->)]].
  - left. split; apply fdiv_nan; left; assumption.
  - assert (I : (0 < / val d <= 1)%R).
    { split; [apply Rinv_0_lt_compat; lra|]. rewrite <- Rinv_1. apply Rinv_le_contravar; lra. }
    assert (G : forall z, fin z -> (Rabs (rnd (val z / val d)) < bpow radix2 128)%R).
    { intros z Fz. apply Rle_lt_trans with (Rabs (val z)); [|apply abs_B2R_lt_emax].
      assert (Q : (Rabs (val z / val d) <= Rabs (val z))%R).
      { unfold Rdiv. rewrite Rabs_mult, (Rabs_pos_eq (/ val d)) by lra. pose proof (Rabs_pos (val z)). nra. }
      assert (FM : fmt (Rabs (val z))) by (apply generic_format_abs; apply fmt_val).
      apply Rabs_le_inv in Q. apply Rabs_le. rewrite <- (rnd_fmt _ FM), <- rnd_opp. split; apply rnd_le; lra. }
    destruct (fdiv_R a d Fa Fd ltac:(lra) (G a Fa)) as [F V].
    destruct (fdiv_R a' d Fa' Fd ltac:(lra) (G a' Fa')) as [F' V'].
    right. left. split; [exact F|]. split; [exact F'|]. rewrite V', V, Va, <- rnd_opp. f_equal. field. lra.
  - right. right. exists s. destruct d as [b|b|b p H|b m e H]; try discriminate.
    + unfold val in Vd. simpl in Vd. lra.
    + unfold sign_bit in Sd. simpl in Sd. subst b. destruct s; split; reflexivity.
Qed.

Lemma negates_sq : forall {E : Env} a a', negates a a' -> same (fmul a a) (fmul a' a').
Proof.
  intros E a a' [[N N']|[(F & F' & V)|(s & -> & ->)]].
  - right. split; apply fmul_nan; left; assumption.
  - destruct (Req_dec (val a) 0) as [Z|Z].
    + destruct (val_zero_inv a F Z) as [s ->]. destruct (val_zero_inv a' F') as [s' ->]; [rewrite V, Z; ring|].
      left. destruct s, s'; reflexivity.
    + assert (A : a' = fneg a).
      { apply val_inj_nz; [exact F'|apply fneg_fin; exact F|rewrite fneg_val; exact V|rewrite V; lra]. }
      rewrite A. destruct (fmul_neg_neg_same a) as [Q|[Q Q']]; [left; symmetry; exact Q|right; split; assumption].
  - left. destruct s; reflexivity.
Qed.

Lemma negates_abs : forall a a', negates a a' -> same (F32_abs a) (F32_abs a').
Proof.
  intros a a' [[N N']|[(F & F' & V)|(s & -> & ->)]].
  - right. split; unfold nan; rewrite abs_is_nan; assumption.
  - left. apply fin_dec_eq.
    + unfold fin. rewrite abs_fin. exact F.
    + unfold fin. rewrite abs_fin. exact F'.
    + rewrite !abs_val, V, Rabs_Ropp. reflexivity.
    + rewrite !abs_sign. reflexivity.
  - left. apply to_bits_inj. destruct s; reflexivity.
Qed.

Lemma same_op2 : forall (f : f32 -> f32 -> f32), (forall x y, nan x \/ nan y -> nan (f x y)) ->
  forall a b a' b', same a a' -> same b b' -> same (f a b) (f a' b').
Proof.
  intros f Hf a b a' b' [->|[A A']] [->|[B B']]; [left; reflexivity| | |]; right; split; apply Hf; auto.
Qed.

Lemma mean_negates : forall {E : Env} l l', Z.of_nat (length l) < 2 ^ 31 -> (0 < length l)%nat -> Forall2 negates l l' ->
  exists m m', mean l = Ok m /\ mean l' = Ok m' /\ negates m m'.
Proof.
  intros E l l' L P H. assert (LL : length l' = length l) by (clear - H; induction H as [|a a' l l' _ _ IH]; simpl; [reflexivity|f_equal; exact IH]).
  rewrite !mean_spec by lia. do 2 eexists. split; [reflexivity|]. split; [reflexivity|]. rewrite LL.
  destruct (f32_of_Z_R (Z.of_nat (length l))) as [Fn Vn].
  { assert (2 ^ 31 <= 2 ^ 127) by (apply Z.pow_le_mono_r; lia). lia. }
  assert (Gn : (1 <= val (f32_of_Z (Z.of_nat (length l))))%R).
  { rewrite Vn. apply Rle_trans with (rnd 1); [rewrite rnd_fmt; [lra|apply (fmt_IZR 1); lia]|]. apply rnd_le. apply IZR_le. lia. }
  apply negates_fdiv; trivial.
  - clear - H. assert (G : forall s s', negates s s' -> negates (fold_left fadd l s) (fold_left fadd l' s')).
    { induction H as [|a a' l l' Ha H IH]; intros s s' S; [exact S|]. cbn [fold_left]. apply IH. apply negates_fadd; assumption. }
    apply G. apply negates_zero.
  - destruct (sign_bit _) eqn:S; [|reflexivity]. pose proof (sign_val_neg _ S). lra.
Qed.

Lemma sq_dev_negates : forall {E : Env} l l' m m', Forall2 negates l l' -> negates m m' ->
  same (sum_sq_dev l m) (sum_sq_dev l' m').
Proof.
  intros E l l' m m' H M. unfold sum_sq_dev.
  assert (G : forall s s', same s s' ->
    same (fold_left (fun sum item => let n := fsub item m in fadd sum (fmul n n)) l s)
         (fold_left (fun sum item => let n := fsub item m' in fadd sum (fmul n n)) l' s')).
  { induction H as [|a a' l l' Ha H IH]; intros s s' S; [exact S|]. cbn [fold_left]. cbv zeta. apply IH.
    apply same_op2; [apply fadd_nan|exact S|]. apply negates_sq. apply negates_fsub; assumption. }
  apply G. left. reflexivity.
Qed.

Lemma stats_negated : forall {E : Env} {T} (into : T -> f32) l, l <> [] -> Z.of_nat (length l) < 2 ^ 31 ->
  exists m m' v v' s s',
    mean (map into l) = Ok m /\ mean (map (fun x => fneg (into x)) l) = Ok m' /\ negates m m' /\
    variance into l = Ok v /\ variance (fun x => fneg (into x)) l = Ok v' /\ same v v' /\
    stddev into l = Ok s /\ stddev (fun x => fneg (into x)) l = Ok s' /\ same s s' /\
    forall t, trim_at (fun x => fneg (into x)) l t = trim_at into l t.
Proof.
  intros E T into l NE L.
  assert (H : Forall2 negates (map into l) (map (fun x => fneg (into x)) l)).
  { clear. induction l as [|a l IH]; [constructor|]. cbn [map]. constructor; [apply negates_fneg|exact IH]. }
  destruct (mean_negates (map into l) (map (fun x => fneg (into x)) l)) as (m & m' & M & M' & N).
  { rewrite map_length. exact L. }
  { rewrite map_length. destruct l; [congruence|simpl; lia]. }
  { exact H. }
  pose proof (variance_eq into l m M) as V. pose proof (variance_eq (fun x => fneg (into x)) l m' M') as V'.
  set (v := fdiv (sum_sq_dev (map into l) m) (fsub (f32_of_Z (Z.of_nat (length l))) F32_ONE)) in *.
  set (v' := fdiv (sum_sq_dev (map (fun x => fneg (into x)) l) m') (fsub (f32_of_Z (Z.of_nat (length l))) F32_ONE)) in *.
  assert (SV : same v v').
  { unfold v, v'. apply same_op2; [apply fdiv_nan|apply sq_dev_negates; assumption|left; reflexivity]. }
  destruct (sqrt_total v) as [s S]. destruct (sqrt_total v') as [s' S'].
  assert (D : stddev into l = Ok s) by (unfold stddev; rewrite V; exact S).
  assert (D' : stddev (fun x => fneg (into x)) l = Ok s') by (unfold stddev; rewrite V'; exact S').
  assert (SS : same s s').
  { destruct SV as [Q|[Q Q']]; [left; rewrite Q in S; congruence|].
    right. split.
    - destruct (sqrt_neg_nan v) as (z & Z & Zn); [left; exact Q|]. rewrite S in Z. injection Z as ->. exact Zn.
    - destruct (sqrt_neg_nan v') as (z & Z & Zn); [left; exact Q'|]. rewrite S' in Z. injection Z as ->. exact Zn. }
  exists m, m', v, v', s, s'. repeat (split; [assumption|]).
  intros t. rewrite (trim_at_spec into l t m s M D), (trim_at_spec _ l t m' s' M' D'). f_equal.
  apply filter_ext. intros a.
  assert (Q : same (fdiv (F32_abs (fsub (fneg (into a)) m')) s') (fdiv (F32_abs (fsub (into a) m)) s)).
  { assert (Y : forall x y, same x y -> same y x) by (intros x y [->|[A B]]; [left; reflexivity|right; split; assumption]).
    apply Y. apply same_op2; [apply fdiv_nan| |exact SS]. apply negates_abs. apply negates_fsub; [apply negates_fneg|exact N]. }
  destruct Q as [->|[Q Q']]; [reflexivity|]. rewrite !flt_nan by (left; assumption). reflexivity.
Qed.
