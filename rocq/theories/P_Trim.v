(** * Proofs for C120: how many samples trim can drop *)

From Coq Require Import ZArith Reals Bool List Lia Lra Psatz.
From Flocq Require Import Core IEEE754.BinarySingleNaN IEEE754.Binary IEEE754.Bits.
From Verif Require Import Base Spec SpecMore Float Stats F32Lemmas BitLemmas P_Trunc P_Floor Literals ErrLemmas P_RoundEdge NanLemmas
  P_Euclid P_Roots P_InvSqrt P_SumSq P_Stats P_Stats2 P_Stats3 P_Atan P_Powf P_Sign P_Scale4 P_Mono P_Scale P_Powi.
Import ListNotations.
Open Scope Z_scope.

Lemma u24_pos : (0 < u24)%R.
Proof. unfold u24. lra. Qed.

(** ** sqrt never undershoots, subnormal arguments included *)

Lemma sqrt_lower : forall {E : Env} x, fin x -> sign_bit x = false ->
  exists z, F32_sqrt x = Ok z /\ fin z /\ (3 / 2 * bpow radix2 (-64) <= val z)%R /\ ((1 - u24) * (1 - u24) * val x <= val z * val z)%R.
Proof.
  intros E x F S.
  assert (Z0 : F32_sqrt (f32_zero false) = Ok (from_bits 0x1FC00000)) by (apply ok_bits; vm_compute; reflexivity).
  assert (V0 : val (from_bits 0x1FC00000) = (3 / 2 * bpow radix2 (-64))%R).
  { destruct (mk_val 63 (2 ^ 22) ltac:(lia) ltac:(lia)) as (_ & _ & _ & V). cbv zeta in V. change (63 * 2 ^ 23 + 2 ^ 22) with 0x1FC00000 in V. rewrite V.
    change (IZR (2 ^ 22)) with 4194304%R. change (IZR (2 ^ 23)) with 8388608%R. change (63 - 127) with (-64). lra. }
  destruct (sqrt_monotone (f32_zero false) x) as (a & z & A & B & Fa & Fz & L); trivial; [apply fin_not_nan; exact F| |].
  { rewrite fle_R by (exact F || reflexivity). apply Rle_bool_true. change (val (f32_zero false)) with 0%R. apply sign_val_pos. exact S. }
  rewrite Z0 in A. apply Ok_inj in A. subst a. rewrite V0 in L.
  exists z. split; [exact B|]. split; [exact Fz|]. split; [apply L|].
  destruct (Rle_or_lt (bpow radix2 (-126)) (val x)) as [N|N].
  - destruct (sqrt_square_bounds x (conj F N)) as (z' & B' & _ & _ & D). rewrite B in B'. apply Ok_inj in B'. subst z'. rewrite u24_eq in D. exact D.
  - assert (X0 : bexp (to_bits x) = 0).
    { pose proof (bexp_range (to_bits x)). assert (bexp (to_bits x) < -126 + 127); [|lia]. apply bexp_lt; trivial; [lia|].
      rewrite Rabs_pos_eq; [exact N|apply sign_val_pos; exact S]. }
    rewrite (val_subnormal x F X0). unfold sgn. rewrite S. rewrite Rmult_1_l.
    rewrite sqrt_pos_bits in B by (exact S || apply fin_not_nan; exact F). apply Ok_inj in B.
    pose proof (to_bits_range x) as TR. destruct (bits_split _ TR) as [BS SB]. rewrite X0 in BS.
    assert (S0 : bsign (to_bits x) = 0).
    { destruct (fields x) as [Fs _]. rewrite Fs, S. reflexivity. }
    rewrite S0 in BS. pose proof (bman_range (to_bits x)) as MR. set (m := bman (to_bits x)) in *.
    assert (TB : to_bits x = m) by lia. rewrite TB in B.
    assert (Q : (m + 0x3F800000) / 2 = 63 * 2 ^ 23 + (2 ^ 22 + m / 2)).
    { replace (m + 0x3F800000) with (m + (63 * 2 ^ 23 + 2 ^ 22) * 2) by lia. rewrite Z.div_add by lia. lia. }
    assert (M2 : 0 <= m / 2 < 2 ^ 22) by (split; [apply Z.div_pos|apply Z.div_lt_upper_bound]; lia).
    rewrite Q in B. destruct (mk_val 63 (2 ^ 22 + m / 2) ltac:(lia) ltac:(lia)) as (_ & _ & _ & V). rewrite B in V. change (63 - 127) with (-64) in V.
    rewrite V. assert (HM : (IZR m - 1 <= 2 * IZR (m / 2))%R).
    { pose proof (Z.div_mod m 2 ltac:(lia)). pose proof (Z.mod_pos_bound m 2 ltac:(lia)). rewrite <- minus_IZR, <- mult_IZR. apply IZR_le. lia. }
    assert (HR : (0 <= IZR m <= 8388607)%R) by (split; apply IZR_le; lia).
    set (h := IZR (m / 2)) in *. rewrite plus_IZR. fold h. change (IZR (2 ^ 22)) with 4194304%R. change (IZR (2 ^ 23)) with 8388608%R.
    set (w := IZR m) in *. clearbody w h. clear - HM HR.
    replace (bpow radix2 (-149)) with (bpow radix2 (-64) * bpow radix2 (-64) * / 2097152)%R.
    2:{ rewrite <- bpow_plus. change (/ 2097152)%R with (bpow radix2 (-21)). rewrite <- bpow_plus. reflexivity. }
    pose proof (bpow_gt_0 radix2 (-64)) as P. set (b := bpow radix2 (-64)) in *. clearbody b.
    assert (P2 : (0 < b * b)%R) by (apply Rmult_lt_0_compat; assumption).
    set (k := (w / 8388608)%R).
    assert (K : (0 <= k <= 1)%R) by (unfold k; lra).
    assert (T : ((1 - u24) * (3 / 2 + k / 2) <= 1 + (4194304 + h) / 8388608)%R) by (unfold k, u24; lra).
    assert (G : (4 * k <= (3 / 2 + k / 2) * (3 / 2 + k / 2))%R) by nra.
    set (g := (1 + (4194304 + h) / 8388608)%R) in *.
    assert (GG : ((1 - u24) * (3 / 2 + k / 2) * ((1 - u24) * (3 / 2 + k / 2)) <= g * g)%R).
    { apply Rmult_le_compat; trivial; unfold u24; apply Rmult_le_pos; lra. }
    replace (g * b * (g * b))%R with (g * g * (b * b))%R by ring.
    replace ((1 - u24) * (1 - u24) * (w * (b * b * / 2097152)))%R with ((1 - u24) * (1 - u24) * (4 * k) * (b * b))%R by (unfold k; field).
    apply Rmult_le_compat_r; [lra|]. eapply Rle_trans; [|exact GG].
    replace ((1 - u24) * (3 / 2 + k / 2) * ((1 - u24) * (3 / 2 + k / 2)))%R with ((1 - u24) * (1 - u24) * ((3 / 2 + k / 2) * (3 / 2 + k / 2)))%R by ring.
    apply Rmult_le_compat_l; [apply Rmult_le_pos; unfold u24; lra|exact G].
Qed.

(** ** The sum of squares from below *)

Definition sqd {E : Env} (m x : f32) : R := val (fmul (fsub x m) (fsub x m)).

Lemma sq_nn : forall {E : Env} x, fin (fmul x x) -> (0 <= val (fmul x x))%R.
Proof.
  intros E x F. pose proof (mul_fin_l _ _ F) as Fx. rewrite fmul_fin_val by assumption. apply rnd_nonneg. apply Rle_0_sqr.
Qed.

Lemma sum_sq_fin : forall {E : Env} l m s, fin (fold_left (fun sum item => fadd sum (fmul (fsub item m) (fsub item m))) l s) ->
  fin s /\ Forall (fun x => fin (fmul (fsub x m) (fsub x m))) l.
Proof.
  intros E l m. induction l as [|a l IH]; intros s H; [split; [exact H|constructor]|]. cbn [fold_left] in H.
  destruct (IH _ H) as [A B]. destruct (add_fin_both _ _ A) as [C D]. split; [exact C|constructor; assumption].
Qed.

Definition rlist (l : list R) : R := fold_right Rplus 0%R l.

Lemma rlist_app : forall l a, rlist (l ++ [a]) = (rlist l + a)%R.
Proof. intros l a. unfold rlist. induction l as [|b l IH]; cbn; [ring|]. rewrite IH. ring. Qed.

Lemma sum_sq_lower : forall {E : Env} m l, fin (sum_sq_dev l m) -> Z.of_nat (length l) <= 2 ^ 20 ->
  (0 <= rlist (map (sqd m) l) /\ (1 - INR (length l) * u24) * rlist (map (sqd m) l) <= val (sum_sq_dev l m))%R.
Proof.
  intros E m l. unfold sum_sq_dev. cbv zeta. induction l as [|a l IH] using rev_ind; intros F K.
  - cbn. change (val (f32_zero false)) with 0%R. lra.
  - rewrite fold_left_app in *. cbn [fold_left] in *. rewrite app_length in *. cbn [length] in *.
    destruct (add_fin_both _ _ F) as [Fs Fq]. destruct (IH Fs ltac:(lia)) as [P L].
    rewrite map_app. cbn [map]. rewrite rlist_app. fold (sqd m a). pose proof (sq_nn _ Fq) as Q. fold (sqd m a) in Q.
    rewrite plus_INR. change (INR 1) with 1%R.
    rewrite fadd_fin_val by assumption. fold (sqd m a).
    set (s := fold_left _ l _) in *. clearbody s.
    pose proof (rnd_plus_rel (val s) (sqd m a) (fmt_val s)) as R. specialize (R ltac:(apply fmt_val)).
    assert (n1 : (0 <= INR (length l) <= 1048576)%R) by (split; [apply pos_INR|apply INR_small; lia]).
    set (n := INR (length l)) in *. set (T := rlist (map (sqd m) l)) in *. set (q := sqd m a) in *. clearbody n T q.
    assert (nu : (0 <= n * u24 <= / 16)%R) by (unfold u24; lra).
    assert (S0 : (0 <= val s)%R) by (eapply Rle_trans; [|exact L]; apply Rmult_le_pos; lra).
    rewrite (Rabs_pos_eq (val s + q)) in R by lra. apply Rabs_le_inv in R. split; [lra|].
    assert (Lo : ((1 - u24) * (val s + q) <= rnd (val s + q))%R) by lra.
    eapply Rle_trans; [|exact Lo].
    assert (H : ((1 - u24) * ((1 - n * u24) * T + q) <= (1 - u24) * (val s + q))%R) by (apply Rmult_le_compat_l; [unfold u24|]; lra).
    eapply Rle_trans; [|exact H]. pose proof u24_pos.
    assert (0 <= n * u24 * (u24 * T))%R by (apply Rmult_le_pos; [lra|apply Rmult_le_pos; lra]).
    assert (0 <= n * u24 * q)%R by (apply Rmult_le_pos; lra).
    lra.
Qed.

(** ** A dropped sample *)

Lemma dropped_far : forall {E : Env} d s t, fin d -> fin s -> (0 < val s)%R -> fin t -> (1 <= val t)%R ->
  flt (fdiv (F32_abs d) s) t = false -> (val s * val t * (1 - u24) <= Rabs (val d))%R.
Proof.
  intros E d s t Fd Fs Ps Ft Pt H. destruct (Rle_or_lt (val s * val t * (1 - u24)) (Rabs (val d))) as [L|L]; [exact L|]. exfalso.
  assert (Fa : fin (F32_abs d)) by (unfold fin; rewrite abs_fin; exact Fd).
  set (q := (Rabs (val d) / val s)%R).
  assert (Q0 : (0 <= q)%R) by (apply Rmult_le_pos; [apply Rabs_pos|apply Rlt_le, Rinv_0_lt_compat; exact Ps]).
  assert (Q1 : (q < val t * (1 - u24))%R).
  { unfold q. apply Rmult_lt_reg_r with (val s); [exact Ps|]. unfold Rdiv. rewrite Rmult_assoc, Rinv_l by lra. lra. }
  assert (R : (rnd q < val t)%R).
  { destruct (Rle_or_lt (bpow radix2 (-126)) q) as [N|N].
    - pose proof (rnd_rel q) as R. rewrite Rabs_pos_eq in R by exact Q0. specialize (R N). rewrite u24_eq in R. apply Rabs_le_inv in R.
      assert (0 <= q * u24)%R by (apply Rmult_le_pos; [|pose proof u24_pos]; lra).
      assert (q * (1 + u24) < val t)%R; [|lra].
      apply Rle_lt_trans with (val t * (1 - u24) * (1 + u24))%R; [apply Rmult_le_compat_r; [unfold u24; lra|lra]|].
      assert (0 < val t * (u24 * u24))%R by (apply Rmult_lt_0_compat; [lra|apply Rmult_lt_0_compat; apply u24_pos]). lra.
    - apply Rle_lt_trans with (bpow radix2 (-126)).
      + rewrite <- (rnd_fmt (bpow radix2 (-126))) by (apply fmt_bpow; lia). apply rnd_le. lra.
      + apply Rlt_le_trans with 1%R; [|exact Pt]. change 1%R with (bpow radix2 0). apply bpow_lt. lia. }
  assert (RN : (0 <= rnd q)%R) by (apply rnd_nonneg; exact Q0).
  destruct (fdiv_R (F32_abs d) s Fa Fs ltac:(lra)) as [F V].
  { rewrite abs_val. fold q. rewrite Rabs_pos_eq by exact RN. eapply Rlt_trans; [exact R|]. eapply Rle_lt_trans; [apply Rle_abs|]. apply abs_B2R_lt_emax. }
  rewrite flt_R in H by assumption. rewrite V, abs_val in H. fold q in H. rewrite Rlt_bool_true in H by exact R. discriminate.
Qed.

(** ** The count *)

Lemma count_drop : forall {A} (f : A -> bool) (g : A -> R) c (l : list A), (0 <= c)%R ->
  (forall a, In a l -> 0 <= g a)%R -> (forall a, In a l -> f a = false -> c <= g a)%R ->
  (INR (length l - length (filter f l)) * c <= rlist (map g l))%R.
Proof.
  intros A f g c l C. induction l as [|a l IH]; intros P H; [cbn; lra|].
  assert (IHl := IH (fun b I => P b (or_intror I)) (fun b I => H b (or_intror I))). clear IH.
  cbn [filter length map rlist fold_right]. fold (rlist (map g l)).
  assert (LE : (length (filter f l) <= length l)%nat) by (clear; induction l as [|a l IH]; cbn; [lia|destruct (f a); cbn; lia]).
  destruct (f a) eqn:Fa.
  - cbn [length]. replace (Datatypes.S (length l) - Datatypes.S (length (filter f l)))%nat with (length l - length (filter f l))%nat by lia.
    pose proof (P a (or_introl eq_refl)). lra.
  - replace (Datatypes.S (length l) - length (filter f l))%nat with (Datatypes.S (length l - length (filter f l))) by lia.
    rewrite S_INR. pose proof (H a (or_introl eq_refl) Fa). lra.
Qed.

Lemma trim_at_count : forall {E : Env} {T} (into : T -> f32) l t v r, 2 <= Z.of_nat (length l) <= 2 ^ 20 ->
  variance into l = Ok v -> fin v -> fin t -> (1 <= val t)%R -> trim_at into l t = Ok r ->
  let n := INR (length l) in let k := INR (length l - length r) in
  (k * (val t * val t) * (1 - (n + 10) * bpow radix2 (-24)) <= n - 1)%R.
Proof.
  intros E T into l t v r K V Fv Ft Pt H n k.
  destruct (stddev_total into l ltac:(lia)) as (m & v' & sd & Em & Ev & Es). rewrite V in Ev. apply Ok_inj in Ev. subst v'.
  rewrite (trim_at_spec into l t m sd Em Es) in H. injection H as <-.
  pose proof (variance_eq into l m Em) as VE. rewrite V in VE. apply Ok_inj in VE.
  destruct (count_minus_one_val (Z.of_nat (length l)) ltac:(lia)) as [Fc Vc]. cbv zeta in Fc, Vc.
  rewrite minus_IZR, <- INR_IZR_INZ in Vc. fold n in Vc.
  assert (n2 : (2 <= n)%R) by (unfold n; change 2%R with (INR 2); apply le_INR; lia).
  assert (n1 : (n <= 1048576)%R) by (apply INR_small; lia).
  set (c := fsub (f32_of_Z (Z.of_nat (length l))) F32_ONE) in *. set (S := sum_sq_dev (map into l) m) in *.
  assert (FS : fin S).
  { destruct (is_finite S) eqn:G; [exact G|]. exfalso. unfold fin in Fv. rewrite VE, fdiv_nonfinite in Fv by (exact G || exact Fc). discriminate. }
  assert (Sv : sign_bit v = false).
  { destruct (variance_nonneg into l v ltac:(intros ->; cbn in K; lia) ltac:(lia) V) as [Q|Q]; [|exact Q]. pose proof (fin_not_nan _ Fv). unfold nan in Q. congruence. }
  unfold stddev in Es. rewrite V in Es. cbn [bind] in Es.
  destruct (sqrt_lower v Fv Sv) as (z & Ez & Fz & Z1 & Z2). rewrite Es in Ez. apply Ok_inj in Ez. subst z.
  pose proof (bpow_gt_0 radix2 (-64)) as B64. assert (Ps : (0 < val sd)%R) by lra.
  assert (SL := sum_sq_lower m (map into l) FS). rewrite map_length in SL. specialize (SL ltac:(lia)). destruct SL as [SL0 SL]. fold n S in SL.
  assert (S0 : (0 <= val S)%R).
  { eapply Rle_trans; [|exact SL]. apply Rmult_le_pos; [unfold u24; lra|exact SL0]. }
  destruct (sum_sq_fin (map into l) m (f32_zero false) FS) as [_ FQ]. rewrite Forall_forall in FQ.
  (* the dropped samples *)
  set (st := (val sd * val t)%R). assert (ST : (3 / 2 * bpow radix2 (-64) <= st)%R).
  { unfold st. rewrite <- (Rmult_1_r (3 / 2 * bpow radix2 (-64))). apply Rmult_le_compat; lra. }
  assert (ST2 : (bpow radix2 (-127) <= st * st * (1 - u24) * (1 - u24))%R).
  { replace (bpow radix2 (-127)) with (2 * (bpow radix2 (-64) * bpow radix2 (-64)))%R.
    2:{ rewrite <- bpow_plus. change 2%R with (bpow radix2 1). rewrite <- bpow_plus. reflexivity. }
    set (b := bpow radix2 (-64)) in *. clearbody b.
    assert ((3 / 2 * b * (1 - u24)) * (3 / 2 * b * (1 - u24)) <= (st * (1 - u24)) * (st * (1 - u24)))%R.
    { apply Rmult_le_compat; unfold u24; lra. }
    assert (2 * (b * b) <= (3 / 2 * b * (1 - u24)) * (3 / 2 * b * (1 - u24)))%R; [|lra].
    assert (0 < b * b)%R by (apply Rmult_lt_0_compat; lra).
    replace (3 / 2 * b * (1 - u24) * (3 / 2 * b * (1 - u24)))%R with (9 / 4 * ((1 - u24) * (1 - u24)) * (b * b))%R by field. unfold u24. lra. }
  assert (CD := count_drop (fun x => flt (fdiv (F32_abs (fsub (into x) m)) sd) t) (fun x => sqd m (into x)) (st * st * (1 - 5 * u24)) l).
  cbv beta in CD. fold k in CD. rewrite <- (map_map into (sqd m) l) in CD.
  assert (C : (k * (st * st * (1 - 5 * u24)) <= rlist (map (sqd m) (map into l)))%R).
  { apply CD.
    - apply Rmult_le_pos; [apply Rle_0_sqr|unfold u24; lra].
    - intros a I. apply sq_nn. apply FQ. apply in_map. exact I.
    - intros a I D. assert (Fa := FQ _ (in_map into _ _ I)). pose proof (mul_fin_l _ _ Fa) as Fd.
      pose proof (dropped_far _ sd t Fd Fz Ps Ft Pt D) as FAR. fold st in FAR. unfold sqd. rewrite fmul_fin_val by assumption.
      set (d := val (fsub (into a) m)) in *.
      pose proof (rnd_err_mixed (d * d)) as R. rewrite u24_eq in R. rewrite (Rabs_pos_eq (d * d)) in R by apply Rle_0_sqr. apply Rabs_le_inv in R.
      assert (DD : ((st * (1 - u24)) * (st * (1 - u24)) <= d * d)%R).
      { replace (d * d)%R with (Rabs d * Rabs d)%R by (rewrite <- Rabs_mult; apply Rabs_pos_eq, Rle_0_sqr).
        apply Rmult_le_compat; trivial; apply Rmult_le_pos; unfold u24; lra. }
      assert (ET : (bpow radix2 (-150) <= 2 * u24 * (d * d))%R).
      { replace (bpow radix2 (-150)) with (2 * u24 * bpow radix2 (-127))%R.
        2:{ rewrite <- u24_eq. change 2%R with (bpow radix2 1). rewrite <- !bpow_plus. reflexivity. }
        apply Rmult_le_compat_l; [unfold u24; lra|]. lra. }
      apply Rle_trans with ((1 - 3 * u24) * (d * d))%R; [|lra].
      apply Rle_trans with ((1 - 3 * u24) * ((st * (1 - u24)) * (st * (1 - u24))))%R; [|apply Rmult_le_compat_l; [unfold u24|]; lra].
      replace ((1 - 3 * u24) * ((st * (1 - u24)) * (st * (1 - u24))))%R with (st * st * ((1 - 3 * u24) * ((1 - u24) * (1 - u24))))%R by ring.
      apply Rmult_le_compat_l; [apply Rle_0_sqr|]. unfold u24. lra. }
  (* the variance against the sum *)
  set (y := (val S / (n - 1))%R).
  assert (Y0 : (0 <= y)%R) by (apply Rmult_le_pos; [exact S0|apply Rlt_le, Rinv_0_lt_compat; lra]).
  assert (SY : val S = (y * (n - 1))%R) by (unfold y; field; lra).
  assert (VY : val v = rnd y).
  { rewrite VE. destruct (fdiv_R S c FS Fc) as [_ W]; [rewrite Vc; lra| |rewrite W, Vc; reflexivity].
    rewrite Vc. fold y. rewrite Rabs_pos_eq by (apply rnd_nonneg; exact Y0).
    apply Rle_lt_trans with (val S); [|eapply Rle_lt_trans; [apply Rle_abs|apply abs_B2R_lt_emax]].
    rewrite <- (rnd_fmt (val S)) by apply fmt_val. apply rnd_le. rewrite SY. rewrite <- (Rmult_1_r y) at 1. apply Rmult_le_compat_l; lra. }
  set (s2 := (val sd * val sd)%R) in *.
  assert (S2 : (9 / 4 * (bpow radix2 (-64) * bpow radix2 (-64)) <= s2)%R).
  { replace (9 / 4 * (bpow radix2 (-64) * bpow radix2 (-64)))%R with ((3 / 2 * bpow radix2 (-64)) * (3 / 2 * bpow radix2 (-64)))%R by field.
    apply Rmult_le_compat; lra. }
  rewrite <- bpow_plus in S2. change (-64 + -64) with (-128) in S2.
  assert (YS : ((1 - 5 * u24) * y <= s2)%R).
  { destruct (Rle_or_lt y (9 / 4 * bpow radix2 (-128))) as [Q|Q].
    - apply Rle_trans with y; [|lra]. rewrite <- (Rmult_1_l y) at 2. apply Rmult_le_compat_r; [exact Y0|unfold u24; lra].
    - pose proof (rnd_err_mixed y) as R. rewrite u24_eq in R. rewrite (Rabs_pos_eq y) in R by exact Y0. apply Rabs_le_inv in R.
      assert (ET : (bpow radix2 (-150) <= 2 * u24 * y)%R).
      { replace (bpow radix2 (-150)) with (4 * u24 * bpow radix2 (-128))%R.
        2:{ rewrite <- u24_eq. change 4%R with (bpow radix2 2). rewrite <- !bpow_plus. reflexivity. }
        pose proof (bpow_gt_0 radix2 (-128)). unfold u24. lra. }
      rewrite VY in Z2. assert (RL : ((1 - 3 * u24) * y <= rnd y)%R) by lra.
      apply Rle_trans with ((1 - u24) * (1 - u24) * ((1 - 3 * u24) * y))%R.
      + rewrite <- Rmult_assoc. apply Rmult_le_compat_r; [exact Y0|unfold u24; lra].
      + eapply Rle_trans; [|exact Z2]. apply Rmult_le_compat_l; [apply Rmult_le_pos; unfold u24; lra|exact RL]. }
  assert (s2p : (0 < s2)%R) by (apply Rmult_lt_0_compat; exact Ps).
  (* together *)
  set (X := (k * (val t * val t))%R).
  assert (X0 : (0 <= X)%R) by (apply Rmult_le_pos; [apply pos_INR|apply Rle_0_sqr]).
  assert (MAIN : (X * ((1 - n * u24) * (1 - 5 * u24) * (1 - 5 * u24)) <= n - 1)%R).
  { apply Rmult_le_reg_r with s2; [exact s2p|].
    apply Rle_trans with ((1 - 5 * u24) * val S)%R.
    - apply Rle_trans with ((1 - 5 * u24) * ((1 - n * u24) * (k * (st * st * (1 - 5 * u24)))))%R.
      + right. unfold X, st, s2. ring.
      + apply Rmult_le_compat_l; [unfold u24; lra|]. eapply Rle_trans; [|exact SL]. apply Rmult_le_compat_l; [unfold u24; lra|exact C].
    - rewrite SY. replace ((1 - 5 * u24) * (y * (n - 1)))%R with ((n - 1) * ((1 - 5 * u24) * y))%R by ring.
      apply Rmult_le_compat_l; [lra|exact YS]. }
  eapply Rle_trans; [|exact MAIN]. rewrite u24_eq. apply Rmult_le_compat_l; [exact X0|].
  assert (0 <= n * u24)%R by (apply Rmult_le_pos; unfold u24; lra).
  unfold u24. lra.
Qed.

Lemma trim_count : forall {E : Env} {T} (into : T -> f32) l v r, 2 <= Z.of_nat (length l) <= 4090 ->
  variance into l = Ok v -> fin v -> trim into l = Ok r -> (4 * (length l - length r) <= length l - 1)%nat.
Proof.
  intros E T into l v r K V Fv H. unfold trim in H.
  assert (V2 : val DEFAULT_THRESHOLD = 2%R) by (unfold DEFAULT_THRESHOLD; apply P_Powi.c2).
  assert (F2 : fin DEFAULT_THRESHOLD) by reflexivity.
  pose proof (trim_at_count into l _ v r ltac:(lia) V Fv F2 ltac:(lra) H) as C. cbv zeta in C. rewrite V2, u24_eq in C.
  set (k := (length l - length r)%nat) in *. set (n := length l) in *.
  destruct (le_lt_dec (4 * k) (n - 1)) as [Q|Q]; [exact Q|]. exfalso.
  assert (NK : (INR n <= 4 * INR k)%R).
  { change 4%R with (INR 4) || replace 4%R with (INR 4) by (cbn; ring). rewrite <- mult_INR. apply le_INR. lia. }
  assert (N1 : (2 <= INR n <= 4090)%R).
  { split; [change 2%R with (INR 2); apply le_INR; lia|]. rewrite INR_IZR_INZ. apply IZR_le. lia. }
  assert (INR n * (1 - (INR n + 10) * u24) <= INR n - 1)%R.
  { eapply Rle_trans; [|exact C]. replace (INR k * (2 * 2))%R with (4 * INR k)%R by ring. apply Rmult_le_compat_r; [unfold u24; lra|exact NK]. }
  assert (INR n * ((INR n + 10) * u24) <= 4090 * (4100 * u24))%R.
  { apply Rmult_le_compat; [lra| |lra|]; unfold u24; lra. }
  unfold u24 in *. lra.
Qed.

Lemma trim_few : forall {E : Env} {T} (into : T -> f32) l v, 2 <= Z.of_nat (length l) <= 4 ->
  variance into l = Ok v -> fin v -> trim into l = Ok l.
Proof.
  intros E T into l v K V Fv. destruct (stddev_total into l ltac:(lia)) as (m & v' & sd & Em & Ev & Es).
  pose proof (trim_at_spec into l DEFAULT_THRESHOLD m sd Em Es) as H. unfold trim. rewrite H. f_equal.
  pose proof (trim_count into l v _ ltac:(lia) V Fv H) as C.
  assert (L : forall (f : T -> bool) l', (length l' <= length (filter f l'))%nat -> filter f l' = l').
  { intros f l'. induction l' as [|a l' IH]; intros G; [reflexivity|]. cbn [filter] in *.
    assert (LE : (length (filter f l') <= length l')%nat) by (clear; induction l' as [|b l' IH]; cbn; [lia|destruct (f b); cbn; lia]).
    destruct (f a); cbn [length] in *; [f_equal; apply IH; lia|lia]. }
  apply L. lia.
Qed.

(** Without the finite variance everything can go. *)
Lemma trim_overflow : forall {E : Env}, exists l m, Forall fin l /\ length l = 2%nat /\ mean l = Ok m /\ fin m /\ trim (fun x => x) l = Ok [].
Proof.
  intros E. exists [from_bits 0x71800000; from_bits 0xF1800000], (from_bits 0).
  split; [repeat constructor|]. split; [reflexivity|]. split; [|split; [reflexivity|]].
  - destruct E as [oc da n1 n2 n3 n4 n5 n6 ss]. destruct oc; apply ok_bits; vm_compute; reflexivity.
  - destruct E as [oc da n1 n2 n3 n4 n5 n6 ss]. destruct oc; vm_compute; reflexivity.
Qed.

Lemma sqrt_lower_all : forall {E : Env} x, fin x -> sign_bit x = false ->
  exists z, F32_sqrt x = Ok z /\ fin z /\ (3 / 2 * bpow radix2 (-64) <= val z)%R /\ ((1 - bpow radix2 (-24)) * sqrt (val x) <= val z)%R.
Proof.
  intros E x F S. destruct (sqrt_lower x F S) as (z & A & B & C & D). exists z. split; [exact A|]. split; [exact B|]. split; [exact C|].
  pose proof (bpow_gt_0 radix2 (-64)). pose proof (sign_val_pos x S) as P. rewrite u24_eq.
  assert (Q := sqrt_le_sq (val z) ((1 - u24) * (1 - u24)) (val x) ltac:(lra) ltac:(apply Rmult_le_pos; unfold u24; lra) P D).
  rewrite sqrt_square in Q by (unfold u24; lra). exact Q.
Qed.
