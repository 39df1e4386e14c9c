(** * Proofs: the quaternion between two vectors *)

From Coq Require Import ZArith Reals Bool List Lia Lra Psatz.
From Flocq Require Import Core IEEE754.BinarySingleNaN IEEE754.Binary IEEE754.Bits Plus_error.
From Verif Require Import Base Spec Float Vector Quaternion F32Lemmas BitLemmas P_Trunc P_Floor Literals ErrLemmas P_RoundEdge
  NanLemmas P_Euclid P_Roots P_InvSqrt P_Recip P_Vector P_VecInt P_SumSq P_VecF32 P_Stats QuatReal P_Quat.
Import ListNotations.
Open Scope Z_scope.

(** The f32 dot product and cross product. *)
Definition dot3 {E : Env} (u v : Vector3d f32) : f32 :=
  fadd (fadd (fmul (v3x u) (v3x v)) (fmul (v3y u) (v3y v))) (fmul (v3z u) (v3z v)).
Definition cross3 {E : Env} (u v : Vector3d f32) : Vector3d f32 :=
  mkV3 (fsub (fmul (v3y u) (v3z v)) (fmul (v3z u) (v3y v)))
       (fsub (fmul (v3z u) (v3x v)) (fmul (v3x u) (v3z v)))
       (fsub (fmul (v3x u) (v3y v)) (fmul (v3y u) (v3x v))).

(** The quaternion before normalization, given [n_uv]. *)
Definition between_raw {E : Env} (n_uv : f32) (u v : Vector3d f32) : Quat f32 :=
  let realpart := fadd n_uv (dot3 u v) in
  if flt realpart (fmul c_1em6 n_uv) then
    if fgt (F32_abs (v3x u)) (F32_abs (v3z u)) then mkQ F32_ZERO (fneg (v3y u)) (v3x u) F32_ZERO
    else mkQ F32_ZERO F32_ZERO (fneg (v3z u)) (v3y u)
  else let w := cross3 u v in mkQ realpart (v3x w) (v3y w) (v3z w).

Lemma from_two_eq : forall {E : Env} u v,
  Q_from_two_vectors (H := comp_f32) idf u v =
  bind (F32_sqrt (fmul (dot3 u u) (dot3 v v))) (fun n_uv =>
    bind (F32_invsqrt (@q_norm _ arith_f32 (between_raw n_uv u v))) (fun n =>
      Ok (@q_scale _ arith_f32 (between_raw n_uv u v) n))).
Proof.
  intros E [a b c] [d e f]. unfold Q_from_two_vectors.
  change (v3_dot (H := comp_f32) (mkV3 a b c) (mkV3 a b c)) with (Ok (dot3 (mkV3 a b c) (mkV3 a b c))).
  change (v3_dot (H := comp_f32) (mkV3 d e f) (mkV3 d e f)) with (Ok (dot3 (mkV3 d e f) (mkV3 d e f))).
  change (v3_dot (H := comp_f32) (mkV3 a b c) (mkV3 d e f)) with (Ok (dot3 (mkV3 a b c) (mkV3 d e f))).
  cbn [bind]. unfold idf at 1 2.
  destruct (F32_sqrt (fmul (dot3 (mkV3 a b c) (mkV3 a b c)) (dot3 (mkV3 d e f) (mkV3 d e f)))) as [n| |]; try reflexivity.
  cbn [bind]. unfold between_raw, idf. cbv zeta. cbn [v3x v3y v3z].
  destruct (flt (fadd n (dot3 (mkV3 a b c) (mkV3 d e f))) (fmul c_1em6 n)).
  - destruct (fgt (F32_abs a) (F32_abs c)); reflexivity.
  - reflexivity.
Qed.

Lemma dot3_tr : forall {E : Env} u v U V, vec_le u U -> vec_le v V -> (U * V <= bpow radix2 120)%R ->
  tr (dot3 u v) (val (v3x u) * val (v3x v) + val (v3y u) * val (v3y v) + val (v3z u) * val (v3z v))
     (3 * (U * V)) (9 * u24 * (U * V) + 4 * eta).
Proof.
  intros E u v U V [(F0 & F1 & F2) (H0 & H1 & H2)] [(G0 & G1 & G2) (K0 & K1 & K2)] L.
  assert (UV : (0 <= U * V)%R).
  { apply Rmult_le_pos; [pose proof (Rabs_pos (val (v3x u)))|pose proof (Rabs_pos (val (v3x v)))]; lra. }
  unfold dot3. eapply tr_weaken; [|instantiate (1 := (U * V + U * V + U * V)%R); lra|].
  - eapply tr_add; [eapply tr_add| |].
    + apply tr_prod with (P := U) (Q := V); assumption.
    + apply tr_prod with (P := U) (Q := V); assumption.
    + side.
    + apply tr_prod with (P := U) (Q := V); assumption.
    + side.
  - side.
Qed.

Lemma cross3_tr : forall {E : Env} a b c d U V, fin a -> fin b -> fin c -> fin d ->
  (Rabs (val a) <= U)%R -> (Rabs (val b) <= V)%R -> (Rabs (val c) <= U)%R -> (Rabs (val d) <= V)%R ->
  (U * V <= bpow radix2 120)%R ->
  tr (fsub (fmul a b) (fmul c d)) (val a * val b - val c * val d) (2 * (U * V)) (5 * u24 * (U * V) + 3 * eta).
Proof.
  intros E a b c d U V Fa Fb Fc Fd Ha Hb Hc Hd L.
  assert (UV : (0 <= U * V)%R).
  { apply Rmult_le_pos; [pose proof (Rabs_pos (val a))|pose proof (Rabs_pos (val b))]; lra. }
  eapply tr_weaken; [|instantiate (1 := (U * V + U * V)%R); lra|].
  - eapply tr_sub.
    + apply tr_prod with (P := U) (Q := V); assumption.
    + apply tr_prod with (P := U) (Q := V); assumption.
    + side.
  - side.
Qed.

Lemma fin_nonneg : forall x, nonneg x -> fin x -> sign_bit x = false.
Proof. intros x [N|S] F; [|exact S]. unfold nan in N. rewrite (fin_not_nan _ F) in N. discriminate. Qed.

Lemma dot3_self_nonneg : forall {E : Env} u, nonneg (dot3 u u).
Proof. intros E u. unfold dot3. repeat apply fadd_nonneg; apply sq_nonneg. Qed.
Lemma norm_nonneg : forall {E : Env} q, nonneg (@q_norm _ arith_f32 q).
Proof. intros E q. unfold q_norm. cbn [aadd amul arith_f32]. repeat apply fadd_nonneg; apply sq_nonneg. Qed.

Lemma fmul_nonneg_fin : forall {E : Env} x y, fin (fmul x y) -> sign_bit x = false -> sign_bit y = false ->
  sign_bit (fmul x y) = false.
Proof.
  intros E x y F Sx Sy. rewrite fmul_sign by (apply fin_not_nan; exact F). rewrite Sx, Sy. reflexivity.
Qed.

Lemma bp_eq : forall k, (bpow radix2 (k + 1) = 2 * bpow radix2 k)%R.
Proof. intros k. rewrite bpow_plus. rewrite Rmult_comm. reflexivity. Qed.

Lemma eta_k : forall k, -140 <= k -> (eta <= / 1000 * bpow radix2 k)%R.
Proof.
  intros k H. apply Rle_trans with (bpow radix2 (-10 + k)); [apply bpow_le; lia|]. rewrite bpow_plus.
  apply Rmult_le_compat_r; [apply bpow_ge_0|]. bpow_lit. lra.
Qed.

Lemma sq_comp : forall {E : Env} x, fin x -> (Rabs (val x) <= bpow radix2 61)%R ->
  fin (fmul x x) /\ (Rabs (val (fmul x x)) <= 2 * bpow radix2 122)%R.
Proof.
  intros E x F H.
  assert (D : (bpow radix2 61 * bpow radix2 61 = bpow radix2 122)%R) by (rewrite <- bpow_plus; reflexivity).
  assert (D' : (bpow radix2 127 = 32 * bpow radix2 122)%R) by (change 127 with (5 + 122); rewrite bpow_plus; reflexivity).
  pose proof (eta_k 122 ltac:(lia)) as E1. pose proof (bpow_gt_0 radix2 122) as P.
  assert (T := tr_mul x (val x) _ 0 x (val x) _ 0 (tr_in x _ F H) (tr_in x _ F H)). rewrite !Rplus_0_r, D in T.
  specialize (T ltac:(lra)). destruct (tr_bound _ _ _ _ T) as (B & _). split; [apply T|]. unfold u24 in B. lra.
Qed.

Lemma norm_fin : forall {E : Env} q, quat_le q (bpow radix2 61) -> fin (@q_norm _ arith_f32 q).
Proof.
  intros E q [(F0 & F1 & F2 & F3) (H0 & H1 & H2 & H3)].
  destruct (sq_comp _ F0 H0) as [A0 B0]. destruct (sq_comp _ F1 H1) as [A1 B1].
  destruct (sq_comp _ F2 H2) as [A2 B2]. destruct (sq_comp _ F3 H3) as [A3 B3].
  assert (D' : (bpow radix2 127 = 32 * bpow radix2 122)%R) by (change 127 with (5 + 122); rewrite bpow_plus; reflexivity).
  pose proof (bpow_gt_0 radix2 122) as P.
  unfold q_norm. cbn [aadd amul arith_f32].
  assert (T : tr (fadd (fadd (fadd (fmul (q0 q) (q0 q)) (fmul (q1 q) (q1 q))) (fmul (q2 q) (q2 q))) (fmul (q3 q) (q3 q)))
    (val (fmul (q0 q) (q0 q)) + val (fmul (q1 q) (q1 q)) + val (fmul (q2 q) (q2 q)) + val (fmul (q3 q) (q3 q)))
    (8 * bpow radix2 122) (bpow radix2 122)).
  { eapply tr_weaken.
    - eapply tr_add; [eapply tr_add; [eapply tr_add| |]| |].
      + apply tr_in; eassumption. + apply tr_in; eassumption. + rewrite D'. lra. + apply tr_in; eassumption.
      + rewrite D'. unfold u24. lra. + apply tr_in; eassumption. + rewrite D'. unfold u24. lra.
    - lra.
    - unfold u24. lra. }
  apply T.
Qed.

Lemma c_1em6_pos : fin c_1em6 /\ (0 < val c_1em6 < 1)%R.
Proof. split; [reflexivity|]. unfold c_1em6. lit 0x358637BD. bpow_lit. lra. Qed.

Lemma between_raw_bounds : forall {E : Env} n u v, vec_le u (bpow radix2 29) -> vec_le v (bpow radix2 29) ->
  fin n -> (0 < val n <= bpow radix2 60)%R ->
  quat_le (between_raw n u v) (bpow radix2 61) /\ (0 <= val (q0 (between_raw n u v)))%R.
Proof.
  intros E n u v Hu Hv Fn Bn. pose proof Hu as [(F0 & F1 & F2) (H0 & H1 & H2)].
  pose proof Hv as [(G0 & G1 & G2) (K0 & K1 & K2)].
  assert (D : (bpow radix2 29 * bpow radix2 29 = bpow radix2 58)%R) by (rewrite <- bpow_plus; reflexivity).
  assert (D60 : (bpow radix2 60 = 4 * bpow radix2 58)%R) by (change 60 with (2 + 58); rewrite bpow_plus; reflexivity).
  assert (D61 : (bpow radix2 61 = 8 * bpow radix2 58)%R) by (change 61 with (3 + 58); rewrite bpow_plus; reflexivity).
  assert (L58 : (bpow radix2 58 <= bpow radix2 120)%R) by (apply bpow_le; lia).
  assert (L29 : (bpow radix2 29 <= bpow radix2 58)%R) by (apply bpow_le; lia).
  pose proof (eta_k 58 ltac:(lia)) as E1. pose proof (bpow_gt_0 radix2 29) as P.
  pose proof eta_pos as E0.
  pose proof (dot3_tr u v _ _ Hu Hv ltac:(rewrite D; lra)) as T. rewrite D in T.
  assert (R : tr (fadd n (dot3 u v)) (val n + (val (v3x u) * val (v3x v) + val (v3y u) * val (v3y v) + val (v3z u) * val (v3z v)))
    (7 * bpow radix2 58) (bpow radix2 58)).
  { eapply tr_weaken.
    - eapply tr_add; [apply (tr_in n (bpow radix2 60) Fn); rewrite Rabs_pos_eq; lra|exact T|].
      rewrite bp127, D60. unfold u24. lra.
    - rewrite D60. lra.
    - rewrite D60. unfold u24. lra. }
  destruct (tr_bound _ _ _ _ R) as (RB & _ & _). destruct R as (Fr & _ & _).
  assert (Z : fin F32_ZERO /\ (Rabs (val F32_ZERO) <= bpow radix2 61)%R).
  { split; [reflexivity|]. change (val F32_ZERO) with 0%R. rewrite Rabs_R0. apply bpow_ge_0. }
  destruct Z as [Z1 Z2]. unfold between_raw. cbv zeta.
  destruct (flt (fadd n (dot3 u v)) (fmul c_1em6 n)) eqn:T1.
  - split.
    + destruct (fgt _ _); (split; cbn [q0 q1 q2 q3]; [repeat split; trivial; apply fneg_fin; assumption|]);
        rewrite ?fneg_val, ?Rabs_Ropp; repeat split; trivial; lra.
    + destruct (fgt _ _); cbn [q0]; change (val F32_ZERO) with 0%R; lra.
  - assert (C : forall a b c d, fin a -> fin b -> fin c -> fin d -> (Rabs (val a) <= bpow radix2 29)%R ->
      (Rabs (val b) <= bpow radix2 29)%R -> (Rabs (val c) <= bpow radix2 29)%R -> (Rabs (val d) <= bpow radix2 29)%R ->
      fin (fsub (fmul a b) (fmul c d)) /\ (Rabs (val (fsub (fmul a b) (fmul c d))) <= bpow radix2 61)%R).
    { intros a b c d Fa Fb Fc Fd Ha Hb Hc Hd.
      pose proof (cross3_tr a b c d _ _ Fa Fb Fc Fd Ha Hb Hc Hd ltac:(rewrite D; lra)) as Tc. rewrite D in Tc.
      destruct (tr_bound _ _ _ _ Tc) as (B & _). split; [apply Tc|]. rewrite D61. unfold u24 in B. lra. }
    split.
    + split; cbn [q0 q1 q2 q3 cross3 v3x v3y v3z].
      * split; [exact Fr|]. repeat split; apply C; assumption.
      * split; [rewrite D61; lra|]. repeat split; apply C; assumption.
    + cbn [q0]. destruct c_1em6_pos as [Fc Bc].
      assert (M : fin (fmul c_1em6 n) /\ (0 <= val (fmul c_1em6 n))%R).
      { assert (M0 : (0 <= val c_1em6 * val n <= bpow radix2 60)%R).
        { split; [apply Rmult_le_pos; lra|]. apply Rle_trans with (1 * val n)%R; [apply Rmult_le_compat_r; lra|lra]. }
        destruct (fmul_R c_1em6 n Fc Fn) as [M1 M2].
        { apply (small_lt_128 60); [lia|]. rewrite Rabs_pos_eq; lra. }
        split; [exact M1|]. rewrite M2. rewrite <- (rnd_fmt 0) by apply generic_format_0. apply rnd_le. lra. }
      destruct M as [M1 M2]. rewrite (flt_R _ _ Fr M1) in T1. apply Rlt_bool_false_inv in T1 || (apply Rnot_lt_le; intros Q; rewrite Rlt_bool_true in T1; [discriminate|lra]).
Qed.

Lemma sqrt_of_prod : forall {E : Env} u v, vec_le u (bpow radix2 29) -> vec_le v (bpow radix2 29) ->
  exists n, F32_sqrt (fmul (dot3 u u) (dot3 v v)) = Ok n /\ fin n /\ (0 < val n <= bpow radix2 60)%R.
Proof.
  intros E u v Hu Hv.
  assert (D : (bpow radix2 29 * bpow radix2 29 = bpow radix2 58)%R) by (rewrite <- bpow_plus; reflexivity).
  assert (L58 : (bpow radix2 58 <= bpow radix2 120)%R) by (apply bpow_le; lia).
  assert (G : forall w, vec_le w (bpow radix2 29) -> fin (dot3 w w) /\ (Rabs (val (dot3 w w)) <= 4 * bpow radix2 58)%R).
  { intros w Hw. pose proof (dot3_tr w w _ _ Hw Hw ltac:(rewrite D; lra)) as T. rewrite D in T.
    destruct (tr_bound _ _ _ _ T) as (B & _ & _). split; [apply T|].
    pose proof (eta_k 58 ltac:(lia)).
    unfold u24 in B. pose proof (bpow_gt_0 radix2 58). lra. }
  destruct (G u Hu) as [Fu Bu]. destruct (G v Hv) as [Fv Bv].
  assert (B : (Rabs (val (dot3 u u) * val (dot3 v v)) <= bpow radix2 120)%R).
  { rewrite Rabs_mult. apply Rle_trans with ((4 * bpow radix2 58) * (4 * bpow radix2 58))%R.
    - apply Rmult_le_compat; trivial; apply Rabs_pos.
    - replace (4 * bpow radix2 58)%R with (bpow radix2 60) by (change 60 with (2 + 58); rewrite bpow_plus; reflexivity).
      rewrite <- bpow_plus. apply Rle_refl. }
  destruct (fmul_R _ _ Fu Fv) as [M1 M2]; [apply (small_lt_128 120); [lia|exact B]|].
  assert (S : sign_bit (fmul (dot3 u u) (dot3 v v)) = false).
  { apply fmul_nonneg_fin; [exact M1| |]; apply fin_nonneg; trivial; apply dot3_self_nonneg. }
  set (m := fmul (dot3 u u) (dot3 v v)) in *.
  assert (LE : fle m (from_bits 0x7B800000) = true).
  { rewrite (fle_R m (from_bits 0x7B800000) M1 eq_refl). apply Rle_bool_true. rewrite M2.
    replace (val (from_bits 0x7B800000)) with (bpow radix2 120).
    - rewrite <- (rnd_fmt _ (fmt_bpow 120 ltac:(lia))). apply rnd_le. apply Rabs_le_inv in B. lra.
    - lit 0x7B800000. change 120 with (23 + 97). rewrite bpow_plus. simpl (bpow radix2 23). lra. }
  destruct (sqrt_monotone m (from_bits 0x7B800000)) as (a & b & A1 & A2 & Fa & Fb & A3); trivial.
  { apply fin_not_nan. exact M1. }
  exists a. split; [exact A1|]. split; [exact Fa|]. split; [lra|]. apply Rle_trans with (val b); [lra|].
  assert (Bb : @F32_sqrt E (from_bits 0x7B800000) = Ok (from_bits 0x5D800000)).
  { apply ok_bits. vm_compute. reflexivity. }
  rewrite Bb in A2. injection A2 as <-. lit 0x5D800000. apply Req_le.
  change 60 with (23 + 37). rewrite bpow_plus. simpl (bpow radix2 23). lra.
Qed.

Lemma from_two_total : forall {E : Env} u v, vec_le u (bpow radix2 29) -> vec_le v (bpow radix2 29) ->
  exists q, Q_from_two_vectors (H := comp_f32) idf u v = Ok q /\ fin_quat q /\ (0 <= val (q0 q))%R.
Proof.
  intros E u v Hu Hv. rewrite from_two_eq.
  destruct (sqrt_of_prod u v Hu Hv) as (n & S & Fn & Bn). rewrite S. cbn [bind].
  destruct (between_raw_bounds n u v Hu Hv Fn Bn) as [B P]. set (r := between_raw n u v) in *.
  pose proof (norm_fin r B) as Fr. pose proof (fin_nonneg _ (norm_nonneg r) Fr) as Sr.
  destruct (invsqrt_antitone (f32_zero false) (@q_norm _ arith_f32 r)) as (a & b & A1 & A2 & Fa & Fb & A3); trivial.
  { apply fin_not_nan. exact Fr. }
  { rewrite fle_R; [|reflexivity|exact Fr]. apply Rle_bool_true. change (val (f32_zero false)) with 0%R.
    apply sign_val_pos. exact Sr. }
  rewrite A2. cbn [bind]. eexists. split; [reflexivity|].
  assert (Ba : (val a <= bpow radix2 64)%R).
  { assert (Q : @F32_invsqrt E (f32_zero false) = Ok (from_bits 0x5F375A86)) by (apply ok_bits; vm_compute; reflexivity).
    rewrite Q in A1. injection A1 as <-. lit 0x5F375A86. change 64 with (24 + 40). rewrite bpow_plus. simpl (bpow radix2 24).
    apply Rmult_le_compat_r; [apply bpow_ge_0|lra]. }
  assert (G : forall x, fin x -> (Rabs (val x) <= bpow radix2 61)%R -> fin (fmul x b) /\ val (fmul x b) = rnd (val x * val b)).
  { intros x Fx Hx. apply fmul_R; trivial. apply (small_lt_128 125); [lia|]. rewrite Rabs_mult, (Rabs_pos_eq (val b)) by lra.
    replace (bpow radix2 125) with (bpow radix2 61 * bpow radix2 64)%R by (rewrite <- bpow_plus; reflexivity).
    apply Rmult_le_compat; try lra; apply Rabs_pos. }
  destruct B as [(F0 & F1 & F2 & F3) (H0 & H1 & H2 & H3)].
  unfold fin_quat, q_scale. cbn [q0 q1 q2 q3 amul arith_f32].
  split; [repeat split; apply G; assumption|].
  rewrite (proj2 (G _ F0 H0)). rewrite <- (rnd_fmt 0) by apply generic_format_0. apply rnd_le. apply Rmult_le_pos; lra.
Qed.

Lemma okq_bits : forall (r : res (Quat f32)) a b c d,
  match r with Ok q => Some (map to_bits (q_to_array q)) | _ => None end = Some [a; b; c; d] ->
  r = Ok (mkQ (from_bits a) (from_bits b) (from_bits c) (from_bits d)).
Proof.
  intros r a b c d H. destruct r as [[w x y z]| |]; try discriminate. unfold q_to_array in H. cbn [map q0 q1 q2 q3] in H.
  injection H as <- <- <- <-. rewrite !from_to_bits. reflexivity.
Qed.

(** Vectors pointing in opposite directions: (1.5, 0, 0) and (-1.5, 0, 0). *)
Lemma from_two_opposite : forall {E : Env}, exists u q,
  vec_le u 2 /\ val (v3x u) = 1.5%R /\
  Q_from_two_vectors (H := comp_f32) idf u (mkV3 (fneg (v3x u)) (fneg (v3y u)) (fneg (v3z u))) = Ok q /\
  (0.95 < val (q0 q) < 1)%R /\ val (q1 q) = 0%R /\ val (q2 q) = 0%R /\ val (q3 q) = 0%R.
Proof.
  intros E. pose (a := from_bits 0x3FC00000). pose (z := f32_zero false).
  assert (V : val a = 1.5%R) by (unfold a; lit 0x3FC00000; bpow_lit; lra).
  exists (mkV3 a z z), (mkQ (from_bits 0x3F775A86) (from_bits 0) (from_bits 0) (from_bits 0)).
  split; [|split; [exact V|split]].
  - split; [repeat split|]. cbn [v3x v3y v3z]. rewrite V. change (val z) with 0%R. rewrite Rabs_R0, Rabs_pos_eq by lra. lra.
  - apply okq_bits. vm_compute. reflexivity.
  - cbn [q0 q1 q2 q3]. split; [lit 0x3F775A86; bpow_lit; lra|]. repeat split; reflexivity.
Qed.

(** When the real part is small the rotation axis is orthogonal to [u]. *)
Lemma from_two_perp : forall {E : Env} u v n q,
  F32_sqrt (fmul (dot3 u u) (dot3 v v)) = Ok n -> flt (fadd n (dot3 u v)) (fmul c_1em6 n) = true ->
  Q_from_two_vectors (H := comp_f32) idf u v = Ok q ->
  exists w k, q = @q_scale _ arith_f32 (mkQ F32_ZERO (v3x w) (v3y w) (v3z w)) k /\ Rdot3 (V3_R w) (V3_R u) = 0%R.
Proof.
  intros E u v n q S T H. rewrite from_two_eq, S in H. cbn [bind] in H. apply bind_ok in H.
  destruct H as (k & _ & H). injection H as <-. unfold between_raw. cbv zeta. rewrite T.
  destruct (fgt _ _).
  - exists (mkV3 (fneg (v3y u)) (v3x u) F32_ZERO), k. split; [reflexivity|].
    unfold Rdot3, V3_R. cbn [v3x v3y v3z]. rewrite fneg_val. change (val F32_ZERO) with 0%R. ring.
  - exists (mkV3 F32_ZERO (fneg (v3z u)) (v3y u)), k. split; [reflexivity|].
    unfold Rdot3, V3_R. cbn [v3x v3y v3z]. rewrite fneg_val. change (val F32_ZERO) with 0%R. ring.
Qed.
