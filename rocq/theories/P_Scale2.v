(** * Proofs: scaling of norms, normalization, quaternions and atan2 *)

From Coq Require Import ZArith Reals Bool List Lia Lra Psatz.
From Flocq Require Import Core IEEE754.BinarySingleNaN IEEE754.Binary IEEE754.Bits.
From Verif Require Import Base Spec SpecMore SpecOps SpecQuat Float Vector Quaternion F32Lemmas BitLemmas P_Trunc P_Floor Literals ErrLemmas P_RoundEdge NanLemmas
  P_Euclid P_Roots P_InvSqrt P_Exact P_Recip P_Atan P_SumSq P_Vector P_VecF32 P_Quat P_Scale.
Import ListNotations.
Open Scope Z_scope.

Lemma sc_sq : forall {E : Env} k a b, sq_ok a -> sq_ok b -> scaled k a b -> scaled (2 * k) (fmul a a) (fmul b b).
Proof.
  intros E k a b [Fa Ha] [Fb Hb] S. replace (2 * k) with (k + k) by ring.
  assert (U : forall x, sq_ok x -> nz_normal (val x * val x) /\ (Rabs (val x * val x) <= bpow radix2 127)%R).
  { intros x [_ Hx]. pose proof (bpow_gt_0 radix2 127). pose proof (bpow_gt_0 radix2 (-126)).
    assert (bpow radix2 125 <= bpow radix2 127)%R by (apply bpow_le; lia). unfold nz_normal. destruct Hx as [Z|Hx].
    - rewrite Z, Rmult_0_l, Rabs_R0. split; [left; reflexivity|lra].
    - rewrite Rabs_pos_eq by lra. split; [right|]; lra. }
  destruct (U a (conj Fa Ha)). destruct (U b (conj Fb Hb)). apply scaled_mul; trivial.
Qed.

Lemma approx_le : forall m s T, (m <= 8)%nat -> approx m s T -> (0 <= val s <= 1.1 * T)%R.
Proof.
  intros m s T M (F & _ & P & B). destruct (u24_pow m M) as [A C]. nra.
Qed.

Lemma sc_add : forall {E : Env} m j x x' y y' T T' U U', (m <= 7)%nat ->
  approx m x T -> approx m y U -> approx m x' T' -> approx m y' U' ->
  (T + U <= bpow radix2 126)%R -> (T' + U' <= bpow radix2 126)%R ->
  scaled j x x' -> scaled j y y' -> scaled j (fadd x y) (fadd x' y').
Proof.
  intros E m j x x' y y' T T' U U' M A B A' B' L L' S R.
  assert (D : (bpow radix2 127 = 2 * bpow radix2 126)%R) by (change 127 with (1 + 126); rewrite bpow_plus; reflexivity).
  pose proof (bpow_gt_0 radix2 126).
  apply (approx_le m) in A; [|lia]. apply (approx_le m) in B; [|lia]. apply (approx_le m) in A'; [|lia]. apply (approx_le m) in B'; [|lia].
  apply scaled_add; trivial; rewrite Rabs_pos_eq; lra.
Qed.

Lemma fold_scaled : forall {E : Env} k l l' m s s' T T', Forall2 (scaled k) l l' -> Forall sq_ok l -> Forall sq_ok l' ->
  (1 <= m)%nat -> (m + length l <= 8)%nat -> approx m s T -> approx m s' T' ->
  (T + rsumsq l <= bpow radix2 126)%R -> (T' + rsumsq l' <= bpow radix2 126)%R -> scaled (2 * k) s s' ->
  scaled (2 * k) (fold_left fadd (map (fun a => fmul a a) l) s) (fold_left fadd (map (fun a => fmul a a) l') s').
Proof.
  intros E k l l' m s s' T T' H. revert m s s' T T'. induction H as [|a b l l' Hab H IH]; intros m s s' T T' F F' M1 M A A' L L' S; [exact S|].
  apply Forall_cons_iff in F. apply Forall_cons_iff in F'. destruct F as [Fa F], F' as [Fb F']. cbn [map fold_left length] in *.
  change (rsumsq (a :: l)) with (val a * val a + rsumsq l)%R in *. change (rsumsq (b :: l')) with (val b * val b + rsumsq l')%R in *.
  pose proof (rsumsq_pos l). pose proof (rsumsq_pos l').
  apply (IH (Datatypes.S m) _ _ (T + val a * val a)%R (T' + val b * val b)%R); trivial; try lia; try lra.
  - apply approx_add; [lia|exact A| |lra]. apply (approx_weaken 1); [lia|]. apply sq_approx. exact Fa.
  - apply approx_add; [lia|exact A'| |lra]. apply (approx_weaken 1); [lia|]. apply sq_approx. exact Fb.
  - apply (sc_add m _ _ _ _ _ T T' (val a * val a) (val b * val b)); trivial; try lia; try lra.
    + apply (approx_weaken 1); [lia|]. apply sq_approx. exact Fa.
    + apply (approx_weaken 1); [lia|]. apply sq_approx. exact Fb.
    + apply sc_sq; assumption.
Qed.

Lemma sum_scaled : forall {E : Env} k l l', Forall2 (scaled k) l l' -> Forall sq_ok l -> Forall sq_ok l' -> (length l <= 7)%nat ->
  (rsumsq l <= bpow radix2 126)%R -> (rsumsq l' <= bpow radix2 126)%R ->
  scaled (2 * k) (F32_sum (map (fun a => fmul a a) l)) (F32_sum (map (fun a => fmul a a) l')).
Proof.
  intros E k l l' H F F' K L L'. unfold F32_sum.
  apply (fold_scaled k l l' 1 _ _ 0 0); trivial; try lia; try lra; try (apply approx_zero; lia).
  assert (Z : forall s, val (f32_zero s) = 0%R) by (intros s; destruct s; reflexivity).
  split; [reflexivity|]. split; [reflexivity|]. split; [rewrite Z; ring|reflexivity].
Qed.

Lemma Forall2_len : forall {A B} (P : A -> B -> Prop) l l', Forall2 P l l' -> length l = length l'.
Proof. intros A B P l l' H. induction H; cbn; congruence. Qed.

Lemma norm_scaled : forall {E : Env} k l l', Forall2 (scaled k) l l' -> Forall sq_ok l -> Forall sq_ok l' -> (length l <= 7)%nat ->
  (0 < rsumsq l <= bpow radix2 126)%R -> (0 < rsumsq l' <= bpow radix2 126)%R ->
  exists a b, F32_sqrt (F32_sum (map (fun a => fmul a a) l)) = Ok a /\ F32_sqrt (F32_sum (map (fun a => fmul a a) l')) = Ok b /\
    normal_pos a /\ normal_pos b /\ scaled k a b.
Proof.
  intros E k l l' H F F' K L L'. pose proof (Forall2_len _ _ _ H) as LEN. apply sqrt_scaled.
  - apply (approx_normal (1 + length l) _ (rsumsq l)); [lia| |lra]. apply sum_approx; trivial; lra.
  - apply (approx_normal (1 + length l') _ (rsumsq l')); [lia| |lra]. apply sum_approx; trivial; try lia; lra.
  - apply sum_scaled; trivial; lra.
Qed.

(** The sign of the start value of Sum does not matter for hypot. *)
Lemma hypot_scaled : forall {E : Env} k a a' b b', scaled k a a' -> scaled k b b' ->
  sq_ok a -> sq_ok b -> sq_ok a' -> sq_ok b' -> (val a <> 0 \/ val b <> 0)%R ->
  exists r r', F32_hypot a b = Ok r /\ F32_hypot a' b' = Ok r' /\ normal_pos r /\ normal_pos r' /\ scaled k r r'.
Proof.
  intros E k a a' b b' Sa Sb Qa Qb Qa' Qb' N.
  assert (NN : forall x y, sq_ok x -> sq_ok y -> (val x <> 0 \/ val y <> 0)%R -> (0 < val x * val x + val y * val y <= bpow radix2 126)%R).
  { intros x y [_ Hx] [_ Hy] H. assert (D : (bpow radix2 126 = 2 * bpow radix2 125)%R) by (change 126 with (1 + 125); rewrite bpow_plus; reflexivity).
    pose proof (bpow_gt_0 radix2 (-126)). pose proof (bpow_gt_0 radix2 125).
    destruct Hx as [Zx|Hx], Hy as [Zy|Hy]; rewrite ?Zx, ?Zy, ?Rmult_0_l; try lra. }
  assert (N' : (val a' <> 0 \/ val b' <> 0)%R).
  { pose proof (scaled_zero _ _ _ Sa). pose proof (scaled_zero _ _ _ Sb). tauto. }
  pose proof (NN a b Qa Qb N) as L. pose proof (NN a' b' Qa' Qb' N') as L'.
  pose proof (sq_approx a Qa) as A1. pose proof (sq_approx b Qb) as B1. pose proof (sq_approx a' Qa') as A1'. pose proof (sq_approx b' Qb') as B1'.
  apply sqrt_scaled.
  - apply (approx_normal 2 _ (val a * val a + val b * val b)); [lia| |lra]. apply approx_add; trivial; try lia; lra.
  - apply (approx_normal 2 _ (val a' * val a' + val b' * val b')); [lia| |lra]. apply approx_add; trivial; try lia; lra.
  - apply (sc_add 1 _ _ _ _ _ _ _ _ _ ltac:(lia) A1 B1 A1' B1'); try lra; apply sc_sq; assumption.
Qed.

(** ** Vectors *)

Lemma v2_magnitude_scaled : forall {E : Env} k (v w : Vector2d f32),
  Forall2 (scaled k) (v2_to_array v) (v2_to_array w) -> Forall sq_ok (v2_to_array v) -> Forall sq_ok (v2_to_array w) ->
  (0 < rsumsq (v2_to_array v) <= bpow radix2 126)%R -> (0 < rsumsq (v2_to_array w) <= bpow radix2 126)%R ->
  exists a b, vt_magnitude idf v = Ok a /\ vt_magnitude idf w = Ok b /\ normal_pos a /\ normal_pos b /\ scaled k a b.
Proof. intros E k v w S F F' L L'. exact (norm_scaled k _ _ S F F' ltac:(simpl; lia) L L'). Qed.
Lemma v3_magnitude_scaled : forall {E : Env} k (v w : Vector3d f32),
  Forall2 (scaled k) (v3_to_array v) (v3_to_array w) -> Forall sq_ok (v3_to_array v) -> Forall sq_ok (v3_to_array w) ->
  (0 < rsumsq (v3_to_array v) <= bpow radix2 126)%R -> (0 < rsumsq (v3_to_array w) <= bpow radix2 126)%R ->
  exists a b, vt_magnitude idf v = Ok a /\ vt_magnitude idf w = Ok b /\ normal_pos a /\ normal_pos b /\ scaled k a b.
Proof. intros E k v w S F F' L L'. exact (norm_scaled k _ _ S F F' ltac:(simpl; lia) L L'). Qed.

(** A component divided by the norm is at most about 1. *)
Lemma comp_over_norm : forall l z x, In x l -> normal_pos z -> (0 < rsumsq l)%R ->
  ((1 - bpow radix2 (-20)) * sqrt (rsumsq l) <= val z)%R -> (Rabs (val x / val z) <= bpow radix2 127)%R.
Proof.
  intros l z x I N P B. pose proof (sq_le_sum l x I) as Q. pose proof (normal_pos_gt0 z N) as Pz.
  assert (A : (Rabs (val x) <= sqrt (rsumsq l))%R).
  { rewrite <- sqrt_Rsqr_abs. apply sqrt_le_1_alt. exact Q. }
  pose proof (sqrt_lt_R0 _ P) as SP. assert (B' : ((1 - / 1048576) * sqrt (rsumsq l) <= val z)%R) by (revert B; bpow_lit; intros B; lra).
  unfold Rdiv. rewrite Rabs_mult, Rabs_inv, (Rabs_pos_eq (val z)) by lra.
  apply Rle_trans with (bpow radix2 1); [|apply bpow_le; lia]. change (bpow radix2 1) with 2%R.
  apply Rmult_le_reg_r with (val z); [exact Pz|]. rewrite Rmult_assoc, Rinv_l by lra. lra.
Qed.

Lemma map_div_scaled : forall {E : Env} k a b l l', scaled k a b -> (val a <> 0)%R -> Forall2 (scaled k) l l' ->
  (forall x, In x l -> (Rabs (val x / val a) <= bpow radix2 127)%R) ->
  map (fun n => fdiv n b) l' = map (fun n => fdiv n a) l.
Proof.
  intros E k a b l l' S N H. induction H as [|x y l l' Hxy H IH]; intros B; [reflexivity|]. cbn [map]. f_equal.
  - apply (scaled_div_0 k); trivial. apply B. left. reflexivity.
  - apply IH. intros z Hz. apply B. right. exact Hz.
Qed.

Lemma cons_inj : forall {A} (a b : A) l l', a :: l = b :: l' -> a = b /\ l = l'.
Proof. intros A a b l l' H. injection H. auto. Qed.

Lemma v2_normalized_scaled : forall {E : Env} k (v w : Vector2d f32),
  Forall2 (scaled k) (v2_to_array v) (v2_to_array w) -> Forall sq_ok (v2_to_array v) -> Forall sq_ok (v2_to_array w) ->
  (0 < rsumsq (v2_to_array v) <= bpow radix2 126)%R -> (0 < rsumsq (v2_to_array w) <= bpow radix2 126)%R ->
  exists u, vt_normalized idf idf v = Ok u /\ vt_normalized idf idf w = Ok u.
Proof.
  intros E k v w S F F' L L'. destruct (v2_magnitude_scaled k v w S F F' L L') as (a & b & Ha & Hb & Na & Nb & Sab).
  destruct (v2_magnitude_acc idf v) as (a1 & A1 & _ & A3). { rewrite map_idf. exact F. } { rewrite map_idf. exact L. }
  rewrite map_idf in A3. rewrite Ha in A1. apply Ok_inj in A1. subst a1.
  pose proof (normal_pos_gt0 a Na) as Pa.
  assert (M : map (fun n => fdiv n b) (v2_to_array w) = map (fun n => fdiv n a) (v2_to_array v)).
  { apply (map_div_scaled k); trivial; [lra|]. intros x I. apply (comp_over_norm (v2_to_array v)); trivial; lra. }
  unfold vt_normalized. rewrite Ha, Hb. cbn [bind]. rewrite !v2_map_spec. eexists. split; [reflexivity|].
  unfold v2_to_array in M. cbn [map] in M. apply cons_inj in M. destruct M as [M1 M]. apply cons_inj in M. destruct M as [M2 M].
  unfold idf. rewrite M1, M2. reflexivity.
Qed.
Lemma v3_normalized_scaled : forall {E : Env} k (v w : Vector3d f32),
  Forall2 (scaled k) (v3_to_array v) (v3_to_array w) -> Forall sq_ok (v3_to_array v) -> Forall sq_ok (v3_to_array w) ->
  (0 < rsumsq (v3_to_array v) <= bpow radix2 126)%R -> (0 < rsumsq (v3_to_array w) <= bpow radix2 126)%R ->
  exists u, vt_normalized idf idf v = Ok u /\ vt_normalized idf idf w = Ok u.
Proof.
  intros E k v w S F F' L L'. destruct (v3_magnitude_scaled k v w S F F' L L') as (a & b & Ha & Hb & Na & Nb & Sab).
  destruct (v3_magnitude_acc idf v) as (a1 & A1 & _ & A3). { rewrite map_idf. exact F. } { rewrite map_idf. exact L. }
  rewrite map_idf in A3. rewrite Ha in A1. apply Ok_inj in A1. subst a1.
  pose proof (normal_pos_gt0 a Na) as Pa.
  assert (M : map (fun n => fdiv n b) (v3_to_array w) = map (fun n => fdiv n a) (v3_to_array v)).
  { apply (map_div_scaled k); trivial; [lra|]. intros x I. apply (comp_over_norm (v3_to_array v)); trivial; lra. }
  unfold vt_normalized. rewrite Ha, Hb. cbn [bind]. rewrite !v3_map_spec. eexists. split; [reflexivity|].
  unfold v3_to_array in M. cbn [map] in M. apply cons_inj in M. destruct M as [M1 M]. apply cons_inj in M. destruct M as [M2 M].
  apply cons_inj in M. destruct M as [M3 M].
  unfold idf. rewrite M1, M2, M3. reflexivity.
Qed.

(** ** Quaternions *)

Lemma quat_norm_fold : forall {E : Env} q, @q_norm _ arith_f32 q =
  fold_left fadd (map (fun a => fmul a a) [q1 q; q2 q; q3 q]) (fmul (q0 q) (q0 q)).
Proof. reflexivity. Qed.

Lemma quat_norm_scaled : forall {E : Env} k q r, Forall2 (scaled k) (q_list q) (q_list r) ->
  Forall sq_ok (q_list q) -> Forall sq_ok (q_list r) ->
  (rsumsq (q_list q) <= bpow radix2 126)%R -> (rsumsq (q_list r) <= bpow radix2 126)%R ->
  scaled (2 * k) (@q_norm _ arith_f32 q) (@q_norm _ arith_f32 r).
Proof.
  intros E k q r S F F' L L'. rewrite !quat_norm_fold. unfold q_list in *.
  inversion S as [|? ? ? ? S0 ST]. subst. apply Forall_cons_iff in F. apply Forall_cons_iff in F'. destruct F as [F0 F], F' as [F0' F'].
  apply (fold_scaled k [q1 q; q2 q; q3 q] [q1 r; q2 r; q3 r] 1 _ _ (val (q0 q) * val (q0 q)) (val (q0 r) * val (q0 r))); trivial; try (apply sq_approx; assumption).
  - simpl; lia.
  - apply sc_sq; assumption.
Qed.

Lemma quat_magnitude_scaled : forall {E : Env} k q r, Forall2 (scaled k) (q_list q) (q_list r) ->
  Forall sq_ok (q_list q) -> Forall sq_ok (q_list r) ->
  (0 < rsumsq (q_list q) <= bpow radix2 126)%R -> (0 < rsumsq (q_list r) <= bpow radix2 126)%R ->
  exists a b, Q_magnitude q = Ok a /\ Q_magnitude r = Ok b /\ normal_pos a /\ normal_pos b /\ scaled k a b.
Proof.
  intros E k q r S F F' L L'. unfold Q_magnitude. apply sqrt_scaled.
  - apply (approx_normal 4 _ (rsumsq (q_list q))); [lia| |lra]. apply quat_norm_approx; trivial; lra.
  - apply (approx_normal 4 _ (rsumsq (q_list r))); [lia| |lra]. apply quat_norm_approx; trivial; lra.
  - apply quat_norm_scaled; trivial; lra.
Qed.

Lemma quat_normalize_scaled : forall {E : Env} k q r, Forall2 (scaled k) (q_list q) (q_list r) ->
  Forall sq_ok (q_list q) -> Forall sq_ok (q_list r) ->
  (0 < rsumsq (q_list q) <= bpow radix2 126)%R -> (0 < rsumsq (q_list r) <= bpow radix2 126)%R ->
  exists u, Q_normalize q = Ok u /\ Q_normalize r = Ok u.
Proof.
  intros E k q r S F F' L L'.
  pose proof (quat_norm_approx q F ltac:(lra)) as A. pose proof (quat_norm_approx r F' ltac:(lra)) as A'.
  destruct (approx_normal 4 _ _ ltac:(lia) A ltac:(lra)) as [N B]. destruct (approx_normal 4 _ _ ltac:(lia) A' ltac:(lra)) as [N' _].
  pose proof (quat_norm_scaled k q r S F F' ltac:(lra) ltac:(lra)) as SN.
  destruct (invsqrt_scaled k _ _ N N' SN) as (a & b & Ha & Hb & Na & Nb & Sab).
  destruct (invsqrt_square_bounds _ N) as (a1 & Ha1 & _ & I). rewrite Ha in Ha1. apply Ok_inj in Ha1. subst a1.
  unfold Q_normalize. rewrite (feq_zero_normal _ N), (feq_zero_normal _ N'), Ha, Hb. cbn [bind]. eexists. split; [reflexivity|].
  assert (BND : forall x, In x (q_list q) -> (Rabs (val x * val a) <= bpow radix2 127)%R).
  { intros x Ix. pose proof (sq_le_sum _ x Ix) as Q. pose proof (normal_pos_gt0 _ N) as Ps. pose proof (normal_pos_gt0 a Na) as Pa.
    apply Rle_trans with (bpow radix2 1); [|apply bpow_le; lia]. change (bpow radix2 1) with 2%R.
    assert (IH : (inv_hi <= 2)%R) by (unfold inv_hi; lra).
    assert (SQ : ((val x * val a) * (val x * val a) <= 2 * 2)%R).
    { replace ((val x * val a) * (val x * val a))%R with ((val x * val x) * (val a * val a))%R by ring.
      apply Rle_trans with ((1.1 * val (@q_norm _ arith_f32 q)) * (val a * val a))%R.
      - apply Rmult_le_compat_r; [nra|]. lra.
      - lra. }
    apply Rabs_le. split; nra. }
  unfold q_list in *. inversion S as [|? ? ? ? S0 ST]. inversion ST as [|? ? ? ? S1 ST1]. inversion ST1 as [|? ? ? ? S2 ST2]. inversion ST2 as [|? ? ? ? S3 ST3]. subst.
  unfold q_scale. cbn [amul arith_f32]. f_equal. f_equal; apply (scaled_mul_0 k); trivial; apply BND; cbn; tauto.
Qed.

(** ** Ranges of products *)

Definition rg (l u : Z) (r : R) : Prop := (r = 0 \/ bpow radix2 l <= Rabs r <= bpow radix2 u)%R.

Lemma rg_mul : forall l u l' u' a b, rg l u a -> rg l' u' b -> rg (l + l') (u + u') (a * b)%R.
Proof.
  intros l u l' u' a b [->|A] [->|B]; try (left; ring). right. rewrite Rabs_mult, !bpow_plus.
  split; apply Rmult_le_compat; try apply bpow_ge_0; try apply Rabs_pos; lra.
Qed.

Lemma rg_rnd : forall l u r, -149 <= l -> l <= u -> rg l u r -> rg l u (rnd r).
Proof.
  intros l u r H LU [->|A]; [left; apply rnd_fmt, generic_format_0|]. right.
  assert (P : forall s, (bpow radix2 l <= s <= bpow radix2 u)%R -> (bpow radix2 l <= rnd s <= bpow radix2 u)%R).
  { intros s B. split; [apply Rle_trans with (rnd (bpow radix2 l))|apply Rle_trans with (rnd (bpow radix2 u))];
      try (apply rnd_le; lra); rewrite rnd_fmt by (apply fmt_bpow; lia); lra. }
  pose proof (bpow_gt_0 radix2 l). destruct (Rle_or_lt 0 r) as [S|S].
  - rewrite Rabs_pos_eq in A by lra. specialize (P r A). rewrite Rabs_pos_eq by lra. exact P.
  - rewrite Rabs_left in A by lra. specialize (P _ A). rewrite rnd_opp in P. rewrite Rabs_left by lra. exact P.
Qed.

Lemma rg_nz_normal : forall l u r, -126 <= l -> rg l u r -> nz_normal r.
Proof.
  intros l u r H [A|A]; [left; exact A|right]. apply Rle_trans with (bpow radix2 l); [apply bpow_le; lia|apply A].
Qed.
Lemma rg_le : forall l u r, u <= 127 -> rg l u r -> (Rabs r <= bpow radix2 127)%R.
Proof.
  intros l u r H [->|A]; [rewrite Rabs_R0; apply bpow_ge_0|]. apply Rle_trans with (bpow radix2 u); [apply A|apply bpow_le; lia].
Qed.

Lemma fmul_rg : forall {E : Env} l u l' u' j k a a' b b', scaled j a a' -> scaled k b b' ->
  rg l u (val a) -> rg l u (val a') -> rg l' u' (val b) -> rg l' u' (val b') -> -126 <= l + l' -> l <= u -> l' <= u' -> u + u' <= 127 ->
  scaled (j + k) (fmul a b) (fmul a' b') /\ rg (l + l') (u + u') (val (fmul a b)) /\ rg (l + l') (u + u') (val (fmul a' b')).
Proof.
  intros E l u l' u' j k a a' b b' Sa Sb Ra Ra' Rb Rb' L H1 H2 U.
  pose proof (rg_mul _ _ _ _ _ _ Ra Rb) as R. pose proof (rg_mul _ _ _ _ _ _ Ra' Rb') as R'.
  pose proof Sa as (Fa & Fa' & _). pose proof Sb as (Fb & Fb' & _).
  split; [|split].
  - apply scaled_mul; trivial; try (apply (rg_nz_normal (l + l') (u + u')); assumption); apply (rg_le (l + l') (u + u')); assumption.
  - destruct (fmul_R a b Fa Fb) as [_ V]; [apply (small_lt_128 127); [lia|apply (rg_le (l + l') (u + u')); assumption]|].
    rewrite V. apply rg_rnd; [lia|lia|exact R].
  - destruct (fmul_R a' b' Fa' Fb') as [_ V]; [apply (small_lt_128 127); [lia|apply (rg_le (l + l') (u + u')); assumption]|].
    rewrite V. apply rg_rnd; [lia|lia|exact R'].
Qed.

Lemma within_rg : forall b x, within b x -> fin x /\ rg (- b) b (val x).
Proof. intros b x H. exact H. Qed.

Lemma within_sq_ok : forall x, within 30 x -> sq_ok x.
Proof.
  intros x [F H]. split; [exact F|]. destruct H as [H|H]; [left; exact H|right].
  assert (A : (bpow radix2 (-60) <= val x * val x <= bpow radix2 60)%R).
  { rewrite <- Rabs_sqr_eq || idtac. replace (val x * val x)%R with (Rabs (val x) * Rabs (val x))%R by (rewrite <- Rabs_mult; apply Rabs_pos_eq; nra).
    change (-60) with (-30 + -30). change 60 with (30 + 30). rewrite !bpow_plus. pose proof (bpow_gt_0 radix2 (-30)).
    change (- (30)) with (-30) in H. split; apply Rmult_le_compat; try apply Rabs_pos; try lra. }
  assert (bpow radix2 (-126) <= bpow radix2 (-60))%R by (apply bpow_le; lia).
  assert (bpow radix2 60 <= bpow radix2 125)%R by (apply bpow_le; lia). lra.
Qed.

Lemma quat_inv_scaled : forall {E : Env} k q r, Forall2 (scaled k) (q_list q) (q_list r) ->
  Forall (within 30) (q_list q) -> Forall (within 30) (q_list r) -> (0 < rsumsq (q_list q))%R ->
  exists u v, Q_inv q = Ok u /\ Q_inv r = Ok v /\ Forall2 (scaled (- k)) (q_list u) (q_list v).
Proof.
  intros E k q r S W W' P.
  assert (F : Forall sq_ok (q_list q)) by (eapply Forall_impl; [|exact W]; exact within_sq_ok).
  assert (F' : Forall sq_ok (q_list r)) by (eapply Forall_impl; [|exact W']; exact within_sq_ok).
  assert (SUM : forall p, Forall (within 30) (q_list p) -> (0 < rsumsq (q_list p))%R -> (bpow radix2 (-60) <= rsumsq (q_list p) <= bpow radix2 62)%R).
  { intros p Wp Pp. unfold q_list in *. apply Forall_cons_iff in Wp. destruct Wp as [W0 Wp]. apply Forall_cons_iff in Wp. destruct Wp as [W1 Wp].
    apply Forall_cons_iff in Wp. destruct Wp as [W2 Wp]. apply Forall_cons_iff in Wp. destruct Wp as [W3 _].
    assert (SQ : forall x, within 30 x -> (val x * val x = 0 \/ bpow radix2 (-60) <= val x * val x <= bpow radix2 60)%R).
    { intros x [_ H]. apply (rg_mul (-30) 30 (-30) 30 _ _ H) in H. destruct H as [H|H]; [left; exact H|right].
      rewrite Rabs_pos_eq in H by nra. exact H. }
    pose proof (SQ _ W0). pose proof (SQ _ W1). pose proof (SQ _ W2). pose proof (SQ _ W3).
    assert (D : (bpow radix2 62 = 4 * bpow radix2 60)%R) by (change 62 with (2 + 60); rewrite bpow_plus; reflexivity).
    pose proof (bpow_gt_0 radix2 (-60)). pose proof (bpow_gt_0 radix2 60). cbn [rsumsq fold_right] in *. lra. }
  assert (P' : (0 < rsumsq (q_list r))%R).
  { unfold q_list in *. inversion S as [|? ? ? ? S0 ST]. inversion ST as [|? ? ? ? S1 ST1]. inversion ST1 as [|? ? ? ? S2 ST2]. inversion ST2 as [|? ? ? ? S3 ST3]. subst.
    cbn [rsumsq fold_right] in *. destruct S0 as (_ & _ & -> & _). destruct S1 as (_ & _ & -> & _). destruct S2 as (_ & _ & -> & _). destruct S3 as (_ & _ & -> & _).
    set (b := bpow radix2 k). assert (0 < b)%R by apply bpow_gt_0.
    replace (b * val (q0 q) * (b * val (q0 q)) + (b * val (q1 q) * (b * val (q1 q)) + (b * val (q2 q) * (b * val (q2 q)) + (b * val (q3 q) * (b * val (q3 q)) + 0))))%R
      with ((b * b) * (val (q0 q) * val (q0 q) + (val (q1 q) * val (q1 q) + (val (q2 q) * val (q2 q) + (val (q3 q) * val (q3 q) + 0)))))%R by ring.
    apply Rmult_lt_0_compat; nra. }
  pose proof (SUM q W P) as L. pose proof (SUM r W' P') as L'.
  assert (B62 : (bpow radix2 62 <= bpow radix2 126)%R) by (apply bpow_le; lia).
  pose proof (quat_norm_approx q F ltac:(lra)) as A. pose proof (quat_norm_approx r F' ltac:(lra)) as A'.
  destruct (approx_normal 4 _ _ ltac:(lia) A ltac:(lra)) as [N B]. destruct (approx_normal 4 _ _ ltac:(lia) A' ltac:(lra)) as [N' B'].
  pose proof (quat_norm_scaled k q r S F F' ltac:(lra) ltac:(lra)) as SN.
  set (s := @q_norm _ arith_f32 q) in *. set (s' := @q_norm _ arith_f32 r) in *.
  assert (D63 : (bpow radix2 63 = 2 * bpow radix2 62)%R) by (change 63 with (1 + 62); rewrite bpow_plus; reflexivity).
  assert (D61 : (bpow radix2 (-60) = 2 * bpow radix2 (-61))%R) by (change (-60) with (1 + -61); rewrite bpow_plus; reflexivity).
  pose proof (bpow_gt_0 radix2 62). pose proof (bpow_gt_0 radix2 (-61)).
  assert (B63 : (bpow radix2 63 <= bpow radix2 126)%R) by (apply bpow_le; lia).
  destruct (inv_scaled (2 * k) s s' N N' ltac:(lra) ltac:(lra) SN) as (Na & Nb & Sab).
  assert (IR : forall t, normal_pos t -> (bpow radix2 (-61) <= val t <= bpow radix2 63)%R -> rg (-63) 62 (val (F32_inv t))).
  { intros t Nt Bt. destruct (inv_accuracy t Nt ltac:(lra)) as [Ni I]. pose proof (normal_pos_gt0 _ Ni) as Pi. right. rewrite Rabs_pos_eq by lra.
    assert (E1 : (bpow radix2 (-63) * bpow radix2 63 = 1)%R) by (rewrite <- bpow_plus; reflexivity).
    assert (E2 : (bpow radix2 62 * bpow radix2 (-61) = 2)%R) by (rewrite <- bpow_plus; reflexivity).
    pose proof (bpow_gt_0 radix2 63). pose proof (bpow_gt_0 radix2 (-63)). split.
    - apply Rmult_le_reg_r with (bpow radix2 63); [lra|]. nra.
    - apply Rmult_le_reg_r with (bpow radix2 (-61)); [lra|]. nra. }
  pose proof (IR s N ltac:(lra)) as Ra. pose proof (IR s' N' ltac:(lra)) as Rb.
  unfold Q_inv. fold s s'. rewrite (feq_zero_normal _ N), (feq_zero_normal _ N'). eexists. eexists. split; [reflexivity|]. split; [reflexivity|].
  unfold q_list in *. inversion S as [|? ? ? ? S0 ST]. inversion ST as [|? ? ? ? S1 ST1]. inversion ST1 as [|? ? ? ? S2 ST2]. inversion ST2 as [|? ? ? ? S3 ST3]. subst.
  repeat match goal with H : Forall _ (_ :: _) |- _ => apply Forall_cons_iff in H; destruct H end.
  unfold q_mul_scalar, q_scale, q_conj. cbn [q0 q1 q2 q3 amul aneg arith_f32].
  assert (RN : forall x, within 30 x -> rg (-30) 30 (val (fneg x))).
  { intros x [_ Hx]. rewrite fneg_val. unfold rg. rewrite Rabs_Ropp. destruct Hx as [Hx|Hx]; [left; rewrite Hx; ring|right; exact Hx]. }
  replace (- k) with (k + - (2 * k)) by ring.
  repeat apply Forall2_cons; try apply Forall2_nil.
  - apply (fmul_rg (-30) 30 (-63) 62); trivial; try lia; match goal with H : within 30 ?x |- rg _ _ (val ?x) => exact (proj2 H) end.
  - apply (fmul_rg (-30) 30 (-63) 62); trivial; try lia; try (apply scaled_neg; assumption); apply RN; assumption.
  - apply (fmul_rg (-30) 30 (-63) 62); trivial; try lia; try (apply scaled_neg; assumption); apply RN; assumption.
  - apply (fmul_rg (-30) 30 (-63) 62); trivial; try lia; try (apply scaled_neg; assumption); apply RN; assumption.
Qed.
