(** * Proofs: scaling of the statistics *)

From Coq Require Import ZArith Reals Bool List Lia Lra Psatz.
From Flocq Require Import Core IEEE754.BinarySingleNaN IEEE754.Binary IEEE754.Bits Plus_error.
From Verif Require Import Base Spec SpecMore Float Stats F32Lemmas BitLemmas P_Trunc P_Floor Literals ErrLemmas P_RoundEdge NanLemmas
  P_Euclid P_Roots P_InvSqrt P_Exact P_Recip P_SumSq P_Quat P_Stats P_Stats2 P_Stats3 P_Scale P_Scale2.
Import ListNotations.
Open Scope Z_scope.

(** Multiples of a power of two. *)
Definition grid (e : Z) (r : R) : Prop := exists m : Z, (r = IZR m * bpow radix2 e)%R.

Lemma grid_0 : forall e, grid e 0.
Proof. intros e. exists 0. ring. Qed.

Lemma grid_add : forall e a b, grid e a -> grid e b -> grid e (a + b).
Proof. intros e a b [m ->] [n ->]. exists (m + n). rewrite plus_IZR. ring. Qed.

Lemma grid_sub : forall e a b, grid e a -> grid e b -> grid e (a - b).
Proof. intros e a b [m ->] [n ->]. exists (m - n). rewrite minus_IZR. ring. Qed.

Lemma grid_rnd : forall e r, grid e r -> grid e (rnd r).
Proof.
  intros e r [m ->]. destruct (round_repr_same_exp radix2 (FLT_exp (-149) 24) ZnearestE m e) as [m' H].
  exists m'. unfold rnd. unfold F2R in H. simpl in H. exact H.
Qed.

Lemma grid_min : forall e r, grid e r -> (r = 0 \/ bpow radix2 e <= Rabs r)%R.
Proof.
  intros e r [m ->]. destruct (Z.eq_dec m 0) as [->|N]; [left; ring|right].
  rewrite Rabs_mult, (Rabs_pos_eq (bpow radix2 e)) by apply bpow_ge_0. rewrite <- abs_IZR.
  rewrite <- (Rmult_1_l (bpow radix2 e)) at 1. apply Rmult_le_compat_r; [apply bpow_ge_0|]. apply IZR_le. lia.
Qed.

Lemma grid_le : forall e f r, e <= f -> grid f r -> grid e r.
Proof.
  intros e f r L [m ->]. exists (m * 2 ^ (f - e)). rewrite mult_IZR. replace (IZR (2 ^ (f - e))) with (bpow radix2 (f - e)).
  - rewrite Rmult_assoc, <- bpow_plus. do 2 f_equal. lia.
  - rewrite <- IZR_Zpower by lia. reflexivity.
Qed.

(** A float of size at least [2^e] is a multiple of [2^(e-23)]. *)
Lemma fmt_grid : forall e r, -126 <= e -> fmt r -> (bpow radix2 e <= Rabs r)%R -> grid (e - 23) r.
Proof.
  intros e r He F B. apply grid_le with (cexp radix2 (FLT_exp (-149) 24) r).
  - unfold cexp, FLT_exp. pose proof (mag_ge_bpow radix2 r (e + 1)) as M.
    replace (e + 1 - 1) with e in M by lia. specialize (M B). lia.
  - exists (Ztrunc (scaled_mantissa radix2 (FLT_exp (-149) 24) r)). exact F.
Qed.

Lemma within_grid : forall x, within 16 x -> grid (-39) (val x) /\ (Rabs (val x) <= bpow radix2 16)%R.
Proof.
  intros x (F & [Z|[A B]]).
  - rewrite Z. split; [apply grid_0|rewrite Rabs_R0; apply bpow_ge_0].
  - split; [|exact B]. change (-39) with (- (16) - 23). apply fmt_grid; [lia|apply fmt_val|exact A].
Qed.

(** Partial sums. *)
Definition part (e u : Z) (i : Z) (r : R) : Prop := grid e r /\ (Rabs r <= IZR i * bpow radix2 u)%R.

Lemma rnd_cnt : forall i u r, 0 <= i <= 2 ^ 16 -> -149 <= u -> (Rabs r <= IZR i * bpow radix2 u)%R -> (Rabs (rnd r) <= IZR i * bpow radix2 u)%R.
Proof.
  intros i u r Hi Hu H. assert (F : fmt (IZR i * bpow radix2 u)) by (apply fmt_scaled; lia).
  apply Rabs_le. apply Rabs_le_inv in H. split.
  - rewrite <- (rnd_fmt _ F), <- rnd_opp. apply rnd_le. lra.
  - rewrite <- (rnd_fmt _ F). apply rnd_le. lra.
Qed.

Lemma cnt_bound : forall i u w, 0 <= i <= 2 ^ 16 -> u + 16 <= w -> (IZR i * bpow radix2 u <= bpow radix2 w)%R.
Proof.
  intros i u w Hi H. apply Rle_trans with (bpow radix2 (16 + u)); [|apply bpow_le; lia].
  rewrite bpow_plus. apply Rmult_le_compat_r; [apply bpow_ge_0|].
  change (bpow radix2 16) with (IZR (2 ^ 16)). apply IZR_le. lia.
Qed.

Lemma part_add : forall {E : Env} i k a a' b b', 0 <= i < 2 ^ 16 -> scaled k a a' -> scaled k b b' ->
  part (-39) 16 i (val a) -> part (-39) 16 i (val a') -> part (-39) 16 1 (val b) -> part (-39) 16 1 (val b') ->
  scaled k (fadd a b) (fadd a' b') /\ part (-39) 16 (i + 1) (val (fadd a b)) /\ part (-39) 16 (i + 1) (val (fadd a' b')).
Proof.
  intros E i k a a' b b' Hi Sa Sb [Ga Ba] [Ga' Ba'] [Gb Bb] [Gb' Bb'].
  pose proof Sa as (Fa & Fa' & _). pose proof Sb as (Fb & Fb' & _).
  assert (K : forall x y, fin x -> fin y -> grid (-39) (val x) -> grid (-39) (val y) -> (Rabs (val x) <= IZR i * bpow radix2 16)%R ->
     (Rabs (val y) <= IZR 1 * bpow radix2 16)%R -> (Rabs (val x + val y) <= bpow radix2 127)%R /\ part (-39) 16 (i + 1) (val (fadd x y))).
  { intros x y Fx Fy Gx Gy Bx By.
    assert (T : (Rabs (val x + val y) <= IZR (i + 1) * bpow radix2 16)%R).
    { eapply Rle_trans; [apply Rabs_triang|]. rewrite plus_IZR, Rmult_plus_distr_r. apply Rplus_le_compat; assumption. }
    assert (U : (Rabs (val x + val y) <= bpow radix2 127)%R) by (eapply Rle_trans; [exact T|apply cnt_bound; lia]).
    split; [exact U|]. destruct (fadd_R x y Fx Fy) as [F V]; [apply (small_lt_128 127); [lia|exact U]|].
    rewrite V. split; [apply grid_rnd, grid_add; assumption|apply rnd_cnt; [lia|lia|exact T]]. }
  destruct (K a b) as [U P]; trivial. destruct (K a' b') as [U' P']; trivial.
  split; [apply scaled_add; assumption|]. split; assumption.
Qed.

Lemma fold_part : forall {E : Env} k l l', Forall2 (scaled k) l l' -> Forall (within 16) l -> Forall (within 16) l' ->
  forall i a a', 0 <= i -> i + Z.of_nat (length l) <= 2 ^ 16 -> scaled k a a' -> part (-39) 16 i (val a) -> part (-39) 16 i (val a') ->
  let s := fold_left fadd l a in let s' := fold_left fadd l' a' in
  scaled k s s' /\ part (-39) 16 (i + Z.of_nat (length l)) (val s) /\ part (-39) 16 (i + Z.of_nat (length l)) (val s').
Proof.
  intros E k l l' H. induction H as [|x y l l' Sxy _ IH]; intros W W' i a a' Hi L Sa Pa Pa'.
  - cbn [length fold_left] in *. cbv zeta. replace (i + Z.of_nat 0) with i by lia. split; [exact Sa|]. split; assumption.
  - cbn [length fold_left] in *. cbv zeta. inversion W as [|? ? Wx Wl]; subst. inversion W' as [|? ? Wy Wl']; subst.
    destruct (within_grid x Wx) as [Gx Bx]. destruct (within_grid y Wy) as [Gy By].
    destruct (part_add i k a a' x y) as (S & P & P'); trivial; try lia; try (split; [assumption|lra]).
    destruct (IH Wl Wl' (i + 1) (fadd a x) (fadd a' y)) as (S2 & P2 & P2'); trivial; try lia.
    cbv zeta in *. replace (i + Z.of_nat (Datatypes.S (length l))) with (i + 1 + Z.of_nat (length l)) by lia.
    split; [exact S2|]. split; assumption.
Qed.

Lemma cnt_div : forall e n r, (r = 0 \/ bpow radix2 e <= Rabs r)%R -> 1 <= n <= 2 ^ 16 -> (r / IZR n = 0 \/ bpow radix2 (e - 16) <= Rabs (r / IZR n))%R.
Proof.
  intros e n r [->|H] Hn; [left; unfold Rdiv; ring|right].
  assert (N : (1 <= IZR n)%R) by (apply IZR_le; lia).
  unfold Rdiv. rewrite Rabs_mult, Rabs_inv, (Rabs_pos_eq (IZR n)) by lra.
  apply Rmult_le_reg_r with (IZR n); [lra|]. rewrite Rmult_assoc, Rinv_l, Rmult_1_r by lra.
  apply Rle_trans with (bpow radix2 e); [|exact H]. rewrite Rmult_comm. apply cnt_bound; lia.
Qed.

Lemma mean_part : forall n r, 1 <= n <= 2 ^ 16 -> part (-39) 16 n r -> rg (-55) 16 (r / IZR n).
Proof.
  intros n r Hn [G B]. destruct (cnt_div (-39) n r (grid_min _ _ G) Hn) as [Z|L]; [left; exact Z|right]. split; [exact L|].
  assert (N : (1 <= IZR n)%R) by (apply IZR_le; lia).
  unfold Rdiv. rewrite Rabs_mult, Rabs_inv, (Rabs_pos_eq (IZR n)) by lra.
  apply Rmult_le_reg_r with (IZR n); [lra|]. rewrite Rmult_assoc, Rinv_l, Rmult_1_r by lra. lra.
Qed.

Lemma mean_scaled : forall {E : Env} k l l', Forall2 (scaled k) l l' -> Forall (within 16) l -> Forall (within 16) l' ->
  0 < Z.of_nat (length l) <= 2 ^ 16 ->
  exists m m', mean l = Ok m /\ mean l' = Ok m' /\ scaled k m m' /\ rg (-55) 16 (val m) /\ rg (-55) 16 (val m').
Proof.
  intros E k l l' H W W' L. assert (Q : length l = length l') by (clear - H; induction H; cbn; congruence).
  rewrite !mean_spec by lia. rewrite <- Q. do 2 eexists. split; [reflexivity|]. split; [reflexivity|].
  assert (Z0 : scaled k (f32_zero false) (f32_zero false)).
  { split; [reflexivity|]. split; [reflexivity|]. split; [cbn; ring|reflexivity]. }
  assert (P0 : part (-39) 16 0 (val (f32_zero false))).
  { split; [apply grid_0|]. cbn. rewrite Rabs_R0. lra. }
  destruct (fold_part k l l' H W W' 0 _ _ ltac:(lia) ltac:(lia) Z0 P0 P0) as (S & P & P'). cbv zeta in *.
  set (s := fold_left fadd l (f32_zero false)) in *. set (s' := fold_left fadd l' (f32_zero false)) in *.
  rewrite Z.add_0_l in P, P'. set (n := Z.of_nat (length l)) in *.
  destruct (f32_of_Z_exact n) as [Fn Vn]; [lia|].
  pose proof (mean_part n _ ltac:(lia) P) as R. pose proof (mean_part n _ ltac:(lia) P') as R'.
  assert (N : (1 <= IZR n)%R) by (apply IZR_le; lia).
  pose proof S as (Fs & Fs' & _).
  assert (V : forall z, fin z -> rg (-55) 16 (val z / IZR n) -> rg (-55) 16 (val (fdiv z (f32_of_Z n)))).
  { intros z Fz Rz. destruct (fdiv_R z (f32_of_Z n) Fz Fn) as [_ ->].
    - rewrite Vn. lra.
    - rewrite Vn. apply (small_lt_128 127); [lia|]. apply (rg_le (-55) 16); [lia|exact Rz].
    - rewrite Vn. apply rg_rnd; [lia|lia|exact Rz]. }
  split; [|split; apply V; assumption].
  replace k with (k - 0) by lia. apply scaled_div; rewrite ?Vn; trivial.
  - apply scaled_refl; exact Fn.
  - lra.
  - apply (rg_nz_normal (-55) 16); [lia|exact R].
  - apply (rg_nz_normal (-55) 16); [lia|exact R'].
  - apply (rg_le (-55) 16); [lia|exact R].
  - apply (rg_le (-55) 16); [lia|exact R'].
Qed.

(** A deviation from the mean is zero or not too small. *)
Lemma dev_rg : forall {E : Env} x m, within 16 x -> fin m -> rg (-55) 16 (val m) -> fin (fsub x m) /\ rg (-55) 17 (val (fsub x m)) /\
  (Rabs (val x - val m) <= bpow radix2 127)%R.
Proof.
  intros E x m W Fm R. pose proof W as [Fx Wx]. destruct (within_grid x W) as [Gx Bx].
  assert (Bm : (Rabs (val m) <= bpow radix2 16)%R) by (destruct R as [->|R]; [rewrite Rabs_R0; apply bpow_ge_0|apply R]).
  assert (U : (Rabs (val x - val m) <= bpow radix2 17)%R).
  { eapply Rle_trans; [apply Rabs_triang|]. rewrite Rabs_Ropp.
    assert (B : (bpow radix2 17 = 2 * bpow radix2 16)%R) by (change 17 with (1 + 16); rewrite bpow_plus; reflexivity). lra. }
  assert (D : rg (-55) 17 (val x - val m)).
  { destruct (Req_dec (val x - val m) 0) as [Z|N]; [left; exact Z|right]. split; [|exact U].
    destruct (Rle_lt_dec (bpow radix2 (-18)) (Rabs (val m))) as [L|L].
    - apply fmt_grid in L; [|lia|apply fmt_val].
      destruct (grid_min (-41) (val x - val m)) as [Z|G]; [|contradiction|].
      + apply grid_sub; [apply grid_le with (-39); [lia|exact Gx]|exact L].
      + eapply Rle_trans; [|exact G]. apply bpow_le. lia.
    - destruct Wx as [Z|[A _]].
      + rewrite Z, Rminus_0_l, Rabs_Ropp. destruct R as [R|R]; [|apply R]. exfalso. apply N. rewrite Z, R. ring.
      + apply Rle_trans with (bpow radix2 (-17)); [apply bpow_le; lia|].
        assert (T : (Rabs (val x) - Rabs (val m) <= Rabs (val x - val m))%R) by apply Rabs_triang_inv.
        assert (P1 : (bpow radix2 (-16) = 2 * bpow radix2 (-17))%R) by (change (-16) with (1 + -17); rewrite bpow_plus; reflexivity).
        assert (P2 : (bpow radix2 (-18) <= bpow radix2 (-17))%R) by (apply bpow_le; lia).
        change (- (16)) with (-16) in A. lra. }
  assert (U' : (Rabs (val x - val m) <= bpow radix2 127)%R) by (eapply Rle_trans; [exact U|apply bpow_le; lia]).
  destruct (fsub_R x m Fx Fm) as [F V]; [apply (small_lt_128 127); [lia|exact U']|].
  split; [exact F|]. split; [|exact U']. rewrite V. apply rg_rnd; [lia|lia|exact D].
Qed.

(** Sums of squares. *)
Definition psum (i : Z) (r : R) : Prop := (0 <= r /\ (r = 0 \/ bpow radix2 (-110) <= r) /\ r <= IZR i * bpow radix2 34)%R.

Lemma sq_scaled : forall {E : Env} k x y m m', within 16 x -> within 16 y -> scaled k x y -> scaled k m m' ->
  rg (-55) 16 (val m) -> rg (-55) 16 (val m') ->
  let d := fsub x m in let d' := fsub y m' in
  scaled k d d' /\ rg (-55) 17 (val d) /\ rg (-55) 17 (val d') /\
  scaled (2 * k) (fmul d d) (fmul d' d') /\ psum 1 (val (fmul d d)) /\ psum 1 (val (fmul d' d')).
Proof.
  intros E k x y m m' Wx Wy Sx Sm Rm Rm' d d'. pose proof Sm as (Fm & Fm' & _).
  destruct (dev_rg x m Wx Fm Rm) as (F & R & U). destruct (dev_rg y m' Wy Fm' Rm') as (F' & R' & U'). fold d in F, R. fold d' in F', R'.
  assert (S : scaled k d d') by (apply scaled_sub; assumption).
  destruct (fmul_rg (-55) 17 (-55) 17 k k d d' d d') as (SS & Q & Q'); trivial; try lia.
  replace (2 * k) with (k + k) by lia. do 4 (split; [assumption|]).
  assert (K : forall z, fin z -> rg (-55) 17 (val z) -> rg (-55 + -55) (17 + 17) (val (fmul z z)) -> psum 1 (val (fmul z z))).
  { intros z Fz Rz Qz. assert (N : (0 <= val (fmul z z))%R).
    { destruct (fmul_R z z Fz Fz) as [_ ->].
      - apply (small_lt_128 127); [lia|]. apply (rg_le (-110) 34); [lia|]. change (-110) with (-55 + -55). change 34 with (17 + 17).
        apply rg_mul; assumption.
      - apply rnd_nonneg. apply Rle_0_sqr. }
    change (-55 + -55) with (-110) in Qz. change (17 + 17) with 34 in Qz. unfold psum. rewrite Rmult_1_l.
    destruct Qz as [Z|[A B]].
    - rewrite Z. split; [lra|]. split; [left; reflexivity|apply bpow_ge_0].
    - rewrite Rabs_pos_eq in A, B by exact N. split; [exact N|]. split; [right; exact A|exact B]. }
  split; apply K; assumption.
Qed.

Lemma psum_add : forall {E : Env} k i a a' b b', 0 <= i < 2 ^ 16 -> scaled k a a' -> scaled k b b' ->
  psum i (val a) -> psum i (val a') -> psum 1 (val b) -> psum 1 (val b') ->
  scaled k (fadd a b) (fadd a' b') /\ psum (i + 1) (val (fadd a b)) /\ psum (i + 1) (val (fadd a' b')).
Proof.
  intros E k i a a' b b' Hi Sa Sb Pa Pa' Pb Pb'.
  pose proof Sa as (Fa & Fa' & _). pose proof Sb as (Fb & Fb' & _).
  assert (K : forall x y, fin x -> fin y -> psum i (val x) -> psum 1 (val y) ->
     (Rabs (val x + val y) <= bpow radix2 127)%R /\ psum (i + 1) (val (fadd x y))).
  { intros x y Fx Fy (Nx & Lx & Bx) (Ny & Ly & By).
    assert (T : (Rabs (val x + val y) <= IZR (i + 1) * bpow radix2 34)%R).
    { rewrite Rabs_pos_eq by lra. rewrite plus_IZR, Rmult_plus_distr_r. apply Rplus_le_compat; assumption. }
    assert (U : (Rabs (val x + val y) <= bpow radix2 127)%R) by (eapply Rle_trans; [exact T|apply cnt_bound; lia]).
    split; [exact U|]. destruct (fadd_R x y Fx Fy) as [F V]; [apply (small_lt_128 127); [lia|exact U]|].
    assert (NN : (0 <= rnd (val x + val y))%R) by (apply rnd_nonneg; lra).
    rewrite V. split; [exact NN|]. split.
    - assert (C : ((val x = 0 /\ val y = 0) \/ bpow radix2 (-110) <= val x + val y)%R).
      { destruct Lx as [Lx|Lx], Ly as [Ly|Ly]; [left; split; assumption| | |]; right; lra. }
      destruct C as [[-> ->]|C].
      + left. rewrite Rplus_0_r. apply rnd_fmt, generic_format_0.
      + right. rewrite <- (rnd_fmt (bpow radix2 (-110))) by (apply fmt_bpow; lia). apply rnd_le. exact C.
    - rewrite <- (Rabs_pos_eq _ NN). apply rnd_cnt; [lia|lia|exact T]. }
  destruct (K a b) as [U P]; trivial. destruct (K a' b') as [U' P']; trivial.
  split; [apply scaled_add; assumption|]. split; assumption.
Qed.

Lemma fold_psum : forall {E : Env} k m m', scaled k m m' -> rg (-55) 16 (val m) -> rg (-55) 16 (val m') ->
  forall l l', Forall2 (scaled k) l l' -> Forall (within 16) l -> Forall (within 16) l' ->
  forall i a a', 0 <= i -> i + Z.of_nat (length l) <= 2 ^ 16 -> scaled (2 * k) a a' -> psum i (val a) -> psum i (val a') ->
  let g c := fun sum item => let n := fsub item c in fadd sum (fmul n n) in
  let s := fold_left (g m) l a in let s' := fold_left (g m') l' a' in
  scaled (2 * k) s s' /\ psum (i + Z.of_nat (length l)) (val s) /\ psum (i + Z.of_nat (length l)) (val s').
Proof.
  intros E k m m' Sm Rm Rm' l l' H. induction H as [|x y l l' Sxy _ IH]; intros W W' i a a' Hi L Sa Pa Pa' g.
  - cbn [length fold_left] in *. cbv zeta. replace (i + Z.of_nat 0) with i by lia. split; [exact Sa|]. split; assumption.
  - cbn [length fold_left] in *. cbv zeta. inversion W as [|? ? Wx Wl]; subst. inversion W' as [|? ? Wy Wl']; subst.
    destruct (sq_scaled k x y m m' Wx Wy Sxy Sm Rm Rm') as (_ & _ & _ & S & P & P'). cbv zeta in *.
    destruct (psum_add (2 * k) i a a' _ _ ltac:(lia) Sa S Pa Pa' P P') as (S1 & P1 & P1').
    destruct (IH Wl Wl' (i + 1) (g m a x) (g m' a' y)) as (S2 & P2 & P2'); trivial; try lia.
    replace (i + Z.of_nat (Datatypes.S (length l))) with (i + 1 + Z.of_nat (length l)) by lia.
    split; [exact S2|]. split; assumption.
Qed.

Lemma count_minus_one_val : forall {E : Env} n, 2 <= n <= 2 ^ 24 ->
  let d := fsub (f32_of_Z n) F32_ONE in fin d /\ val d = IZR (n - 1).
Proof.
  intros E n B d. destruct (f32_of_Z_exact n) as [Fn Vn]; [lia|]. destruct one_val as [F1 V1].
  destruct (fsub_R (f32_of_Z n) F32_ONE Fn F1) as [F V].
  - apply (small_lt_128 24); [lia|]. rewrite Vn, V1, <- minus_IZR, <- abs_IZR.
    change (bpow radix2 24) with (IZR (2 ^ 24)). apply IZR_le. lia.
  - split; [exact F|]. unfold d. rewrite V, Vn, V1, <- minus_IZR. apply rnd_fmt. apply fmt_IZR; lia.
Qed.

Lemma stats_scaled : forall {E : Env} {T} (into into' : T -> f32) k l, 2 <= Z.of_nat (length l) <= 2 ^ 16 ->
  Forall (fun x => within 16 (into x) /\ within 16 (into' x) /\ scaled k (into x) (into' x)) l ->
  exists m m' v v',
    mean (map into l) = Ok m /\ mean (map into' l) = Ok m' /\ scaled k m m' /\
    variance into l = Ok v /\ variance into' l = Ok v' /\ scaled (2 * k) v v' /\
    ((0 < val v)%R -> exists s s', stddev into l = Ok s /\ stddev into' l = Ok s' /\ scaled k s s' /\
       forall t, trim_at into' l t = trim_at into l t).
Proof.
  intros E T into into' k l L H.
  assert (H2 : Forall2 (scaled k) (map into l) (map into' l)).
  { clear L. induction H as [|x l (_ & _ & S) _ IH]; [constructor|]. cbn [map]. constructor; assumption. }
  assert (W : Forall (within 16) (map into l)).
  { apply Forall_map. eapply Forall_impl; [|exact H]. intros a Ha. apply Ha. }
  assert (W' : Forall (within 16) (map into' l)).
  { apply Forall_map. eapply Forall_impl; [|exact H]. intros a Ha. apply Ha. }
  destruct (mean_scaled k _ _ H2 W W') as (m & m' & M & M' & Sm & Rm & Rm'); [rewrite map_length; lia|].
  pose proof (variance_eq into l m M) as V. pose proof (variance_eq into' l m' M') as V'.
  assert (Z0 : scaled (2 * k) (f32_zero false) (f32_zero false)).
  { split; [reflexivity|]. split; [reflexivity|]. split; [cbn; ring|reflexivity]. }
  assert (P0 : psum 0 (val (f32_zero false))).
  { unfold psum. cbn. split; [lra|]. split; [left; reflexivity|lra]. }
  destruct (fold_psum k m m' Sm Rm Rm' _ _ H2 W W' 0 _ _ ltac:(lia) ltac:(rewrite map_length; lia) Z0 P0 P0) as (Q & P & P').
  cbv zeta in Q, P, P'. fold (sum_sq_dev (map into l) m) in Q, P. fold (sum_sq_dev (map into' l) m') in Q, P'.
  rewrite map_length in P, P'. rewrite Z.add_0_l in P, P'.
  set (q := sum_sq_dev (map into l) m) in *. set (q' := sum_sq_dev (map into' l) m') in *.
  set (n := Z.of_nat (length l)) in *.
  destruct (count_minus_one_val n ltac:(lia)) as [Fd Vd]. cbv zeta in Fd, Vd.
  set (d := fsub (f32_of_Z n) F32_ONE) in *.
  assert (D1 : (1 <= IZR (n - 1))%R) by (apply IZR_le; lia).
  assert (R : forall z, psum n (val z) -> rg (-126) 51 (val z / val d)).
  { intros z (Nz & Lz & Bz). rewrite Vd. destruct (cnt_div (-110) (n - 1) (val z)) as [C|C]; [|lia|left; exact C|].
    - destruct Lz as [Lz|Lz]; [left; exact Lz|right; rewrite Rabs_pos_eq by exact Nz; exact Lz].
    - right. split; [exact C|]. unfold Rdiv. rewrite Rabs_mult, Rabs_inv, (Rabs_pos_eq (IZR (n - 1))), (Rabs_pos_eq (val z)) by lra.
      apply Rmult_le_reg_r with (IZR (n - 1)); [lra|]. rewrite Rmult_assoc, Rinv_l, Rmult_1_r by lra.
      apply Rle_trans with (bpow radix2 51); [eapply Rle_trans; [exact Bz|apply cnt_bound; lia]|].
      rewrite <- (Rmult_1_r (bpow radix2 51)) at 1. apply Rmult_le_compat_l; [apply bpow_ge_0|exact D1]. }
  pose proof (R q P) as Rq. pose proof (R q' P') as Rq'.
  assert (SV : scaled (2 * k) (fdiv q d) (fdiv q' d)).
  { replace (2 * k) with (2 * k - 0) by lia. apply scaled_div; trivial.
    - apply scaled_refl; exact Fd.
    - rewrite Vd. lra.
    - apply (rg_nz_normal (-126) 51); [lia|exact Rq].
    - apply (rg_nz_normal (-126) 51); [lia|exact Rq'].
    - apply (rg_le (-126) 51); [lia|exact Rq].
    - apply (rg_le (-126) 51); [lia|exact Rq']. }
  exists m, m', (fdiv q d), (fdiv q' d). do 6 (split; [assumption|]).
  intros Pv. pose proof SV as (Fv & Fv' & Vv & _).
  pose proof Q as (Fq & Fq' & _).
  assert (NP : forall z, fin z -> rg (-126) 51 (val z / val d) -> (0 < val (fdiv z d))%R -> normal_pos (fdiv z d) /\ (val (fdiv z d) <= bpow radix2 51)%R).
  { intros z Fz Rz Pz. destruct (fdiv_R z d Fz Fd) as [F Vz].
    - rewrite Vd. lra.
    - apply (small_lt_128 127); [lia|]. apply (rg_le (-126) 51); [lia|exact Rz].
    - assert (G : rg (-126) 51 (val (fdiv z d))) by (rewrite Vz; apply rg_rnd; [lia|lia|exact Rz]).
      destruct G as [G|[G1 G2]]; [lra|]. rewrite Rabs_pos_eq in G1, G2 by lra. split; [|exact G2]. split; [exact F|exact G1]. }
  destruct (NP q Fq Rq Pv) as [N1 U1].
  assert (Pv' : (0 < val (fdiv q' d))%R).
  { rewrite Vv. apply Rmult_lt_0_compat; [apply bpow_gt_0|exact Pv]. }
  destruct (NP q' Fq' Rq' Pv') as [N2 U2].
  destruct (sqrt_scaled k _ _ N1 N2 SV) as (s & s' & S & S' & Ns & Ns' & SS).
  assert (Dv : stddev into l = Ok s) by (unfold stddev; rewrite V; exact S).
  assert (Dv' : stddev into' l = Ok s') by (unfold stddev; rewrite V'; exact S').
  exists s, s'. do 3 (split; [assumption|]).
  intros t. rewrite (trim_at_spec into l t m s M Dv), (trim_at_spec into' l t m' s' M' Dv'). f_equal.
  apply filter_ext_in. intros a Ha. rewrite Forall_forall in H. destruct (H a Ha) as (Wa & Wa' & Sa).
  destruct (sq_scaled k _ _ m m' Wa Wa' Sa Sm Rm Rm') as (Sd & Rd & _ & _). cbv zeta in Sd, Rd.
  f_equal. destruct Ns as [Fs Ls].
  apply scaled_div_0 with k; [apply scaled_abs; exact Sd|exact SS| |].
  - pose proof (bpow_gt_0 radix2 (-126)). lra.
  - destruct (sqrt_square_bounds _ N1) as (z & Sz & _ & _ & Lz). rewrite S in Sz. apply Ok_inj in Sz. subst z.
    assert (P2 : (bpow radix2 (-128) <= val s * val s)%R).
    { eapply Rle_trans; [|exact Lz]. destruct N1 as [_ N1]. rewrite u24_eq.
      assert (C : (/ 4 <= (1 - u24) * (1 - u24))%R) by (unfold u24; lra).
      assert (B : (bpow radix2 (-128) = / 4 * bpow radix2 (-126))%R) by (change (-128) with (-2 + -126); rewrite bpow_plus; reflexivity).
      rewrite B. apply Rmult_le_compat; [lra|apply bpow_ge_0|exact C|exact N1]. }
    assert (P3 : (bpow radix2 (-64) <= val s)%R).
    { destruct (Rle_lt_dec (bpow radix2 (-64)) (val s)) as [G|G]; [exact G|exfalso].
      assert (B : (bpow radix2 (-128) = bpow radix2 (-64) * bpow radix2 (-64))%R) by (rewrite <- bpow_plus; reflexivity).
      pose proof (bpow_gt_0 radix2 (-126)). rewrite B in P2.
      assert (val s * val s < bpow radix2 (-64) * bpow radix2 (-64))%R by (apply Rmult_le_0_lt_compat; lra). lra. }
    assert (P4 : (Rabs (val (fsub (into a) m)) <= bpow radix2 17)%R).
    { destruct Rd as [->|Rd]; [rewrite Rabs_R0; apply bpow_ge_0|apply Rd]. }
    pose proof (bpow_gt_0 radix2 (-64)) as Pb.
    rewrite abs_val. unfold Rdiv. rewrite Rabs_mult, Rabs_Rabsolu, Rabs_inv, (Rabs_pos_eq (val s)) by lra.
    apply Rmult_le_reg_r with (val s); [lra|]. rewrite Rmult_assoc, Rinv_l, Rmult_1_r by lra.
    apply Rle_trans with (bpow radix2 127 * bpow radix2 (-64))%R.
    + eapply Rle_trans; [exact P4|]. rewrite <- bpow_plus. apply bpow_le. lia.
    + apply Rmult_le_compat_l; [apply bpow_ge_0|exact P3].
Qed.

(** With variance 0 the standard deviation is sqrt(+0) = 1.5 * 2^-64, whatever the scale. *)
Lemma stddev_zero_scale : forall {E : Env}, exists x y s,
  fin x /\ fin y /\ val y = (2 * val x)%R /\ (0 < val x)%R /\
  stddev (fun a => a) [x; x] = Ok s /\ stddev (fun a => a) [y; y] = Ok s /\ fin s /\ (0 < val s)%R.
Proof.
  intros E. destruct (f32_of_Z_exact 1 ltac:(lia)) as [F1 V1]. destruct (f32_of_Z_exact 2 ltac:(lia)) as [F2 V2].
  exists (f32_of_Z 1), (f32_of_Z 2), (from_bits 0x1FC00000).
  assert (H1 : val (f32_of_Z 1) = (IZR 1 * bpow radix2 0)%R) by (rewrite V1; cbn; ring).
  assert (H2 : val (f32_of_Z 2) = (IZR 2 * bpow radix2 0)%R) by (rewrite V2; cbn; ring).
  do 2 (split; [assumption|]). split; [rewrite V1, V2; lra|]. split; [rewrite V1; lra|].
  split; [exact (proj1 (proj2 (variance_constant (f32_of_Z 1) 1 0 2 F1 H1 ltac:(lia) ltac:(lia) ltac:(lia))))|].
  split; [exact (proj1 (proj2 (variance_constant (f32_of_Z 2) 2 0 2 F2 H2 ltac:(lia) ltac:(lia) ltac:(lia))))|].
  split; [reflexivity|]. lit 0x1FC00000. apply Rmult_lt_0_compat; [lra|apply bpow_gt_0].
Qed.
