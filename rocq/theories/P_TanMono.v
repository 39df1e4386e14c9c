(** * Proofs for C129: tan keeps the order between its poles *)

From Coq Require Import ZArith Reals Bool List Lia Lra Psatz.
From Flocq Require Import Core IEEE754.Binary IEEE754.Bits.
From Verif Require Import Base Spec SpecTrig Float F32Lemmas BitLemmas P_Trunc P_Floor Literals ErrLemmas P_RoundEdge NanLemmas P_Roots P_SumSq P_VecF32 RealBounds RealBounds2 P_Powf P_Quat P_Trig P_Atan P_Asin P_Sign P_Mono P_Tiny P_TrigMono.
Open Scope Z_scope.

(** ** cos falls exactly from an eighth of a turn on *)

Definition fine26 (r : R) : Prop := exists M, r = (IZR M * bpow radix2 (-26))%R.
Lemma p26 : bpow radix2 (-26) = (/ 67108864)%R. Proof. reflexivity. Qed.

Lemma PA_neg : forall s, (s <= 0)%R -> PA s = rnd (16 * (- s * rnd (/ 2 - - s))).
Proof.
  intros s Hs. unfold PA. rewrite (Rabs_left1 s) by exact Hs. replace (- s - / 2)%R with (- (/ 2 - - s))%R by ring. rewrite rnd_opp.
  rewrite (rnd_fmt (16 * - rnd (/ 2 - - s))) by (apply fmt_16, fmt_opp, fmt_rnd). f_equal. ring.
Qed.

Lemma half_minus : forall s, (0 <= s <= / 8)%R -> (3 / 8 <= rnd (/ 2 - s) <= / 2)%R /\ (Rabs (rnd (/ 2 - s) - (/ 2 - s)) <= bpow radix2 (-26))%R /\ fine (rnd (/ 2 - s)).
Proof.
  assert (f38 : fmt (3 / 8)) by (replace (3 / 8)%R with (IZR 3 * bpow radix2 (-3))%R by (change (bpow radix2 (-3)) with (/ 8)%R; lra); apply fmt_scaled; [cbn; lia|lia]).
  assert (f2 : fmt (/ 2)) by exact (fmt_bpow (-1) ltac:(lia)).
  intros s Hs. assert (B : (3 / 8 <= rnd (/ 2 - s) <= / 2)%R) by (split; [rewrite <- (rnd_fmt _ f38)|rewrite <- (rnd_fmt _ f2) at 2]; apply rnd_le; lra).
  split; [exact B|]. split; [apply (rnd_err (-1)); [lia|]; change (bpow radix2 (-1)) with (/ 2)%R; apply Rabs_le; lra|]. apply fine_of; [apply fmt_rnd|]. rewrite Rabs_pos_eq; lra.
Qed.

Lemma PA_grid8 : forall r, fine26 r -> (- / 8 <= r <= 0)%R -> grid (PA r).
Proof.
  intros r [M HM] H. rewrite PA_neg by lra. destruct (half_minus (- r) ltac:(lra)) as (B & _). set (q := rnd (/ 2 - - r)) in *. clearbody q.
  split; [apply fmt_rnd|]. split.
  - destruct (Req_dec r 0) as [Z|Z]; [left; rewrite Z; replace (16 * (- 0 * q))%R with 0%R by ring; apply rnd_fmt, generic_format_0|right].
    apply Rle_trans with (bpow radix2 (-26)); [apply bpow_le; lia|]. apply rnd_abs_ge; [lia|].
    assert (P : (0 < bpow radix2 (-26))%R) by apply bpow_gt_0.
    assert (L : (bpow radix2 (-26) <= - r)%R).
    { assert (H0 : M < 0) by (apply lt_IZR; apply Rmult_lt_reg_r with (1 := P); rewrite <- HM; lra). assert (H1 : M <= -1) by lia. apply IZR_le in H1. rewrite HM. nra. }
    rewrite Rabs_pos_eq by nra. nra.
  - change 1%R with (bpow radix2 0). apply rnd_abs_le; [lia|]. change (bpow radix2 0) with 1%R. rewrite Rabs_pos_eq by nra. nra.
Qed.

Lemma PA_down8 : forall r r', fine26 r -> fine26 r' -> (- / 8 <= r <= r')%R -> (r' <= 0)%R -> (PA r' <= PA r)%R.
Proof.
  intros r r' [M HM] [M' HM'] [H0 H] H'. destruct (Rle_lt_or_eq_dec _ _ H) as [Lt| ->]; [|lra].
  rewrite (PA_neg r), (PA_neg r') by lra.
  destruct (half_minus (- r) ltac:(lra)) as (B1 & B2 & [K B3]). destruct (half_minus (- r') ltac:(lra)) as (C1 & C2 & [K' C3]).
  set (q := rnd (/ 2 - - r)) in *. set (q' := rnd (/ 2 - - r')) in *. clearbody q q'.
  apply Rabs_le_inv in B2. apply Rabs_le_inv in C2.
  assert (D : (q' - q <= 2 * (r' - r))%R).
  { assert (ER : (r' - r = IZR (M' - M) * bpow radix2 (-26))%R) by (rewrite HM, HM', minus_IZR; ring).
    assert (P25 : bpow radix2 (-25) = (2 * bpow radix2 (-26))%R) by (change (-25) with (1 + -26); rewrite bpow_plus; reflexivity).
    assert (EQ : (q' - q = IZR (2 * (K' - K)) * bpow radix2 (-26))%R) by (rewrite B3, C3, mult_IZR, minus_IZR, P25; ring).
    assert (P : (0 < bpow radix2 (-26))%R) by apply bpow_gt_0.
    assert (Z1 : 2 * (K' - K) <= M' - M + 2).
    { apply le_IZR. rewrite plus_IZR. apply Rmult_le_reg_r with (1 := P). rewrite Rmult_plus_distr_r, <- EQ, <- ER. lra. }
    assert (Z0 : 0 < M' - M) by (apply lt_IZR; apply Rmult_lt_reg_r with (1 := P); rewrite <- ER; lra).
    assert (Z2 : K' - K <= M' - M) by lia. apply IZR_le in Z2. rewrite EQ, ER, mult_IZR. nra. }
  apply rnd_le. assert (K1 : (- r' * (q' - q) <= (- r) * (2 * (r' - r)))%R) by nra. nra.
Qed.

Lemma half_down8 : forall t t', fmt t -> fmt t' -> (/ 8 <= t)%R -> (t <= t' <= / 4)%R -> (CR (PA (RR t')) <= CR (PA (RR t)))%R.
Proof.
  intros t t' F F' L H.
  assert (Gr : forall s, fmt s -> (/ 8 <= s <= / 4)%R -> fine26 (RR s) /\ RR s = (s - / 4)%R).
  { intros s Fs Hs. destruct (fmt_grid (-3) s Fs ltac:(lia)) as [M HM]; [change (bpow radix2 (-3)) with (/ 8)%R; rewrite Rabs_pos_eq; lra|]. change (-3 - 23) with (-26) in HM.
    assert (S : (s - / 4 = IZR (M - 16777216) * bpow radix2 (-26))%R) by (rewrite HM, minus_IZR, p26; lra).
    destruct (RR_down 0 s ltac:(unfold small; lia) ltac:(lra)) as [E _]. rewrite Rplus_0_r in E.
    assert (E2 : RR s = (s - / 4)%R).
    { rewrite E. apply rnd_fmt. rewrite S. apply fmt_scaled; [|lia]. apply le_IZR. rewrite abs_IZR. apply Rmult_le_reg_r with (bpow radix2 (-26)); [apply bpow_gt_0|].
      rewrite <- (Rabs_pos_eq (bpow radix2 (-26))) at 1 by apply bpow_ge_0. rewrite <- Rabs_mult, <- S, p26. change (IZR (2 ^ 24)) with 16777216%R. apply Rabs_le. lra. }
    split; [exists (M - 16777216); rewrite E2; exact S|exact E2]. }
  destruct (Gr t F ltac:(lra)) as [G1 G2]. destruct (Gr t' F' ltac:(lra)) as [G1' G2'].
  apply CR_mono; [apply PA_grid8; [exact G1'|lra]|apply PA_grid8; [exact G1|lra]|]. apply PA_down8; trivial; lra.
Qed.

Lemma cos_falling8 : forall {E : Env} x y, fin x -> fin y -> (Rabs (val x) <= 1000000)%R -> (Rabs (val y) <= 1000000)%R -> (val x <= val y)%R ->
  (/ 8 <= turns x)%R -> (turns y <= / 2)%R -> fin (F32_cos x) /\ fin (F32_cos y) /\ (val (F32_cos y) <= val (F32_cos x))%R.
Proof.
  intros E x y Fx Fy Bx By H L U. destruct (cos_real x Fx ltac:(lra)) as (C1 & C2 & _). destruct (cos_real y Fy ltac:(lra)) as (D1 & D2 & _).
  rewrite turns_is in *. refine (conj C1 (conj D1 _)). rewrite C2, D2. pose proof (TT_mono _ _ H) as M. pose proof (TT_fmt (val x)) as F. pose proof (TT_fmt (val y)) as F'.
  set (t := TT (val x)) in *. set (t' := TT (val y)) in *. assert (f4 : fmt (/ 4)) by exact (fmt_bpow (-2) ltac:(lia)).
  assert (Hi : forall a b, fmt a -> fmt b -> (/ 4 <= a)%R -> (a <= b <= / 2)%R -> (CR (PA (RR b)) <= CR (PA (RR a)))%R).
  { intros a b Fa Fb La Lb. apply (half_down 0); trivial; [unfold small; lia|lra|lra| |]; rewrite Rabs_pos_eq; lra. }
  destruct (Rle_or_lt (/ 4) t) as [A|A]; [apply Hi; trivial; lra|].
  destruct (Rle_or_lt t' (/ 4)) as [B|B]; [apply half_down8; trivial; lra|].
  apply Rle_trans with (CR (PA (RR (/ 4)))); [apply Hi|apply half_down8]; trivial; lra.
Qed.

(** ** Signs of sine and cosine between the poles *)

Lemma cos_pos_left : forall {E : Env} x, fin x -> (- (13176793 / 8388608) <= val x <= 0)%R -> fin (F32_cos x) /\ (bpow radix2 (-24) <= val (F32_cos x))%R.
Proof.
  intros E x Fx H. assert (V : val (from_bits 0xBFC90FD9) = (- (13176793 / 8388608))%R) by (lit 0xBFC90FD9; bpow_lit; lra).
  destruct (cos_up_0 (from_bits 0xBFC90FD9) x eq_refl Fx) as (_ & F & L); [rewrite V; unfold half_pi; lra|rewrite V; lra|lra|]. split; [exact F|].
  apply Rle_trans with (2 := L). assert (G : fle (from_bits 0x33800000) (F32_cos (from_bits 0xBFC90FD9)) = true) by (vm_compute; reflexivity).
  rewrite fle_R in G by (vm_compute; reflexivity). destruct (Rle_bool_spec (val (from_bits 0x33800000)) (val (F32_cos (from_bits 0xBFC90FD9)))) as [K|K]; [|discriminate G].
  apply Rle_trans with (2 := K). lit 0x33800000. bpow_lit. lra.
Qed.

Lemma ge_of_fle : forall a b, fin a -> fin b -> fle a b = true -> (val a <= val b)%R.
Proof. intros a b Fa Fb G. rewrite fle_R in G by assumption. destruct (Rle_bool_spec (val a) (val b)) as [K|K]; [exact K|discriminate G]. Qed.

Lemma cos_pos_right : forall {E : Env} x, fin x -> (0 <= val x <= 13176794 / 8388608)%R -> fin (F32_cos x) /\ (bpow radix2 (-24) <= val (F32_cos x))%R /\ (val x <= 0.7853982 -> 0.7 <= val (F32_cos x))%R /\
  ((0.7853982 <= val x)%R -> (/ 8 <= turns x)%R).
Proof.
  intros E x Fx H. destruct (cos_real x Fx ltac:(apply Rabs_le; lra)) as (F & _). split; [exact F|].
  assert (T8 : forall a, (0.7853982 <= a)%R -> (/ 8 <= TT a)%R).
  { intros a Ha. change (/ 8)%R with (bpow radix2 (-3)). rewrite <- (rnd_fmt (bpow radix2 (-3))) by (apply fmt_bpow; lia). apply rnd_le. change (bpow radix2 (-3)) with (/ 8)%R. unfold kP. lra. }
  assert (Lo : (val x <= 0.7853982 -> 0.7 <= val (F32_cos x))%R).
  { intros L. assert (V : (0.7853982 <= val (from_bits 0x3F490FDC) <= 0.79)%R) by (lit 0x3F490FDC; bpow_lit; lra).
    destruct (cos_down_near x (from_bits 0x3F490FDC) Fx eq_refl) as (_ & F8 & L8); [lra|lra|unfold half_pi; lra|].
    assert (G : (val (from_bits 0x3F333400) <= val (F32_cos (from_bits 0x3F490FDC)))%R) by (apply ge_of_fle; vm_compute; reflexivity).
    assert (V8 : (0.70001 <= val (from_bits 0x3F333400))%R) by (lit 0x3F333400; bpow_lit; lra). lra. }
  split; [|split; [exact Lo|intros L; rewrite turns_is; apply T8; exact L]].
  destruct (Rle_or_lt (val x) 0.7853982) as [L|L]; [specialize (Lo L); bpow_lit; lra|].
  assert (V : val (from_bits 0x3FC90FDA) = (13176794 / 8388608)%R) by (lit 0x3FC90FDA; bpow_lit; lra).
  destruct (cos_falling8 x (from_bits 0x3FC90FDA) Fx eq_refl) as (_ & F8 & L8); [apply Rabs_le; lra|apply Rabs_le; rewrite V; lra|rewrite V; lra|rewrite turns_is; apply T8; lra| |].
  - rewrite turns_is, V. apply Rle_trans with (TT (2 * half_pi)); [apply TT_mono; unfold half_pi; lra|rewrite TT_2h; lra].
  - apply Rle_trans with (2 := L8). assert (G : (val (from_bits 0x33800000) <= val (F32_cos (from_bits 0x3FC90FDA)))%R) by (apply ge_of_fle; vm_compute; reflexivity).
    apply Rle_trans with (2 := G). lit 0x33800000. bpow_lit. lra.
Qed.

Lemma sin_zero_val : forall {E : Env}, fin (F32_sin F32_ZERO) /\ val (F32_sin F32_ZERO) = 0%R.
Proof. intros E. destruct zero_val as [FZ VZ]. rewrite (sin_tiny F32_ZERO FZ) by (rewrite VZ, Rabs_R0; apply bpow_ge_0). split; reflexivity. Qed.

Lemma sin_right : forall {E : Env} x, fin x -> (0 <= val x <= half_pi)%R -> fin (F32_sin x) /\ (0 <= val (F32_sin x) <= 1.1)%R.
Proof.
  intros E x Fx H. destruct zero_val as [FZ VZ]. destruct sin_zero_val as [_ SZ]. destruct (sin_up F32_ZERO x FZ Fx) as (_ & F & L); [rewrite VZ; unfold half_pi; lra|rewrite VZ; lra|lra|]. split; [exact F|].
  rewrite SZ in L. split; [exact L|]. destruct halfpi_val as [Fh Vh]. fold half_pi in Vh.
  destruct (sin_up x (fdiv c_PI c_2) Fx Fh) as (_ & F2 & L2); [unfold half_pi in *; lra|rewrite Vh; lra|rewrite Vh; lra|].
  apply Rle_trans with (1 := L2). apply Rle_trans with (val F32_ONE); [apply ge_of_fle; vm_compute; reflexivity|]. rewrite (proj2 one_val). lra.
Qed.

Lemma sin_left : forall {E : Env} x, fin x -> (- half_pi <= val x <= 0)%R -> fin (F32_sin x) /\ (- 1.1 <= val (F32_sin x) <= 0)%R.
Proof.
  intros E x Fx H. destruct zero_val as [FZ VZ]. destruct sin_zero_val as [_ SZ]. destruct (sin_up x F32_ZERO Fx FZ) as (F & _ & L); [lra|rewrite VZ; lra|rewrite VZ; unfold half_pi; lra|]. split; [exact F|].
  rewrite SZ in L. split; [|exact L]. destruct halfpi_val as [Fh Vh]. fold half_pi in Vh. assert (Fn : fin (fneg (fdiv c_PI c_2))) by (apply fneg_fin; exact Fh).
  destruct (sin_up (fneg (fdiv c_PI c_2)) x Fn Fx) as (F2 & _ & L2); [rewrite fneg_val, Vh; lra|rewrite fneg_val, Vh; lra|unfold half_pi in *; lra|].
  apply Rle_trans with (2 := L2). apply Rle_trans with (val (from_bits 0xBF8CCCCC)); [lit 0xBF8CCCCC; bpow_lit; lra|apply ge_of_fle; vm_compute; reflexivity].
Qed.

Lemma tan_val : forall {E : Env} x, fin (F32_sin x) -> fin (F32_cos x) -> (Rabs (val (F32_sin x)) <= 1.1)%R -> (bpow radix2 (-24) <= val (F32_cos x))%R ->
  fin (F32_tan x) /\ val (F32_tan x) = rnd (val (F32_sin x) / val (F32_cos x)).
Proof.
  intros E x Fs Fc Hs Hc. pose proof (bpow_gt_0 radix2 (-24)) as G. unfold F32_tan. apply fdiv_R; [exact Fs|exact Fc|lra|].
  apply (small_lt_128 25); [lia|]. unfold Rdiv. rewrite Rabs_mult, (Rabs_pos_eq (/ val (F32_cos x))) by (left; apply Rinv_0_lt_compat; lra).
  assert (I : (/ val (F32_cos x) <= 16777216)%R) by (replace 16777216%R with (/ bpow radix2 (-24))%R by (bpow_lit; lra); apply Rinv_le; [exact G|exact Hc]).
  assert (I0 : (0 < / val (F32_cos x))%R) by (apply Rinv_0_lt_compat; lra).
  pose proof (Rabs_pos (val (F32_sin x))). change (bpow radix2 25) with 33554432%R. nra.
Qed.

Lemma div_le : forall a b c d, (0 <= a <= b)%R -> (0 < d <= c)%R -> (a / c <= b / d)%R.
Proof.
  intros a b c d A D. unfold Rdiv. apply Rmult_le_compat; [lra|left; apply Rinv_0_lt_compat; lra|lra|]. apply Rinv_le; lra.
Qed.

Lemma tan_order : forall {E : Env} x y, fin x -> fin y -> (- (13176793 / 8388608) <= val x)%R -> (val x <= val y)%R -> (val y <= 13176794 / 8388608)%R ->
  fin (F32_tan x) /\ fin (F32_tan y) /\ ((val x <= 0 \/ 0.7853982 <= val x)%R -> (val (F32_tan x) <= val (F32_tan y))%R) /\
  (val (F32_tan x) <= val (F32_tan y) + 14 / 16777216 * Rabs (val (F32_tan y)) + bpow radix2 (-148))%R.
Proof.
  intros E x y Fx Fy Hx H Hy. assert (HP : half_pi = (13176795 / 8388608)%R) by reflexivity. pose proof (bpow_gt_0 radix2 (-24)) as G. pose proof (bpow_gt_0 radix2 (-148)) as G2.
  assert (Neg : forall z, fin z -> (- (13176793 / 8388608) <= val z <= 0)%R -> fin (F32_tan z) /\ val (F32_tan z) = rnd (val (F32_sin z) / val (F32_cos z)) /\ (bpow radix2 (-24) <= val (F32_cos z))%R /\ (- 1.1 <= val (F32_sin z) <= 0)%R /\ (val (F32_tan z) <= 0)%R).
  { intros z Fz Hz. destruct (cos_pos_left z Fz Hz) as [C1 C2]. destruct (sin_left z Fz ltac:(lra)) as [S1 S2]. destruct (tan_val z S1 C1 ltac:(apply Rabs_le; lra) C2) as [T1 T2].
    refine (conj T1 (conj T2 (conj C2 (conj S2 _)))). rewrite T2. rewrite <- (rnd_fmt 0) by apply generic_format_0. apply rnd_le. unfold Rdiv. assert (IV : (0 < / val (F32_cos z))%R) by (apply Rinv_0_lt_compat; lra). nra. }
  assert (Pos : forall z, fin z -> (0 <= val z <= 13176794 / 8388608)%R -> fin (F32_tan z) /\ val (F32_tan z) = rnd (val (F32_sin z) / val (F32_cos z)) /\ (bpow radix2 (-24) <= val (F32_cos z))%R /\ (0 <= val (F32_sin z) <= 1.1)%R /\ (0 <= val (F32_tan z))%R).
  { intros z Fz Hz. destruct (cos_pos_right z Fz Hz) as (C1 & C2 & _). destruct (sin_right z Fz ltac:(lra)) as [S1 S2]. destruct (tan_val z S1 C1 ltac:(apply Rabs_le; lra) C2) as [T1 T2].
    refine (conj T1 (conj T2 (conj C2 (conj S2 _)))). rewrite T2. apply rnd_nonneg. unfold Rdiv. assert (IV : (0 < / val (F32_cos z))%R) by (apply Rinv_0_lt_compat; lra). apply Rmult_le_pos; lra. }
  assert (Fin : (forall z, fin z -> (- (13176793 / 8388608) <= val z <= 13176794 / 8388608)%R -> fin (F32_tan z))).
  { intros z Fz Hz. destruct (Rle_or_lt (val z) 0); [apply Neg|apply Pos]; trivial; lra. }
  refine (conj (Fin x Fx ltac:(lra)) (conj (Fin y Fy ltac:(lra)) _)).
  assert (Add : (val (F32_tan x) <= val (F32_tan y))%R -> (val (F32_tan x) <= val (F32_tan y) + 14 / 16777216 * Rabs (val (F32_tan y)) + bpow radix2 (-148))%R) by (intros A; pose proof (Rabs_pos (val (F32_tan y))); lra).
  destruct (Rle_or_lt (val x) 0) as [Lx|Lx].
  - assert (A : (val (F32_tan x) <= val (F32_tan y))%R); [|split; [intros _; exact A|apply Add; exact A]].
    destruct (Neg x Fx ltac:(lra)) as (_ & T & C & S & Sg). destruct (Rle_or_lt (val y) 0) as [Ly|Ly].
    + destruct (Neg y Fy ltac:(lra)) as (_ & T' & C' & S' & Sg'). rewrite T, T'. apply rnd_le.
      destruct (sin_up x y Fx Fy ltac:(lra) H ltac:(lra)) as (_ & _ & SS). destruct (cos_up_0 x y Fx Fy ltac:(lra) H Ly) as (_ & _ & CC).
      assert (D : (- val (F32_sin y) / val (F32_cos y) <= - val (F32_sin x) / val (F32_cos x))%R) by (apply div_le; lra). unfold Rdiv in *. lra.
    + destruct (Pos y Fy ltac:(lra)) as (_ & _ & _ & _ & Sg'). lra.
  - destruct (Pos x Fx ltac:(lra)) as (_ & T & C & S & Sg). destruct (Pos y Fy ltac:(lra)) as (_ & T' & C' & S' & Sg').
    destruct (sin_up x y Fx Fy ltac:(lra) H ltac:(lra)) as (_ & _ & SS). destruct (cos_pos_right x Fx ltac:(lra)) as (_ & _ & K1 & K2).
    destruct (Rle_or_lt 0.7853982 (val x)) as [L8|L8].
    + assert (A : (val (F32_tan x) <= val (F32_tan y))%R); [|split; [intros _; exact A|apply Add; exact A]].
      rewrite T, T'. apply rnd_le. destruct (cos_falling8 x y Fx Fy) as (_ & _ & CC); [apply Rabs_le; lra|apply Rabs_le; lra|exact H|apply K2; exact L8| |].
      * rewrite turns_is. apply Rle_trans with (TT (2 * half_pi)); [apply TT_mono; lra|rewrite TT_2h; lra].
      * apply div_le; lra.
    + split; [intros [Q|Q]; lra|]. specialize (K1 ltac:(lra)). destruct (cos_down_near x y Fx Fy ltac:(lra) H ltac:(lra)) as (_ & _ & CC).
      rewrite (Rabs_pos_eq (val (F32_tan y))) by exact Sg'. rewrite T, T'.
      set (a := val (F32_sin x)) in *. set (b := val (F32_sin y)) in *. set (c := val (F32_cos x)) in *. set (d := val (F32_cos y)) in *. clearbody a b c d.
      assert (D : (a / c <= b / d * (1 + 0.00000069))%R).
      { apply Rle_trans with (b / c)%R; [unfold Rdiv; apply Rmult_le_compat_r; [left; apply Rinv_0_lt_compat; lra|lra]|].
        apply Rmult_le_reg_r with (c * d)%R; [apply Rmult_lt_0_compat; lra|]. replace (b / c * (c * d))%R with (b * d)%R by (field; lra). replace (b / d * (1 + 0.00000069) * (c * d))%R with (b * (c * (1 + 0.00000069)))%R by (field; lra).
        apply Rmult_le_compat_l; lra. }
      assert (P : (0 <= b / d)%R) by (unfold Rdiv; apply Rmult_le_pos; [lra|left; apply Rinv_0_lt_compat; lra]). assert (P2 : (0 <= a / c)%R) by (unfold Rdiv; apply Rmult_le_pos; [lra|left; apply Rinv_0_lt_compat; lra]).
      pose proof (rnd_err_mixed (a / c)) as R1. pose proof (rnd_err_mixed (b / d)) as R2. rewrite u24_eq in R1, R2. rewrite (Rabs_pos_eq (a / c)) in R1 by exact P2. rewrite (Rabs_pos_eq (b / d)) in R2 by exact P.
      apply Rabs_le_inv in R1. apply Rabs_le_inv in R2. unfold u24 in *.
      assert (Q : bpow radix2 (-148) = (4 * bpow radix2 (-150))%R) by (change (-148) with (2 + -150); rewrite bpow_plus; reflexivity). rewrite Q in *. set (e := bpow radix2 (-150)) in *. lra.
Qed.

(** The poles: tan of the f32 PI/2 is +inf, of the float above it negative, and of the two floats next to
    -PI/2 it is -inf. *)
Lemma tan_poles : forall {E : Env}, F32_tan (from_bits 0x3FC90FDB) = F32_INFINITY /\ (val (F32_tan (from_bits 0x3FC90FDC)) < 0)%R /\
  F32_tan (from_bits 0xBFC90FDA) = F32_NEG_INFINITY /\ F32_tan (from_bits 0xBFC90FDB) = F32_NEG_INFINITY.
Proof.
  intros E. split; [apply to_bits_inj; vm_compute; reflexivity|]. split; [|split; apply to_bits_inj; vm_compute; reflexivity].
  destruct zero_val as [FZ VZ]. rewrite <- VZ. apply lt_of_flt; vm_compute; reflexivity.
Qed.
