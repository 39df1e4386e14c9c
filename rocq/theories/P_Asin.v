(** * asin and acos *)

From Coq Require Import ZArith Reals Bool List Lia Lra.
From Flocq Require Import Core IEEE754.BinarySingleNaN IEEE754.Binary IEEE754.Bits.
From Interval Require Import Tactic.
From Verif Require Import Base Spec Float TestEnv F32Lemmas BitLemmas P_Trunc P_Floor Literals ErrLemmas P_RoundEdge
  NanLemmas P_Euclid P_Roots P_InvSqrt P_SumSq P_Stats RealBounds RealBounds2 AngleReal P_Quat P_Trig P_Atan P_Atan2 P_TrigEdge.
Open Scope Z_scope.

(** ** 1 - x*x *)

Lemma fmt_below_1 : forall q, generic_format radix2 (FLT_exp (-149) 24) q -> (q < 1)%R -> (q <= 1 - / 16777216)%R.
Proof.
  intros q F H. pose proof (pred_ge_gt radix2 (FLT_exp (-149) 24) q (bpow radix2 0) F) as P.
  specialize (P ltac:(apply (fmt_bpow 0); lia) H).
  rewrite pred_bpow in P. exact P.
Qed.

Definition cosq {E : Env} (x : f32) : f32 := fsub F32_ONE (fmul x x).

Lemma cosq_spec : forall {E : Env} x, fin x -> (Rabs (val x) <= 1)%R ->
  fin (cosq x) /\ sign_bit (cosq x) = false /\ (0 <= val (cosq x) <= 1)%R /\
  (Rabs (val (cosq x) - (1 - val x * val x)) <= / 16777216)%R /\
  (cosq x = f32_zero false \/ (/ 16777216 <= val (cosq x))%R).
Proof.
  intros E x Fx H. set (X := val x) in *.
  assert (S : (0 <= X * X <= 1)%R).
  { split; [apply Rle_0_sqr|]. rewrite <- (Rabs_pos_eq (X * X)) by apply Rle_0_sqr. rewrite Rabs_mult.
    apply Rle_trans with (1 * 1)%R; [|lra]. apply Rmult_le_compat; trivial; apply Rabs_pos. }
  destruct (fmul_e 0 x x Fx Fx) as (e1 & F1 & V1 & D1); [lia|fold X; rewrite Rabs_pos_eq; [exact (proj2 S)|exact (proj1 S)]|].
  fold X in V1. change (bpow radix2 (0 - 25)) with (/ 33554432)%R in D1.
  destruct (fmul_R x x Fx Fx) as [_ V1'].
  { apply (small_lt_128 0); [lia|]. fold X. rewrite Rabs_pos_eq; [exact (proj2 S)|exact (proj1 S)]. }
  fold X in V1'. set (q := fmul x x) in *.
  assert (Q : (0 <= val q <= 1)%R).
  { rewrite V1'. split; [apply rnd_nonneg; lra|]. apply Rle_trans with (rnd 1); [apply rnd_le; lra|].
    rewrite (rnd_fmt 1); [lra|apply (fmt_bpow 0); lia]. }
  destruct one_val as [FO VO]. unfold cosq. fold q.
  destruct (fsub_e 0 F32_ONE q FO F1) as (e2 & F2 & V2 & D2); [lia|rewrite VO; change (bpow radix2 0) with 1%R; apply Rabs_le; lra|].
  change (bpow radix2 (0 - 25)) with (/ 33554432)%R in D2. rewrite VO in V2.
  destruct (fsub_R F32_ONE q FO F1) as [_ V2'].
  { apply (small_lt_128 0); [lia|]. rewrite VO; change (bpow radix2 0) with 1%R; apply Rabs_le; lra. }
  rewrite VO in V2'.
  assert (C0 : (0 <= val (fsub F32_ONE q) <= 1)%R).
  { rewrite V2'. split; [apply rnd_nonneg; lra|]. apply Rle_trans with (rnd 1); [apply rnd_le; lra|].
    rewrite (rnd_fmt 1); [lra|apply (fmt_bpow 0); lia]. }
  assert (Z : fsub F32_ONE q = f32_zero false \/ (/ 16777216 <= val (fsub F32_ONE q))%R).
  { destruct (Req_EM_T (val q) 1) as [E1|E1].
    - left. pose proof (Bminus_correct 24 128 prec24 emax128 nan_sub mode_NE F32_ONE q FO F1) as C.
      fold (val F32_ONE) (val q) (fsub F32_ONE q) in C. rewrite VO, E1 in C.
      replace (1 - 1)%R with 0%R in C by ring. rewrite round_0, Rabs_R0 in C by typeclasses eauto.
      rewrite Rlt_bool_true in C by apply bpow_gt_0. destruct C as (C1 & C2 & C3). rewrite Rcompare_Eq in C3 by reflexivity.
      change (Bsign 24 128 F32_ONE) with false in C3. rewrite andb_false_l in C3.
      destruct (val_zero_inv _ F2 C1) as [s Es]. rewrite Es in C3 |- *. simpl in C3. subst s. reflexivity.
    - right. rewrite V2'. apply Rle_trans with (rnd (bpow radix2 (-24))); [rewrite (rnd_fmt (bpow radix2 (-24))) by (apply fmt_bpow; lia); apply Rle_refl|].
      apply rnd_le. change (bpow radix2 (-24)) with (/ 16777216)%R.
      pose proof (fmt_below_1 (val q) ltac:(apply fmt_val) ltac:(lra)). lra. }
  split; [exact F2|]. split.
  { destruct Z as [Z|Z]; [rewrite Z; reflexivity|]. destruct (sign_bit (fsub F32_ONE q)) eqn:SB; [|reflexivity].
    pose proof (sign_val _ F2) as SV. rewrite SB in SV. pose proof (Rabs_pos (val (fsub F32_ONE q))). lra. }
  split; [exact C0|]. split; [|exact Z].
  rewrite V2, V1. replace (1 - (X * X + e1) + e2 - (1 - X * X))%R with (e2 - e1)%R by ring.
  apply Rabs_le_inv in D1. apply Rabs_le_inv in D2. apply Rabs_le. lra.
Qed.

Lemma normal_of : forall x, fin x -> (/ 16777216 <= val x)%R -> normal_pos x.
Proof.
  intros x F H. split; [exact F|]. apply Rle_trans with (2 := H). change (/ 16777216)%R with (bpow radix2 (-24)). apply bpow_le; lia.
Qed.

Lemma asin_abs : forall x, (-1 <= x <= 1)%R -> asin (Rabs x) = if Rle_dec 0 x then asin x else (- asin x)%R.
Proof.
  intros x H. destruct (Rle_dec 0 x) as [L|L].
  - rewrite Rabs_pos_eq by exact L. reflexivity.
  - rewrite Rabs_left by lra. apply asin_opp.
Qed.

(** From magnitudes to signed angles. *)
Lemma angle_sign : forall x m p e, (-1 <= x <= 1)%R -> (0 < p)%R -> (m = x * p)%R ->
  (Rabs (atan (Rabs m) - asin (Rabs x)) <= e)%R -> (Rabs (atan m - asin x) <= e)%R.
Proof.
  intros x m p e Hx Hp Hm H. destruct (Rle_or_lt 0 x) as [L|L].
  - rewrite (Rabs_pos_eq x), (Rabs_pos_eq m) in H; trivial. rewrite Hm. apply Rmult_le_pos; lra.
  - assert (M : (m < 0)%R). { rewrite Hm. assert (0 < - x * p)%R by (apply Rmult_lt_0_compat; lra). lra. }
    rewrite (Rabs_left x), (Rabs_left m), atan_opp, asin_opp in H by lra.
    replace (- atan m - - asin x)%R with (- (atan m - asin x))%R in H by ring. rewrite Rabs_Ropp in H. exact H.
Qed.

Lemma asin_small : forall x, (0 <= x)%R -> (x <= 0.0001)%R -> (0 <= asin x <= 0.00011)%R.
Proof.
  intros x H0 H. assert (P : (0.0001 <= sin 0.00011)%R) by interval with (i_prec 60).
  pose proof (asin_bound x) as B. pose proof PI2_big.
  assert (A : (0 <= asin x)%R).
  { destruct (Rle_or_lt 0 (asin x)) as [L|L]; [exact L|exfalso].
    pose proof (sin_increasing_1 (asin x) 0 ltac:(lra) ltac:(lra) ltac:(lra) ltac:(lra) L) as S. rewrite sin_asin, sin_0 in S by lra. lra. }
  split; [exact A|]. pose proof (sin_small_inv (asin x) x 0.00011) as I. rewrite sin_asin in I by lra.
  rewrite !Rabs_pos_eq in I by (exact A || lra). apply I; lra.
Qed.

Lemma asin_range : forall x, (0 <= x <= 1)%R -> (0 <= asin x <= PI / 2)%R.
Proof.
  intros x H. pose proof (asin_bound x) as B. pose proof PI2_big. split; [|lra].
  destruct (Rle_or_lt 0 (asin x)) as [L|L]; [exact L|exfalso].
  pose proof (sin_increasing_1 (asin x) 0 ltac:(lra) ltac:(lra) ltac:(lra) ltac:(lra) L) as S. rewrite sin_asin, sin_0 in S by lra. lra.
Qed.

Lemma asin_acc : forall {E : Env} x, fin x -> (Rabs (val x) <= 1)%R ->
  exists r, F32_asin x = Ok r /\ fin r /\ (Rabs (val r - asin (val x)) <= 0.0209)%R.
Proof.
  intros E x Fx H. destruct (cosq_spec x Fx H) as (Fc & Sc & Bc & Dc & Zc).
  unfold F32_asin. fold (cosq x). set (c := cosq x) in *.
  set (X := val x) in *. set (A := Rabs X) in *.
  assert (PA : (0 <= A)%R) by apply Rabs_pos.
  assert (HX : (-1 <= X <= 1)%R) by (apply Rabs_le_inv in H; lra).
  assert (AA : (A * A = X * X)%R) by (unfold A; rewrite <- Rabs_mult; apply Rabs_pos_eq, Rle_0_sqr).
  assert (TH : (0 <= asin A <= PI / 2)%R) by (apply asin_range; lra).
  assert (AN : (Rabs (ang A (sqrt (val c)) - asin A) <= 0.0003)%R).
  { pose proof (ang_sin (sqrt (val c)) (asin A) (sqrt_pos _) TH) as G. rewrite sin_asin in G by lra. apply G.
    rewrite sqrt_sqrt by lra. pose proof (sin2_cos2 (asin A)) as I. unfold Rsqr in I. rewrite sin_asin in I by lra.
    replace (cos (asin A) * cos (asin A))%R with (1 - X * X)%R by lra. exact Dc. }
  assert (K : exists m, exists p, bind (F32_invsqrt c) (fun i => Ok (F32_atan (fmul x i))) = Ok (F32_atan m) /\ fin m /\
    (Rabs (val m) < bpow radix2 64)%R /\
    ((0 < p)%R /\ val m = (X * p)%R /\ (Rabs (atan (Rabs (val m)) - asin A) <= 0.01798)%R \/
     (Rabs (val m) <= bpow radix2 (-126))%R /\ (A <= 0.0001)%R)).
  { destruct Zc as [Zc|Zc].
    - assert (I : F32_invsqrt c = Ok (from_bits 0x5F375A86)) by (rewrite Zc; apply (invsqrt_bits (f32_zero false)); vm_compute; discriminate).
      rewrite I. unfold bind. set (i := from_bits 0x5F375A86).
      assert (Vi : fin i /\ val i = (IZR 12016262 * bpow radix2 40)%R) by (unfold i; lit 0x5F375A86; split; reflexivity).
      destruct Vi as [Fi Vi].
      assert (Vc : val c = 0%R) by (rewrite Zc; reflexivity). rewrite Vc, sqrt_0 in *.
      assert (Al : (0.999 <= A)%R).
      { apply Rnot_lt_le. intros L. assert (A * A <= 0.999 * 0.999)%R by (apply Rmult_le_compat; lra).
        apply Rabs_le_inv in Dc. lra. }
      change (bpow radix2 40) with (1099511627776)%R in Vi.
      assert (Mi : (Rabs (X * val i) <= bpow radix2 64 - bpow radix2 62)%R).
      { rewrite Rabs_mult. fold A. rewrite Vi, (Rabs_pos_eq (_ * _)) by lra. bpow_lit. lra. }
      assert (Ml : (bpow radix2 (-126) <= Rabs (X * val i))%R).
      { rewrite Rabs_mult. fold A. rewrite Vi, (Rabs_pos_eq (_ * _)) by lra. apply Rle_trans with (bpow radix2 0); [apply bpow_le; lia|].
        change (bpow radix2 0) with 1%R. lra. }
      destruct (rnd_rel_d _ Ml) as (d & Ed & Bd). change (bpow radix2 (-24)) with (/ 16777216)%R in Bd. apply Rabs_le_inv in Bd.
      destruct (fmul_R x i Fx Fi) as [Fm Vm].
      { apply (small_lt_128 64); [lia|]. fold X. pose proof (bpow_gt_0 radix2 62). lra. }
      fold X in Vm. rewrite Ed in Vm. set (m := fmul x i) in *.
      assert (Em : Rabs (val m) = (A * (val i * (1 + d)))%R).
      { rewrite Vm, !Rabs_mult. fold A. rewrite (Rabs_pos_eq (val i)), (Rabs_pos_eq (1 + d)) by (rewrite ?Vi; lra). ring. }
      exists m, (val i * (1 + d))%R. split; [reflexivity|]. split; [exact Fm|].
      assert (L1 : (12000000000000000000 <= val i * (1 + d) <= 14000000000000000000)%R) by (rewrite Vi; lra).
      split; [rewrite Em; bpow_lit; apply Rle_lt_trans with (1 * 14000000000000000000)%R; [apply Rmult_le_compat; lra|lra]|].
      left. split; [lra|]. split; [rewrite Vm; ring|].
      assert (L2 : (10000000000 <= Rabs (val m))%R).
      { rewrite Em. apply Rle_trans with (0.999 * 12000000000000000000)%R; [lra|]. apply Rmult_le_compat; lra. }
      pose proof (atan_large _ L2) as AL. unfold ang in AN. destruct (Req_EM_T 0 0) as [_|NE]; [|contradiction].
      apply Rabs_le_inv in AL. apply Rabs_le_inv in AN. apply Rabs_le. lra.
    - destruct (invsqrt_accuracy c (normal_of c Fc Zc)) as (i & I & [Fi Ni] & Di). rewrite I. unfold bind.
      set (s := sqrt (val c)) in *. pose proof (sqrt_sqrt (val c) ltac:(lra)) as SS. fold s in SS.
      assert (Ps : (0 <= s)%R) by apply sqrt_pos.
      assert (Sl : (/ 4096 <= s)%R).
      { apply Rnot_lt_le. intros L. assert (s * s < / 4096 * / 4096)%R by (apply Rmult_le_0_lt_compat; lra). lra. }
      assert (Su : (s <= 1)%R).
      { apply Rnot_lt_le. intros L. assert (1 * 1 < s * s)%R by (apply Rmult_le_0_lt_compat; lra). lra. }
      assert (Pi' : (0 < val i)%R) by (apply (normal_pos_gt0 i); split; assumption).
      pose proof (Rabs_le_inv _ _ Di) as Di'.
      assert (Iu : (val i <= 8192)%R).
      { apply Rnot_lt_le. intros L. assert (8192 * / 4096 <= val i * s)%R by (apply Rmult_le_compat; lra). lra. }
      assert (Il : (0.96 <= val i)%R).
      { apply Rnot_lt_le. intros L. assert (val i * s <= 0.96 * 1)%R by (apply Rmult_le_compat; lra). lra. }
      assert (Mi : (Rabs (X * val i) <= bpow radix2 13)%R).
      { rewrite Rabs_mult. fold A. rewrite (Rabs_pos_eq (val i)) by lra. bpow_lit. apply Rle_trans with (1 * 8192)%R; [|lra]. apply Rmult_le_compat; lra. }
      destruct (fmul_R x i Fx Fi) as [Fm Vm].
      { apply (small_lt_128 13); [lia|]. exact Mi. }
      fold X in Vm. set (m := fmul x i) in *.
      assert (Mu : (Rabs (val m) < bpow radix2 64)%R).
      { apply Rle_lt_trans with (bpow radix2 13); [|apply bpow_lt; lia]. rewrite Vm. apply (rnd_abs_le 13); [lia|exact Mi]. }
      destruct (Rle_or_lt (bpow radix2 (-126)) (Rabs (X * val i))) as [Ml|Ml].
      + destruct (rnd_rel_d _ Ml) as (d & Ed & Bd). change (bpow radix2 (-24)) with (/ 16777216)%R in Bd. apply Rabs_le_inv in Bd.
        rewrite Ed in Vm. exists m, (val i * (1 + d))%R. split; [reflexivity|]. split; [exact Fm|]. split; [exact Mu|].
        left. split; [apply Rmult_lt_0_compat; lra|]. split; [rewrite Vm; ring|].
        set (k := (val i * s * (1 + d))%R). set (t := (A / s)%R).
        assert (Pt : (0 <= t)%R) by (apply Rmult_le_pos; [exact PA|apply Rlt_le, Rinv_0_lt_compat; lra]).
        assert (Em : Rabs (val m) = (k * t)%R).
        { rewrite Vm, !Rabs_mult. fold A. rewrite (Rabs_pos_eq (val i)), (Rabs_pos_eq (1 + d)) by lra. unfold k, t. field. lra. }
        assert (Kb : (Rabs (k - 1) <= 0.03471)%R).
        { unfold k. replace (val i * s * (1 + d) - 1)%R with ((val i * s - 1) + val i * s * d)%R by ring.
          assert (Rabs (val i * s * d) <= 1.04 * / 16777216)%R.
          { rewrite Rabs_mult. apply Rmult_le_compat; try apply Rabs_pos; [apply Rabs_le; lra|apply Rabs_le; lra]. }
          eapply Rle_trans; [apply Rabs_triang|]. lra. }
        pose proof (atan_scale_035 t k Pt Kb) as AS. rewrite Em.
        unfold ang in AN. destruct (Req_EM_T s 0) as [NE|_]; [lra|]. fold t in AN.
        apply Rabs_le_inv in AS. apply Rabs_le_inv in AN. apply Rabs_le. lra.
      + exists m, 0%R. split; [reflexivity|]. split; [exact Fm|]. split; [exact Mu|]. right. split.
        * rewrite Vm. apply (rnd_abs_le (-126)); [lia|lra].
        * rewrite Rabs_mult, (Rabs_pos_eq (val i)) in Ml by lra. fold A in Ml.
          assert (bpow radix2 (-126) <= 0.00001)%R.
          { apply Rle_trans with (bpow radix2 (-20)); [apply bpow_le; lia|bpow_lit; lra]. }
          assert (A * 0.96 <= A * val i)%R by (apply Rmult_le_compat_l; lra). lra. }
  destruct K as (m & p & Ek & Fm & Mm & K). exists (F32_atan m). split; [exact Ek|].
  destruct (atan_acc m Fm Mm) as (Fr & _ & _ & Dr). split; [exact Fr|].
  assert (G : (Rabs (atan (val m) - asin X) <= 0.01798)%R).
  { destruct K as [(Pp & Em & D)|(Em & Sm)].
    - apply (angle_sign X (val m) p); assumption.
    - assert (bpow radix2 (-126) <= 0.00001)%R.
      { apply Rle_trans with (bpow radix2 (-20)); [apply bpow_le; lia|bpow_lit; lra]. }
      assert (T : forall u, (Rabs u <= 0.00001)%R -> (Rabs (atan u) <= 0.0001)%R).
      { intros u Hu. interval. }
      pose proof (T (val m) ltac:(lra)) as T1. apply Rabs_le_inv in T1.
      pose proof (asin_small A PA Sm) as T2. unfold A in T2. rewrite asin_abs in T2 by exact HX.
      apply Rabs_le. destruct (Rle_dec 0 X); lra. }
  apply Rabs_le_inv in G. apply Rabs_le_inv in Dr. apply Rabs_le. lra.
Qed.

(** ** acos *)

Lemma fdiv_over : forall {E : Env} x y, fin x -> fin y -> (val y <> 0)%R -> (bpow radix2 128 <= Rabs (rnd (val x / val y)))%R ->
  is_finite (fdiv x y) = false.
Proof.
  intros E x y Fx Fy Hy H.
  pose proof (Bdiv_correct 24 128 prec24 emax128 nan_div mode_NE x y Hy) as C.
  rewrite Rlt_bool_false in C by exact H.
  fold (fdiv x y) in C. fold (sign_bit x) (sign_bit y) in C. unfold binary_overflow in C. simpl overflow_to_inf in C. cbv iota in C.
  destruct (fdiv x y) as [s|s|s p K|s m e K]; simpl in C; try discriminate; reflexivity.
Qed.

Lemma rnd_below_one : forall r, (1 - / 67108864 <= r <= 1)%R -> rnd r = 1%R.
Proof.
  intros r H. assert (P : rnd 1 = 1%R) by (apply rnd_fmt, (fmt_bpow 0); lia).
  assert (Q : rnd (1 - / 67108864) = 1%R).
  { destruct one_val as [FO VO]. set (b := from_bits 0x32800000). 
    assert (Vb : fin b /\ val b = (/ 67108864)%R) by (unfold b; lit 0x32800000; split; [reflexivity|bpow_lit; lra]). destruct Vb as [Fb Vb].
    destruct (@fsub_R env_debug F32_ONE b FO Fb) as [_ V].
    { apply (small_lt_128 0); [lia|]. rewrite VO, Vb. change (bpow radix2 0) with 1%R. apply Rabs_le; lra. }
    rewrite VO, Vb in V. rewrite <- V. replace (@fsub env_debug F32_ONE b) with F32_ONE by (apply to_bits_inj; vm_compute; reflexivity). exact VO. }
  apply Rle_antisym; [apply Rle_trans with (rnd 1)|apply Rle_trans with (rnd (1 - / 67108864))]; try (apply rnd_le; lra); rewrite ?P, ?Q; lra.
Qed.

Lemma cosq_tiny : forall {E : Env} x, fin x -> (Rabs (val x) <= / 16384)%R -> cosq x = F32_ONE.
Proof.
  intros E x Fx H. destruct (cosq_spec x Fx ltac:(lra)) as (Fc & Sc & _). set (X := val x) in *.
  assert (S : (0 <= X * X <= / 268435456)%R).
  { split; [apply Rle_0_sqr|]. rewrite <- (Rabs_pos_eq (X * X)) by apply Rle_0_sqr. rewrite Rabs_mult.
    apply Rle_trans with (/ 16384 * / 16384)%R; [|lra]. apply Rmult_le_compat; trivial; apply Rabs_pos. }
  destruct (fmul_R x x Fx Fx) as [F1 V1].
  { apply (small_lt_128 0); [lia|]. fold X. rewrite Rabs_pos_eq by lra. change (bpow radix2 0) with 1%R. lra. }
  fold X in V1. unfold cosq in *. set (q := fmul x x) in *.
  assert (Q : (0 <= val q <= / 268435456)%R).
  { rewrite V1. split; [apply rnd_nonneg; lra|]. apply Rle_trans with (rnd (bpow radix2 (-28))); [apply rnd_le; bpow_lit; lra|].
    rewrite (rnd_fmt (bpow radix2 (-28))) by (apply fmt_bpow; lia). bpow_lit. lra. }
  destruct one_val as [FO VO].
  destruct (fsub_R F32_ONE q FO F1) as [F2 V2].
  { apply (small_lt_128 0); [lia|]. rewrite VO; change (bpow radix2 0) with 1%R; apply Rabs_le; lra. }
  rewrite VO, rnd_below_one in V2 by lra.
  apply B2R_Bsign_inj; trivial. change (val (fsub F32_ONE q) = val F32_ONE). rewrite V2, VO. reflexivity.
Qed.

Lemma sqrt_one : forall {E : Env}, F32_sqrt F32_ONE = Ok F32_ONE.
Proof. intros E. apply ok_bits; vm_compute; reflexivity. Qed.

Lemma quotient_range : forall {E : Env} s x, fin s -> fin x -> (bpow radix2 (-64) < Rabs (val x) <= 1)%R ->
  (0 <= val s)%R -> (val s <= 1 \/ val s <= 2 /\ / 16384 <= Rabs (val x))%R ->
  fin (fdiv s x) /\ val (fdiv s x) = rnd (val s / val x) /\ (Rabs (val (fdiv s x)) < bpow radix2 64)%R.
Proof.
  intros E s x Fs Fx [Hl Hu] P H. set (X := val x) in *.
  pose proof (bpow_gt_0 radix2 (-64)) as G.
  assert (N : (X <> 0)%R) by (intros C; rewrite C, Rabs_R0 in Hl; lra).
  assert (AX : (0 < Rabs X)%R) by lra.
  (* the smallest float above 2^-64 *)
  assert (L : (bpow radix2 (-64) + bpow radix2 (-87) <= Rabs X)%R).
  { pose proof (succ_le_lt radix2 (FLT_exp (-149) 24) (bpow radix2 (-64)) (Rabs X)) as S.
    rewrite succ_eq_pos, ulp_bpow in S by apply bpow_ge_0. apply S; [apply (fmt_bpow (-64)); lia| |exact Hl].
    apply generic_format_abs, fmt_val. }
  set (top := (bpow radix2 64 - bpow radix2 40)%R).
  assert (B : (Rabs (val s / X) <= top)%R).
  { unfold Rdiv. rewrite Rabs_mult, Rabs_inv, (Rabs_pos_eq (val s)) by exact P.
    apply Rmult_le_reg_r with (Rabs X); [exact AX|]. rewrite Rmult_assoc, Rinv_l, Rmult_1_r by lra.
    destruct H as [H|[H H']].
    - apply Rle_trans with (1 := H). apply Rle_trans with (top * (bpow radix2 (-64) + bpow radix2 (-87)))%R.
      + unfold top. replace ((bpow radix2 64 - bpow radix2 40) * (bpow radix2 (-64) + bpow radix2 (-87)))%R with
          (bpow radix2 64 * bpow radix2 (-64) + bpow radix2 64 * bpow radix2 (-87) - bpow radix2 40 * bpow radix2 (-64) - bpow radix2 40 * bpow radix2 (-87))%R by ring.
        rewrite <- !bpow_plus. change (64 + -64) with 0. change (64 + -87) with (-23). change (40 + -64) with (-24). change (40 + -87) with (-47). bpow_lit. lra.
      + apply Rmult_le_compat_l; [unfold top; bpow_lit; lra|exact L].
    - apply Rle_trans with (top * / 16384)%R; [unfold top; bpow_lit; lra|]. apply Rmult_le_compat_l; [unfold top; bpow_lit; lra|exact H']. }
  assert (Ft : rnd top = top).
  { apply rnd_fmt. replace top with (IZR 16777215 * bpow radix2 40)%R by (unfold top; bpow_lit; lra). apply fmt_scaled; lia. }
  assert (B2 : (Rabs (rnd (val s / X)) <= top)%R).
  { rewrite <- Ft. apply Rabs_le. apply Rabs_le_inv in B. split; [rewrite <- rnd_opp|]; apply rnd_le; lra. }
  assert (T : (top < bpow radix2 64)%R) by (unfold top; bpow_lit; lra).
  destruct (fdiv_R s x Fs Fx N) as [F V].
  { fold X. apply Rle_lt_trans with (1 := B2). apply Rlt_trans with (1 := T). apply bpow_lt; lia. }
  fold X in V. split; [exact F|]. split; [exact V|]. rewrite V. lra.
Qed.

Lemma acos_pos_angle : forall A, (0 <= A <= 1)%R -> (0 <= acos A <= PI / 2)%R.
Proof. intros A H. rewrite acos_asin by lra. pose proof (asin_range A H). lra. Qed.

(** atan(z/x) for the approximate square root z of the rounded 1 - x*x. *)
Lemma acos_core : forall {E : Env} x, fin x -> (bpow radix2 (-64) < Rabs (val x) <= 1)%R ->
  exists s, F32_sqrt (cosq x) = Ok s /\ let m := fdiv s x in
    fin m /\ (Rabs (val m) < bpow radix2 64)%R /\ (exists p, (0 <= p)%R /\ val m = (val x * p)%R) /\
    (Rabs (atan (Rabs (val m)) - acos (Rabs (val x))) <= 0.02977)%R.
Proof.
  intros E x Fx [Hl H]. destruct (cosq_spec x Fx H) as (Fc & Sc & Bc & Dc & Zc). cbv zeta.
  pose proof (cosq_tiny x Fx) as Tiny.
  set (c := cosq x) in *. set (X := val x) in *. set (A := Rabs X) in *.
  pose proof (bpow_gt_0 radix2 (-64)) as G.
  assert (PA : (0 < A)%R) by lra.
  assert (HX : (-1 <= X <= 1)%R) by (apply Rabs_le_inv in H; lra).
  assert (NX : (X <> 0)%R) by (intros C; unfold A in PA; rewrite C, Rabs_R0 in PA; lra).
  assert (AA : (A * A = X * X)%R) by (unfold A; rewrite <- Rabs_mult; apply Rabs_pos_eq, Rle_0_sqr).
  pose proof (acos_pos_angle A ltac:(lra)) as TH.
  assert (AN : (Rabs (ang (sqrt (val c)) A - acos A) <= 0.0003)%R).
  { pose proof (ang_cos (sqrt (val c)) (acos A) (sqrt_pos _) TH) as G'. rewrite cos_acos in G' by lra. apply G'.
    rewrite sqrt_sqrt by lra. pose proof (sin2_cos2 (acos A)) as I. unfold Rsqr in I. rewrite cos_acos in I by lra.
    replace (sin (acos A) * sin (acos A))%R with (1 - X * X)%R by lra. exact Dc. }
  unfold ang in AN. destruct (Req_EM_T A 0) as [NE|_]; [lra|].
  assert (REL : forall s, fin s -> (bpow radix2 (-64) <= val s)%R -> fin (fdiv s x) -> val (fdiv s x) = rnd (val s / X) ->
     exists d, (Rabs d <= / 16777216)%R /\ val (fdiv s x) = (val s / X * (1 + d))%R /\ Rabs (val (fdiv s x)) = (val s / A * (1 + d))%R).
  { intros s Fs Ls Fm Vm. assert (Ml : (bpow radix2 (-126) <= Rabs (val s / X))%R).
    { unfold Rdiv. rewrite Rabs_mult, Rabs_inv, (Rabs_pos_eq (val s)) by lra. fold A.
      apply Rle_trans with (bpow radix2 (-64)); [apply bpow_le; lia|]. apply Rmult_le_reg_r with A; [exact PA|].
      rewrite Rmult_assoc, Rinv_l, Rmult_1_r by lra. apply Rle_trans with (2 := Ls). rewrite <- (Rmult_1_r (bpow radix2 (-64))) at 2.
      apply Rmult_le_compat_l; lra. }
    destruct (rnd_rel_d _ Ml) as (d & Ed & Bd). change (bpow radix2 (-24)) with (/ 16777216)%R in Bd.
    exists d. split; [exact Bd|]. rewrite Vm, Ed. split; [reflexivity|]. apply Rabs_le_inv in Bd.
    unfold Rdiv. rewrite !Rabs_mult, Rabs_inv, (Rabs_pos_eq (val s)), (Rabs_pos_eq (1 + d)) by lra. reflexivity. }
  assert (SGN : forall s d, (0 <= val s)%R -> (-1 <= d)%R -> val (fdiv s x) = (val s / X * (1 + d))%R ->
     exists p, (0 <= p)%R /\ val (fdiv s x) = (X * p)%R).
  { intros s d Ps Pd V. exists (val s * (1 + d) / (A * A))%R. split.
    - apply Rmult_le_pos; [apply Rmult_le_pos; lra|apply Rlt_le, Rinv_0_lt_compat, Rmult_lt_0_compat; lra].
    - rewrite V, AA. field. exact NX. }
  destruct Zc as [Zc|Zc].
  - assert (I : F32_sqrt c = Ok (from_bits 0x1FC00000)) by (rewrite Zc; apply sqrt_edges).
    exists (from_bits 0x1FC00000). split; [exact I|]. set (s := from_bits 0x1FC00000).
    assert (Vs : fin s /\ val s = (1.5 * bpow radix2 (-64))%R) by (unfold s; lit 0x1FC00000; split; [reflexivity|bpow_lit; lra]).
    destruct Vs as [Fs Vs].
    assert (S1 : (val s <= 0.00001)%R) by (rewrite Vs; bpow_lit; lra).
    destruct (quotient_range s x Fs Fx (conj Hl H)) as (Fm & Vm & Bm); [lra|left; lra|].
    fold X in Vm. destruct (REL s Fs ltac:(lra) Fm Vm) as (d & Bd & V & Va). apply Rabs_le_inv in Bd.
    split; [exact Fm|]. split; [exact Bm|]. split; [apply (SGN s d); lra|].
    assert (Al : (0.999 <= A)%R).
    { apply Rnot_lt_le. intros L. assert (A * A <= 0.999 * 0.999)%R by (apply Rmult_le_compat; lra).
      rewrite Zc in Dc. change (val (f32_zero false)) with 0%R in Dc. apply Rabs_le_inv in Dc. lra. }
    rewrite Zc in AN. change (val (f32_zero false)) with 0%R in AN. rewrite sqrt_0 in AN. unfold Rdiv in AN. rewrite Rmult_0_l, atan_0 in AN.
    assert (M : (0 <= Rabs (val (fdiv s x)) <= 0.00003)%R).
    { rewrite Va. split; [rewrite <- Va; apply Rabs_pos|]. 
      assert (/ A <= 2)%R. { rewrite <- (Rinv_inv 2). apply Rinv_le; lra. }
      assert (0 < / A)%R by (apply Rinv_0_lt_compat; lra).
      apply Rle_trans with (0.00001 * 2 * 1.1)%R; [|lra]. apply Rmult_le_compat; try lra.
      - apply Rmult_le_pos; lra.
      - apply Rmult_le_compat; lra. }
    set (w := Rabs (val (fdiv s x))) in *. clearbody w.
    assert (T : (0 <= atan w <= 0.0001)%R). { split; [apply atan_pos; lra|]. interval. }
    apply Rabs_le_inv in AN. apply Rabs_le. lra.
  - destruct (sqrt_accuracy c (normal_of c Fc Zc)) as (s & I & [Fs Ns] & Ds). exists s. split; [exact I|].
    set (r := sqrt (val c)) in *. pose proof (sqrt_sqrt (val c) ltac:(lra)) as SS. fold r in SS.
    assert (Pr : (0 <= r)%R) by apply sqrt_pos. change (bpow radix2 (-24)) with (/ 16777216)%R in Ds.
    assert (Sl : (/ 4096 <= r)%R).
    { apply Rnot_lt_le. intros L. assert (r * r < / 4096 * / 4096)%R by (apply Rmult_le_0_lt_compat; lra). lra. }
    assert (Su : (r <= 1)%R).
    { apply Rnot_lt_le. intros L. assert (1 * 1 < r * r)%R by (apply Rmult_le_0_lt_compat; lra). lra. }
    assert (R2 : (val s <= 1 \/ val s <= 2 /\ / 16384 <= A)%R).
    { destruct (Rle_or_lt A (/ 16384)) as [T|T].
      - left. specialize (Tiny T). rewrite Tiny, sqrt_one in I. injection I as <-. destruct one_val as [_ V]. rewrite V. lra.
      - right. lra. }
    destruct (quotient_range s x Fs Fx (conj Hl H)) as (Fm & Vm & Bm); [lra|exact R2|].
    assert (Q64 : (bpow radix2 (-64) <= val s)%R).
    { apply Rle_trans with (bpow radix2 (-14)); [apply bpow_le; lia|bpow_lit; lra]. }
    fold X in Vm. destruct (REL s Fs Q64 Fm Vm) as (d & Bd & V & Va). apply Rabs_le_inv in Bd.
    split; [exact Fm|]. split; [exact Bm|]. split; [apply (SGN s d); lra|].
    set (k := (val s / r * (1 + d))%R).
    assert (Pt : (0 <= r / A)%R) by (apply Rmult_le_pos; [exact Pr|apply Rlt_le, Rinv_0_lt_compat; lra]).
    assert (Em : Rabs (val (fdiv s x)) = (k * (r / A))%R) by (rewrite Va; unfold k; field; split; lra).
    assert (Kb : (0.9999 <= k <= 1.06068)%R).
    { assert (K0 : (1 - / 16777216 <= val s / r <= 1.06067)%R).
      { split; apply Rmult_le_reg_r with r; try lra; unfold Rdiv; rewrite Rmult_assoc, Rinv_l, Rmult_1_r by lra; lra. }
      unfold k. set (h := (val s / r)%R) in *. clearbody h. clear - K0 Bd. split.
      - apply Rle_trans with ((1 - / 16777216) * (1 - / 16777216))%R; [lra|]. apply Rmult_le_compat; lra.
      - apply Rle_trans with (1.06067 * (1 + / 16777216))%R; [|lra]. apply Rmult_le_compat; lra. }
    pose proof (atan_scale_06 (r / A) k Pt Kb) as AS. rewrite Em.
    apply Rabs_le_inv in AS. apply Rabs_le_inv in AN. apply Rabs_le. lra.
Qed.

Lemma acos_acc : forall {E : Env} x, fin x -> (Rabs (val x) <= 1)%R ->
  (val x = 0%R \/ (bpow radix2 (-64) < Rabs (val x))%R) ->
  exists r, F32_acos x = Ok r /\ fin r /\ (Rabs (val r - acos (val x)) <= 0.0327)%R.
Proof.
  intros E x Fx H HL. unfold F32_acos, fgt. fold (cosq x).
  destruct zero_val as [FZ VZ]. rewrite (flt_R F32_ZERO x FZ Fx), (feq_R x F32_ZERO Fx FZ), VZ.
  destruct HL as [Z|L].
  - rewrite Z. rewrite Rlt_bool_false by lra. rewrite Req_bool_true by reflexivity.
    destruct halfpi_val as [Fh Vh]. eexists. split; [reflexivity|]. split; [exact Fh|]. rewrite Vh, acos_0.
    pose proof PI_bounds. apply Rabs_le. lra.
  - destruct (acos_core x Fx (conj L H)) as (s & Es & K). cbv zeta in K. rewrite Es. unfold bind.
    set (m := fdiv s x) in *. destruct K as (Fm & Bm & (p & Pp & Vm) & D).
    destruct (atan_acc m Fm Bm) as (Fa & _ & Ba & Da). set (a := F32_atan m) in *.
    assert (HX : (-1 <= val x <= 1)%R) by (apply Rabs_le_inv in H; lra).
    apply Rabs_le_inv in D. pose proof (Rabs_le_inv _ _ Da) as Da'.
    pose proof (bpow_gt_0 radix2 (-64)) as G.
    destruct (Rle_or_lt 0 (val x)) as [S|S].
    + rewrite (Rabs_pos_eq (val x)) in * by exact S. rewrite Rlt_bool_true by lra.
      eexists. split; [reflexivity|]. split; [exact Fa|].
      rewrite (Rabs_pos_eq (val m)) in D by (rewrite Vm; apply Rmult_le_pos; lra).
      apply Rabs_le. lra.
    + rewrite Rlt_bool_false by lra. rewrite Req_bool_false by lra. 
      destruct c_PI_val as [Fp Vp]. destruct c_FRAC_PI_2_val as [_ V2]. rewrite V2 in Ba.
      pose proof (Rabs_le_inv _ _ Ba) as Ba'. pose proof PI_bounds as PB.
      destruct (fadd_e 3 a c_PI Fa Fp) as (e & Fr & Vr & De); [lia|rewrite Vp; bpow_lit; apply Rabs_le; lra|].
      change (bpow radix2 (3 - 25)) with (/ 4194304)%R in De. apply Rabs_le_inv in De.
      eexists. split; [reflexivity|]. split; [exact Fr|].
      assert (M : (val m <= 0)%R). { rewrite Vm. assert (0 <= - val x * p)%R by (apply Rmult_le_pos; lra). lra. }
      rewrite (Rabs_left (val x)) in D by exact S. rewrite (Rabs_left1 (val m)), atan_opp, acos_opp in D by exact M.
      rewrite Vr, Vp. apply Rabs_le. lra.
Qed.

Lemma acos_total : forall {E : Env} x, exists r, F32_acos x = Ok r.
Proof.
  intros E x. unfold F32_acos. fold (cosq x). destruct (sqrt_total (cosq x)) as [s ->]. unfold bind.
  destruct (fgt x F32_ZERO); [eexists; reflexivity|]. destruct (feq x F32_ZERO); eexists; reflexivity.
Qed.

Lemma acos_nan_of : forall {E : Env} x s, F32_sqrt (cosq x) = Ok s -> feq x F32_ZERO = false -> nan (F32_atan (fdiv s x)) ->
  exists r, F32_acos x = Ok r /\ nan r.
Proof.
  intros E x s Es Z N. unfold F32_acos. fold (cosq x). rewrite Es, Z. unfold bind.
  destruct (fgt x F32_ZERO); eexists; (split; [reflexivity|]); [exact N|apply fadd_nan; left; exact N].
Qed.

Lemma acos_tiny_nan : forall {E : Env} x, fin x -> (0 < Rabs (val x) <= bpow radix2 (-64))%R ->
  exists r, F32_acos x = Ok r /\ nan r.
Proof.
  intros E x Fx [P L].
  assert (C : cosq x = F32_ONE).
  { apply cosq_tiny; [exact Fx|]. apply Rle_trans with (1 := L). apply Rle_trans with (bpow radix2 (-14)); [apply bpow_le; lia|bpow_lit; lra]. }
  destruct zero_val as [FZ VZ]. destruct one_val as [FO VO].
  assert (N : (val x <> 0)%R) by (intros Z; rewrite Z, Rabs_R0 in P; lra).
  apply (acos_nan_of x F32_ONE); [rewrite C; apply sqrt_one|rewrite feq_R, VZ by assumption; apply Req_bool_false; exact N|].
  apply atan_overflow. intros Fm.
  destruct (Rlt_or_le (Rabs (rnd (val F32_ONE / val x))) (bpow radix2 128)) as [S|S].
  - destruct (fdiv_R F32_ONE x FO Fx N S) as [_ V]. rewrite V, VO.
    assert (Q : (bpow radix2 64 <= Rabs (1 / val x))%R).
    { unfold Rdiv. rewrite Rmult_1_l, Rabs_inv. rewrite <- (Rinv_inv (bpow radix2 64)). apply Rinv_le; [exact P|].
      rewrite <- bpow_opp. exact L. }
    destruct (Rle_or_lt 0 (1 / val x)) as [S1|S1].
    + rewrite (Rabs_pos_eq (1 / val x)) in Q by exact S1. rewrite Rabs_pos_eq by (apply rnd_nonneg; exact S1).
      apply Rle_trans with (rnd (bpow radix2 64)); [rewrite (rnd_fmt (bpow radix2 64)) by (apply fmt_bpow; lia); lra|apply rnd_le; exact Q].
    + rewrite (Rabs_left (1 / val x)) in Q by exact S1. rewrite <- Rabs_Ropp, <- rnd_opp, Rabs_pos_eq by (apply rnd_nonneg; lra).
      apply Rle_trans with (rnd (bpow radix2 64)); [rewrite (rnd_fmt (bpow radix2 64)) by (apply fmt_bpow; lia); lra|apply rnd_le; exact Q].
  - pose proof (fdiv_over F32_ONE x FO Fx N S) as O. unfold fin in Fm. congruence.
Qed.

(** What 1 - x*x is for x outside [-4, 4], whatever the rounding and overflow. *)
Lemma sq_split : forall {E : Env} x, fin x ->
  fmul x x = f32_inf false \/ fin (fmul x x) /\ val (fmul x x) = rnd (val x * val x).
Proof.
  intros E x Fx. destruct (Rlt_or_le (Rabs (rnd (val x * val x))) (bpow radix2 128)) as [S|S].
  - right. exact (fmul_R x x Fx Fx S).
  - left. pose proof (Bmult_correct 24 128 prec24 emax128 nan_mul mode_NE x x) as C.
    rewrite Rlt_bool_false in C by exact S. fold (fmul x x) in C. rewrite xorb_nilpotent in C.
    unfold binary_overflow in C. simpl overflow_to_inf in C. cbv iota in C.
    destruct (fmul x x) as [s|s|s p K|s m e K]; simpl in C; try discriminate. injection C as ->. reflexivity.
Qed.

Lemma cosq_split : forall {E : Env} x, is_nan x = false ->
  (cosq x = f32_inf true /\ (fin x -> (2 < Rabs (val x))%R)) \/
  fin x /\ fin (fmul x x) /\ fin (cosq x) /\ val (cosq x) = rnd (1 - rnd (val x * val x))%R.
Proof.
  intros E x N. destruct (is_finite x) eqn:F.
  - unfold cosq. destruct (sq_split x F) as [Q|[Fq Vq]].
    + left. rewrite Q. split; [reflexivity|]. intros _. apply Rnot_le_lt. intros L.
      destruct (fmul_R x x F F) as [Fm _]; [|rewrite Q in Fm; discriminate Fm].
      apply (small_lt_128 2); [lia|]. rewrite Rabs_mult. apply Rle_trans with (2 * 2)%R; [apply Rmult_le_compat; trivial; apply Rabs_pos|].
      bpow_lit. lra.
    + right. destruct one_val as [FO VO]. split; [exact F|]. split; [exact Fq|].
      assert (P : (0 <= val (fmul x x))%R) by (rewrite Vq; apply rnd_nonneg, Rle_0_sqr).
      destruct (fsub_R F32_ONE (fmul x x) FO Fq) as [Fc Vc].
      { rewrite VO. pose proof (abs_B2R_lt_emax 24 128 (fmul x x)) as T. destruct (Rle_or_lt (val (fmul x x)) 1) as [L|L].
        - apply (small_lt_128 0); [lia|]. change (bpow radix2 0) with 1%R. apply Rabs_le; lra.
        - apply Rle_lt_trans with (2 := T). rewrite (Rabs_pos_eq (val (fmul x x))) by exact P.
          rewrite <- Rabs_Ropp, <- rnd_opp, Rabs_pos_eq by (apply rnd_nonneg; lra).
          apply Rle_trans with (rnd (val (fmul x x))); [apply rnd_le; lra|rewrite (rnd_fmt (val (fmul x x))) by apply fmt_val; lra]. }
      split; [exact Fc|]. rewrite Vc, VO, Vq. reflexivity.
  - left. split; [|intros C; unfold fin in C; congruence]. unfold cosq. destruct x as [s|s|s p K|s m e K]; try discriminate. destruct s; reflexivity.
Qed.

Lemma acos_outside_nan : forall {E : Env} x, (fin x -> (1 < Rabs (val x))%R) ->
  exists r, F32_acos x = Ok r /\ nan r.
Proof.
  intros E x H. destruct zero_val as [FZ VZ].
  assert (Z : feq x F32_ZERO = false).
  { destruct (is_finite x) eqn:F.
    - rewrite feq_R, VZ by assumption. apply Req_bool_false. intros C. specialize (H F). rewrite C, Rabs_R0 in H. lra.
    - destruct x as [s|s|s p K|s m e K]; try discriminate; try reflexivity. destruct s; reflexivity. }
  assert (K : nan (cosq x) \/ flt (cosq x) F32_ZERO = true).
  { destruct (is_nan x) eqn:N; [left; apply fsub_nan; right; apply fmul_nan; left; exact N|]. right.
    destruct (cosq_split x N) as [[C _]|(Fx & _ & Fc & Vc)]; [rewrite C; reflexivity|].
    rewrite flt_R, VZ, Vc by assumption. apply Rlt_bool_true. specialize (H Fx).
    assert (A : (1 + bpow radix2 (-23) <= Rabs (val x))%R).
    { pose proof (succ_le_lt radix2 (FLT_exp (-149) 24) 1 (Rabs (val x))) as S.
      rewrite succ_eq_pos in S by lra. change 1%R with (bpow radix2 0) in S. rewrite ulp_bpow in S. apply S; [apply (fmt_bpow 0); lia| |exact H].
      apply generic_format_abs, fmt_val. }
    assert (B : (1 + bpow radix2 (-23) <= rnd (val x * val x))%R).
    { apply Rle_trans with (rnd (1 + bpow radix2 (-23))).
      - rewrite (rnd_fmt (1 + bpow radix2 (-23))); [lra|]. replace (1 + bpow radix2 (-23))%R with (IZR 8388609 * bpow radix2 (-23))%R by (bpow_lit; lra).
        apply fmt_scaled; lia.
      - apply rnd_le. replace (val x * val x)%R with (Rabs (val x) * Rabs (val x))%R by (rewrite <- Rabs_mult; apply Rabs_pos_eq, Rle_0_sqr).
        pose proof (bpow_gt_0 radix2 (-23)). apply Rle_trans with (1 * Rabs (val x))%R; [lra|]. apply Rmult_le_compat_r; lra. }
    apply Rle_lt_trans with (rnd (- bpow radix2 (-23))); [apply rnd_le; lra|].
    rewrite rnd_opp, rnd_fmt by (apply fmt_bpow; lia). pose proof (bpow_gt_0 radix2 (-23)). lra. }
  destruct (sqrt_neg_nan _ K) as (z & Ez & Nz). apply (acos_nan_of x z); trivial.
  apply fmul_nan. right. apply atan_overflow. intros Fm.
  assert (NN : nan (fdiv z x)) by (apply fdiv_nan; left; exact Nz). apply fin_not_nan in Fm. unfold nan in NN. congruence.
Qed.

(** ** asin outside [-1, 1] *)

Lemma asin_panic_inv : forall {E : Env} x, F32_asin x = Panic <-> F32_invsqrt (cosq x) = Panic.
Proof.
  intros E x. unfold F32_asin. fold (cosq x). destruct (F32_invsqrt (cosq x)); unfold bind; split; congruence.
Qed.

Lemma asin_panic : forall {E : Env} x, overflow_checks = true -> is_nan x = false ->
  (F32_asin x = Panic <-> (fin x -> (val (from_bits 0x3F8E236D) <= Rabs (val x))%R)).
Proof.
  intros E x O N. rewrite asin_panic_inv. set (t := from_bits 0x3F8E236D). set (t' := from_bits 0x3F8E236C).
  assert (Vt : fin t /\ val t = (9315181 / 8388608)%R) by (unfold t; lit 0x3F8E236D; split; [reflexivity|bpow_lit; lra]). destruct Vt as [Ft Vt].
  assert (Vt' : fin t' /\ val t' = (9315180 / 8388608)%R) by (unfold t'; lit 0x3F8E236C; split; [reflexivity|bpow_lit; lra]). destruct Vt' as [Ft' Vt'].
  destruct (cosq_split x N) as [[C H]|(Fx & _ & Fc & Vc)].
  - rewrite C, invsqrt_panic_bits by exact O. split; [|intros _; vm_compute; reflexivity].
    intros _ Fx. specialize (H Fx). rewrite Vt. lra.
  - rewrite (invsqrt_panic_value (cosq x) O Fc), Vc.
    set (X := val x) in *. set (A := Rabs X).
    assert (PA : (0 <= A)%R) by apply Rabs_pos.
    replace (X * X)%R with (A * A)%R by (unfold A; rewrite <- Rabs_mult; apply Rabs_pos_eq, Rle_0_sqr).
    assert (K : forall b r, fin b -> (0 <= val b <= 2)%R -> @cosq env_debug b = r -> rnd (1 - rnd (val b * val b)) = val r).
    { intros b r Fb Bb <-. destruct (@cosq_split env_debug b (fin_not_nan b Fb)) as [[_ Q]|(_ & _ & _ & V)]; [|symmetry; exact V].
      specialize (Q Fb). rewrite Rabs_pos_eq in Q by lra. lra. }
    assert (Et : rnd (1 - rnd (val t * val t)) = val (from_bits 0xBE6EB520)).
    { apply K; [exact Ft|rewrite Vt; lra|apply to_bits_inj; vm_compute; reflexivity]. }
    assert (Et' : rnd (1 - rnd (val t' * val t')) = val (from_bits 0xBE6EB508)).
    { apply K; [exact Ft'|rewrite Vt'; lra|apply to_bits_inj; vm_compute; reflexivity]. }
    assert (R1 : (val (from_bits 0xBE6EB520) < val (from_bits 0xBE6EB50D))%R) by (lit 0xBE6EB520; lit 0xBE6EB50D; bpow_lit; lra).
    assert (R2 : (val (from_bits 0xBE6EB50D) < val (from_bits 0xBE6EB508))%R) by (lit 0xBE6EB508; lit 0xBE6EB50D; bpow_lit; lra).
    assert (MON : forall u v, (0 <= u <= v)%R -> (rnd (1 - rnd (v * v)) <= rnd (1 - rnd (u * u)))%R).
    { intros u v U. apply rnd_le. assert (rnd (u * u) <= rnd (v * v))%R; [apply rnd_le; apply Rmult_le_compat; lra|lra]. }
    split.
    + intros P _. apply Rnot_lt_le. intros L.
      assert (A <= val t')%R.
      { assert (FA : fin (F32_abs x)) by (unfold fin; rewrite abs_fin; exact Fx). pose proof (fin_not_nan _ FA) as N1.
        destruct (pos_bits 0x3F8E236D ltac:(lia)) as (B1 & B2 & B3). destruct (pos_bits 0x3F8E236C ltac:(lia)) as (C1 & C2 & C3).
        pose proof (fle_bits t (F32_abs x) B1 N1 B2 (abs_sign x)) as L1. pose proof (fle_bits (F32_abs x) t' N1 C1 (abs_sign x) C2) as L2.
        unfold t in L1 at 2. unfold t' in L2 at 2. rewrite B3 in L1. rewrite C3 in L2.
        rewrite fle_R, abs_val in L1 by assumption. rewrite fle_R, abs_val in L2 by assumption.
        fold X in L1, L2. fold A in L1, L2. rewrite Rle_bool_false in L1 by exact L. symmetry in L1. apply Z.leb_gt in L1.
        replace (to_bits (F32_abs x) <=? 1066279788) with true in L2 by (symmetry; apply Z.leb_le; lia).
        destruct (Rle_bool_spec A (val t')); [assumption|discriminate]. }
      pose proof (MON A (val t') (conj PA H)). lra.
    + intros P. specialize (P Fx). pose proof (MON (val t) A ltac:(rewrite Vt in *; lra)). lra.
Qed.

Lemma asin_release : forall {E : Env} x, overflow_checks = false -> exists r, F32_asin x = Ok r.
Proof.
  intros E x O. unfold F32_asin. fold (cosq x). destruct (proj2 (invsqrt_panic (cosq x)) O) as [z ->].
  eexists. reflexivity.
Qed.

(** asin(1.05) = 7.1e-39, where the standard library gives NaN. *)
Lemma asin_outside_number : forall {E : Env}, exists x r, fin x /\ (1.04 < val x < 1.06)%R /\ F32_asin x = Ok r /\ fin r /\ (0 < val r < 0.001)%R.
Proof.
  intros E. exists (from_bits 0x3F866666), (from_bits 0x004D173C). split; [reflexivity|]. split; [lit 0x3F866666; bpow_lit; lra|].
  split; [apply ok_bits; vm_compute; reflexivity|]. split; [reflexivity|]. lit 0x004D173C. split.
  - apply Rmult_lt_0_compat; [lra|apply bpow_gt_0].
  - apply Rle_lt_trans with (bpow radix2 24 * bpow radix2 (-149))%R; [apply Rmult_le_compat_r; [apply bpow_ge_0|bpow_lit; lra]|].
    rewrite <- bpow_plus. apply Rle_lt_trans with (bpow radix2 (-20)); [apply bpow_le; lia|bpow_lit; lra].
Qed.

Lemma asin_nan : forall {E : Env} x r, nan x -> F32_asin x = Ok r -> nan r.
Proof.
  intros E x r N. unfold F32_asin. destruct (F32_invsqrt _) as [i| |]; unfold bind; try discriminate.
  intros H. injection H as <-. apply fmul_nan. right. apply atan_overflow. intros Fm.
  assert (NN : nan (fmul x i)) by (apply fmul_nan; left; exact N). apply fin_not_nan in Fm. unfold nan in NN. congruence.
Qed.
