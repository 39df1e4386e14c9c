(** * The order of powf: C128 *)

From Coq Require Import ZArith Reals Bool List Lia Lra.
From Flocq Require Import Core IEEE754.Binary IEEE754.Bits.
From Verif Require Import Base Spec Float F32Lemmas BitLemmas Literals ErrLemmas NanLemmas
  RealBounds RealBounds4 RealBounds5 RealBounds8 P_Trunc P_Floor P_RoundEdge P_Euclid P_Roots P_InvSqrt P_SumSq P_Quat P_Trig P_Atan P_Atan2 P_Ln P_Exp P_Cosh P_Order P_Mono P_Powf P_TrigMono P_LnMono P_ExpMono P_Scale.
Open Scope Z_scope.

Lemma fmt_top : rnd top = top.
Proof. apply rnd_fmt. unfold top. replace 88.72283172607421875%R with (IZR 11629079 * bpow radix2 (-17))%R by (bpow_lit; lra). apply fmt_scaled; simpl; lia. Qed.

(** The exponential of a rounded product. *)
Lemma exp_prod : forall {E : Env} a l, fin a -> fin l -> (val a * val l <= top)%R ->
  (fin (fmul a l) /\ val (fmul a l) = rnd (val a * val l) /\ (rnd (val a * val l) <= top)%R) \/
  (F32_exp (fmul a l) = Ok F32_ZERO /\ (val a * val l <= - 89)%R).
Proof.
  intros E a l Fa Fl H. destruct (Rle_or_lt (val a * val l) (- 89)) as [L|L].
  - right. split; [apply exp_mul_under; [exact Fa|exact Fl|lra]|exact L].
  - left. unfold top in *. destruct (fmul_R a l Fa Fl) as [F _]; [apply (small_lt_128 7); [lia|]; change (bpow radix2 7) with 128%R; apply Rabs_le; lra|].
    refine (conj F (conj (fmul_fin_val a l Fa Fl F) _)). fold top. rewrite <- fmt_top. apply rnd_le. exact H.
Qed.

Lemma exp_prod_order : forall {E : Env} a l b k, fin a -> fin l -> fin b -> fin k -> (val a * val l <= val b * val k)%R -> (val b * val k <= top)%R ->
  exists r s, F32_exp (fmul a l) = Ok r /\ F32_exp (fmul b k) = Ok s /\ fin r /\ fin s /\ (0 <= val r)%R /\ (val r <= val s * 1.000034 + bpow radix2 (-126))%R.
Proof.
  intros E a l b k Fa Fl Fb Fk H T. destruct zero_val as [FZ VZ]. pose proof (bpow_gt_0 radix2 (-126)) as G.
  assert (NN : forall x r, fin x -> (val x <= top)%R -> F32_exp x = Ok r -> (0 <= val r)%R).
  { intros x r Fx Lx A. destruct (Rle_or_lt (- 87.3365478515625) (val x)) as [L|L].
    - destruct (exp_order x x Fx Fx L ltac:(lra) Lx) as (r' & _ & A' & _ & _ & _ & P & _). rewrite A in A'. apply Ok_inj in A'. subst r'. lra.
    - destruct (exp_low x Fx L) as (r' & A' & _ & P). rewrite A in A'. apply Ok_inj in A'. subst r'. lra. }
  destruct (exp_prod a l Fa Fl ltac:(lra)) as [(Fp & Vp & Tp)|[Ep Lp]].
  - destruct (exp_prod b k Fb Fk T) as [(Fq & Vq & Tq)|[Eq Lq]].
    + destruct (exp_order_all (fmul a l) (fmul b k) Fp Fq) as (r & s & R & S & Fr & Fs & K); [rewrite Vp, Vq; apply rnd_le; exact H|rewrite Vq; exact Tq|].
      exists r, s. refine (conj R (conj S (conj Fr (conj Fs (conj _ K))))). apply (NN _ _ Fp) in R; [exact R|]. rewrite Vp. exact Tp.
    + assert (X : (val (fmul a l) < - 87.3365478515625)%R).
      { rewrite Vp. apply Rle_lt_trans with (rnd (- 89)); [apply rnd_le; lra|]. rewrite (rnd_fmt (-89)) by (apply (fmt_IZR (-89)); vm_compute; discriminate). lra. }
      destruct (exp_low _ Fp X) as (r & R & Fr & K). exists r, F32_ZERO. refine (conj R (conj Eq (conj Fr (conj FZ _)))). rewrite VZ. lra.
  - assert (S : exists s, F32_exp (fmul b k) = Ok s /\ fin s /\ (0 <= val s)%R).
    { destruct (exp_prod b k Fb Fk T) as [(Fq & Vq & Tq)|[Eq Lq]].
      - destruct (exp_order_all (fmul b k) (fmul b k) Fq Fq ltac:(lra)) as (s & _ & S & _ & Fs & _); [rewrite Vq; exact Tq|]. exists s. refine (conj S (conj Fs _)). apply (NN _ _ Fq) in S; [exact S|]. rewrite Vq. exact Tq.
      - exists F32_ZERO. refine (conj Eq (conj FZ _)). rewrite VZ. lra. }
    destruct S as (s & S & Fs & Ps). exists F32_ZERO, s. refine (conj Ep (conj S (conj FZ (conj Fs _)))). rewrite VZ. lra.
Qed.

Lemma ln_upper : forall {E : Env} x, fin x -> (0 < val x)%R -> fin (F32_ln x) /\ ((1 <= val x)%R -> (0 <= val (F32_ln x) <= ln (val x) + 0.0000761)%R) /\ ((val x < 1)%R -> (val (F32_ln x) <= 0)%R) /\
  ((bpow radix2 (-126) <= val x < 1)%R -> (ln (val x) - 0.11786 <= val (F32_ln x))%R).
Proof.
  intros E x F P. destruct (ln_sign_iff x F P) as (Fl & S1 & S2). split; [exact Fl|]. split; [|split].
  - intros L. destruct (ln_acc_ge1 x F L) as [_ A]. apply Rabs_le_inv in A. split; [|lra]. apply Rnot_lt_le. intros C. apply S2 in C. lra.
  - intros L. apply Rnot_lt_le. intros C. apply S1 in C. lra.
  - intros [N L]. destruct (ln_acc_lt1 x (conj F N) L) as [_ A]. lra.
Qed.

Lemma powf_unfold : forall {E : Env} x n, fin x -> (0 < val x)%R -> F32_powf x n = F32_exp (fmul n (F32_ln x)).
Proof. intros E x n F P. apply powf_nonneg; [apply fin_not_nan; exact F|]. pose proof (sign_val x F) as Q. destruct (sign_bit x); [lra|reflexivity]. Qed.

(** Growing exponent. *)
Lemma powf_order_exponent : forall {E : Env} x m n, fin x -> fin m -> fin n -> (val m <= val n)%R ->
  ((1 <= val x)%R -> (val n * (ln (val x) + 0.0000761) <= 88.72283172607421875)%R ->
   exists r s, F32_powf x m = Ok r /\ F32_powf x n = Ok s /\ fin r /\ fin s /\ (0 <= val r)%R /\ (val r <= val s * 1.000034 + bpow radix2 (-126))%R) /\
  ((bpow radix2 (-126) <= val x < 1)%R -> (- val m * (0.11786 - ln (val x)) <= 88.72283172607421875)%R ->
   exists r s, F32_powf x m = Ok r /\ F32_powf x n = Ok s /\ fin r /\ fin s /\ (0 <= val s)%R /\ (val s <= val r * 1.000034 + bpow radix2 (-126))%R).
Proof.
  intros E x m n Fx Fm Fn H. split.
  - intros X T. destruct (ln_upper x Fx ltac:(lra)) as (Fl & L1 & _). specialize (L1 X). rewrite !powf_unfold by (exact Fx || lra). fold top in T.
    apply exp_prod_order; try assumption; [apply Rmult_le_compat_r; lra|].
    destruct (Rle_or_lt 0 (val n)) as [P|P]; [apply Rle_trans with (2 := T); apply Rmult_le_compat_l; lra|].
    assert (val n * val (F32_ln x) <= 0)%R by nra. unfold top. lra.
  - intros X T. pose proof (bpow_gt_0 radix2 (-126)) as G. destruct (ln_upper x Fx ltac:(lra)) as (Fl & _ & L2 & L3). specialize (L2 ltac:(lra)). specialize (L3 X). rewrite !powf_unfold by (exact Fx || lra). fold top in T.
    destruct (exp_prod_order n (F32_ln x) m (F32_ln x) Fn Fl Fm Fl) as (s & r & S & R & Fs & Fr & K); [nra| |exists r, s; exact (conj R (conj S (conj Fr (conj Fs K))))].
    destruct (Rle_or_lt (val m) 0) as [P|P]; [nra|]. assert (val m * val (F32_ln x) <= 0)%R by nra. unfold top. lra.
Qed.

(** Growing base. *)
Lemma powf_order_base : forall {E : Env} x y n, fin x -> fin y -> fin n -> (bpow radix2 (-126) <= val x)%R -> (1.0001 * val x <= val y)%R ->
  ((0 <= val n)%R -> ((1 <= val y)%R -> (val n * (ln (val y) + 0.0000761) <= 88.72283172607421875)%R) ->
   exists r s, F32_powf x n = Ok r /\ F32_powf y n = Ok s /\ fin r /\ fin s /\ (0 <= val r)%R /\ (val r <= val s * 1.000034 + bpow radix2 (-126))%R) /\
  ((val n <= 0)%R -> ((val x < 1)%R -> (- val n * (0.11786 - ln (val x)) <= 88.72283172607421875)%R) ->
   exists r s, F32_powf x n = Ok r /\ F32_powf y n = Ok s /\ fin r /\ fin s /\ (0 <= val s)%R /\ (val s <= val r * 1.000034 + bpow radix2 (-126))%R).
Proof.
  intros E x y n Fx Fy Fn Nx H. pose proof (bpow_gt_0 radix2 (-126)) as G. destruct (logs_gap x y Fx Fy Nx H) as (L & _).
  destruct (ln_upper x Fx ltac:(lra)) as (Flx & X1 & X2 & X3). destruct (ln_upper y Fy ltac:(lra)) as (Fly & Y1 & Y2 & Y3). rewrite !powf_unfold by (assumption || lra). fold top. split.
  - intros P T. apply exp_prod_order; try assumption; [nra|]. destruct (Rle_or_lt 1 (val y)) as [C|C]; [specialize (T C); specialize (Y1 C); nra|].
    specialize (Y2 C). assert (val n * val (F32_ln y) <= 0)%R by nra. unfold top. lra.
  - intros P T. destruct (exp_prod_order n (F32_ln y) n (F32_ln x) Fn Fly Fn Flx) as (s & r & S & R & Fs & Fr & K); [nra| |exists r, s; exact (conj R (conj S (conj Fr (conj Fs K))))].
    destruct (Rle_or_lt 1 (val x)) as [C|C]; [specialize (X1 C); assert (val n * val (F32_ln x) <= 0)%R by nra; unfold top; lra|].
    specialize (T C). specialize (X3 ltac:(lra)). nra.
Qed.

(** Neighbouring bases: the small fall of ln moves n * ln x over a seam of exp. *)
Lemma powf_drop : forall {E : Env}, exists x y n r s, fin x /\ fin y /\ fin n /\ (1 < val x < val y)%R /\ (0 < val n)%R /\
  F32_powf x n = Ok r /\ F32_powf y n = Ok s /\ fin r /\ fin s /\ (1.0008 * val s < val r)%R.
Proof.
  intros E. exists (from_bits 0x3FC0000E), (from_bits 0x3FC0000F), (from_bits 0x43480540), (from_bits 2046820529), (from_bits 2046807206).
  refine (conj eq_refl (conj eq_refl (conj eq_refl (conj _ (conj _ (conj _ (conj _ (conj eq_refl (conj eq_refl _))))))))).
  - lit 0x3FC0000E. lit 0x3FC0000F. bpow_lit. lra.
  - lit 0x43480540. bpow_lit. lra.
  - destruct E as [oc da n1 n2 n3 n4 n5 n6 ss]. destruct da; apply ok_bits; vm_compute; reflexivity.
  - destruct E as [oc da n1 n2 n3 n4 n5 n6 ss]. destruct da; apply ok_bits; vm_compute; reflexivity.
  - lit 2046820529. lit 2046807206. change 94 with (93 + 1). rewrite bpow_plus. change (bpow radix2 1) with 2%R. pose proof (bpow_gt_0 radix2 93) as P. lra.
Qed.
