(** * Proofs for C131: which functions respect equality of floats *)

From Coq Require Import ZArith Reals Bool List Lia Lra.
From Flocq Require Import Core IEEE754.BinarySingleNaN IEEE754.Binary IEEE754.Bits.
From Verif Require Import Base Spec Float Vector Quaternion Equality SpecEq F32Lemmas BitLemmas P_Trunc P_Floor Literals ErrLemmas P_RoundEdge
  NanLemmas P_Euclid P_Roots P_Recip P_SumSq P_Stats P_Quat P_Quat2 P_Trig P_Atan P_Atan2 P_TrigEdge P_Vector P_VecF32 P_Ext P_Mono P_Exp P_Powf P_Euler P_RoundOrder P_Ln P_LnMono P_Equality.
Import ListNotations.
Open Scope Z_scope.

Lemma feq_cases : forall x y, feq x y = true -> (x = y /\ is_nan x = false) \/ exists s t, x = B754_zero s /\ y = B754_zero t.
Proof. intros x y H. apply num_eq_twin, feq_num. exact H. Qed.
Ltac eqz H s t := apply feq_cases in H; destruct H as [[<- _]|(s & t & -> & ->)].
Ltac bitz := first [reflexivity | apply to_bits_inj; vm_compute; reflexivity].

(** ** Identical results *)
Lemma fun_same : forall {E : Env} x y, feq x y = true ->
  F32_abs x = F32_abs y /\ F32_floor x = F32_floor y /\ F32_ceil x = F32_ceil y /\ F32_round x = F32_round y /\
  F32_cos x = F32_cos y /\ F32_sin x = F32_sin y /\ F32_tan x = F32_tan y /\
  F32_acos x = F32_acos y /\ F32_exp x = F32_exp y /\ F32_cosh x = F32_cosh y.
Proof.
  intros E x y H. eqz H s t; [refine (conj _ (conj _ (conj _ (conj _ (conj _ (conj _ (conj _ (conj _ (conj _ _))))))))); reflexivity|].
  refine (conj _ (conj _ (conj _ (conj _ (conj _ (conj _ (conj _ (conj _ (conj _ _))))))))).
  - destruct s, t; bitz.
  - destruct s, t; bitz.
  - destruct s, t; bitz.
  - destruct s, t; bitz.
  - destruct s, t; bitz.
  - destruct s, t; bitz.
  - destruct s, t; bitz.
  - destruct s, t; reflexivity.
  - rewrite !exp_zero. reflexivity.
  - unfold F32_cosh. change (fneg (B754_zero s)) with (B754_zero (prec:=24) (emax:=128) (negb s)). change (fneg (B754_zero t)) with (B754_zero (prec:=24) (emax:=128) (negb t)). rewrite !exp_zero. reflexivity.
Qed.

Lemma fun_same2 : forall {E : Env} x x' y y', feq x x' = true -> feq y y' = true -> F32_hypot x y = F32_hypot x' y'.
Proof.
  intros E x x' y y' H K. apply feq_num in H. apply feq_num in K. unfold F32_hypot. rewrite (num_sq _ _ H), (num_sq _ _ K). reflexivity.
Qed.

(** ** Equal results *)
Lemma asin_or : forall {E : Env} x, F32_asin x = Panic \/ exists r, F32_asin x = Ok r.
Proof. intros E x. unfold F32_asin. destruct (invsqrt_or (fsub F32_ONE (fmul x x))) as [->|[r ->]]; [left|right; eexists]; reflexivity. Qed.
Lemma fun_alike : forall {E : Env} x y, feq x y = true ->
  alike (F32_trunc x) (F32_trunc y) /\ both alike (F32_fract x) (F32_fract y) /\ alike (F32_atan x) (F32_atan y) /\
  ((F32_asin x = Panic /\ F32_asin y = Panic) \/ both alike (F32_asin x) (F32_asin y)).
Proof.
  intros E x y H. eqz H s t.
  - refine (conj (alike_refl _) (conj _ (conj (alike_refl _) _))).
    + destruct (fract_any x) as (z & H & _). exists z, z. split; [exact H|split; [exact H|apply alike_refl]].
    + destruct (asin_or x) as [H|[r H]]; [left; split; exact H|right; exists r, r; split; [exact H|split; [exact H|apply alike_refl]]].
  - refine (conj _ (conj _ (conj _ _))).
    + replace (F32_trunc (B754_zero s)) with (f32_zero s) by (destruct s; bitz). replace (F32_trunc (B754_zero t)) with (f32_zero t) by (destruct t; bitz). apply alike_zeros.
    + exists (f32_zero s), (f32_zero t). split; [destruct s; reflexivity|split; [destruct t; reflexivity|apply alike_zeros]].
    + replace (F32_atan (B754_zero s)) with (f32_zero s) by (destruct s; bitz). replace (F32_atan (B754_zero t)) with (f32_zero t) by (destruct t; bitz). apply alike_zeros.
    + right. exists (f32_zero s), (f32_zero t).
      assert (K : forall u, F32_asin (B754_zero u) = Ok (f32_zero u)).
      { intros u. unfold F32_asin. replace (fsub F32_ONE (fmul (B754_zero u) (B754_zero u))) with F32_ONE by (destruct u; bitz).
        replace (F32_invsqrt F32_ONE) with (Ok (from_bits 0x3F775A86)) by (unfold F32_invsqrt; replace (0x5F375A86 - Z.shiftr (to_bits F32_ONE) 1) with 0x3F775A86 by (vm_compute; reflexivity); reflexivity). cbn [bind]. f_equal. destruct u; bitz. }
      split; [apply K|split; [apply K|apply alike_zeros]].
Qed.

(** *** atan2 *)
Definition angle2 {E : Env} (sx sy : bool) (q : f32) : f32 :=
  let n := fadd (f32_of_Z (quadrant sx sy)) (with_sign (xorb sx sy || sign_bit q) q) in
  fmul (fdiv c_PI c_2) (if fgt n c_2 then fsub n c_4 else n).
Lemma atan2_angle : forall {E : Env} y x, F32_atan2 y x = angle2 (sign_bit x) (sign_bit y) (quot2 y x).
Proof. intros E y x. unfold F32_atan2, angle2. rewrite atan2_norm_eq. reflexivity. Qed.

Lemma val_one : forall a, fin a -> val a = 1%R -> a = F32_ONE.
Proof.
  intros a F V. destruct (fin_val_twin a F32_ONE F eq_refl) as [[H _]|(s & t & _ & H)].
  - rewrite V. symmetry. apply (proj2 one_val).
  - exact H.
  - exfalso. destruct t; discriminate H.
Qed.
Lemma sq_nn : forall {E : Env} y, fin y -> nn (fmul y y).
Proof.
  intros E y F. pose proof (fmul_fin_not_nan y y F F) as N. split; [exact N|]. rewrite fmul_sign by exact N. apply xorb_nilpotent.
Qed.

Lemma self_div : forall {E : Env} Y, nn Y -> nan (fdiv Y Y) \/ fdiv Y Y = F32_ONE.
Proof.
  intros E Y [N S]. destruct Y as [s|s|s p K|s m e K]; try discriminate N; [left; apply build_nan_nan|left; apply build_nan_nan|right].
  set (Y := B754_finite s m e K). assert (NZ : (val Y <> 0)%R).
  { intros H. unfold Y, val, B2R in H. apply eq_0_F2R in H. simpl in H. destruct s; discriminate H. }
  assert (Q : (val Y / val Y = 1)%R) by (field; exact NZ).
  assert (R1 : rnd 1 = 1%R) by (apply rnd_fmt; apply (fmt_IZR 1); lia).
  destruct (fdiv_R Y Y eq_refl eq_refl NZ) as [F V].
  { rewrite Q, R1, Rabs_R1. apply (bpow_lt radix2 0 128). lia. }
  apply val_one; [exact F|]. rewrite V, Q. exact R1.
Qed.

Lemma zero_sq : forall {E : Env} s, fmul (B754_zero s) (B754_zero s) = f32_zero false.
Proof. intros E s. destruct s; reflexivity. Qed.
Lemma zero_mul_abs_l : forall {E : Env} s y, fin y -> F32_abs (fmul (fmul c_B (B754_zero s)) y) = f32_zero false.
Proof.
  intros E s y F. destruct y as [t|t|t p K|t m e K]; try discriminate F.
  - destruct s, t; apply to_bits_inj; vm_compute; reflexivity.
  - replace (fmul (fmul c_B (B754_zero s)) (B754_finite t m e K)) with (f32_zero (xorb s t)) by (destruct s; reflexivity).
    destruct (xorb s t); apply to_bits_inj; vm_compute; reflexivity.
Qed.
Lemma zero_mul_abs_r : forall {E : Env} s x, fin x -> is_nan (fmul c_B x) = false -> is_finite (fmul c_B x) = true -> F32_abs (fmul (fmul c_B x) (B754_zero s)) = f32_zero false.
Proof.
  intros E s x F N G. destruct (fmul c_B x) as [t|t|t p K|t m e K]; try discriminate N; try discriminate G.
  - destruct s, t; apply to_bits_inj; vm_compute; reflexivity.
  - replace (fmul (B754_finite t m e K) (B754_zero s)) with (f32_zero (xorb t s)) by reflexivity.
    destruct (xorb t s); apply to_bits_inj; vm_compute; reflexivity.
Qed.
Lemma nn_add_zero : forall {E : Env} x, nn x -> fadd x (f32_zero false) = x.
Proof. intros E x [N S]. destruct x as [t|t|t p K|t m e K]; try discriminate N; try reflexivity. cbn in S. subst t. reflexivity. Qed.

(** The quotient at a zero x, and at a zero y. *)
Lemma quot_x0 : forall {E : Env} s y, fin y -> quot2 y (B754_zero s) = fdiv (fmul y y) (fmul y y).
Proof.
  intros E s y F. unfold quot2, quadf. rewrite zero_sq, zero_mul_abs_l by exact F. pose proof (sq_nn y F) as N.
  rewrite (zero_add_nn false _ N). change (fadd (f32_zero false) (f32_zero false)) with (f32_zero false). rewrite (zero_add_nn false _ N). reflexivity.
Qed.
Lemma c_B_fin : forall {E : Env} x, fin x -> fin (fmul c_B x).
Proof.
  intros E x F. destruct c_B_val as [FB VB]. apply fmul_R; [exact FB|exact F|].
  assert (M : (Rabs (val c_B * val x) <= Rabs (val x))%R).
  { rewrite Rabs_mult. rewrite VB. rewrite (Rabs_pos_eq) by lra. pose proof (Rabs_pos (val x)). lra. }
  apply Rle_lt_trans with (Rabs (val x)); [|apply fin_lt_128; exact F].
  rewrite <- (rnd_fmt (Rabs (val x))) by (apply generic_format_abs; apply fmt_val). rewrite <- rnd_Rabs. apply rnd_le. exact M.
Qed.
Lemma quot_y0 : forall {E : Env} s x, fin x -> quot2 (B754_zero s) x = fdiv (f32_zero false) (fmul x x).
Proof.
  intros E s x F. unfold quot2, quadf. pose proof (c_B_fin x F) as G. rewrite zero_sq, zero_mul_abs_r by (trivial; apply fin_not_nan; exact G). pose proof (sq_nn x F) as N.
  change (fadd (f32_zero false) (f32_zero false)) with (f32_zero false). rewrite (nn_add_zero _ N). rewrite (nn_add_zero _ N). reflexivity.
Qed.
Lemma zero_quot : forall {E : Env} X, nn X -> nan (fdiv (f32_zero false) X) \/ fdiv (f32_zero false) X = f32_zero false.
Proof.
  intros E X [N S]. destruct X as [s|s|s p K|s m e K]; try discriminate N; cbn in S; subst s; [left; apply build_nan_nan|right; reflexivity|right; reflexivity].
Qed.

Lemma atan2_x0 : forall {E : Env} s t y, alike (F32_atan2 y (B754_zero s)) (F32_atan2 y (B754_zero t)).
Proof.
  intros E s t y. destruct (is_finite y) eqn:F.
  - assert (Q : forall u, quot2 y (B754_zero u) = fdiv (fmul y y) (fmul y y)) by (intros u; apply quot_x0; exact F).
    destruct (self_div (fmul y y) (sq_nn y F)) as [N|O].
    + apply alike_nans; apply atan2_of_nan; rewrite Q; exact N.
    + rewrite !atan2_angle, !Q, O. change (sign_bit (B754_zero s)) with s. change (sign_bit (B754_zero t)) with t.
      destruct (sign_bit y), s, t; try apply alike_refl;
        (match goal with |- alike ?a ?b => replace a with b by (apply to_bits_inj; vm_compute; reflexivity) end; apply alike_refl).
  - apply alike_nans; apply atan2_overflow; right; intros C; unfold fin in C; congruence.
Qed.
Lemma atan2_y0 : forall {E : Env} s t x, alike (F32_atan2 (B754_zero s) x) (F32_atan2 (B754_zero t) x).
Proof.
  intros E s t x. destruct (is_finite x) eqn:F.
  - assert (Q : forall u, quot2 (B754_zero u) x = fdiv (f32_zero false) (fmul x x)) by (intros u; apply quot_y0; exact F).
    destruct (zero_quot (fmul x x) (sq_nn x F)) as [N|O].
    + apply alike_nans; apply atan2_of_nan; rewrite Q; exact N.
    + rewrite !atan2_angle, !Q, O. change (sign_bit (B754_zero s)) with s. change (sign_bit (B754_zero t)) with t.
      destruct (sign_bit x), s, t; try apply alike_refl;
        (match goal with |- alike ?a ?b => replace a with b by (apply to_bits_inj; vm_compute; reflexivity) end; apply alike_refl).
  - apply alike_nans; apply atan2_overflow; left; exact F.
Qed.
Lemma atan2_zeros : forall {E : Env} s t s' t', alike (F32_atan2 (B754_zero s) (B754_zero t)) (F32_atan2 (B754_zero s') (B754_zero t')).
Proof. intros E s t s' t'. apply alike_nans; apply atan2_origin. Qed.

Lemma fun_alike2 : forall {E : Env} x x' y y' z z', feq x x' = true -> feq y y' = true -> feq z z' = true ->
  alike (F32_atan2 x y) (F32_atan2 x' y') /\ alike (F32_mul_add x y z) (F32_mul_add x' y' z') /\
  alike (F32_rem_euclid x y) (F32_rem_euclid x' y').
Proof.
  intros E x x' y y' z z' X Y Z. refine (conj _ (conj _ _)).
  - eqz X s t; eqz Y s2 t2; [apply alike_refl|apply atan2_x0|apply atan2_y0|apply atan2_zeros].
  - apply feq_num in X, Y, Z. apply num_alike in X, Y, Z. unfold F32_mul_add. al.
  - assert (NR : forall a b, nan (frem a b) -> nan (F32_rem_euclid a b)).
    { intros a b N. unfold F32_rem_euclid. destruct (fge _ _); [exact N|apply fadd_nan; left; exact N]. }
    eqz X s t; eqz Y s2 t2.
    + apply alike_refl.
    + apply alike_nans; apply NR; destruct x as [u|u|u p K|u m e K]; apply nan_build.
    + destruct y as [u|u|u p K|u m e K].
      * apply alike_nans; apply NR; apply nan_build.
      * replace (F32_rem_euclid (B754_zero s) (B754_infinity u)) with (f32_zero s) by (destruct s; reflexivity).
        replace (F32_rem_euclid (B754_zero t) (B754_infinity u)) with (f32_zero t) by (destruct t; reflexivity). apply alike_zeros.
      * apply alike_nans; apply NR; apply nan_build.
      * replace (F32_rem_euclid (B754_zero s) (B754_finite u m e K)) with (f32_zero s) by (destruct s; reflexivity).
        replace (F32_rem_euclid (B754_zero t) (B754_finite u m e K)) with (f32_zero t) by (destruct t; reflexivity). apply alike_zeros.
    + apply alike_nans; apply NR; apply nan_build.
Qed.

(** ** Euler angles and axis-angle *)

(** Identical, or both zeros. *)
Definition sz (a b : f32) : Prop := a = b \/ exists s t, a = B754_zero s /\ b = B754_zero t.
Lemma fin_twin : forall a b, fin a -> num_eq a b -> fin b /\ sz a b.
Proof. intros a b F H. apply num_eq_twin in H. destruct H as [[<- _]|(s & t & -> & ->)]; [split; [exact F|left; reflexivity]|split; [reflexivity|right; exists s, t; split; reflexivity]]. Qed.
Lemma sz_mul_fin : forall {E : Env} a a' b b', fin a -> fin b -> sz a a' -> sz b b' -> sz (fmul a b) (fmul a' b') /\ is_nan (fmul a b) = false.
Proof.
  intros E a a' b b' Fa Fb A B. split; [|apply fmul_fin_not_nan; assumption].
  destruct A as [<-|(s & t & -> & ->)]; destruct B as [<-|(s2 & t2 & -> & ->)].
  - left. reflexivity.
  - right. destruct a as [u|u|u p K|u m e K]; try discriminate Fa; do 2 eexists; split; reflexivity.
  - right. destruct b as [u|u|u p K|u m e K]; try discriminate Fb; do 2 eexists; split; reflexivity.
  - right. do 2 eexists; split; reflexivity.
Qed.
Lemma sz_add : forall {E : Env} a a' b b', is_nan a = false -> is_nan b = false -> sz a a' -> sz b b' -> sz (fadd a b) (fadd a' b').
Proof.
  intros E a a' b b' Na Nb A B. destruct A as [<-|(s & t & -> & ->)]; destruct B as [<-|(s2 & t2 & -> & ->)].
  - left. reflexivity.
  - destruct a as [u|u|u p K|u m e K]; try discriminate Na; [right|left; reflexivity|left; reflexivity]. destruct u, s2, t2; do 2 eexists; split; reflexivity.
  - destruct b as [u|u|u p K|u m e K]; try discriminate Nb; [right|left; reflexivity|left; reflexivity]. destruct u, s, t; do 2 eexists; split; reflexivity.
  - right. destruct s, t, s2, t2; do 2 eexists; split; reflexivity.
Qed.
Lemma sz_sub : forall {E : Env} a a' b b', is_nan a = false -> is_nan b = false -> sz a a' -> sz b b' -> sz (fsub a b) (fsub a' b').
Proof.
  intros E a a' b b' Na Nb A B. destruct A as [<-|(s & t & -> & ->)]; destruct B as [<-|(s2 & t2 & -> & ->)].
  - left. reflexivity.
  - destruct a as [u|u|u p K|u m e K]; try discriminate Na; [right|left; reflexivity|left; reflexivity]. destruct u, s2, t2; do 2 eexists; split; reflexivity.
  - destruct b as [u|u|u p K|u m e K]; try discriminate Nb; [right|left; reflexivity|left; reflexivity]. destruct u, s, t; do 2 eexists; split; reflexivity.
  - right. destruct s, t, s2, t2; do 2 eexists; split; reflexivity.
Qed.
Lemma sz_two : forall {E : Env} a b, sz a b -> sz (fmul c_2 a) (fmul c_2 b).
Proof. intros E a b [<-|(s & t & -> & ->)]; [left; reflexivity|right]. destruct s, t; do 2 eexists; split; reflexivity. Qed.
Lemma sz_sq : forall {E : Env} a b, sz a b -> fmul a a = fmul b b.
Proof. intros E a b H. apply twin_sq. exact H. Qed.
Lemma sz_atan2 : forall {E : Env} y y' x, sz y y' -> alike (F32_atan2 y x) (F32_atan2 y' x).
Proof. intros E y y' x [<-|(s & t & -> & ->)]; [apply alike_refl|apply atan2_y0]. Qed.
Lemma sz_asin : forall {E : Env} x y, sz x y -> (F32_asin x = Panic /\ F32_asin y = Panic) \/ both alike (F32_asin x) (F32_asin y).
Proof.
  intros E x y [<-|(s & t & -> & ->)].
  - destruct (asin_or x) as [H|[r H]]; [left; split; exact H|right; exists r, r; split; [exact H|split; [exact H|apply alike_refl]]].
  - apply (fun_alike (B754_zero s) (B754_zero t)). reflexivity.
Qed.

Lemma euler_cong : forall {E : Env} p q, fin (q0 p) -> fin (q1 p) -> fin (q2 p) -> fin (q3 p) -> q_eq p q = true ->
  (Q_to_euler p = Panic /\ Q_to_euler q = Panic) \/
  exists r1 p1 y1 r2 p2 y2, Q_to_euler p = Ok (r1, p1, y1) /\ Q_to_euler q = Ok (r2, p2, y2) /\ alike r1 r2 /\ alike p1 p2 /\ alike y1 y2.
Proof.
  intros E [a b c d] [a' b' c' d'] Fa Fb Fc Fd P. apply (proj2 (proj2 f32_eq)) in P. destruct P as (Pa & Pb & Pc & Pd). cbn [q0 q1 q2 q3] in *.
  destruct (fin_twin _ _ Fa Pa) as [_ A]. destruct (fin_twin _ _ Fb Pb) as [_ B]. destruct (fin_twin _ _ Fc Pc) as [_ C]. destruct (fin_twin _ _ Fd Pd) as [_ D].
  unfold Q_to_euler. cbn [q0 q1 q2 q3]. rewrite (sz_sq _ _ B), (sz_sq _ _ C), (sz_sq _ _ D).
  destruct (sz_mul_fin a a' b b' Fa Fb A B) as [AB Nab]. destruct (sz_mul_fin c c' d d' Fc Fd C D) as [CD Ncd].
  destruct (sz_mul_fin a a' c c' Fa Fc A C) as [AC Nac]. destruct (sz_mul_fin b b' d d' Fb Fd B D) as [BD Nbd].
  destruct (sz_mul_fin a a' d d' Fa Fd A D) as [AD Nad]. destruct (sz_mul_fin b b' c c' Fb Fc B C) as [BC Nbc].
  pose proof (sz_two _ _ (sz_add _ _ _ _ Nab Ncd AB CD)) as R. pose proof (sz_two _ _ (sz_sub _ _ _ _ Nac Nbd AC BD)) as T. pose proof (sz_two _ _ (sz_add _ _ _ _ Nad Nbc AD BC)) as Y.
  destruct (sz_asin _ _ T) as [[U V]|(u & v & U & V & UV)]; rewrite U, V; cbn [bind]; [left; split; reflexivity|right].
  do 6 eexists. split; [reflexivity|]. split; [reflexivity|]. split; [apply sz_atan2; exact R|]. split; [exact UV|]. apply sz_atan2; exact Y.
Qed.

Lemma axis_cong : forall {E : Env} v w x y, v3_eq feq v w = true -> feq x y = true ->
  q4rel alike (Q_axis_angle (fun c => c) v x) (Q_axis_angle (fun c => c) w y).
Proof.
  intros E [a b c] [a' b' c'] x y V K. apply (proj1 (proj2 f32_eq)) in V. destruct V as (A & B & C). cbn [v3x v3y v3z] in *. apply num_alike in A, B, C.
  assert (S : F32_cos (fmul x c_0_5) = F32_cos (fmul y c_0_5) /\ F32_sin (fmul x c_0_5) = F32_sin (fmul y c_0_5)).
  { eqz K s t; [split; reflexivity|]. split; destruct s, t; bitz. }
  destruct S as [Sc Ss]. unfold Q_axis_angle. cbn [v3x v3y v3z]. rewrite Sc, Ss. repeat split; cbn [q0 q1 q2 q3]; al.
Qed.

(** ** Functions that tell +0.0 from -0.0 *)
Lemma fun_tell : forall {E : Env}, let p := f32_zero false in let n := f32_zero true in
  feq p n = true /\
  (F32_signum p = F32_ONE /\ F32_signum n = fneg F32_ONE) /\
  (F32_sqrt p = Ok (from_bits 0x1FC00000) /\ F32_sqrt n = Ok (from_bits 0x5FC00000)) /\
  (F32_invsqrt p = Ok (from_bits 0x5F375A86) /\ F32_invsqrt n = Ok (from_bits 0x1F375A86)) /\
  (F32_inv p = from_bits 0x7F000000 /\ F32_inv n = f32_zero false) /\
  (F32_recip p = F32_INFINITY /\ F32_recip n = F32_NEG_INFINITY) /\
  (F32_ln p = from_bits 0xC2B00F3C /\ nan (F32_ln n)) /\
  (F32_log2 p = from_bits 3271426060 /\ nan (F32_log2 n)) /\ (F32_log10 p = from_bits 3256413281 /\ nan (F32_log10 n)).
Proof.
  intros E. cbv zeta. assert (L : nan (F32_ln (f32_zero true))) by (apply ln_negative; reflexivity).
  refine (conj eq_refl (conj _ (conj _ (conj _ (conj _ (conj _ (conj _ (conj _ _)))))))).
  - split; bitz.
  - split; apply ok_bits; vm_compute; reflexivity.
  - split; apply ok_bits; vm_compute; reflexivity.
  - split; bitz.
  - split; bitz.
  - split; [apply ln_zero|exact L].
  - split; [bitz|]. unfold F32_log2, F32_log. apply fmul_nan; left; exact L.
  - split; [bitz|]. unfold F32_log10, F32_log. apply fmul_nan; left; exact L.
Qed.
