(** * Proofs: order *)

From Coq Require Import ZArith Reals Bool List Lia Lra.
From Flocq Require Import Core IEEE754.BinarySingleNaN IEEE754.Binary IEEE754.Bits.
From Verif Require Import P_Vector Base Spec SpecMore SpecSym Float Vector Quaternion Stats F32Lemmas BitLemmas P_Trunc P_Floor Literals ErrLemmas P_RoundEdge NanLemmas
  P_Euclid P_Roots P_InvSqrt P_SumSq P_VecF32 P_Quat P_Recip P_Stats P_Atan P_Powi P_Powi2 P_Powf P_Sign.
Import ListNotations.
Open Scope Z_scope.

(** Not NaN, sign bit clear. *)
Definition nn (x : f32) : Prop := is_nan x = false /\ sign_bit x = false.
Definition nnle (x y : f32) : Prop := nn x /\ nn y /\ fle x y = true.

Lemma nn_cases : forall x, nn x -> fin x \/ x = f32_inf false.
Proof.
  intros x [N S]. destruct x as [s|s|s p H|s m e H]; try discriminate; [left; reflexivity| |left; reflexivity].
  right. cbn in S. subst s. reflexivity.
Qed.

Lemma nnle_intro : forall x y, nn x -> nn y -> (fin y -> fin x /\ (val x <= val y)%R) -> nnle x y.
Proof.
  intros x y Nx Ny H. split; [exact Nx|]. split; [exact Ny|].
  destruct (nn_cases y Ny) as [F| ->].
  - destruct (H F) as [Fx L]. rewrite fle_R by assumption. apply Rle_bool_true. exact L.
  - destruct (nn_cases x Nx) as [F| ->]; [|reflexivity]. destruct x as [s|s|s p K|s m e K]; try discriminate; destruct s; reflexivity.
Qed.

Lemma nnle_elim : forall x y, nnle x y -> fin y -> fin x /\ (val x <= val y)%R.
Proof.
  intros x y (Nx & Ny & L) F. destruct (nn_cases x Nx) as [Fx| ->].
  - split; [exact Fx|]. rewrite fle_R in L by assumption. destruct (Rle_bool_spec (val x) (val y)); [assumption|discriminate].
  - exfalso. destruct y as [s|s|s p K|s m e K]; try discriminate; destruct s; discriminate.
Qed.

Lemma nnle_refl : forall x, nn x -> nnle x x.
Proof. intros x N. apply nnle_intro; trivial. intros F. split; [exact F|lra]. Qed.

Lemma nnle_trans : forall x y z, nnle x y -> nnle y z -> nnle x z.
Proof.
  intros x y z A B. apply nnle_intro; [apply A|apply B|]. intros F. destruct (nnle_elim _ _ B F) as [Fy L]. destruct (nnle_elim _ _ A Fy) as [Fx L'].
  split; [exact Fx|lra].
Qed.

Lemma nn_fadd : forall {E : Env} x y, nn x -> nn y -> nn (fadd x y).
Proof. intros E x y [A B] [C D]. apply nn_add; assumption. Qed.

Lemma nnle_add : forall {E : Env} x x' y y', nnle x x' -> nnle y y' -> nnle (fadd x y) (fadd x' y').
Proof.
  intros E x x' y y' A B. apply nnle_intro; [apply nn_fadd; [apply A|apply B]|apply nn_fadd; [apply A|apply B]|].
  intros F. destruct (add_fin_both _ _ F) as [F1 F2].
  destruct (nnle_elim _ _ A F1) as [G1 L1]. destruct (nnle_elim _ _ B F2) as [G2 L2].
  pose proof (fadd_fin_val x' y' F1 F2 F) as V.
  pose proof (sign_val_pos x (proj2 (proj1 A))) as P1. pose proof (sign_val_pos y (proj2 (proj1 B))) as P2.
  assert (R : (0 <= rnd (val x + val y) <= rnd (val x' + val y'))%R) by (split; [apply rnd_nonneg; lra|apply rnd_le; lra]).
  pose proof (abs_B2R_lt_emax 24 128 (fadd x' y')) as M. fold (val (fadd x' y')) in M. rewrite V in M. rewrite Rabs_pos_eq in M by lra.
  destruct (fadd_R x y G1 G2) as [F' V']; [rewrite Rabs_pos_eq by lra; lra|].
  split; [exact F'|]. rewrite V, V'. apply R.
Qed.

Lemma nn_mul : forall {E : Env} x y, nn x -> nn y -> is_nan (fmul x y) = false -> nn (fmul x y).
Proof. intros E x y [_ A] [_ B] N. split; [exact N|]. rewrite fmul_sign by exact N. rewrite A, B. reflexivity. Qed.

Lemma mul_fin_r : forall {E : Env} x y, fin (fmul x y) -> fin y.
Proof.
  intros E x y F. apply (mul_fin_l y x). destruct (fmul_comm x y) as [<- |[Q _]]; [exact F|].
  pose proof (fin_not_nan _ F). unfold nan in Q. congruence.
Qed.

Lemma nnle_mul : forall {E : Env} x x' y y', nnle x x' -> nnle y y' -> is_nan (fmul x y) = false -> is_nan (fmul x' y') = false ->
  nnle (fmul x y) (fmul x' y').
Proof.
  intros E x x' y y' A B N N'. apply nnle_intro; [apply nn_mul; [apply A|apply B|exact N]|apply nn_mul; [apply A|apply B|exact N']|].
  intros F. pose proof (mul_fin_l _ _ F) as F1. pose proof (mul_fin_r _ _ F) as F2.
  destruct (nnle_elim _ _ A F1) as [G1 L1]. destruct (nnle_elim _ _ B F2) as [G2 L2].
  pose proof (fmul_fin_val x' y' F1 F2 F) as V.
  pose proof (sign_val_pos x (proj2 (proj1 A))) as P1. pose proof (sign_val_pos y (proj2 (proj1 B))) as P2.
  assert (R : (0 <= rnd (val x * val y) <= rnd (val x' * val y'))%R).
  { split; [apply rnd_nonneg; apply Rmult_le_pos; assumption|apply rnd_le; apply Rmult_le_compat; assumption]. }
  pose proof (abs_B2R_lt_emax 24 128 (fmul x' y')) as M. fold (val (fmul x' y')) in M. rewrite V in M. rewrite Rabs_pos_eq in M by lra.
  destruct (fmul_R x y G1 G2) as [F' V']; [rewrite Rabs_pos_eq by lra; lra|].
  split; [exact F'|]. rewrite V, V'. apply R.
Qed.

(** ** Lengths *)

Lemma fle_not_nan : forall x y, fle x y = true -> is_nan x = false /\ is_nan y = false.
Proof.
  intros x y H. split; destruct (is_nan _) eqn:N; trivial; exfalso.
  - destruct x; try discriminate N. discriminate H.
  - destruct y; try discriminate N. destruct x; discriminate H.
Qed.

Lemma abs_le_sq : forall {E : Env} a b, fle (F32_abs a) (F32_abs b) = true -> nnle (fmul a a) (fmul b b).
Proof.
  intros E a b H. destruct (fle_not_nan _ _ H) as [Na Nb]. rewrite abs_is_nan in Na, Nb.
  assert (L : nnle (F32_abs a) (F32_abs b)).
  { split; [split; [rewrite abs_is_nan; exact Na|apply abs_sign]|]. split; [split; [rewrite abs_is_nan; exact Nb|apply abs_sign]|exact H]. }
  assert (S : forall x, is_nan x = false -> fmul x x = fmul (F32_abs x) (F32_abs x)).
  { intros x N. destruct (sign_bit x) eqn:Sx.
    - replace (F32_abs x) with (fneg x).
      + symmetry. apply fmul_neg_neg. exact N.
      + destruct (is_finite x) eqn:F.
        * apply fin_dec_eq; [apply fneg_fin; exact F|unfold fin; rewrite abs_fin; exact F| |rewrite F32Lemmas.fneg_sign, Sx, abs_sign; reflexivity].
          rewrite fneg_val, abs_val, Rabs_left1 by (apply sign_val_neg; exact Sx). reflexivity.
        * destruct x as [s|s|s p K|s m e K]; try discriminate. cbn in Sx. subst s. apply to_bits_inj. reflexivity.
    - replace (F32_abs x) with x; [reflexivity|]. destruct (is_finite x) eqn:F.
      + apply fin_dec_eq; [exact F|unfold fin; rewrite abs_fin; exact F| |rewrite Sx, abs_sign; reflexivity].
        rewrite abs_val, Rabs_pos_eq by (apply sign_val_pos; exact Sx). reflexivity.
      + destruct x as [s|s|s p K|s m e K]; try discriminate. cbn in Sx. subst s. apply to_bits_inj. reflexivity. }
  pose proof (sq_not_nan a Na) as Qa. pose proof (sq_not_nan b Nb) as Qb.
  rewrite (S a Na) in *. rewrite (S b Nb) in *. apply nnle_mul; assumption.
Qed.

Lemma zero_add_nn : forall {E : Env} s x, nn x -> fadd (f32_zero s) x = x.
Proof.
  intros E s x [N S]. destruct x as [t|t|t p K|t m e K]; try discriminate; cbn in S; subst t; destruct s; reflexivity.
Qed.

Lemma fold_nnle : forall {E : Env} l l', Forall2 nnle l l' -> forall s s', nnle s s' -> nnle (fold_left fadd l s) (fold_left fadd l' s').
Proof.
  intros E l l' H. induction H as [|a b l l' Hab H IH]; intros s s' Hs; [exact Hs|]. cbn [fold_left]. apply IH. apply nnle_add; assumption.
Qed.

Lemma sum_nnle : forall {E : Env} l l', l <> [] -> Forall2 nnle l l' -> nnle (F32_sum l) (F32_sum l').
Proof.
  intros E l l' NE H. unfold F32_sum. destruct H as [|a b l l' Hab H]; [congruence|]. cbn [fold_left].
  rewrite !zero_add_nn by apply Hab. apply fold_nnle; assumption.
Qed.

Lemma sqrt_nnle : forall {E : Env} x y, nnle x y -> exists a b, F32_sqrt x = Ok a /\ F32_sqrt y = Ok b /\ fin a /\ fin b /\ (0 < val a <= val b)%R.
Proof. intros E x y ([N S] & [N' S'] & L). apply sqrt_monotone; assumption. Qed.

Lemma hypot_monotone : forall {E : Env} a b a' b', fle (F32_abs a) (F32_abs a') = true -> fle (F32_abs b) (F32_abs b') = true ->
  exists r r', F32_hypot a b = Ok r /\ F32_hypot a' b' = Ok r' /\ fin r /\ fin r' /\ (0 < val r <= val r')%R.
Proof. intros E a b a' b' A B. unfold F32_hypot. apply sqrt_nnle. apply nnle_add; apply abs_le_sq; assumption. Qed.

Lemma v2_magnitude_monotone : forall {E : Env} (v w : Vector2d f32),
  Forall2 (fun a b => fle (F32_abs a) (F32_abs b) = true) (v2_to_array v) (v2_to_array w) ->
  exists r r', vt_magnitude (fun x => x) v = Ok r /\ vt_magnitude (fun x => x) w = Ok r' /\ fin r /\ fin r' /\ (0 < val r <= val r')%R.
Proof.
  intros E v w H. unfold vt_magnitude. rewrite !v2_items. apply sqrt_nnle. apply sum_nnle; [destruct v; discriminate|].
  destruct v as [a b], w as [c d]. unfold v2_to_array in *. cbn [map v2x v2y] in *.
  inversion H as [|? ? ? ? H1 T]; subst. inversion T as [|? ? ? ? H2 T2]; subst.
  repeat (apply Forall2_cons; [apply abs_le_sq; assumption|]). apply Forall2_nil.
Qed.

Lemma v3_magnitude_monotone : forall {E : Env} (v w : Vector3d f32),
  Forall2 (fun a b => fle (F32_abs a) (F32_abs b) = true) (v3_to_array v) (v3_to_array w) ->
  exists r r', vt_magnitude (fun x => x) v = Ok r /\ vt_magnitude (fun x => x) w = Ok r' /\ fin r /\ fin r' /\ (0 < val r <= val r')%R.
Proof.
  intros E v w H. unfold vt_magnitude. rewrite !v3_items. apply sqrt_nnle. apply sum_nnle; [destruct v; discriminate|].
  destruct v as [a b e], w as [c d f]. unfold v3_to_array in *. cbn [map v3x v3y v3z] in *.
  inversion H as [|? ? ? ? H1 T]; subst. inversion T as [|? ? ? ? H2 T2]; subst. inversion T2 as [|? ? ? ? H3 T3]; subst.
  repeat (apply Forall2_cons; [apply abs_le_sq; assumption|]). apply Forall2_nil.
Qed.

Lemma quat_magnitude_monotone : forall {E : Env} p q, qrel (fun a b => fle (F32_abs a) (F32_abs b) = true) p q ->
  exists r r', Q_magnitude p = Ok r /\ Q_magnitude q = Ok r' /\ fin r /\ fin r' /\ (0 < val r <= val r')%R.
Proof.
  intros E p q (A & B & C & D). unfold Q_magnitude. apply sqrt_nnle. unfold q_norm. cbn [aadd amul arith_f32].
  repeat apply nnle_add; apply abs_le_sq; assumption.
Qed.

(** ** mean *)

Lemma fold_fin : forall {E : Env} l s, fin (fold_left fadd l s) -> fin s /\ Forall fin l.
Proof.
  intros E l. induction l as [|a l IH]; intros s H; [split; [exact H|constructor]|]. cbn [fold_left] in H.
  destruct (IH _ H) as [F FL]. destruct (add_fin_both _ _ F) as [A B]. split; [exact A|constructor; assumption].
Qed.

Lemma fold_mono : forall {E : Env} l l', Forall2 (fun a b => (val a <= val b)%R) l l' -> forall s s', (val s <= val s')%R ->
  fin (fold_left fadd l s) -> fin (fold_left fadd l' s') -> (val (fold_left fadd l s) <= val (fold_left fadd l' s'))%R.
Proof.
  intros E l l' H. induction H as [|a b l l' Hab H IH]; intros s s' Hs F F'; [exact Hs|]. cbn [fold_left] in *.
  apply IH; trivial. destruct (fold_fin _ _ F) as [G _]. destruct (fold_fin _ _ F') as [G' _].
  destruct (add_fin_both _ _ G) as [A1 A2]. destruct (add_fin_both _ _ G') as [B1 B2].
  rewrite !fadd_fin_val by assumption. apply rnd_le. lra.
Qed.

Lemma mean_monotone : forall {E : Env} l l' m m', 0 < Z.of_nat (length l) <= 2 ^ 24 ->
  Forall2 (fun a b => (val a <= val b)%R) l l' -> mean l = Ok m -> mean l' = Ok m' -> fin m -> fin m' -> (val m <= val m')%R.
Proof.
  intros E l l' m m' L H M M' F F'.
  assert (Q : length l = length l') by (clear - H; induction H; cbn; congruence).
  rewrite mean_spec in M by lia. rewrite mean_spec in M' by lia. rewrite <- Q in M'.
  injection M as <-. injection M' as <-. destruct (f32_of_Z_exact (Z.of_nat (length l))) as [Fn Vn]; [lia|].
  assert (P : (1 <= IZR (Z.of_nat (length l)))%R) by (apply IZR_le; lia).
  assert (FS : forall s, fin (fdiv s (f32_of_Z (Z.of_nat (length l)))) -> fin s).
  { intros s G. destruct (is_finite s) eqn:K; [exact K|]. unfold fin in G. rewrite fdiv_nonfinite in G by (exact K || exact Fn). discriminate. }
  assert (V : forall s, fin s -> val (fdiv s (f32_of_Z (Z.of_nat (length l)))) = rnd (val s / IZR (Z.of_nat (length l)))).
  { intros s Fs. destruct (fdiv_R s (f32_of_Z (Z.of_nat (length l))) Fs Fn) as [_ W]; [rewrite Vn; lra| |rewrite W, Vn; reflexivity].
    rewrite Vn. apply Rle_lt_trans with (Rabs (val s)); [|apply abs_B2R_lt_emax].
    assert (I : (0 < / IZR (Z.of_nat (length l)) <= 1)%R).
    { split; [apply Rinv_0_lt_compat; lra|]. rewrite <- Rinv_1. apply Rinv_le_contravar; lra. }
    assert (B : (Rabs (val s / IZR (Z.of_nat (length l))) <= Rabs (val s))%R).
    { unfold Rdiv. rewrite Rabs_mult, (Rabs_pos_eq (/ _)) by lra. pose proof (Rabs_pos (val s)).
      rewrite <- (Rmult_1_r (Rabs (val s))) at 2. apply Rmult_le_compat_l; lra. }
    assert (FM : fmt (Rabs (val s))) by (apply generic_format_abs; apply fmt_val).
    apply Rabs_le_inv in B. apply Rabs_le. rewrite <- (rnd_fmt _ FM), <- rnd_opp. split; apply rnd_le; lra. }
  pose proof (FS _ F) as G. pose proof (FS _ F') as G'.
  rewrite !V by assumption. apply rnd_le. unfold Rdiv. apply Rmult_le_compat_r.
  - apply Rlt_le, Rinv_0_lt_compat. lra.
  - apply fold_mono; trivial. lra.
Qed.

(** ** powi *)

(** At most 1, or at least 1 (possibly infinite). *)
Definition lo (x : f32) : Prop := nn x /\ fin x /\ (val x <= 1)%R.
Definition hi (x : f32) : Prop := nn x /\ (fin x -> 1 <= val x)%R.

Lemma fmt_1 : fmt 1.
Proof. change 1%R with (bpow radix2 0). apply fmt_bpow. lia. Qed.

Lemma lo_mul : forall {E : Env} x y, lo x -> lo y -> lo (fmul x y).
Proof.
  intros E x y (Nx & Fx & Lx) (Ny & Fy & Ly). pose proof (fmul_fin_not_nan x y Fx Fy) as N.
  pose proof (sign_val_pos x (proj2 Nx)) as Px. pose proof (sign_val_pos y (proj2 Ny)) as Py.
  assert (P : (0 <= val x * val y <= 1)%R).
  { split; [apply Rmult_le_pos; assumption|]. rewrite <- (Rmult_1_l 1). apply Rmult_le_compat; assumption. }
  assert (R : (0 <= rnd (val x * val y) <= 1)%R).
  { split; [apply rnd_nonneg; lra|]. rewrite <- (rnd_fmt 1 fmt_1). apply rnd_le. lra. }
  destruct (fmul_R x y Fx Fy) as [F V].
  - rewrite Rabs_pos_eq by lra. apply Rle_lt_trans with 1%R; [lra|]. change 1%R with (bpow radix2 0). apply bpow_lt. lia.
  - split; [apply nn_mul; assumption|]. split; [exact F|]. rewrite V. lra.
Qed.

Lemma hi_nz : forall x, hi x -> feq x F32_ZERO = false.
Proof.
  intros x [N H]. destruct (nn_cases x N) as [F| ->]; [|reflexivity]. rewrite feq_R by (exact F || reflexivity).
  apply Req_bool_false. specialize (H F). change (val F32_ZERO) with 0%R. lra.
Qed.

Lemma hi_mul : forall {E : Env} x y, hi x -> hi y -> hi (fmul x y).
Proof.
  intros E x y Hx Hy. pose proof Hx as [Nx Gx]. pose proof Hy as [Ny Gy].
  assert (N : is_nan (fmul x y) = false).
  { destruct (nn_cases x Nx) as [Fx| ->]; destruct (nn_cases y Ny) as [Fy| ->]; [apply fmul_fin_not_nan; assumption| | |reflexivity].
    - specialize (Gx Fx). destruct x as [s|s|s p K|s m e K]; try discriminate; [unfold val in Gx; simpl in Gx; lra|destruct s; reflexivity].
    - specialize (Gy Fy). destruct y as [s|s|s p K|s m e K]; try discriminate; [unfold val in Gy; simpl in Gy; lra|destruct s; reflexivity]. }
  split; [apply nn_mul; assumption|]. intros F. pose proof (mul_fin_l _ _ F) as Fx. pose proof (mul_fin_r _ _ F) as Fy.
  rewrite fmul_fin_val by assumption. specialize (Gx Fx). specialize (Gy Fy).
  rewrite <- (rnd_fmt 1 fmt_1). apply rnd_le. rewrite <- (Rmult_1_l 1). apply Rmult_le_compat; lra.
Qed.

(** A class of floats closed under multiplication, without NaN. *)
Lemma loop_mono : forall {E : Env} (P : f32 -> Prop), (forall x, P x -> nn x) -> (forall x y, P x -> P y -> P (fmul x y)) ->
  forall fuel n b b' r r' a a', P b -> P b' -> P r -> P r' -> nnle b b' -> nnle r r' ->
  powi_loop fuel n b r = Ok a -> powi_loop fuel n b' r' = Ok a' -> nnle a a' /\ P a /\ P a'.
Proof.
  intros E P HN HM fuel. induction fuel as [|fuel IH]; intros n b b' r r' a a' Pb Pb' Pr Pr' Lb Lr H H'; [discriminate|].
  cbn [powi_loop] in H, H'.
  assert (M : forall x y, P x -> P y -> is_nan (fmul x y) = false) by (intros x y Px Py; apply HN; apply HM; assumption).
  set (s := if Z.land n 1 =? 1 then fmul r b else r) in *. set (s' := if Z.land n 1 =? 1 then fmul r' b' else r') in *.
  assert (S : nnle s s' /\ P s /\ P s').
  { unfold s, s'. destruct (Z.land n 1 =? 1); [|split; [exact Lr|split; assumption]].
    split; [apply nnle_mul; trivial; apply M; assumption|]. split; apply HM; assumption. }
  destruct S as (S & Ps & Ps'). destruct (Z.shiftr n 1 =? 0).
  - injection H as <-. injection H' as <-. split; [exact S|split; assumption].
  - apply (IH (Z.shiftr n 1) (fmul b b) (fmul b' b') s s'); trivial; try (apply HM; assumption). apply nnle_mul; trivial; apply M; assumption.
Qed.

Lemma nnle_bits : forall x y, nnle x y -> 0 <= to_bits x <= to_bits y /\ to_bits y < 2 ^ 31.
Proof.
  intros x y ([Nx Sx] & [Ny Sy] & L). rewrite fle_bits in L by assumption. apply Z.leb_le in L.
  pose proof (to_bits_range x). split; [lia|].
  destruct (nn_cases y (conj Ny Sy)) as [F| ->]; [|vm_compute; reflexivity].
  assert (nnle y (f32_inf false)) as Q.
  { apply nnle_intro; [split; assumption|split; reflexivity|intros C; discriminate C]. }
  destruct Q as (_ & _ & Q). rewrite fle_bits in Q by (assumption || reflexivity). apply Z.leb_le in Q.
  change (to_bits (f32_inf false)) with 0x7F800000 in Q. lia.
Qed.

Lemma nnle_exp : forall x y, nnle x y -> extract_exponent_value x <= extract_exponent_value y.
Proof.
  intros x y H. destruct (nnle_bits x y H) as [A B]. rewrite !extract_exponent_value_eq. unfold bexp.
  assert (D : to_bits x / 2 ^ 23 <= to_bits y / 2 ^ 23) by (apply Z.div_le_mono; lia).
  assert (0 <= to_bits x / 2 ^ 23) by (apply Z.div_pos; lia).
  assert (to_bits y / 2 ^ 23 < 256) by (apply Z.div_lt_upper_bound; lia).
  rewrite !Z.mod_small by lia. lia.
Qed.

(** [F32_powi] on a nonzero nonnegative base and a positive exponent. *)
Lemma powi_pos : forall {E : Env} fuel x n, 0 < n < 2 ^ 24 -> nn x -> feq x F32_ZERO = false ->
  F32_powi fuel x n =
    if negb (mid x) && (127 <? extract_exponent_value x * n) then Ok (f32_inf false)
    else if negb (mid x) && (extract_exponent_value x * n <? -149) then Ok F32_ZERO
    else powi_loop fuel n x F32_ONE.
Proof.
  intros E fuel x n Hn [N S] Z. pose proof (exp_range x) as R. destruct (mid x) eqn:M.
  - rewrite powi_unfold. rewrite arith_i32 by (unfold i32_ok; lia). unfold bind at 1.
    destruct (Z.eqb_spec n 0); [lia|]. rewrite Z, M. cbn [andb negb bind]. destruct (Z.ltb_spec n 0); [lia|]. rewrite Z.abs_eq by lia. reflexivity.
  - rewrite powi_early_eq; trivial; try lia; [|unfold i32_ok; nia]. rewrite S. cbn [andb negb].
    destruct (Z.ltb_spec n 0); [lia|]. rewrite Z.abs_eq by lia. reflexivity.
Qed.

Lemma mid_hi : forall x y, nnle x y -> (1 <= val x)%R -> mid y = true -> mid x = true.
Proof.
  intros x y L H M. apply mid_R in M. destruct M as (F & A & B). destruct (nnle_elim _ _ L F) as [Fx V].
  apply mid_R. split; [exact Fx|]. rewrite Rabs_pos_eq in * by lra. lra.
Qed.

Lemma one_nn : nn F32_ONE.
Proof. split; reflexivity. Qed.

Lemma inf_hi : hi (f32_inf false).
Proof. split; [split; reflexivity|]. intros C. discriminate C. Qed.

Lemma powi_mono_hi : forall {E : Env} fuel x y n a b, 0 < n < 2 ^ 24 -> nnle x y -> hi x -> hi y ->
  F32_powi fuel x n = Ok a -> F32_powi fuel y n = Ok b -> nnle a b /\ hi a /\ hi b.
Proof.
  intros E fuel x y n a b Hn L Hx Hy A B. destruct one_val as [F1 V1].
  rewrite powi_pos in A; [|exact Hn|apply L|apply hi_nz; exact Hx]. rewrite powi_pos in B; [|exact Hn|apply L|apply hi_nz; exact Hy].
  pose proof (nnle_exp x y L) as EX.
  assert (H1 : hi F32_ONE) by (split; [exact one_nn|intros _; rewrite V1; lra]).
  assert (LOOP : forall z c, hi z -> powi_loop fuel n z F32_ONE = Ok c -> hi c).
  { intros z c Hz Hc. apply (loop_mono hi (fun u H => proj1 H) hi_mul fuel n z z F32_ONE F32_ONE c c); trivial; apply nnle_refl; [apply Hz|exact one_nn]. }
  assert (EX0 : 0 <= extract_exponent_value x).
  { destruct (nn_cases x (proj1 Hx)) as [F| ->]; [|vm_compute; discriminate]. rewrite extract_exponent_value_eq.
    pose proof (bexp_ge x 0 F ltac:(lia)) as Q. assert (0 + 127 <= bexp (to_bits x)); [|lia]. apply Q. change (bpow radix2 0) with 1%R.
    destruct Hx as [_ Hx]. specialize (Hx F). rewrite Rabs_pos_eq; lra. }
  assert (NI : forall z, extract_exponent_value x <= extract_exponent_value z -> (negb (mid z) && (extract_exponent_value z * n <? -149)) = false).
  { intros z Hz. destruct (Z.ltb_spec (extract_exponent_value z * n) (-149)); [nia|]. apply andb_false_r. }
  rewrite NI in A by lia. rewrite NI in B by lia.
  destruct (negb (mid x) && (127 <? extract_exponent_value x * n)) eqn:Cx.
  - injection A as <-. apply andb_prop in Cx. destruct Cx as [C1 C2]. apply Z.ltb_lt in C2. apply negb_true_iff in C1.
    assert (M : mid y = false).
    { destruct (mid y) eqn:M; [|reflexivity]. exfalso. apply mid_R in M. destruct M as (F & M1 & M2).
      destruct (nnle_elim _ _ L F) as [Fx V]. pose proof (proj2 Hx Fx) as G.
      assert (mid x = true); [|congruence]. apply mid_R. split; [exact Fx|]. rewrite Rabs_pos_eq in * by lra. lra. }
    rewrite M in B. assert (C3 : (127 <? extract_exponent_value y * n) = true) by (apply Z.ltb_lt; nia). rewrite C3 in B. cbn [negb andb] in B.
    injection B as <-. split; [apply nnle_refl; split; reflexivity|]. split; exact inf_hi.
  - destruct (negb (mid y) && (127 <? extract_exponent_value y * n)).
    + injection B as <-. pose proof (LOOP x a Hx A) as Ha. split; [|split; [exact Ha|exact inf_hi]].
      apply nnle_intro; [apply Ha|split; reflexivity|intros C; discriminate C].
    + apply (loop_mono hi (fun u H => proj1 H) hi_mul fuel n x y F32_ONE F32_ONE a b); trivial. apply nnle_refl, one_nn.
Qed.

Lemma zero_lo : lo F32_ZERO.
Proof. split; [split; reflexivity|]. split; [reflexivity|]. change (val F32_ZERO) with 0%R. lra. Qed.

Lemma zero_nnle : forall x, nn x -> nnle F32_ZERO x.
Proof.
  intros x N. apply nnle_intro; [split; reflexivity|exact N|]. intros F. split; [reflexivity|]. change (val F32_ZERO) with 0%R.
  apply sign_val_pos. apply N.
Qed.

Lemma powi_mono_lo : forall {E : Env} fuel x y n a b, 0 < n < 2 ^ 24 -> nnle x y -> lo x -> lo y ->
  F32_powi fuel x n = Ok a -> F32_powi fuel y n = Ok b -> nnle a b /\ lo a /\ lo b.
Proof.
  intros E fuel x y n a b Hn L Hx Hy A B. destruct one_val as [F1 V1].
  assert (H1 : lo F32_ONE) by (split; [exact one_nn|split; [exact F1|rewrite V1; lra]]).
  assert (LOOP : forall z c, lo z -> powi_loop fuel n z F32_ONE = Ok c -> lo c).
  { intros z c Hz Hc. apply (loop_mono lo (fun u H => proj1 H) lo_mul fuel n z z F32_ONE F32_ONE c c); trivial; apply nnle_refl; [apply Hz|exact one_nn]. }
  assert (PZ : forall z c, nn z -> feq z F32_ZERO = true -> F32_powi fuel z n = Ok c -> c = z).
  { intros z c Nz Z H. rewrite powi_unfold in H. rewrite arith_i32 in H by (unfold i32_ok; lia). unfold bind at 1 in H.
    destruct (Z.eqb_spec n 0); [lia|]. rewrite Z in H. destruct (Z.ltb_spec 0 n); [|lia]. cbn [andb] in H. injection H as <-. reflexivity. }
  assert (EXL : forall z, lo z -> mid z = false -> feq z F32_ZERO = false -> extract_exponent_value z < 0).
  { intros z (Nz & Fz & Lz) M Z. pose proof (sign_val_pos z (proj2 Nz)) as P. rewrite extract_exponent_value_eq.
    assert (H : (val z < 1 / 2)%R).
    { destruct (Rlt_or_le (val z) (1 / 2)) as [G|G]; [exact G|]. exfalso. assert (mid z = true); [|congruence]. apply mid_R.
      split; [exact Fz|]. rewrite Rabs_pos_eq by lra. lra. }
    pose proof (bexp_lt z 0 Fz ltac:(lia)) as Q. assert (bexp (to_bits z) < 0 + 127); [|lia]. apply Q. change (bpow radix2 0) with 1%R. rewrite Rabs_pos_eq; lra. }
  assert (PL : forall z c, lo z -> F32_powi fuel z n = Ok c -> lo c).
  { intros z c Hz Hc. destruct (feq z F32_ZERO) eqn:Z; [rewrite (PZ z c (proj1 Hz) Z Hc); exact Hz|].
    rewrite powi_pos in Hc; [|exact Hn|apply Hz|exact Z]. destruct (mid z) eqn:M; cbn [negb andb] in Hc; [apply (LOOP z); assumption|].
    pose proof (EXL z Hz M Z). destruct (Z.ltb_spec 127 (extract_exponent_value z * n)); [nia|].
    destruct (_ <? -149); [injection Hc as <-; exact zero_lo|apply (LOOP z); assumption]. }
  pose proof (PL x a Hx A) as La. pose proof (PL y b Hy B) as Lb. split; [|split; assumption].
  destruct (feq x F32_ZERO) eqn:Zx.
  { rewrite (PZ x a (proj1 Hx) Zx A). apply nnle_intro; [apply Hx|apply Lb|]. intros F. split; [apply Hx|].
    rewrite feq_R in Zx by (apply Hx || reflexivity). change (val F32_ZERO) with 0%R in Zx.
    destruct (Req_bool_spec (val x) 0) as [->|]; [|discriminate]. apply sign_val_pos. apply Lb. }
  assert (Zy : feq y F32_ZERO = false).
  { destruct (feq y F32_ZERO) eqn:Zy; [|reflexivity]. exfalso. destruct (nnle_elim _ _ L (proj1 (proj2 Hy))) as [Fx V].
    rewrite feq_R in Zx by (exact Fx || reflexivity). rewrite feq_R in Zy by (apply Hy || reflexivity). change (val F32_ZERO) with 0%R in *.
    destruct (Req_bool_spec (val y) 0) as [Q|]; [|discriminate]. destruct (Req_bool_spec (val x) 0) as [|Q']; [discriminate|].
    pose proof (sign_val_pos x (proj2 (proj1 Hx))). lra. }
  rewrite powi_pos in A; [|exact Hn|apply L|exact Zx]. rewrite powi_pos in B; [|exact Hn|apply L|exact Zy].
  pose proof (nnle_exp x y L) as EX.
  assert (NI : forall z, lo z -> feq z F32_ZERO = false -> (negb (mid z) && (127 <? extract_exponent_value z * n)) = false).
  { intros z Hz Z. destruct (mid z) eqn:M; [reflexivity|]. pose proof (EXL z Hz M Z). destruct (Z.ltb_spec 127 (extract_exponent_value z * n)); [nia|reflexivity]. }
  rewrite NI in A by assumption. rewrite NI in B by assumption.
  destruct (negb (mid x) && (extract_exponent_value x * n <? -149)) eqn:Cx.
  - injection A as <-. apply zero_nnle. apply Lb.
  - destruct (negb (mid y) && (extract_exponent_value y * n <? -149)) eqn:Cy.
    + exfalso. apply andb_prop in Cy. destruct Cy as [C1 C2]. apply Z.ltb_lt in C2. apply negb_true_iff in C1.
      assert (M : mid x = false).
      { destruct (mid x) eqn:M; [|reflexivity]. exfalso. apply mid_R in M. destruct M as (Fx & M1 & M2).
        destruct (nnle_elim _ _ L (proj1 (proj2 Hy))) as [_ V]. pose proof (sign_val_pos x (proj2 (proj1 Hx))) as Px.
        assert (mid y = true); [|congruence]. apply mid_R. split; [apply Hy|]. destruct Hy as (_ & _ & Ly). rewrite Rabs_pos_eq in * by lra. lra. }
      rewrite M in Cx. cbn [negb andb] in Cx. apply Z.ltb_ge in Cx. nia.
    + apply (loop_mono lo (fun u H => proj1 H) lo_mul fuel n x y F32_ONE F32_ONE a b); trivial. apply nnle_refl, one_nn.
Qed.

Lemma lo_or_hi : forall x, nn x -> lo x \/ hi x.
Proof.
  intros x N. destruct (nn_cases x N) as [F| ->]; [|right; exact inf_hi].
  destruct (Rle_or_lt (val x) 1) as [H|H]; [left; split; [exact N|split; assumption]|right; split; [exact N|intros _; lra]].
Qed.

Lemma powi_monotone : forall {E : Env} fuel x y n a b, 0 < n < 2 ^ 24 -> sign_bit x = false -> sign_bit y = false -> fle x y = true ->
  F32_powi fuel x n = Ok a -> F32_powi fuel y n = Ok b -> fle a b = true /\ sign_bit a = false.
Proof.
  intros E fuel x y n a b Hn Sx Sy H A B. destruct (fle_not_nan _ _ H) as [Nx Ny].
  assert (L : nnle x y) by (split; [split; assumption|split; [split; assumption|exact H]]).
  assert (Q : nnle a b); [|split; [apply Q|apply Q]].
  destruct one_val as [F1 V1].
  destruct (lo_or_hi x (proj1 L)) as [Hx|Hx], (lo_or_hi y (proj1 (proj2 L))) as [Hy|Hy].
  - apply (powi_mono_lo fuel x y n a b Hn L Hx Hy A B).
  - (* through 1 *)
    pose proof (proj1 (proj2 (powi_mono_lo fuel x x n a a Hn (nnle_refl x (proj1 L)) Hx Hx A A))) as La.
    pose proof (proj1 (proj2 (powi_mono_hi fuel y y n b b Hn (nnle_refl y (proj1 (proj2 L))) Hy Hy B B))) as Hb.
    apply nnle_intro; [apply La|apply Hb|]. intros Fb. split; [apply La|]. destruct La as (_ & _ & La). pose proof (proj2 Hb Fb). lra.
  - (* both are 1 *)
    assert (hi y).
    { split; [apply L|]. intros Fy. destruct (nnle_elim _ _ L Fy) as [Fx V]. pose proof (proj2 Hx Fx). lra. }
    apply (powi_mono_hi fuel x y n a b Hn L Hx H0 A B).
  - apply (powi_mono_hi fuel x y n a b Hn L Hx Hy A B).
Qed.

(** ** Functions that are not monotone *)

Lemma recip_not_antitone : forall {E : Env}, exists x y, flt F32_ONE x = true /\ flt x y = true /\ flt (F32_recip x) (F32_recip y) = true.
Proof. intros E. exists (from_bits 0x3F817136), (from_bits 0x3F817137). repeat split; vm_compute; reflexivity. Qed.

Lemma atan_not_monotone : forall {E : Env}, exists x y, flt F32_ONE x = true /\ flt x y = true /\ flt (F32_atan y) (F32_atan x) = true.
Proof. intros E. exists (from_bits 0x3F9E2E59), (from_bits 0x3F9E2E5A). repeat split; vm_compute; reflexivity. Qed.

Lemma asin_not_monotone : forall {E : Env}, exists x y a b, flt F32_ZERO x = true /\ flt x y = true /\ flt y F32_ONE = true /\
  F32_asin x = Ok a /\ F32_asin y = Ok b /\ flt b a = true.
Proof.
  intros E. exists (from_bits 0x3F44C89B), (from_bits 0x3F44C89C), (from_bits 0x3f640e8a), (from_bits 0x3f640e86).
  do 3 (split; [vm_compute; reflexivity|]). do 2 (split; [apply ok_bits; vm_compute; reflexivity|]). vm_compute. reflexivity.
Qed.

Lemma acos_not_antitone : forall {E : Env}, exists x y a b, flt F32_ZERO x = true /\ flt x y = true /\ flt y F32_ONE = true /\
  F32_acos x = Ok a /\ F32_acos y = Ok b /\ flt a b = true.
Proof.
  intros E. exists (from_bits 0x3A0008A9), (from_bits 0x3A0008AA), (from_bits 0x3fc900dc), (from_bits 0x3fc900de).
  do 3 (split; [vm_compute; reflexivity|]). do 2 (split; [apply ok_bits; vm_compute; reflexivity|]). vm_compute. reflexivity.
Qed.

Lemma cos_not_antitone : forall {E : Env}, exists x y, flt F32_ZERO x = true /\ flt x y = true /\ flt y F32_ONE = true /\ flt (F32_cos x) (F32_cos y) = true.
Proof. intros E. exists (from_bits 0x3A000E84), (from_bits 0x3A000E85). repeat split; vm_compute; reflexivity. Qed.

Lemma tan_not_monotone : forall {E : Env}, exists x y, flt F32_ZERO x = true /\ flt x y = true /\ flt y F32_ONE = true /\ flt (F32_tan y) (F32_tan x) = true.
Proof. intros E. exists (from_bits 0x3EEDB02B), (from_bits 0x3EEDB02C). repeat split; vm_compute; reflexivity. Qed.
