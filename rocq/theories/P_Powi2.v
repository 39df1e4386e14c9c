(** * Proofs: powi, early exits and parity *)

From Coq Require Import ZArith Reals Bool List Lia Lra.
From Flocq Require Import Core IEEE754.BinarySingleNaN IEEE754.Binary IEEE754.Bits.
From Verif Require Import Base Spec Float F32Lemmas BitLemmas Literals ErrLemmas NanLemmas
  P_Trunc P_Floor P_Euclid P_RoundEdge P_Roots P_InvSqrt P_Atan P_Recip P_VecF32 P_Quat P_Powf P_Powi.
Open Scope Z_scope.

(** ** Early exits *)

Lemma exp_val_R : forall x e, fin x -> -126 <= e -> (bpow radix2 e <= Rabs (val x) < bpow radix2 (e + 1))%R -> extract_exponent_value x = e.
Proof.
  intros x e F He [A B]. rewrite extract_exponent_value_eq.
  pose proof (bexp_ge x e F He A). pose proof (bexp_lt x (e + 1) F ltac:(lia) B). lia.
Qed.

Lemma not_mid : forall x e, fin x -> -126 <= e -> (bpow radix2 e <= Rabs (val x) < bpow radix2 (e + 1))%R -> e <= -2 \/ 1 <= e -> mid x = false.
Proof.
  intros x e F He [A B] C. destruct (mid x) eqn:M; [exfalso|reflexivity]. apply mid_R in M. destruct M as [_ [P Q]].
  destruct C as [C|C].
  - assert (K : (bpow radix2 (e + 1) <= bpow radix2 (-1))%R) by (apply bpow_le; lia). simpl in K. lra.
  - assert (K : (bpow radix2 1 <= bpow radix2 e)%R) by (apply bpow_le; lia). simpl in K. lra.
Qed.

Lemma nz : forall x e, fin x -> (bpow radix2 e <= Rabs (val x))%R -> feq x F32_ZERO = false.
Proof.
  intros x e F A. rewrite feq_R by (exact F || reflexivity). change (val F32_ZERO) with 0%R. apply Req_bool_false.
  intros C. rewrite C, Rabs_R0 in A. pose proof (bpow_gt_0 radix2 e). lra.
Qed.

Lemma powi_early_eq : forall {E : Env} fuel x n, - 2 ^ 31 < n < 2 ^ 31 -> n <> 0 -> feq x F32_ZERO = false -> mid x = false ->
  i32_ok (extract_exponent_value x * n) ->
  F32_powi fuel x n =
    if 127 <? extract_exponent_value x * n then Ok (f32_inf (sign_bit x && Z.odd n))
    else if extract_exponent_value x * n <? -149 then Ok F32_ZERO
    else powi_loop fuel (Z.abs n) (if n <? 0 then fdiv F32_ONE x else x) F32_ONE.
Proof.
  intros E fuel x n Hn N0 Z0 M I. rewrite powi_unfold. rewrite arith_i32 by (unfold i32_ok; lia). unfold bind at 1.
  destruct (Z.eqb_spec n 0); [contradiction|]. rewrite Z0, M. rewrite arith_i32 by exact I. unfold bind.
  cbv beta iota. simpl andb. rewrite orb_false_r. cbv iota. destruct (127 <? _).
  - rewrite <- Z.negb_odd. destruct (sign_bit x), (Z.odd n); reflexivity.
  - destruct (_ <? -149); reflexivity.
Qed.

Lemma powi_early_inf : forall {E : Env} fuel x n e, fin x -> -126 <= e -> (bpow radix2 e <= Rabs (val x) < bpow radix2 (e + 1))%R ->
  e <= -2 \/ 1 <= e -> - 2 ^ 31 < n < 2 ^ 31 -> 127 < e * n <= 2 ^ 31 - 1 -> F32_powi fuel x n = Ok (f32_inf (sign_bit x && Z.odd n)).
Proof.
  intros E fuel x n e F He A C Hn H. pose proof (exp_val_R x e F He A) as X.
  rewrite powi_early_eq; [|exact Hn|intros ->; lia|exact (nz x e F (proj1 A))|exact (not_mid x e F He A C)|rewrite X; unfold i32_ok; lia].
  rewrite X. replace (127 <? e * n) with true by (symmetry; apply Z.ltb_lt; lia). reflexivity.
Qed.

Lemma powi_early_zero : forall {E : Env} fuel x n e, fin x -> -126 <= e -> (bpow radix2 e <= Rabs (val x) < bpow radix2 (e + 1))%R ->
  e <= -2 \/ 1 <= e -> - 2 ^ 31 < n < 2 ^ 31 -> - 2 ^ 31 <= e * n < -149 -> F32_powi fuel x n = Ok F32_ZERO.
Proof.
  intros E fuel x n e F He A C Hn H. pose proof (exp_val_R x e F He A) as X.
  rewrite powi_early_eq; [|exact Hn|intros ->; lia|exact (nz x e F (proj1 A))|exact (not_mid x e F He A C)|rewrite X; unfold i32_ok; lia].
  rewrite X. replace (127 <? e * n) with false by (symmetry; apply Z.ltb_ge; lia).
  replace (e * n <? -149) with true by (symmetry; apply Z.ltb_lt; lia). reflexivity.
Qed.

Lemma powi_no_early : forall {E : Env} fuel x n e, fin x -> -126 <= e -> (bpow radix2 e <= Rabs (val x) < bpow radix2 (e + 1))%R ->
  - 2 ^ 31 < n < 2 ^ 31 -> n <> 0 -> (e = -1 \/ e = 0 \/ -149 <= e * n <= 127) ->
  F32_powi fuel x n = powi_loop fuel (Z.abs n) (if n <? 0 then fdiv F32_ONE x else x) F32_ONE.
Proof.
  intros E fuel x n e F He A Hn N0 H. pose proof (exp_val_R x e F He A) as X.
  destruct (mid x) eqn:M.
  - rewrite powi_unfold. rewrite arith_i32 by (unfold i32_ok; lia). unfold bind at 1.
    destruct (Z.eqb_spec n 0); [contradiction|]. rewrite (nz x e F (proj1 A)), M. reflexivity.
  - destruct H as [H|[H|H]].
    1,2: exfalso; assert (K : mid x = true); [|congruence]; apply mid_R; split; [exact F|]; subst e; simpl in A; lra.
    rewrite powi_early_eq; [|exact Hn|exact N0|exact (nz x e F (proj1 A))|exact M|rewrite X; unfold i32_ok; lia].
    rewrite X. replace (127 <? e * n) with false by (symmetry; apply Z.ltb_ge; lia).
    replace (e * n <? -149) with false by (symmetry; apply Z.ltb_ge; lia). reflexivity.
Qed.

(** ** Non-finite bases *)

Lemma nonfin_exp : forall x, is_finite x = false -> extract_exponent_value x = 128.
Proof.
  intros x F. rewrite extract_exponent_value_eq. rewrite fin_bexp in F. apply Z.ltb_ge in F. pose proof (bexp_range (to_bits x)). lia.
Qed.

Lemma nonfin_mid : forall x, is_finite x = false -> mid x = false.
Proof. intros x F. destruct (mid x) eqn:M; [|reflexivity]. apply mid_R in M. destruct M as [M _]. unfold fin in M. congruence. Qed.

Lemma nonfin_feq : forall x, is_finite x = false -> feq x F32_ZERO = false.
Proof. intros x F. destruct x as [s|s|s pl K|s m e K]; try discriminate F; [destruct s; reflexivity|reflexivity]. Qed.

(** A NaN or an infinity raised to a positive power is an infinity; below -1 it is zero. *)
Lemma powi_nonfinite : forall {E : Env} fuel x n, is_finite x = false -> 0 < n < 2 ^ 24 -> F32_powi fuel x n = Ok (f32_inf (sign_bit x && Z.odd n)).
Proof.
  intros E fuel x n F H. pose proof (nonfin_exp x F) as X.
  rewrite powi_early_eq; [|lia|lia|exact (nonfin_feq x F)|exact (nonfin_mid x F)|rewrite X; unfold i32_ok; lia].
  rewrite X. replace (127 <? 128 * n) with true by (symmetry; apply Z.ltb_lt; lia). reflexivity.
Qed.

Lemma powi_nonfinite_neg : forall {E : Env} fuel x n, is_finite x = false -> - 2 ^ 24 <= n < -1 -> F32_powi fuel x n = Ok F32_ZERO.
Proof.
  intros E fuel x n F H. pose proof (nonfin_exp x F) as X.
  rewrite powi_early_eq; [|lia|lia|exact (nonfin_feq x F)|exact (nonfin_mid x F)|rewrite X; unfold i32_ok; lia].
  rewrite X. replace (127 <? 128 * n) with false by (symmetry; apply Z.ltb_ge; lia).
  replace (128 * n <? -149) with true by (symmetry; apply Z.ltb_lt; lia). reflexivity.
Qed.

(** ** Parity *)

Definition lift (P : f32 -> f32 -> Prop) (p q : res f32) : Prop :=
  match p, q with Ok a, Ok b => P a b | Panic, Panic => True | NoFuel, NoFuel => True | _, _ => False end.

Definition neg_same (a b : f32) : Prop := same b (fneg a).

Lemma fneg_same : forall a b, same a b -> same (fneg a) (fneg b).
Proof. intros a b [->|[A B]]; [left; reflexivity|right; split; apply fneg_nan; assumption]. Qed.

Lemma fmul_fneg_l : forall {E : Env} x y, same (fmul (fneg x) y) (fneg (fmul x y)).
Proof.
  intros E x y. apply same_trans with (1 := fmul_comm _ _). apply same_trans with (1 := fmul_fneg_r _ _).
  apply fneg_same. apply fmul_comm.
Qed.

Lemma loop_same : forall {E : Env} fuel n b b' r r', same b b' -> same r r' -> lift same (powi_loop fuel n b r) (powi_loop fuel n b' r').
Proof.
  intros E fuel. induction fuel as [|fuel IH]; intros n b b' r r' B R; [exact I|].
  rewrite !loop_S. cbv zeta. assert (R' : same (if Z.odd n then fmul r b else r) (if Z.odd n then fmul r' b' else r')).
  { destruct (Z.odd n); [apply fmul_same; assumption|exact R]. }
  destruct (n / 2 =? 0); [exact R'|]. apply IH; [apply fmul_same; assumption|exact R'].
Qed.

Lemma loop_neg_res : forall {E : Env} fuel n b b' r r', same b b' -> same r' (fneg r) ->
  lift neg_same (powi_loop fuel n b r) (powi_loop fuel n b' r').
Proof.
  intros E fuel. induction fuel as [|fuel IH]; intros n b b' r r' B R; [exact I|].
  rewrite !loop_S. cbv zeta. assert (R' : same (if Z.odd n then fmul r' b' else r') (fneg (if Z.odd n then fmul r b else r))).
  { destruct (Z.odd n); [|exact R]. apply same_trans with (fmul (fneg r) b); [apply fmul_same; [exact R|apply same_sym; exact B]|]. apply fmul_fneg_l. }
  destruct (n / 2 =? 0); [exact R'|]. apply IH; [apply fmul_same; assumption|exact R'].
Qed.

Lemma loop_even : forall {E : Env} fuel n b b' r, same b' (fneg b) -> Z.even n = true -> lift same (powi_loop fuel n b r) (powi_loop fuel n b' r).
Proof.
  intros E fuel n b b' r B H. destruct fuel as [|fuel]; [exact I|]. rewrite !loop_S. cbv zeta.
  rewrite <- Z.negb_even, H. simpl negb. cbv iota. destruct (n / 2 =? 0); [apply same_refl|].
  apply loop_same; [|apply same_refl]. apply same_sym. apply same_trans with (fmul (fneg b) (fneg b)); [apply fmul_same; exact B|]. apply fmul_neg_neg_same.
Qed.

Lemma loop_odd : forall {E : Env} fuel n b b' r, same b' (fneg b) -> Z.even n = false -> lift neg_same (powi_loop fuel n b r) (powi_loop fuel n b' r).
Proof.
  intros E fuel n b b' r B H. destruct fuel as [|fuel]; [exact I|]. rewrite !loop_S. cbv zeta.
  rewrite <- Z.negb_even, H. simpl negb. cbv iota.
  assert (R : same (fmul r b') (fneg (fmul r b))).
  { apply same_trans with (fmul r (fneg b)); [apply fmul_same; [apply same_refl|exact B]|]. apply fmul_fneg_r. }
  destruct (n / 2 =? 0); [exact R|].
  apply loop_neg_res; [|exact R]. apply same_sym. apply same_trans with (fmul (fneg b) (fneg b)); [apply fmul_same; exact B|]. apply fmul_neg_neg_same.
Qed.

Lemma fneg_sign : forall x, is_nan x = false -> sign_bit (fneg x) = negb (sign_bit x).
Proof. intros x N. destruct x; try discriminate N; reflexivity. Qed.

Lemma inv_neg : forall {E : Env} x, same (fdiv F32_ONE (fneg x)) (fneg (fdiv F32_ONE x)).
Proof.
  intros E x. destruct (is_nan x) eqn:N.
  { right. split; [apply fdiv_nan; right; apply fneg_nan; exact N|apply fneg_nan, fdiv_nan; right; exact N]. }
  destruct x as [s|s|s pl K|s m e K]; try discriminate N.
  - left. destruct s; apply to_bits_inj; vm_compute; reflexivity.
  - left. destruct s; apply to_bits_inj; vm_compute; reflexivity.
  - left. set (x := B754_finite s m e K) in *. assert (F : fin x) by reflexivity.
    assert (V : (val x <> 0)%R).
    { unfold val, x. simpl. apply F2R_neq_0. simpl. destruct s; discriminate. }
    assert (V' : (val (fneg x) <> 0)%R) by (rewrite fneg_val; lra).
    pose proof (Bdiv_correct 24 128 prec24 emax128 nan_div mode_NE F32_ONE x V) as C1.
    pose proof (Bdiv_correct 24 128 prec24 emax128 nan_div mode_NE F32_ONE (fneg x) V') as C2.
    fold (fdiv F32_ONE x) in C1. fold (fdiv F32_ONE (fneg x)) in C2. fold (val x) (val F32_ONE) in C1. fold (val (fneg x)) (val F32_ONE) in C2. rewrite fneg_val in C2.
    replace (val F32_ONE / - val x)%R with (- (val F32_ONE / val x))%R in C2 by (field; exact V).
    rewrite round_NE_opp in C2 || (unfold round_mode in *; rewrite round_NE_opp in C2). rewrite Rabs_Ropp in C2.
    assert (SX : Bsign 24 128 (fneg x) = negb (Bsign 24 128 x)) by (apply fneg_sign; reflexivity).
    destruct (Rlt_bool _ _).
    + destruct C1 as (V1 & F1 & S1). destruct C2 as (V2 & F2 & S2).
      change (Binary.is_finite 24 128 F32_ONE) with true in F1, F2.
      pose proof (fin_not_nan _ F1) as N1. pose proof (fin_not_nan _ F2) as N2.
      apply fin_dec_eq; [exact F2|apply fneg_fin; exact F1| |].
      * fold (val (fdiv F32_ONE x)) in V1. fold (val (fdiv F32_ONE (fneg x))) in V2. rewrite V2, fneg_val, V1. reflexivity.
      * rewrite fneg_sign by exact N1. unfold sign_bit. rewrite S2 by exact N2. rewrite S1 by exact N1. rewrite SX.
        destruct (Bsign 24 128 F32_ONE), (Bsign 24 128 x); reflexivity.
    + apply B2FF_inj. rewrite C2. rewrite SX.
      destruct (fdiv F32_ONE x) as [t|t|t p H|t mm ee H]; try discriminate. simpl in C1. inversion C1. simpl.
      f_equal. destruct s; reflexivity.
Qed.

Lemma fneg_feq0 : forall x, feq (fneg x) F32_ZERO = feq x F32_ZERO.
Proof.
  intros x. destruct (is_finite x) eqn:F.
  - rewrite !feq_R by (exact F || reflexivity || (apply fneg_fin; exact F)). rewrite fneg_val. change (val F32_ZERO) with 0%R.
    destruct (Req_dec (val x) 0) as [C|C]; [rewrite C, Ropp_0; reflexivity|]. rewrite !Req_bool_false by lra. reflexivity.
  - rewrite !nonfin_feq; trivial. destruct x; try discriminate F; reflexivity.
Qed.

Lemma fneg_mid : forall x, mid (fneg x) = mid x.
Proof.
  intros x. destruct (mid x) eqn:M.
  - apply mid_R in M. apply mid_R. destruct M as [F M]. split; [apply fneg_fin; exact F|]. rewrite fneg_val, Rabs_Ropp. exact M.
  - destruct (mid (fneg x)) eqn:M'; [|reflexivity]. apply mid_R in M'. destruct M' as [F M']. rewrite fneg_val, Rabs_Ropp in M'.
    apply fneg_fin in F. rewrite fneg_involutive in F. assert (mid x = true) by (apply mid_R; split; assumption). congruence.
Qed.

Lemma fneg_exp : forall x, extract_exponent_value (fneg x) = extract_exponent_value x.
Proof.
  intros x. rewrite !extract_exponent_value_eq. f_equal. rewrite fneg_bits. pose proof (to_bits_range x) as R.
  pose proof (bits_split (to_bits x) R) as [Q S]. pose proof (sign_bit_bsign x) as T.
  pose proof (bexp_range (to_bits x)) as X. pose proof (bman_range (to_bits x)) as M.
  set (e := bexp (to_bits x)) in *. set (m := bman (to_bits x)) in *.
  assert (K : forall s, s = 0 \/ s = 1 -> bexp (s * 2 ^ 31 + e * 2 ^ 23 + m) = e).
  { intros s Hs. unfold bexp. replace (s * 2 ^ 31 + e * 2 ^ 23 + m) with (m + (s * 2 ^ 8 + e) * 2 ^ 23) by ring.
    rewrite Z.div_add by lia. rewrite Z.div_small by lia. rewrite Z.add_0_l. replace (s * 2 ^ 8 + e) with (e + s * 256) by ring.
    rewrite Z.mod_add by lia. apply Z.mod_small. lia. }
  destruct S as [S|S]; rewrite S in Q, T; simpl in T; rewrite T.
  - replace (to_bits x + 2 ^ 31) with (1 * 2 ^ 31 + e * 2 ^ 23 + m) by lia. apply K. right. reflexivity.
  - replace (to_bits x - 2 ^ 31) with (0 * 2 ^ 31 + e * 2 ^ 23 + m) by lia. apply K. left. reflexivity.
Qed.

(** Even exponent: the sign of the base does not matter, for every non-zero base. *)
Lemma powi_even : forall {E : Env} fuel x n, i32_ok n -> Z.Even n -> feq x F32_ZERO = false -> lift same (F32_powi fuel x n) (F32_powi fuel (fneg x) n).
Proof.
  intros E fuel x n Hn P Z0. apply Z.even_spec in P. rewrite !powi_unfold. rewrite fneg_feq0, fneg_mid, fneg_exp, Z0, P. simpl andb. cbv iota.
  destruct (arith i32 (Z.abs n)) as [a| |] eqn:A; unfold bind at 1 5; [|exact I|exact I].
  destruct (n =? 0); [apply same_refl|].
  assert (L : Z.even a = true).
  { destruct (i32_dec (Z.abs n)) as [D|D].
    - rewrite arith_i32 in A by exact D. injection A as <-. destruct (Z.abs_spec n) as [[_ ->]|[_ ->]]; [exact P|rewrite Z.even_opp; exact P].
    - rewrite arith_i32_bad in A by exact D. destruct overflow_checks; [discriminate A|]. injection A as <-.
      assert (n = - 2 ^ 31) by (unfold i32_ok in *; lia). subst n. reflexivity. }
  assert (B : same (if n <? 0 then fdiv F32_ONE (fneg x) else fneg x) (fneg (if n <? 0 then fdiv F32_ONE x else x))).
  { destruct (n <? 0); [apply inv_neg|apply same_refl]. }
  rewrite !orb_true_r.
  destruct (mid x); [unfold bind; apply loop_even; assumption|].
  destruct (arith i32 (extract_exponent_value x * n)) as [z| |]; unfold bind; [|exact I|exact I].
  destruct (_ || _); [apply same_refl|]. destruct (z <? -149); [apply same_refl|]. apply loop_even; assumption.
Qed.

(** Odd exponent: opposite results, except that the underflow exit returns +0 for both signs. *)
Lemma powi_odd : forall {E : Env} fuel x n, i32_ok n -> Z.Odd n -> is_nan x = false -> feq x F32_ZERO = false ->
  lift (fun a b => same b (fneg a) \/ (a = F32_ZERO /\ b = F32_ZERO)) (F32_powi fuel x n) (F32_powi fuel (fneg x) n).
Proof.
  intros E fuel x n Hn P Nx Z0. apply Z.odd_spec in P. assert (PE : Z.even n = false) by (rewrite <- Z.negb_odd, P; reflexivity).
  rewrite !powi_unfold. rewrite fneg_feq0, fneg_mid, fneg_exp, Z0, PE. simpl andb. cbv iota.
  assert (D : i32_ok (Z.abs n)).
  { unfold i32_ok in *. assert (n <> - 2 ^ 31) by (intros ->; discriminate PE). lia. }
  rewrite arith_i32 by exact D. unfold bind at 1 4.
  destruct (Z.eqb_spec n 0) as [->|N0]; [discriminate P|].
  assert (L : Z.even (Z.abs n) = false).
  { destruct (Z.abs_spec n) as [[_ ->]|[_ ->]]; [exact PE|rewrite Z.even_opp; exact PE]. }
  assert (B : same (if n <? 0 then fdiv F32_ONE (fneg x) else fneg x) (fneg (if n <? 0 then fdiv F32_ONE x else x))).
  { destruct (n <? 0); [apply inv_neg|apply same_refl]. }
  assert (LL : lift (fun a b => same b (fneg a) \/ (a = F32_ZERO /\ b = F32_ZERO))
     (powi_loop fuel (Z.abs n) (if n <? 0 then fdiv F32_ONE x else x) F32_ONE)
     (powi_loop fuel (Z.abs n) (if n <? 0 then fdiv F32_ONE (fneg x) else fneg x) F32_ONE)).
  { pose proof (loop_odd fuel (Z.abs n) _ _ F32_ONE B L) as Q. unfold lift, neg_same in *.
    destruct (powi_loop fuel (Z.abs n) (if n <? 0 then fdiv F32_ONE x else x) F32_ONE), (powi_loop fuel (Z.abs n) (if n <? 0 then fdiv F32_ONE (fneg x) else fneg x) F32_ONE); trivial. left. exact Q. }
  rewrite !orb_false_r. rewrite fneg_sign by exact Nx.
  destruct (mid x); [unfold bind; exact LL|].
  destruct (arith i32 (extract_exponent_value x * n)) as [z| |]; unfold bind; [|exact I|exact I].
  destruct (127 <? z); [destruct (sign_bit x); left; left; reflexivity|].
  destruct (z <? -149); [right; split; reflexivity|]. exact LL.
Qed.

Lemma powi_odd_mid : forall {E : Env} fuel x n, i32_ok n -> Z.Odd n -> fin x -> (1 / 2 <= Rabs (val x) < 2)%R ->
  lift (fun a b => same b (fneg a)) (F32_powi fuel x n) (F32_powi fuel (fneg x) n).
Proof.
  intros E fuel x n Hn P Fx Mx. apply Z.odd_spec in P. assert (PE : Z.even n = false) by (rewrite <- Z.negb_odd, P; reflexivity).
  assert (M : mid x = true) by (apply mid_R; split; assumption).
  assert (Z0 : feq x F32_ZERO = false) by (apply (nz x (-1)); [exact Fx|simpl; lra]).
  rewrite !powi_unfold. rewrite fneg_feq0, fneg_mid, M, Z0. simpl andb. cbv iota.
  assert (D : i32_ok (Z.abs n)).
  { unfold i32_ok in *. assert (n <> - 2 ^ 31) by (intros ->; discriminate PE). lia. }
  rewrite arith_i32 by exact D. unfold bind.
  destruct (Z.eqb_spec n 0) as [->|N0]; [discriminate P|].
  apply loop_odd.
  - destruct (n <? 0); [apply inv_neg|apply same_refl].
  - destruct (Z.abs_spec n) as [[_ ->]|[_ ->]]; [exact PE|rewrite Z.even_opp; exact PE].
Qed.
