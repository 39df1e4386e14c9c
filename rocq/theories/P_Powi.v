(** * Proofs: powi *)

From Coq Require Import ZArith Reals Bool List Lia Lra.
From Flocq Require Import Core IEEE754.BinarySingleNaN IEEE754.Binary IEEE754.Bits.
From Verif Require Import Base Spec Float F32Lemmas BitLemmas Literals ErrLemmas NanLemmas
  P_Trunc P_Floor P_Euclid P_RoundEdge P_Roots P_Atan P_Recip P_Quat P_Powf.
Open Scope Z_scope.

(** ** The loop *)

Lemma shiftr1 : forall n, Z.shiftr n 1 = n / 2.
Proof. intros n. rewrite Z.shiftr_div_pow2 by lia. reflexivity. Qed.

Lemma loop_S : forall {E : Env} fuel n b r, powi_loop (S fuel) n b r =
  (let r' := if Z.odd n then fmul r b else r in
   if n / 2 =? 0 then Ok r' else powi_loop fuel (n / 2) (fmul b b) r').
Proof.
  intros E fuel n b r. simpl powi_loop. cbv zeta. rewrite shiftr1.
  replace (Z.land n 1 =? 1) with (Z.odd n); [reflexivity|].
  change 1 with (Z.ones 1) at 1. rewrite Z.land_ones by lia. change (2 ^ 1) with 2. rewrite Zmod_odd. destruct (Z.odd n); reflexivity.
Qed.

Lemma loop_ok : forall {E : Env} fuel n b r, 0 <= n < 2 ^ Z.of_nat (S fuel) -> exists v, powi_loop (S fuel) n b r = Ok v.
Proof.
  intros E fuel. induction fuel as [|fuel IH]; intros n b r H; rewrite loop_S; cbv zeta.
  - change (2 ^ Z.of_nat 1) with 2 in H. assert (Q : n / 2 = 0) by (apply Z.div_small; lia). rewrite Q. eexists; reflexivity.
  - destruct (n / 2 =? 0); [eexists; reflexivity|]. apply IH.
    rewrite (Nat2Z.inj_succ (S fuel)), Z.pow_succ_r in H by lia. split; [apply Z.div_pos; lia|]. apply Z.div_lt_upper_bound; lia.
Qed.

Lemma loop_more : forall {E : Env} fuel k n b r v, powi_loop fuel n b r = Ok v -> powi_loop (fuel + k) n b r = Ok v.
Proof.
  intros E fuel k. induction fuel as [|fuel IH]; intros n b r v H; [discriminate H|].
  simpl plus. rewrite loop_S in *. cbv zeta in *. destruct (n / 2 =? 0); [exact H|]. apply IH. exact H.
Qed.

Lemma loop_negative : forall {E : Env} fuel n b r, n < 0 -> powi_loop fuel n b r = NoFuel.
Proof.
  intros E fuel. induction fuel as [|fuel IH]; intros n b r H; [reflexivity|].
  rewrite loop_S. cbv zeta. assert (Q : n / 2 < 0) by (apply Z.div_lt_upper_bound; lia).
  destruct (Z.eqb_spec (n / 2) 0) as [C|C]; [lia|]. apply IH. exact Q.
Qed.

Lemma loop_not_panic : forall {E : Env} fuel n b r, powi_loop fuel n b r <> Panic.
Proof.
  intros E fuel. induction fuel as [|fuel IH]; intros n b r; [discriminate|].
  rewrite loop_S. cbv zeta. destruct (n / 2 =? 0); [discriminate|]. apply IH.
Qed.

(** ** Control flow *)

Definition mid (x : f32) : bool := fle c_0_5 (F32_abs x) && flt (F32_abs x) c_2.

Lemma c05 : fin c_0_5 /\ val c_0_5 = (1 / 2)%R.
Proof. split; [reflexivity|]. unfold c_0_5. lit 0x3F000000. bpow_lit. lra. Qed.
Lemma c2 : fin c_2 /\ val c_2 = 2%R.
Proof. split; [reflexivity|]. unfold c_2. lit 0x40000000. bpow_lit. lra. Qed.

Lemma mid_R : forall x, mid x = true <-> fin x /\ (1 / 2 <= Rabs (val x) < 2)%R.
Proof.
  intros x. unfold mid. destruct (is_finite x) eqn:F.
  - assert (A : fin (F32_abs x)) by (unfold fin; rewrite abs_fin; exact F).
    destruct c05 as [F1 V1]. destruct c2 as [F2 V2]. rewrite fle_R, flt_R by assumption. rewrite abs_val, V1, V2.
    rewrite andb_true_iff. split.
    + intros [P Q]. split; [exact F|]. split.
      * destruct (Rle_bool_spec (1 / 2) (Rabs (val x))); [assumption|discriminate].
      * destruct (Rlt_bool_spec (Rabs (val x)) 2); [assumption|discriminate].
    + intros [_ [P Q]]. split; [apply Rle_bool_true; exact P|apply Rlt_bool_true; exact Q].
  - split; [|intros [C _]; unfold fin in C; congruence]. intros H. exfalso. rewrite abs_with_sign in H.
    destruct x as [s|s|s pl K|s m e K]; try discriminate F; vm_compute in H; discriminate H.
Qed.

Lemma powi_unfold : forall {E : Env} fuel x n, F32_powi fuel x n =
  (abs_n <- arith i32 (Z.abs n) ;;
   if n =? 0 then Ok F32_ONE
   else if feq x F32_ZERO && (0 <? n) then Ok x
   else
     early <- (if mid x then Ok None
       else approx <- arith i32 (extract_exponent_value x * n) ;;
         if (127 <? approx) || (feq x F32_ZERO && (approx <? 0)) then
           if negb (sign_bit x) || Z.even n then Ok (Some F32_INFINITY) else Ok (Some F32_NEG_INFINITY)
         else if approx <? -149 then Ok (Some F32_ZERO) else Ok None) ;;
     match early with Some r => Ok r | None => powi_loop fuel abs_n (if n <? 0 then fdiv F32_ONE x else x) F32_ONE end).
Proof.
  intros E fuel x n. unfold F32_powi, powi_early, mid.
  replace (Z.land n 1 =? 0) with (Z.even n); [reflexivity|].
  change 1 with (Z.ones 1). rewrite Z.land_ones by lia. change (2 ^ 1) with 2. rewrite Zmod_even. destruct (Z.even n); reflexivity.
Qed.

Definition i32_ok (z : Z) : Prop := - 2 ^ 31 <= z <= 2 ^ 31 - 1.

Lemma arith_i32 : forall {E : Env} z, i32_ok z -> arith i32 z = Ok z.
Proof. intros E z H. apply arith_ok. exact H. Qed.

Lemma arith_i32_bad : forall {E : Env} z, ~ i32_ok z -> arith i32 z = if overflow_checks then Panic else Ok (wrap i32 z).
Proof.
  intros E z H. unfold arith. replace (in_range i32 z) with false; [reflexivity|].
  symmetry. unfold in_range. apply andb_false_iff. unfold i32_ok in H. change (ity_min i32) with (-2147483648). change (ity_max i32) with 2147483647.
  destruct (Z.leb_spec (-2147483648) z); [|left; reflexivity]. destruct (Z.leb_spec z 2147483647); [|right; reflexivity]. exfalso. apply H. lia.
Qed.

Lemma i32_dec : forall z, i32_ok z \/ ~ i32_ok z.
Proof. intros z. unfold i32_ok. lia. Qed.

Lemma exp_range : forall x, -127 <= extract_exponent_value x <= 128.
Proof. intros x. rewrite extract_exponent_value_eq. pose proof (bexp_range (to_bits x)). lia. Qed.

(** *** C36 *)
Lemma powi_zero_exp : forall {E : Env} fuel x, F32_powi fuel x 0 = Ok F32_ONE.
Proof. intros E fuel x. rewrite powi_unfold. rewrite arith_i32 by (unfold i32_ok; simpl; lia). reflexivity. Qed.

Lemma powi_zero_base : forall {E : Env} fuel x n, feq x F32_ZERO = true -> 0 < n < 2 ^ 31 -> F32_powi fuel x n = Ok x.
Proof.
  intros E fuel x n Z0 H. rewrite powi_unfold. rewrite arith_i32 by (unfold i32_ok; lia). unfold bind at 1.
  destruct (Z.eqb_spec n 0); [lia|]. rewrite Z0. replace (0 <? n) with true by (symmetry; apply Z.ltb_lt; lia). reflexivity.
Qed.

(** *** Termination and panics *)
Lemma powi_total : forall {E : Env} x n, - 2 ^ 31 < n < 2 ^ 31 ->
  (overflow_checks = false \/ mid x = true \/ i32_ok (extract_exponent_value x * n)) ->
  exists r, forall fuel, (31 <= fuel)%nat -> F32_powi fuel x n = Ok r.
Proof.
  intros E x n H C. 
  set (b := if n <? 0 then fdiv F32_ONE x else x).
  destruct (loop_ok 30 (Z.abs n) b F32_ONE) as [v V].
  { split; [lia|]. change (2 ^ Z.of_nat 31) with (2 ^ 31). lia. }
  assert (V' : forall fuel, (31 <= fuel)%nat -> powi_loop fuel (Z.abs n) b F32_ONE = Ok v).
  { intros fuel L. replace fuel with (31 + (fuel - 31))%nat by lia. apply loop_more. exact V. }
  assert (EA : exists o, (if mid x then Ok None
       else approx <- arith i32 (extract_exponent_value x * n) ;;
         if (127 <? approx) || (feq x F32_ZERO && (approx <? 0)) then
           if negb (sign_bit x) || Z.even n then Ok (Some F32_INFINITY) else Ok (Some F32_NEG_INFINITY)
         else if approx <? -149 then Ok (Some F32_ZERO) else Ok None) = Ok o).
  { destruct (mid x) eqn:M; [eexists; reflexivity|].
    assert (A : exists z, arith i32 (extract_exponent_value x * n) = Ok z).
    { destruct (i32_dec (extract_exponent_value x * n)) as [D|D]; [rewrite arith_i32 by exact D; eexists; reflexivity|].
      rewrite arith_i32_bad by exact D. destruct C as [C|[C|C]]; [rewrite C; eexists; reflexivity|discriminate C|contradiction]. }
    destruct A as [z ->]. unfold bind. destruct (_ || _); [destruct (_ || _); eexists; reflexivity|]. destruct (z <? -149); eexists; reflexivity. }
  destruct EA as [o EA].
  destruct (n =? 0) eqn:N0.
  { exists F32_ONE. intros fuel _. apply Z.eqb_eq in N0. subst n. apply powi_zero_exp. }
  destruct (feq x F32_ZERO && (0 <? n)) eqn:Z0.
  { exists x. intros fuel _. apply andb_true_iff in Z0. destruct Z0 as [Z0 Z1]. apply Z.ltb_lt in Z1. apply powi_zero_base; [exact Z0|lia]. }
  destruct o as [r|].
  - exists r. intros fuel _. rewrite powi_unfold, EA, N0, Z0. rewrite arith_i32 by (unfold i32_ok; lia). reflexivity.
  - exists v. intros fuel L. rewrite powi_unfold, EA, N0, Z0. rewrite arith_i32 by (unfold i32_ok; lia). unfold bind. apply V'. exact L.
Qed.

Lemma powi_panic : forall {E : Env} fuel x n, i32_ok n -> (F32_powi fuel x n = Panic <->
  overflow_checks = true /\ (n = - 2 ^ 31 \/ (n <> 0 /\ ~ (feq x F32_ZERO = true /\ 0 < n) /\ mid x = false /\ ~ i32_ok (extract_exponent_value x * n)))).
Proof.
  intros E fuel x n Hn. rewrite powi_unfold. destruct (Z.eq_dec n (- 2 ^ 31)) as [->|NM].
  - rewrite arith_i32_bad by (unfold i32_ok; simpl; lia). destruct overflow_checks eqn:O.
    + split; [intros _; split; [reflexivity|left; reflexivity]|reflexivity].
    + split; [|intros [D _]; discriminate D]. unfold bind at 1. 
      change (- 2 ^ 31 =? 0) with false. change (0 <? - 2 ^ 31) with false. rewrite andb_false_r. cbv iota.
      intros H. exfalso. destruct (mid x); [unfold bind in H; exact (loop_not_panic _ _ _ _ H)|].
      assert (A : exists z, arith i32 (extract_exponent_value x * - 2 ^ 31) = Ok z).
      { destruct (i32_dec (extract_exponent_value x * - 2 ^ 31)) as [D|D]; [rewrite arith_i32 by exact D; eexists; reflexivity|].
        rewrite arith_i32_bad by exact D. rewrite O. eexists; reflexivity. }
      destruct A as [z A]. rewrite A in H. unfold bind in H. revert H.
      destruct (_ || _); [destruct (_ || _); discriminate|]. destruct (z <? -149); [discriminate|]. apply loop_not_panic.
  - rewrite arith_i32 by (unfold i32_ok in *; lia). unfold bind at 1. destruct (Z.eqb_spec n 0) as [N0|N0].
    { split; [discriminate|]. intros [_ [C|[C _]]]; contradiction. }
    destruct (feq x F32_ZERO && (0 <? n)) eqn:Z0.
    { split; [discriminate|]. apply andb_true_iff in Z0. destruct Z0 as [Z0 Z1]. apply Z.ltb_lt in Z1.
      intros [_ [C|[_ [C _]]]]; [contradiction|]. exfalso. apply C. split; assumption. }
    assert (NZ : ~ (feq x F32_ZERO = true /\ 0 < n)).
    { intros [A B]. apply Z.ltb_lt in B. rewrite A, B in Z0. discriminate Z0. }
    destruct (mid x).
    { unfold bind. split; [intros H; exfalso; exact (loop_not_panic _ _ _ _ H)|]. intros [_ [C|[_ [_ [C _]]]]]; [contradiction|discriminate C]. }
    assert (T : forall z, (early <- (if (127 <? z) || (feq x F32_ZERO && (z <? 0)) then
           if negb (sign_bit x) || Z.even n then Ok (Some F32_INFINITY) else Ok (Some F32_NEG_INFINITY)
         else if z <? -149 then Ok (Some F32_ZERO) else Ok None) ;;
         match early with Some r => Ok r | None => powi_loop fuel (Z.abs n) (if n <? 0 then fdiv F32_ONE x else x) F32_ONE end) <> Panic).
    { intros z. unfold bind. destruct (_ || _); [destruct (_ || _); discriminate|]. destruct (z <? -149); [discriminate|]. apply loop_not_panic. }
    destruct (i32_dec (extract_exponent_value x * n)) as [D|D].
    + rewrite arith_i32 by exact D. unfold bind at 2. split; [intros H; exfalso; exact (T _ H)|].
      intros [_ [C|[_ [_ [_ C]]]]]; contradiction.
    + rewrite arith_i32_bad by exact D. destruct overflow_checks.
      * split; [intros _; split; [reflexivity|right; repeat split; trivial]|reflexivity].
      * unfold bind at 2. split; [intros H; exfalso; exact (T _ H)|intros [C _]; discriminate C].
Qed.

(** *** i32::MIN *)
Lemma wrap_i32 : forall z, wrap i32 z = (z + 2 ^ 31) mod 2 ^ 32 - 2 ^ 31.
Proof. intros z. unfold wrap. change (ity_min i32) with (- 2 ^ 31). change (2 ^ ity_bits i32) with (2 ^ 32). rewrite Z.sub_opp_r. lia. Qed.

Lemma powi_min_checked : forall {E : Env} fuel x, overflow_checks = true -> F32_powi fuel x (- 2 ^ 31) = Panic.
Proof. intros E fuel x O. apply powi_panic; [unfold i32_ok; simpl; lia|]. split; [exact O|left; reflexivity]. Qed.

Lemma powi_min_loops : forall {E : Env} fuel x, overflow_checks = false -> (mid x = true \/ Z.Even (extract_exponent_value x)) ->
  F32_powi fuel x (- 2 ^ 31) = NoFuel.
Proof.
  intros E fuel x O C. rewrite powi_unfold. rewrite arith_i32_bad by (unfold i32_ok; simpl; lia). rewrite O. unfold bind at 1.
  change (- 2 ^ 31 =? 0) with false. change (0 <? - 2 ^ 31) with false. rewrite andb_false_r. cbv iota.
  assert (W : wrap i32 (Z.abs (- 2 ^ 31)) < 0) by (vm_compute; reflexivity).
  destruct (mid x) eqn:M; [unfold bind; apply loop_negative; exact W|].
  destruct C as [C|[h C]]; [discriminate C|].
  assert (A : arith i32 (extract_exponent_value x * - 2 ^ 31) = Ok 0).
  { destruct (i32_dec (extract_exponent_value x * - 2 ^ 31)) as [D|D].
    - rewrite arith_i32 by exact D. f_equal. unfold i32_ok in D. lia.
    - rewrite arith_i32_bad, O by exact D. rewrite wrap_i32, C. replace (2 * h * - 2 ^ 31 + 2 ^ 31) with (2 ^ 31 + (- h) * 2 ^ 32) by lia.
      rewrite Z.mod_add by lia. reflexivity. }
  rewrite A. unfold bind. change (127 <? 0) with false. change (0 <? 0) with false. rewrite andb_false_r. change (0 <? -149) with false.
  cbv iota beta. simpl orb. cbv iota. apply loop_negative. exact W.
Qed.

Lemma powi_min_returns : forall {E : Env} fuel x, overflow_checks = false -> mid x = false -> Z.Odd (extract_exponent_value x) ->
  F32_powi fuel x (- 2 ^ 31) = Ok (if feq x F32_ZERO then F32_INFINITY else F32_ZERO).
Proof.
  intros E fuel x O M [h C]. rewrite powi_unfold. rewrite arith_i32_bad by (unfold i32_ok; simpl; lia). rewrite O. unfold bind at 1.
  change (- 2 ^ 31 =? 0) with false. change (0 <? - 2 ^ 31) with false. rewrite andb_false_r. cbv iota. rewrite M.
  assert (A : arith i32 (extract_exponent_value x * - 2 ^ 31) = Ok (- 2 ^ 31)).
  { destruct (i32_dec (extract_exponent_value x * - 2 ^ 31)) as [D|D].
    - rewrite arith_i32 by exact D. f_equal. unfold i32_ok in D. lia.
    - rewrite arith_i32_bad, O by exact D. rewrite wrap_i32, C. replace ((2 * h + 1) * - 2 ^ 31 + 2 ^ 31) with (0 + (- h) * 2 ^ 32) by lia.
      rewrite Z.mod_add by lia. reflexivity. }
  rewrite A. unfold bind. change (127 <? - 2 ^ 31) with false. change (- 2 ^ 31 <? 0) with true. rewrite andb_true_r, orb_false_l.
  change (Z.even (- 2 ^ 31)) with true. rewrite orb_true_r. change (- 2 ^ 31 <? -149) with true. destruct (feq x F32_ZERO); reflexivity.
Qed.

Lemma powi_small_total : forall {E : Env} x n, - 2 ^ 24 < n < 2 ^ 24 -> exists r, forall fuel, (31 <= fuel)%nat -> F32_powi fuel x n = Ok r.
Proof.
  intros E x n H. apply powi_total; [lia|]. right. right. pose proof (exp_range x). unfold i32_ok. nia.
Qed.
