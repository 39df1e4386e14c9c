(** * The float API as a whole: panics, termination, NaN *)

From Coq Require Import ZArith Reals Bool List Lia Lra.
From Flocq Require Import Core IEEE754.Binary IEEE754.Bits.
From Verif Require Import Base Spec Float F32Ext F32Lemmas BitLemmas Literals NanLemmas P_Bits P_Trunc P_Floor P_RoundEdge P_Euclid P_Roots P_InvSqrt
  P_Recip P_Ln P_Exp P_Cosh P_Powf P_Powi P_Powi2 P_Trig P_TrigEdge P_Atan P_Atan2 P_Asin.
Open Scope Z_scope.

#[local] Arguments F32_powi : simpl never.
#[local] Arguments F32_exp : simpl never.
#[local] Arguments F32_ln : simpl never.
#[local] Arguments F32_powf : simpl never.
#[local] Arguments F32_sqrt : simpl never.
#[local] Arguments F32_atan : simpl never.

Lemma ok_ne : forall (r : res f32) , (exists z, r = Ok z) -> r = Panic <-> False.
Proof. intros r [z ->]. split; [discriminate|tauto]. Qed.
Lemma ok_ne' : forall (z : f32), Ok z = Panic <-> False.
Proof. intros z. split; [discriminate|tauto]. Qed.

Lemma invsqrt_panic_any : forall {E : Env} x, F32_invsqrt x = Panic <-> overflow_checks = true /\ 0xBE6EB50D < to_bits x.
Proof.
  intros E x. destruct overflow_checks eqn:O.
  - rewrite (invsqrt_panic_bits x O). tauto.
  - destruct (proj2 (invsqrt_panic x) O) as [z ->]. split; [discriminate|intros [C _]; discriminate].
Qed.

Lemma asin_panic_any : forall {E : Env} x, F32_asin x = Panic <-> overflow_checks = true /\ 0xBE6EB50D < to_bits (fsub F32_ONE (fmul x x)).
Proof. intros E x. rewrite asin_panic_inv. apply invsqrt_panic_any. Qed.

Definition powf_arg {E : Env} (x n : f32) : f32 := fmul n (F32_ln (if fge x F32_ZERO then x else without_sign x)).

Lemma powf_panic_any : forall {E : Env} x n, F32_powf x n = Panic <->
  debug_assertions = true /\ (fge x F32_ZERO = true \/ is_integer n = true) /\ exp_bad (powf_arg x n).
Proof.
  intros E x n. unfold F32_powf, powf_arg. destruct (fge x F32_ZERO).
  - rewrite exp_panic_iff. tauto.
  - destruct (is_integer n); simpl negb; cbv iota.
    + destruct (is_even n); [rewrite exp_panic_iff; tauto|].
      pose proof (exp_panic_iff (fmul n (F32_ln (without_sign x)))) as P.
      destruct (F32_exp (fmul n (F32_ln (without_sign x)))) as [r| |]; unfold bind; rewrite <- (and_assoc _ _ (exp_bad _)), (and_comm (debug_assertions = true)), and_assoc, <- P; intuition congruence.
    + split; [discriminate|]. intros (_ & [C|C] & _); discriminate.
Qed.

Definition ext_panics {E : Env} (c : ext_call) : Prop :=
  match c with
  | X_asin x => overflow_checks = true /\ 0xBE6EB50D < to_bits (fsub F32_ONE (fmul x x))
  | X_invsqrt x => overflow_checks = true /\ 0xBE6EB50D < to_bits x
  | X_exp x => debug_assertions = true /\ fin x /\ (88.72283935546875 <= val x <= 89.41597747802734375)%R
  | X_powf x n => debug_assertions = true /\ (fge x F32_ZERO = true \/ is_integer n = true) /\
      let p := fmul n (F32_ln (if fge x F32_ZERO then x else without_sign x)) in
      fin p /\ (88.72283935546875 <= val p <= 89.41597747802734375)%R
  | X_powi x n => overflow_checks = true /\ (n = - 2 ^ 31 \/
      (n <> 0 /\ ~ (feq x F32_ZERO = true /\ 0 < n) /\ fle c_0_5 (F32_abs x) && flt (F32_abs x) c_2 = false /\
       ~ (- 2 ^ 31 <= extract_exponent_value x * n <= 2 ^ 31 - 1)))
  | _ => False
  end.

(** The only integer argument of the API is an i32. *)
Definition ext_wf (c : ext_call) : Prop :=
  match c with X_powi _ n => - 2 ^ 31 <= n <= 2 ^ 31 - 1 | _ => True end.

Lemma ext_panic : forall {E : Env} fuel c, ext_wf c -> (ext_run fuel c = Panic <-> ext_panics c).
Proof.
  intros E fuel c W. destruct c; cbn [ext_run ext_panics ext_wf] in *; try apply ok_ne'.
  - apply ok_ne, acos_total.
  - apply asin_panic_any.
  - apply exp_panic_iff.
  - apply ok_ne. destruct (fract_total x) as (z & H & _). exists z. exact H.
  - apply ok_ne, hypot_total.
  - apply invsqrt_panic_any.
  - apply powf_panic_any.
  - apply powi_panic. exact W.
  - apply ok_ne, sqrt_total.
Qed.

Lemma ext_total : forall {E : Env} fuel c, ext_wf c -> (31 <= fuel)%nat -> (forall x, c <> X_powi x (- 2 ^ 31)) ->
  ~ ext_panics c -> exists r, ext_run fuel c = Ok r.
Proof.
  intros E fuel c W L M P. destruct c; cbn [ext_run ext_panics ext_wf] in *; try (eexists; reflexivity).
  - apply acos_total.
  - destruct (F32_asin x) as [r| |] eqn:K; [exists r; reflexivity| |].
    + apply asin_panic_any in K. contradiction.
    + exfalso. unfold F32_asin in K. unfold F32_invsqrt, arith in K. revert K. generalize (Z.shiftr (to_bits (fsub F32_ONE (fmul x x))) 1).
      intros z. destruct (Base.in_range _ _); [unfold bind; discriminate|]. destruct overflow_checks; unfold bind; discriminate.
  - destruct (exp_ok_or_panic x) as [K|K]; [exact K|]. apply exp_panic_iff in K. contradiction.
  - destruct (fract_total x) as (z & H & _). exists z. exact H.
  - apply hypot_total.
  - destruct (F32_invsqrt x) as [r| |] eqn:K; [exists r; reflexivity| |].
    + apply invsqrt_panic_any in K. contradiction.
    + exfalso. unfold F32_invsqrt, arith in K. revert K. generalize (Z.shiftr (to_bits x) 1).
      intros z. destruct (Base.in_range _ _); [unfold bind; discriminate|]. destruct overflow_checks; unfold bind; discriminate.
  - destruct (F32_powf x n) as [r| |] eqn:K; [exists r; reflexivity| |].
    + apply powf_panic_any in K. contradiction.
    + exfalso. revert K. unfold F32_powf. destruct (fge x F32_ZERO).
      * destruct (exp_ok_or_panic (fmul n (F32_ln x))) as [[r ->]|K]; [discriminate|rewrite K; discriminate].
      * destruct (is_integer n); simpl negb; cbv iota; [|discriminate].
        destruct (exp_ok_or_panic (fmul n (F32_ln (without_sign x)))) as [[r R]|R]; rewrite R; unfold bind;
          destruct (is_even n); discriminate.
  - destruct (Z.eq_dec n (- 2 ^ 31)) as [N|N]; [exfalso; apply (M x); rewrite N; reflexivity|].
    destruct (Z.eq_dec n 0) as [->|N0]; [exists F32_ONE; apply powi_zero_exp|].
    destruct (feq x F32_ZERO && (0 <? n)) eqn:Z0.
    { apply andb_prop in Z0. destruct Z0 as [Z1 Z2]. apply Z.ltb_lt in Z2. exists x. apply powi_zero_base; [exact Z1|lia]. }
    destruct (powi_total x n ltac:(lia)) as [r R]; [|exists r; apply R; exact L].
    destruct overflow_checks eqn:O; [right|left; reflexivity].
    destruct (mid x) eqn:Md; [left; reflexivity|right].
    destruct (Z_le_gt_dec (- 2 ^ 31) (extract_exponent_value x * n)) as [A|A];
      [destruct (Z_le_gt_dec (extract_exponent_value x * n) (2 ^ 31 - 1)) as [B|B]; [exact (conj A B)|]|]; exfalso; apply P;
      (split; [reflexivity|]; right; split; [exact N0|]; split;
       [intros [C1 C2]; apply Z.ltb_lt in C2; rewrite C1, C2 in Z0; discriminate|]; split; [exact Md|lia]).
  - apply sqrt_total.
Qed.

(** ** NaN *)

Lemma nan_fields : forall x, nan x -> bexp (to_bits x) = 255 /\ bman (to_bits x) <> 0.
Proof.
  intros x N. pose proof (bexp_range (to_bits x)) as R.
  assert (B : bexp (to_bits x) = 255).
  { destruct (Z.eq_dec (bexp (to_bits x)) 255) as [H|H]; [exact H|exfalso].
    assert (F : fin x) by (apply fin_bexp_lt; lia). unfold nan in N. rewrite (fin_not_nan _ F) in N. discriminate. }
  split; [exact B|]. intros M. destruct (bits_decode (to_bits x) (to_bits_range x)) as (_ & D & _).
  specialize (D B M). rewrite from_to_bits in D. unfold nan in N. rewrite D in N. discriminate.
Qed.

Lemma trunc_nan : forall x, nan x -> F32_trunc x = f32_inf (sign_bit x).
Proof.
  intros x N. destruct (nan_fields x N) as [B M].
  assert (K : 127 <= bexp (to_bits x)) by lia. destruct (trunc_fields x K) as (S & X & Mn).
  rewrite B in X, Mn. change ((255 - 127) mod 32 <? 23) with true in Mn. cbv iota in Mn.
  change (23 - (255 - 127) mod 32) with 23 in Mn. pose proof (bman_range (to_bits x)) as R. rewrite Z.mod_small in Mn by lia.
  destruct (bits_decode (to_bits (F32_trunc x)) (to_bits_range _)) as (_ & D & _). rewrite from_to_bits in D.
  rewrite (D X ltac:(lia)). f_equal. rewrite S, sign_bit_bsign. reflexivity.
Qed.

Lemma div_euclid_nan : forall {E : Env} x y, nan x \/ nan y -> exists s, F32_div_euclid x y = f32_inf s.
Proof.
  intros E x y H. unfold F32_div_euclid. cbv zeta. rewrite (trunc_nan (fdiv x y)) by (apply fdiv_nan; exact H).
  set (s := sign_bit (fdiv x y)). clearbody s. exists s.
  destruct (fge _ _); [reflexivity|]. destruct (fgt _ _).
  - destruct s; reflexivity.
  - destruct s; reflexivity.
Qed.

(** A NaN with payload m has fractional part m / 2^23. *)
Lemma fract_nan : forall {E : Env} x, nan x -> exists z, F32_fract x = Ok z /\ fin z /\ sign_bit z = sign_bit x /\
  (Rabs (val z) = IZR (to_bits x mod 2 ^ 23) / 8388608)%R /\ (0 < Rabs (val z) < 1)%R.
Proof.
  intros E x N. destruct (nan_fields x N) as [B M]. pose proof (to_bits_range x) as R.
  pose proof (bsign_range _ R) as Sr. pose proof (bman_range (to_bits x)) as Mr.
  set (b := mkbits (bsign (to_bits x)) 127 (bman (to_bits x))). 
  assert (Rb : 0 <= b < 2 ^ 32) by (unfold b, mkbits; lia).
  destruct (mkbits_fields (bsign (to_bits x)) 127 (bman (to_bits x)) ltac:(lia) ltac:(lia) ltac:(lia)) as (_ & Bs & Be & Bm). fold b in Bs, Be, Bm.
  set (y := from_bits b). assert (Ty : to_bits y = b) by (apply to_from_bits; exact Rb).
  assert (Fy : fin y) by (apply fin_bexp_lt; rewrite Ty, Be; lia).
  assert (Sy : sign_bit y = sign_bit x) by (apply sign_bit_eq_bsign; rewrite Ty; exact Bs).
  assert (Vy : Rabs (val y) = (1 + IZR (bman (to_bits x)) / 8388608)%R).
  { rewrite abs_normal by (try exact Fy; rewrite Ty, Be; lia). rewrite Ty, Be, Bm.
    rewrite plus_IZR. change (IZR (2 ^ 23)) with 8388608%R. change (bpow radix2 (127 - 150)) with (/ 8388608)%R. lra. }
  assert (Mi : (0 < IZR (bman (to_bits x)) < 8388608)%R).
  { split; [apply IZR_lt; lia|]. change 8388608%R with (IZR (2 ^ 23)). apply IZR_lt. lia. }
  destruct (fract_exact y Fy) as (z & Hz & Fz & Sz & Vz & _).
  { rewrite Vy. apply Rlt_le_trans with 2%R; [lra|]. apply Rle_trans with (bpow radix2 1); [bpow_lit; lra|apply bpow_le; lia]. }
  exists z. split.
  { rewrite <- Hz. unfold F32_fract. cbv zeta. rewrite !extract_exponent_value_eq, Ty, B, Be.
    change (255 - 127 <? 0) with false. change (127 - 127 <? 0) with false. cbv iota.
    rewrite !frac_part by assumption. change ((255 - 127) mod 32) with 0. change ((127 - 127) mod 32) with 0. rewrite Bm.
    unfold F32_copysign. 
    assert (L : Z.land (to_bits x) SIGN_MASK = Z.land (to_bits y) SIGN_MASK).
    { rewrite !BitLemmas.land_sign by apply to_bits_range. rewrite Ty, Bs. reflexivity. }
    rewrite L. reflexivity. }
  split; [exact Fz|]. split; [congruence|].
  assert (Bm23 : to_bits x mod 2 ^ 23 = bman (to_bits x)) by reflexivity. rewrite Bm23.
  assert (T : IZR (Ztrunc (val y)) = (if Rle_dec 0 (val y) then 1 else -1)%R).
  { destruct (Rle_dec 0 (val y)) as [P|P].
    - rewrite Rabs_pos_eq in Vy by exact P. rewrite Ztrunc_floor by exact P. f_equal. apply Zfloor_imp. simpl. lra.
    - rewrite Rabs_left in Vy by lra. rewrite Ztrunc_ceil by lra. f_equal. apply Zceil_imp. simpl. lra. }
  assert (V : (Rabs (val z) = IZR (bman (to_bits x)) / 8388608)%R).
  { rewrite Vz, T. destruct (Rle_dec 0 (val y)) as [P|P].
    - rewrite Rabs_pos_eq in Vy by exact P. rewrite Rabs_pos_eq by lra. lra.
    - rewrite Rabs_left in Vy by lra. rewrite Rabs_left by lra. lra. }
  rewrite V. split; [reflexivity|]. lra.
Qed.

Lemma inv_nan : forall {E : Env} x, nan x -> nan (F32_inv x).
Proof.
  intros E x N. destruct (nan_fields x N) as [B M]. pose proof (to_bits_range x) as R. pose proof (mkbits_eq _ R) as S. rewrite B in S.
  unfold mkbits in S. pose proof (bsign_range _ R). pose proof (bman_range (to_bits x)).
  unfold F32_inv. cbv zeta. destruct (0 <=? 0x7F000000 - to_bits x) eqn:K; [apply Z.leb_le in K; lia|].
  assert (I : is_infinite x = false) by (destruct x; try reflexivity; discriminate N). rewrite I.
  unfold nan in N. rewrite N. apply NAN_nan.
Qed.

(** A positive NaN has a tiny "inverse square root"; a negative one panics or wraps to a huge negative number. *)
Lemma invsqrt_nan : forall {E : Env} x, nan x ->
  (sign_bit x = false -> exists z, F32_invsqrt x = Ok z /\ fin z /\ (0 < val z < 0.0000000000000000001)%R) /\
  (sign_bit x = true -> (overflow_checks = true -> F32_invsqrt x = Panic) /\
     (overflow_checks = false -> exists z, F32_invsqrt x = Ok z /\ fin z /\ (val z < -10000000000000000000)%R)).
Proof.
  intros E x N. destruct (nan_fields x N) as [B M]. pose proof (to_bits_range x) as R. pose proof (mkbits_eq _ R) as S. rewrite B in S.
  unfold mkbits in S. pose proof (bsign_range _ R) as Sr. pose proof (bman_range (to_bits x)) as Mr. rewrite sign_bit_bsign.
  assert (G : forall lo hi b, 0 <= lo -> hi < 2 ^ 32 -> lo <= b <= hi -> bsign lo = bsign hi -> bexp hi < 255 -> 0 <= b < 2 ^ 32) by (intros; lia).
  split; intros H.
  - apply Z.eqb_neq in H. assert (Sz : bsign (to_bits x) = 0) by lia. rewrite Sz in S.
    set (d := 0x5F375A86 - Z.shiftr (to_bits x) 1). 
    assert (D : 0x1F375A87 <= d <= 0x1F775A86).
    { unfold d. rewrite Z.shiftr_div_pow2 by lia. change (2 ^ 1) with 2. pose proof (Z.div_mod (to_bits x) 2 ltac:(lia)).
      pose proof (Z.mod_pos_bound (to_bits x) 2 ltac:(lia)). lia. }
    exists (from_bits d). split.
    { unfold F32_invsqrt. fold d. unfold arith. replace (Base.in_range u32 d) with true; [reflexivity|].
      symmetry. unfold Base.in_range. change (ity_min u32) with 0. change (ity_max u32) with (2 ^ 32 - 1).
      apply andb_true_intro. split; apply Z.leb_le; lia. }
    assert (Td : to_bits (from_bits d) = d) by (apply to_from_bits; lia).
    assert (Ed : 62 <= bexp d <= 62 /\ bsign d = 0).
    { unfold bexp, bsign. pose proof (Z.div_mod d (2 ^ 23) ltac:(lia)). pose proof (Z.mod_pos_bound d (2 ^ 23) ltac:(lia)).
      assert (d / 2 ^ 23 < 63) by (apply Z.div_lt_upper_bound; lia). assert (62 <= d / 2 ^ 23) by (apply Z.div_le_lower_bound; lia).
      rewrite Z.mod_small by lia. split; [lia|]. apply Z.div_small. lia. }
    assert (Fd : fin (from_bits d)) by (apply fin_bexp_lt; rewrite Td; lia).
    split; [exact Fd|]. pose proof (abs_normal_bounds (from_bits d) Fd ltac:(rewrite Td; lia)) as A. rewrite Td in A.
    assert (P : (0 <= val (from_bits d))%R).
    { rewrite val_normal by (try exact Fd; rewrite Td; lia). unfold sgn. rewrite sign_bit_bsign, Td. rewrite (proj2 Ed). simpl (0 =? 1).
      cbv iota. apply Rmult_le_pos; [lra|]. apply Rmult_le_pos; [apply IZR_le; pose proof (bman_range d); lia|apply bpow_ge_0]. }
    rewrite Rabs_pos_eq in A by exact P. pose proof (bpow_gt_0 radix2 (bexp d - 127)).
    split; [lra|]. apply Rlt_le_trans with (bpow radix2 (bexp d - 126)); [apply A|].
    apply Rle_trans with (bpow radix2 (-64)); [apply bpow_le; lia|]. bpow_lit. lra.
  - assert (Sz : bsign (to_bits x) = 1) by (apply Z.eqb_eq; exact H). rewrite Sz in S.
    split; intros O.
    { apply invsqrt_panic_any. split; [exact O|lia]. }
    set (d := 0x5F375A86 - Z.shiftr (to_bits x) 1). 
    assert (D : - 0x20C8A579 <= d <= - 0x2088A57A).
    { unfold d. rewrite Z.shiftr_div_pow2 by lia. change (2 ^ 1) with 2. pose proof (Z.div_mod (to_bits x) 2 ltac:(lia)).
      pose proof (Z.mod_pos_bound (to_bits x) 2 ltac:(lia)). lia. }
    set (w := d + 2 ^ 32). 
    assert (W : F32_invsqrt x = Ok (from_bits w)).
    { unfold F32_invsqrt. fold d. unfold arith. replace (Base.in_range u32 d) with false.
      - rewrite O. unfold bind. do 2 f_equal. unfold wrap. change (ity_min u32) with 0. change (ity_bits u32) with 32.
        rewrite Z.sub_0_r, Z.add_0_r. symmetry. apply Z.mod_unique with (-1); [left; unfold w; lia|unfold w; lia].
      - symmetry. unfold Base.in_range. change (ity_min u32) with 0. replace (0 <=? d) with false; [reflexivity|]. symmetry. apply Z.leb_gt. lia. }
    exists (from_bits w). split; [exact W|].
    assert (Rw : 0xDF375A87 <= w <= 0xDF775A86) by (unfold w; lia).
    assert (Tw : to_bits (from_bits w) = w) by (apply to_from_bits; lia).
    assert (Ew : bexp w = 190 /\ bsign w = 1).
    { unfold bexp, bsign. assert (w / 2 ^ 23 = 446).
      { symmetry. apply Z.div_unique with (w - 446 * 2 ^ 23); [left; lia|lia]. }
      rewrite H0. split; [reflexivity|]. symmetry. apply Z.div_unique with (w - 2 ^ 31); [left; lia|lia]. }
    assert (Fw : fin (from_bits w)) by (apply fin_bexp_lt; rewrite Tw; lia).
    split; [exact Fw|].
    rewrite val_normal by (try exact Fw; rewrite Tw; lia). unfold sgn. rewrite sign_bit_bsign, Tw. rewrite (proj1 Ew), (proj2 Ew).
    change (1 =? 1) with true. cbv iota. assert (Bm : 0x375A87 <= bman w).
    { unfold bman. replace (w mod 2 ^ 23) with (w - 446 * 2 ^ 23); [lia|]. apply Z.mod_unique with 446; [left; lia|lia]. }
    assert (K : (IZR (2 ^ 23 + 0x375A87) <= IZR (2 ^ 23 + bman w))%R) by (apply IZR_le; lia).
    change (bpow radix2 (190 - 150)) with 1099511627776%R. change (IZR (2 ^ 23 + 0x375A87)) with 12016263%R in K. clear - K. lra.
Qed.

Lemma hypot_nan : forall {E : Env} x y, nan x \/ nan y -> exists z, F32_hypot x y = Ok z /\ nan z.
Proof.
  intros E x y H. unfold F32_hypot. apply sqrt_neg_nan. left. apply fadd_nan.
  destruct H as [H|H]; [left|right]; apply fmul_nan; left; exact H.
Qed.

(** The methods that return NaN as soon as one operand is NaN. *)
Definition propagates (c : ext_call) : Prop :=
  match c with
  | X_abs x | X_acos x | X_atan x | X_atan_norm x | X_cos x | X_inv x | X_ln x | X_log2 x | X_log10 x | X_recip x
  | X_signum x | X_sin x | X_sqrt x | X_tan x | X_copysign x _ => nan x
  | X_atan2 x y | X_atan2_norm x y | X_hypot x y | X_log x y | X_rem_euclid x y => nan x \/ nan y
  | X_mul_add x a b => nan x \/ nan a \/ nan b
  | _ => False
  end.

Lemma nan_fin : forall x (P : Prop), nan x -> fin x -> P.
Proof. intros x P N F. unfold nan in N. rewrite (fin_not_nan _ F) in N. discriminate. Qed.

Lemma ext_nan : forall {E : Env} fuel c, propagates c -> exists z, ext_run fuel c = Ok z /\ nan z.
Proof.
  intros E fuel c P. destruct c; cbn [ext_run propagates] in *; try contradiction;
    try (eexists; split; [reflexivity|]).
  - apply abs_nan, P.
  - apply acos_outside_nan. intros F. exact (nan_fin x _ P F).
  - apply atan_overflow. intros F. exact (nan_fin x _ P F).
  - apply atan_overflow. intros F. exact (nan_fin x _ P F).
  - apply atan2_overflow. destruct P as [P|P]; [right; intros F; exact (nan_fin x _ P F)|left; destruct other; try discriminate P; reflexivity].
  - apply atan2_overflow. destruct P as [P|P]; [right; intros F; exact (nan_fin x _ P F)|left; destruct other; try discriminate P; reflexivity].
  - rewrite copysign_with_sign. unfold nan. rewrite nan_with_sign. exact P.
  - apply (trig_nan x P).
  - apply hypot_nan, P.
  - apply inv_nan, P.
  - apply ln_nan, P.
  - unfold F32_log. apply fmul_nan. destruct P as [P|P]; [right; apply ln_nan, P|left; apply fdiv_nan; right; apply ln_nan, P].
  - unfold F32_log2. apply fmul_nan. left. apply ln_nan, P.
  - unfold F32_log10. apply fmul_nan. left. apply ln_nan, P.
  - unfold F32_mul_add. apply fadd_nan. destruct P as [P|[P|P]]; [left; apply fmul_nan; left; exact P|left; apply fmul_nan; right; exact P|right; exact P].
  - apply recip_nan, P.
  - apply rem_euclid_nan. tauto.
  - apply (signum_spec x), P.
  - apply (trig_nan x P).
  - apply sqrt_neg_nan. left. exact P.
  - apply (trig_nan x P).
Qed.

(** The others. *)
Lemma nan_others : forall {E : Env} x, nan x ->
  F32_floor x = f32_zero false /\ F32_round x = f32_zero false /\ F32_ceil x = f32_zero true /\
  F32_trunc x = f32_inf (sign_bit x) /\
  (F32_exp x = Ok F32_INFINITY \/ F32_exp x = Ok F32_ZERO) /\
  (forall r, F32_asin x = Ok r -> nan r) /\
  (exists z, F32_fract x = Ok z /\ fin z /\ sign_bit z = sign_bit x /\
     (Rabs (val z) = IZR (to_bits x mod 2 ^ 23) / 8388608)%R /\ (0 < Rabs (val z) < 1)%R).
Proof.
  intros E x N. split; [apply floor_ceil_nan, N|]. split; [apply round_nan, N|]. split; [apply floor_ceil_nan, N|].
  split; [apply trunc_nan, N|]. split; [apply exp_nan, N|]. split; [intros r; apply asin_nan, N|apply fract_nan, N].
Qed.

Lemma ext_safe : forall {E : Env} fuel c,
  match c with X_asin _ | X_invsqrt _ | X_exp _ | X_powf _ _ | X_powi _ _ => False | _ => True end ->
  exists r, ext_run fuel c = Ok r.
Proof.
  intros E fuel c H. destruct c; cbn [ext_run] in *; try contradiction; try (eexists; reflexivity).
  - apply acos_total.
  - destruct (fract_total x) as (z & K & _). exists z. exact K.
  - apply hypot_total.
  - apply sqrt_total.
Qed.

Lemma invsqrt_or : forall {E : Env} x, F32_invsqrt x = Panic \/ exists r, F32_invsqrt x = Ok r.
Proof.
  intros E x. unfold F32_invsqrt, arith. generalize (Z.shiftr (to_bits x) 1). intros z.
  destruct (Base.in_range _ _); [right; eexists; reflexivity|]. destruct overflow_checks; [left|right; eexists]; reflexivity.
Qed.

Lemma ext_terminates : forall {E : Env} fuel c,
  match c with X_powi _ n => - 2 ^ 31 < n <= 2 ^ 31 - 1 /\ (31 <= fuel)%nat | _ => True end ->
  ext_run fuel c = Panic \/ exists r, ext_run fuel c = Ok r.
Proof.
  intros E fuel c H.
  destruct c; try (right; apply ext_safe; exact I).
  - cbn [ext_run]. unfold F32_asin. destruct (invsqrt_or (fsub F32_ONE (fmul x x))) as [->|[r ->]]; [left|right; eexists]; reflexivity.
  - cbn [ext_run]. destruct (exp_ok_or_panic x) as [K|K]; [right|left]; exact K.
  - cbn [ext_run]. apply invsqrt_or.
  - cbn [ext_run]. unfold F32_powf. destruct (fge x F32_ZERO).
    + destruct (exp_ok_or_panic (fmul n (F32_ln x))) as [K|K]; [right|left]; exact K.
    + destruct (is_integer n); simpl negb; cbv iota; [|right; eexists; reflexivity].
      destruct (exp_ok_or_panic (fmul n (F32_ln (without_sign x)))) as [[r R]|R]; rewrite R; unfold bind;
        destruct (is_even n); (right; eexists; reflexivity) || (left; reflexivity).
  - destruct H as [N L]. cbn [ext_run].
    destruct (Bool.bool_dec (match F32_powi fuel x n with Panic => true | _ => false end) true) as [K|K].
    + left. destruct (F32_powi fuel x n); try discriminate; reflexivity.
    + right. apply (ext_total fuel (X_powi x n)); [cbn [ext_wf]; lia|exact L|intros y C; injection C; intros; lia|].
      intros C. apply (ext_panic fuel (X_powi x n)) in C; [|cbn [ext_wf]; lia]. cbn [ext_run] in C. rewrite C in K. apply K. reflexivity.
Qed.
