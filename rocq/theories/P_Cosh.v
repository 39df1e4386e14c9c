(** * exp: complete case split; cosh *)

From Coq Require Import ZArith Reals Bool List Lia Lra.
From Flocq Require Import Core IEEE754.BinarySingleNaN IEEE754.Binary IEEE754.Bits.
From Verif Require Import Base Spec Float F32Lemmas BitLemmas Literals ErrLemmas NanLemmas
  RealBounds RealBounds4 P_Trunc P_Floor P_RoundEdge P_Euclid P_Roots P_InvSqrt P_SumSq P_Recip P_VecF32 P_Quat P_Trig P_Atan P_Atan2 P_Ln P_Exp.
Open Scope Z_scope.

(** Nothing lies between consecutive floats. *)
Lemma next_float : forall k x, 0 <= k < 0x7F7FFFFF -> fin x -> (val (from_bits k) < val x)%R -> (val (from_bits (k + 1)) <= val x)%R.
Proof.
  intros k x Hk F L. destruct (pos_bits k ltac:(lia)) as (A1 & A2 & A3). destruct (pos_bits (k + 1) ltac:(lia)) as (B1 & B2 & B3).
  assert (FK : forall j, 0 <= j <= 0x7F7FFFFF -> fin (from_bits j)).
  { intros j Hj. destruct (pos_bits j ltac:(lia)) as (_ & _ & C). apply fin_bexp_lt. rewrite C. unfold bexp.
    assert (j / 2 ^ 23 < 255) by (apply Z.div_lt_upper_bound; lia). assert (0 <= j / 2 ^ 23) by (apply Z.div_pos; lia). rewrite Z.mod_small; lia. }
  pose proof (FK k ltac:(lia)) as F0. pose proof (FK (k + 1) ltac:(lia)) as F1.
  assert (S : sign_bit x = false).
  { destruct (sign_bit x) eqn:S; [|reflexivity]. pose proof (sign_val_neg x S). pose proof (sign_val_pos _ A2). lra. }
  pose proof (fin_not_nan x F) as N.
  pose proof (fle_bits x (from_bits k) N A1 S A2) as L1. pose proof (fle_bits (from_bits (k + 1)) x B1 N B2 S) as L2.
  rewrite fle_R, Rle_bool_false in L1 by trivial. rewrite A3 in L1. symmetry in L1. apply Z.leb_gt in L1.
  rewrite fle_R, B3 in L2 by trivial. replace (k + 1 <=? to_bits x) with true in L2 by (symmetry; apply Z.leb_le; lia).
  destruct (Rle_bool_spec (val (from_bits (k + 1))) (val x)); [assumption|discriminate].
Qed.

Lemma gap1 : forall x, fin x -> (88.72283172607421875 < val x)%R -> (88.72283935546875 <= val x)%R.
Proof.
  intros x F H. pose proof (next_float 0x42b17217 x ltac:(lia) F) as K. change (0x42b17217 + 1) with 0x42b17218 in K.
  revert K. lit 0x42b17217. lit 0x42b17218. bpow_lit. intros K. lra.
Qed.

Lemma gap2 : forall x, fin x -> (89.41597747802734375 < val x)%R -> (89.415985107421875 <= val x)%R.
Proof.
  intros x F H. pose proof (next_float 0x42b2d4fb x ltac:(lia) F) as K. change (0x42b2d4fb + 1) with 0x42b2d4fc in K.
  revert K. lit 0x42b2d4fb. lit 0x42b2d4fc. bpow_lit. intros K. lra.
Qed.

Lemma gap3 : forall x, fin x -> (88.72283935546875 < val x)%R -> (88.72284698486328125 <= val x)%R.
Proof.
  intros x F H. pose proof (next_float 0x42b17218 x ltac:(lia) F) as K. change (0x42b17218 + 1) with 0x42b17219 in K.
  revert K. lit 0x42b17218. lit 0x42b17219. bpow_lit. intros K. lra.
Qed.

Definition exp_bad (x : f32) : Prop := fin x /\ (88.72283935546875 <= val x <= 89.41597747802734375)%R.

(** Outside the window exp returns a number, never NaN. *)
Lemma exp_outside : forall {E : Env} x, ~ exp_bad x ->
  exists r, F32_exp x = Ok r /\ is_nan r = false /\ sign_bit r = false.
Proof.
  intros E x B. destruct (is_nan x) eqn:N.
  { destruct (exp_nan x N) as [H|H]; rewrite H; eexists; refine (conj eq_refl (conj _ _)); reflexivity. }
  assert (G : forall r, fin r -> (0 < val r)%R -> is_nan r = false /\ sign_bit r = false).
  { intros r F P. split; [apply fin_not_nan; exact F|]. destruct (sign_bit r) eqn:S; [|reflexivity]. pose proof (sign_val_neg r S). lra. }
  destruct (sign_bit x) eqn:S.
  - destruct (is_finite x) eqn:F.
    + pose proof (sign_val_neg x S) as Nx.
      destruct (Rle_or_lt (val x) (- 88.029693603515625)) as [L|L].
      { rewrite exp_under by (trivial; intros _; exact L). eexists; refine (conj eq_refl (conj _ _)); reflexivity. }
      destruct (Rlt_or_le (val x) (- 87.3365478515625)) as [L2|L2].
      * destruct (exp_gradual_sign x F (conj L L2)) as (r & A & B' & C & D). exists r. exact (conj A (conj (fin_not_nan r B') D)).
      * destruct (exp_acc_neg x F (conj L2 Nx)) as (r & A & B' & C & D). exists r. exact (conj A (G r B' C)).
    + rewrite exp_under by (trivial; intros C; unfold fin in C; congruence). eexists; refine (conj eq_refl (conj _ _)); reflexivity.
  - destruct (is_finite x) eqn:F.
    + pose proof (sign_val_pos x S) as Px.
      destruct (Rle_or_lt (val x) 88.72283172607421875) as [L|L].
      { destruct (exp_acc_pos x F (conj Px L)) as (r & A & B' & C & D). exists r. exact (conj A (G r B' C)). }
      pose proof (gap1 x F L) as L1. destruct (Rle_or_lt (val x) 89.41597747802734375) as [L2|L2]; [exfalso; apply B; exact (conj F (conj L1 L2))|].
      rewrite exp_over by (trivial; intros _; apply gap2; assumption). eexists; refine (conj eq_refl (conj _ _)); reflexivity.
    + rewrite exp_over by (trivial; intros C; unfold fin in C; congruence). eexists; refine (conj eq_refl (conj _ _)); reflexivity.
Qed.

Lemma exp_bad_dec : forall x, exp_bad x \/ ~ exp_bad x.
Proof.
  intros x. unfold exp_bad. destruct (is_finite x) eqn:F; [|right; intros [C _]; unfold fin in C; congruence].
  destruct (Rle_dec 88.72283935546875 (val x)) as [A|A]; [|right; intros [_ [C _]]; contradiction].
  destruct (Rle_dec (val x) 89.41597747802734375) as [B|B]; [left; exact (conj F (conj A B))|right; intros [_ [_ C]]; contradiction].
Qed.

(** Exactly when exp panics. *)
Lemma exp_panic_iff : forall {E : Env} x, F32_exp x = Panic <-> debug_assertions = true /\ exp_bad x.
Proof.
  intros E x. split.
  - intros H. destruct (exp_bad_dec x) as [B|B].
    + split; [|exact B]. destruct B as [F B]. destruct debug_assertions eqn:D; [reflexivity|].
      destruct (exp_window x F B) as [_ W]. destruct (W D) as (r & A & _). congruence.
    + destruct (exp_outside x B) as (r & A & _). congruence.
  - intros [D [F B]]. apply (exp_window x F B). exact D.
Qed.

Lemma exp_ok_or_panic : forall {E : Env} x, (exists r, F32_exp x = Ok r) \/ F32_exp x = Panic.
Proof.
  intros E x. destruct (exp_bad_dec x) as [[F B]|B].
  - destruct (exp_window x F B) as [W1 W2]. destruct debug_assertions; [right; apply W1; reflexivity|left]. destruct (W2 eq_refl) as (r & A & _). exists r. exact A.
  - left. destruct (exp_outside x B) as (r & A & _). exists r. exact A.
Qed.

(** ** cosh *)

Definition same_res (p q : res f32) : Prop :=
  match p, q with Ok a, Ok b => same a b | Panic, Panic => True | _, _ => False end.

Lemma fdiv_same : forall {E : Env} a b c, same a b -> same (fdiv a c) (fdiv b c).
Proof. intros E a b c [->|[A B]]; [left; reflexivity|right; split; apply fdiv_nan; left; assumption]. Qed.

Lemma cosh_even : forall {E : Env} x, same_res (F32_cosh x) (F32_cosh (fneg x)).
Proof.
  intros E x. unfold F32_cosh. rewrite fneg_involutive.
  destruct (exp_ok_or_panic x) as [[a A]|A], (exp_ok_or_panic (fneg x)) as [[b B]|B]; rewrite A, B; unfold bind; simpl same_res; trivial.
  apply fdiv_same, fadd_comm_same.
Qed.

Lemma cosh_combine : forall {E : Env} a b A B, fin a -> fin b -> (0 <= val b)%R -> (1 <= A)%R -> (0 <= B <= 1)%R ->
  (Rabs (val a - A) <= 0.000761 * A)%R ->
  ((Rabs (val b - B) <= 0.0023975 * B)%R \/ (8000000000 <= A /\ Rabs (val b - B) <= 1)%R) ->
  let r := fdiv (fadd a b) c_2 in
  fin r /\ (Rabs (val r - (A + B) / 2) <= 0.000381 * A + 0.0012 * B)%R.
Proof.
  intros E a b A B Fa Fb Pb HA HB Da Db r. unfold r.
  assert (Bb : (val b <= 2.1)%R) by (destruct Db as [D|[_ D]]; apply Rabs_le_inv in D; lra).
  apply Rabs_le_inv in Da as Da'.
  assert (Pa : (0.99 <= val a)%R) by lra.
  pose proof (abs_B2R_le_emax_minus_prec 24 128 prec24 a) as Ma. change (Rabs (val a) <= bpow radix2 128 - bpow radix2 (128 - 24))%R in Ma.
  rewrite Rabs_pos_eq in Ma by lra.
  assert (G : (2.1 < bpow radix2 103)%R) by (apply Rlt_le_trans with (bpow radix2 2); [bpow_lit; lra|apply bpow_le; lia]).
  assert (G2 : (bpow radix2 (128 - 24) = 2 * bpow radix2 103)%R) by (change (128 - 24) with (1 + 103); rewrite bpow_plus; reflexivity).
  pose proof (bpow_gt_0 radix2 128) as P128.
  destruct (fadd_R a b Fa Fb) as [Fs Vs].
  { apply no_overflow. rewrite Rabs_pos_eq by lra. lra. }
  assert (Lm : forall v, (0.4 <= v)%R -> (bpow radix2 (-126) <= Rabs v)%R).
  { intros v Hv. rewrite Rabs_pos_eq by lra. apply Rle_trans with (bpow radix2 (-2)); [apply bpow_le; lia|bpow_lit; lra]. }
  destruct (rnd_rel_d (val a + val b) (Lm (val a + val b)%R ltac:(lra))) as (d1 & E1 & B1). rewrite <- Vs in E1.
  set (s := fadd a b) in *. clearbody s. change (bpow radix2 (-24)) with (/ 16777216)%R in B1. apply Rabs_le_inv in B1.
  destruct c_2_val as [F2 V2].
  assert (S1 : (0.98 <= val s)%R).
  { rewrite E1. apply Rle_trans with ((val a + val b) * 0.99)%R; [lra|apply Rmult_le_compat_l; lra]. }
  pose proof (abs_B2R_lt_emax 24 128 s) as Ms. change (Rabs (val s) < bpow radix2 128)%R in Ms. rewrite Rabs_pos_eq in Ms by lra.
  destruct (fdiv_R s c_2 Fs F2) as [Fr Vr]; [lra| |].
  { rewrite V2. apply (small_lt_128 127); [lia|]. rewrite Rabs_pos_eq by lra. change 128 with (1 + 127) in Ms. rewrite bpow_plus in Ms. change (bpow radix2 1) with 2%R in Ms. lra. }
  split; [exact Fr|]. rewrite V2 in Vr.
  destruct (rnd_rel_d (val s / 2) (Lm (val s / 2)%R ltac:(lra))) as (d2 & E2 & B2). rewrite <- Vr in E2. rewrite E2, E1.
  change (bpow radix2 (-24)) with (/ 16777216)%R in B2. apply Rabs_le_inv in B2.
  set (h := ((val a + val b) / 2)%R).
  replace ((val a + val b) * (1 + d1) / 2 * (1 + d2) - (A + B) / 2)%R
    with (h * (d1 + d2 + d1 * d2) + ((val a - A) + (val b - B)) / 2)%R by (unfold h; field).
  assert (DD : (Rabs (d1 * d2) <= 0.001 * / 16777216)%R) by (rewrite Rabs_mult; apply Rmult_le_compat; try apply Rabs_pos; apply Rabs_le; lra).
  apply Rabs_le_inv in DD.
  assert (H1 : (Rabs (h * (d1 + d2 + d1 * d2)) <= h * 0.00000012)%R).
  { rewrite Rabs_mult, (Rabs_pos_eq h) by (unfold h; lra). apply Rmult_le_compat_l; [unfold h; lra|apply Rabs_le; lra]. }
  apply Rabs_le_inv in H1. unfold h in H1.
  destruct Db as [D|[D0 D]]; apply Rabs_le_inv in D; apply Rabs_le; unfold h; lra.
Qed.

Lemma cosh_acc_pos : forall {E : Env} x, fin x -> (0 <= val x <= 88.72283172607421875)%R ->
  exists r, F32_cosh x = Ok r /\ fin r /\
    (Rabs (val r - (exp (val x) + exp (- val x)) / 2) <= 0.000381 * exp (val x) + 0.0012 * exp (- val x))%R.
Proof.
  intros E x F H. destruct (exp_acc_pos x F H) as (a & A1 & A2 & A3 & A4).
  assert (Fn : fin (fneg x)) by (apply fneg_fin; exact F). pose proof (fneg_val x) as Vn.
  assert (A : (1 <= exp (val x))%R).
  { rewrite <- exp_0. destruct (proj1 H) as [L|L]; [left; apply exp_increasing; exact L|rewrite <- L; apply Rle_refl]. }
  assert (B : (0 <= exp (- val x) <= 1)%R).
  { split; [left; apply exp_pos|]. rewrite <- exp_0. destruct (proj1 H) as [L|L]; [left; apply exp_increasing; lra|rewrite <- L, Ropp_0; apply Rle_refl]. }
  assert (K : exists b, F32_exp (fneg x) = Ok b /\ fin b /\ (0 <= val b)%R /\
     ((Rabs (val b - exp (- val x)) <= 0.0023975 * exp (- val x))%R \/ (8000000000 <= exp (val x) /\ Rabs (val b - exp (- val x)) <= 1)%R)).
  { destruct (Rle_or_lt (val x) 87.3365478515625) as [L|L].
    - destruct (exp_acc_neg (fneg x) Fn) as (b & B1 & B2 & B3 & B4); [rewrite Vn; lra|]. exists b. rewrite Vn in B4.
      refine (conj B1 (conj B2 (conj _ (or_introl B4)))). lra.
    - assert (Bg : (8000000000 <= exp (val x))%R) by (apply exp_big; lra).
      destruct (Rlt_or_le (val x) 88.029693603515625) as [L2|L2].
      + destruct (exp_gradual (fneg x) Fn) as (b & B1 & B2 & B3); [rewrite Vn; lra|]. exists b.
        assert (Q : (bpow radix2 (-126) <= 1)%R) by (change 1%R with (bpow radix2 0); apply bpow_le; lia).
        refine (conj B1 (conj B2 (conj (proj1 B3) (or_intror (conj Bg _))))). apply Rabs_le. lra.
      + exists F32_ZERO. destruct zero_val as [FZ VZ]. rewrite exp_under.
        * refine (conj eq_refl (conj FZ (conj _ (or_intror (conj Bg _))))); rewrite VZ; [lra|apply Rabs_le; lra].
        * apply fin_not_nan. exact Fn.
        * destruct (sign_bit (fneg x)) eqn:S; [reflexivity|]. pose proof (sign_val_pos _ S). lra.
        * intros _. lra. }
  destruct K as (b & B1 & B2 & B3 & B4). unfold F32_cosh. rewrite A1, B1. unfold bind.
  destruct (cosh_combine a b _ _ A2 B2 B3 A B A4 B4) as [C1 C2]. exists (fdiv (fadd a b) c_2). exact (conj eq_refl (conj C1 C2)).
Qed.

Lemma cosh_acc : forall {E : Env} x, fin x -> (Rabs (val x) <= 88.72283172607421875)%R ->
  exists r, F32_cosh x = Ok r /\ fin r /\
    (Rabs (val r - (exp (val x) + exp (- val x)) / 2) <= 0.000381 * exp (Rabs (val x)) + 0.0012 * exp (- Rabs (val x)))%R.
Proof.
  intros E x F H. apply Rabs_le_inv in H. destruct (Rle_or_lt 0 (val x)) as [S|S].
  - destruct (cosh_acc_pos x F ltac:(lra)) as (r & A & B & C). exists r. rewrite (Rabs_pos_eq (val x)) by exact S. exact (conj A (conj B C)).
  - assert (Fn : fin (fneg x)) by (apply fneg_fin; exact F). pose proof (fneg_val x) as Vn.
    destruct (cosh_acc_pos (fneg x) Fn ltac:(rewrite Vn; lra)) as (r & A & B & C). rewrite Vn in C.
    pose proof (cosh_even x) as Ev. rewrite A in Ev. destruct (F32_cosh x) as [r'| |]; try contradiction.
    destruct Ev as [Ev|[_ Ev]].
    2:{ exfalso. pose proof (fin_not_nan r B) as Nr. unfold nan in Ev. congruence. }
    exists r'. subst r'. rewrite (Rabs_left (val x)) by exact S. rewrite Ropp_involutive in C |- *. rewrite (Rplus_comm (exp (val x))).
    exact (conj eq_refl (conj B C)).
Qed.

Lemma cosh_0_pi : forall {E : Env} x, fin x -> (0 <= val x <= PI)%R ->
  exists r, F32_cosh x = Ok r /\ fin r /\ (Rabs (val r - (exp (val x) + exp (- val x)) / 2) <= 0.0089)%R.
Proof.
  intros E x F H. assert (P : (PI <= 4)%R) by apply PI_4. destruct (cosh_acc_pos x F ltac:(lra)) as (r & A & B & C). exists r.
  refine (conj A (conj B (Rle_trans _ _ _ C (cosh_pi_bound _ H)))).
Qed.

Lemma cosh_0_2pi : forall {E : Env} x, fin x -> (0 <= val x <= 2 * PI)%R ->
  exists r, F32_cosh x = Ok r /\ fin r /\ (Rabs (val r - (exp (val x) + exp (- val x)) / 2) <= 0.2041)%R.
Proof.
  intros E x F H. assert (P : (PI <= 4)%R) by apply PI_4. destruct (cosh_acc_pos x F ltac:(lra)) as (r & A & B & C). exists r.
  refine (conj A (conj B (Rle_trans _ _ _ C (cosh_2pi_bound _ H)))).
Qed.

Lemma cosh_doc_1 : forall {E : Env}, exists x r, fin x /\ (0 <= val x <= PI)%R /\ F32_cosh x = Ok r /\ fin r /\
  (Rabs (val r - (exp (val x) + exp (- val x)) / 2) > 0.005)%R.
Proof.
  intros E. exists (from_bits 0x403170a4), (from_bits 0x410064c8).
  assert (V : val (from_bits 0x403170a4) = 2.77250003814697265625%R) by (lit 0x403170a4; bpow_lit; lra). rewrite V.
  refine (conj eq_refl (conj _ (conj _ (conj eq_refl _)))).
  - pose proof PI2_3_2. unfold PI2 in H. lra.
  - destruct E as [oc da n1 n2 n3 n4 n5 n6 ss]. destruct da; apply ok_bits; vm_compute; reflexivity.
  - pose proof cosh_at_2_7725. lit 0x410064c8. bpow_lit. rewrite Rabs_left; lra.
Qed.

Lemma cosh_doc_2 : forall {E : Env}, exists x r, fin x /\ (PI <= val x <= 2 * PI)%R /\ F32_cosh x = Ok r /\ fin r /\
  (Rabs (val r - (exp (val x) + exp (- val x)) / 2) > 0.19)%R.
Proof.
  intros E. exists (from_bits 0x40c79db2), (from_bits 0x437fb9d1).
  assert (V : val (from_bits 0x40c79db2) = 6.23799991607666015625%R) by (lit 0x40c79db2; bpow_lit; lra). rewrite V.
  refine (conj eq_refl (conj _ (conj _ (conj eq_refl _)))).
  - pose proof PI_bounds. lra.
  - destruct E as [oc da n1 n2 n3 n4 n5 n6 ss]. destruct da; apply ok_bits; vm_compute; reflexivity.
  - pose proof cosh_at_6_238. lit 0x437fb9d1. bpow_lit. rewrite Rabs_left; lra.
Qed.

(** exp's relative error really exceeds the 0.001 of the unit tests on negative arguments. *)
Lemma exp_doc : forall {E : Env}, exists x r, fin x /\ (-1 < val x < 0)%R /\ F32_exp x = Ok r /\ fin r /\
  (Rabs (val r - exp (val x)) > 0.0023 * exp (val x))%R.
Proof.
  intros E. exists (from_bits 0xbf30a3d7), (from_bits 0x3f00b3c6).
  assert (V : val (from_bits 0xbf30a3d7) = (-0.689999997615814208984375)%R) by (lit 0xbf30a3d7; bpow_lit; lra). rewrite V.
  refine (conj eq_refl (conj _ (conj _ (conj eq_refl _)))).
  - lra.
  - destruct E as [oc da n1 n2 n3 n4 n5 n6 ss]. destruct da; apply ok_bits; vm_compute; reflexivity.
  - pose proof exp_at_m0_69. lit 0x3f00b3c6. bpow_lit. rewrite Rabs_pos_eq; lra.
Qed.

(** cosh inherits exp's window: it panics exactly when one of the two exponentials does. *)
Lemma cosh_panic_iff : forall {E : Env} x, F32_cosh x = Panic <-> debug_assertions = true /\ (exp_bad x \/ exp_bad (fneg x)).
Proof.
  intros E x. unfold F32_cosh. pose proof (exp_panic_iff x) as P1. pose proof (exp_panic_iff (fneg x)) as P2.
  destruct (exp_ok_or_panic x) as [[a A]|A].
  - rewrite A in *. unfold bind. destruct (exp_ok_or_panic (fneg x)) as [[b B]|B].
    + rewrite B in *. split; [discriminate|]. intros [D [C|C]]; [destruct P1 as [_ P1]; specialize (P1 (conj D C)); discriminate|destruct P2 as [_ P2]; specialize (P2 (conj D C)); discriminate].
    + rewrite B. split; [|reflexivity]. intros _. apply P2 in B. destruct B as [D B]. exact (conj D (or_intror B)).
  - rewrite A. unfold bind. split; [|reflexivity]. intros _. apply P1 in A. destruct A as [D B]. exact (conj D (or_introl B)).
Qed.

Lemma cosh_panic_abs : forall {E : Env} x, F32_cosh x = Panic <->
  debug_assertions = true /\ fin x /\ (88.72283935546875 <= Rabs (val x) <= 89.41597747802734375)%R.
Proof.
  intros E x. rewrite cosh_panic_iff. unfold exp_bad. rewrite fneg_val. split.
  - intros [A [[F B]|[F B]]]; (split; [exact A|]); (split; [try exact F; rewrite <- (fneg_involutive x); apply fneg_fin; exact F|]).
    + rewrite (Rabs_pos_eq (val x)) by lra. exact B.
    + rewrite (Rabs_left (val x)) by lra. exact B.
  - intros [A [F B]]. split; [exact A|]. destruct (Rle_or_lt 0 (val x)) as [S|S].
    + left. rewrite (Rabs_pos_eq (val x)) in B by lra. exact (conj F B).
    + right. rewrite (Rabs_left (val x)) in B by lra. exact (conj (fneg_fin x F) B).
Qed.
