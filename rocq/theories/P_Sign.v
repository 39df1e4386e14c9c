(** * Proofs: signs of quaternions and vectors *)

From Coq Require Import ZArith Reals Bool List Lia Lra.
From Flocq Require Import Core IEEE754.BinarySingleNaN IEEE754.Binary IEEE754.Bits.
From Verif Require Import Base Spec SpecMore SpecSym Float Vector Quaternion Stats F32Lemmas BitLemmas P_Trunc P_Floor Literals ErrLemmas P_RoundEdge NanLemmas
  P_Euclid P_Roots P_InvSqrt P_SumSq P_VecF32 P_Quat P_Quat3 P_Recip P_Stats P_Stats3 P_Atan.
Import ListNotations.
Open Scope Z_scope.

Lemma fneg_same : forall a b, same a b -> same (fneg a) (fneg b).
Proof. intros a b [->|[A B]]; [left; reflexivity|right; split; apply fneg_nan; assumption]. Qed.

Lemma same_mul : forall {E : Env} a b c d, same a b -> same c d -> same (fmul a c) (fmul b d).
Proof. intros E a b c d A B. apply same_op2; [apply fmul_nan|exact A|exact B]. Qed.
Lemma same_sub : forall {E : Env} a b c d, same a b -> same c d -> same (fsub a c) (fsub b d).
Proof. intros E a b c d A B. apply same_op2; [apply fsub_nan|exact A|exact B]. Qed.

Lemma fmul_fneg_l : forall {E : Env} x y, same (fmul (fneg x) y) (fneg (fmul x y)).
Proof.
  intros E x y. eapply same_trans; [apply fmul_comm|]. eapply same_trans; [apply fmul_fneg_r|]. apply fneg_same, fmul_comm.
Qed.

Lemma fmul_fneg_both : forall {E : Env} x y, same (fmul (fneg x) (fneg y)) (fmul x y).
Proof.
  intros E x y. eapply same_trans; [apply fmul_fneg_r|]. eapply same_trans; [apply fneg_same, fmul_fneg_l|].
  rewrite fneg_involutive. apply same_refl.
Qed.

Lemma fmul_fneg_both_eq : forall {E : Env} x y, fin x -> fin y -> fmul (fneg x) (fneg y) = fmul x y.
Proof.
  intros E x y Fx Fy. destruct (fmul_fneg_both x y) as [H|[_ H]]; [exact H|].
  pose proof (fmul_fin_not_nan x y Fx Fy) as N. unfold nan in H. congruence.
Qed.

(** ** [negates] *)

Lemma negates_sym : forall a b, negates a b -> negates b a.
Proof.
  intros a b [[A B]|[(F & F' & V)|(s & -> & ->)]].
  - left. split; assumption.
  - right. left. split; [exact F'|]. split; [exact F|]. rewrite V. ring.
  - right. right. exists (negb s). rewrite negb_involutive. split; reflexivity.
Qed.

Lemma same_fneg_negates : forall a b, same b (fneg a) -> negates a b.
Proof. intros a b H. apply (negates_same_r (fneg a)); [apply same_sym; exact H|apply negates_fneg]. Qed.

Lemma negates_mul_l : forall {E : Env} a a' b, negates a a' -> negates (fmul a b) (fmul a' b).
Proof.
  intros E a a' b H.
  assert (D : nan a /\ nan a' \/ same a' (fneg a) \/ (exists s s', a = f32_zero s /\ a' = f32_zero s')).
  { destruct H as [H|[(F & F' & V)|(s & -> & ->)]]; [left; exact H| |right; left; left; reflexivity].
    right. destruct (Req_dec (val a) 0) as [Z|N].
    - right. destruct (val_zero_inv a F Z) as [s Hs]. destruct (val_zero_inv a' F') as [s' Hs']; [rewrite V, Z; ring|]. exists s, s'. split; assumption.
    - left. left. apply val_inj_nz; [exact F'|apply fneg_fin; exact F|rewrite fneg_val; exact V|rewrite V; lra]. }
  destruct D as [[A A']|[D|(s & s' & -> & ->)]].
  - left. split; apply fmul_nan; left; assumption.
  - apply same_fneg_negates. eapply same_trans; [apply same_mul; [exact D|apply same_refl]|apply fmul_fneg_l].
  - destruct b as [q|q|q p B|q m e B].
    + destruct s, s', q; apply negates_zero.
    + left. split; refine (build_nan_nan _).
    + left. split; apply fmul_nan; right; reflexivity.
    + destruct s, s', q; apply negates_zero.
Qed.

Lemma negates_mul_r : forall {E : Env} a b b', negates b b' -> negates (fmul a b) (fmul a b').
Proof.
  intros E a b b' H. apply (negates_same_l (fmul b a)); [apply fmul_comm|]. apply (negates_same_r (fmul b' a)); [apply fmul_comm|].
  apply negates_mul_l. exact H.
Qed.

Lemma fsub_as_fadd : forall {E : Env} a b, same (fsub a b) (fadd a (fneg b)).
Proof. intros E a b. pose proof (fsub_fneg a (fneg b)) as H. rewrite fneg_involutive in H. exact H. Qed.

Lemma negates_sub_swap : forall {E : Env} a b, negates (fsub a b) (fsub b a).
Proof.
  intros E a b. apply (negates_same_l (fadd a (fneg b))); [apply same_sym, fsub_as_fadd|].
  apply (negates_same_r (fadd (fneg a) b)).
  - eapply same_trans; [apply fadd_comm_same|]. apply same_sym, fsub_as_fadd.
  - apply negates_fadd; [apply negates_fneg|]. apply negates_sym, negates_fneg.
Qed.

(** ** A quaternion and its negation *)

Lemma norm_qneg : forall {E : Env} q, same (@q_norm _ arith_f32 (qneg q)) (@q_norm _ arith_f32 q).
Proof.
  intros E q. unfold q_norm, qneg. cbn [q0 q1 q2 q3 aadd amul arith_f32]. repeat apply same_add; apply fmul_fneg_both.
Qed.

Lemma norm_qneg_fin : forall {E : Env} q, qfin q -> @q_norm _ arith_f32 (qneg q) = @q_norm _ arith_f32 q.
Proof.
  intros E q (A & B & C & D). unfold q_norm, qneg. cbn [q0 q1 q2 q3 aadd amul arith_f32].
  rewrite !fmul_fneg_both_eq by assumption. reflexivity.
Qed.

Lemma rotate_qneg : forall {E : Env} {C} (into : C -> f32) q v, vrel same (Q_rotate into (qneg q) v) (Q_rotate into q v).
Proof.
  intros E C into q v. unfold Q_rotate, q_rotate, qneg. cbn [q0 q1 q2 q3 aadd asub amul a2 arith_f32].
  repeat split; cbn [v3x v3y v3z];
    repeat first [apply fmul_fneg_both | apply same_refl | apply same_add | apply same_sub | apply same_mul].
Qed.

Lemma rotate_qneg_fin : forall {E : Env} {C} (into : C -> f32) q v, qfin q -> Q_rotate into (qneg q) v = Q_rotate into q v.
Proof.
  intros E C into q v (A & B & F & D). unfold Q_rotate, q_rotate, qneg. cbn [q0 q1 q2 q3 aadd asub amul a2 arith_f32].
  rewrite !fmul_fneg_both_eq by assumption. reflexivity.
Qed.

Lemma euler_qneg : forall {E : Env} q, qfin q -> Q_to_euler (qneg q) = Q_to_euler q.
Proof.
  intros E q (A & B & C & D). unfold Q_to_euler, qneg. cbn [q0 q1 q2 q3].
  rewrite !fmul_fneg_both_eq by assumption. reflexivity.
Qed.

Lemma magnitude_qneg : forall {E : Env} q, qfin q -> Q_magnitude (qneg q) = Q_magnitude q.
Proof. intros E q F. unfold Q_magnitude. rewrite norm_qneg_fin by exact F. reflexivity. Qed.

Lemma scale_qneg : forall {E : Env} q k, qrel same (@q_scale _ arith_f32 (qneg q) k) (qneg (@q_scale _ arith_f32 q k)).
Proof. intros E q k. unfold q_scale, qneg, qrel. cbn [q0 q1 q2 q3 amul arith_f32]. repeat split; apply fmul_fneg_l. Qed.

(** Either both panic, or both return and the results are related. *)
Lemma normalize_qneg : forall {E : Env} q, qfin q ->
  (Q_normalize (qneg q) = Panic /\ Q_normalize q = Panic) \/
  exists a b, Q_normalize (qneg q) = Ok a /\ Q_normalize q = Ok b /\ qrel same a (qneg b).
Proof.
  intros E q F. unfold Q_normalize. rewrite norm_qneg_fin by exact F. destruct (feq _ _); [left; split; reflexivity|].
  destruct (F32_invsqrt _) as [n| |] eqn:I; cbn [bind].
  - right. do 2 eexists. split; [reflexivity|]. split; [reflexivity|]. apply scale_qneg.
  - left. split; reflexivity.
  - exfalso. unfold F32_invsqrt, arith in I. destruct (in_range _ _); [|destruct overflow_checks]; discriminate.
Qed.

Lemma inv_qneg : forall {E : Env} q, qfin q ->
  (Q_inv (qneg q) = Panic /\ Q_inv q = Panic) \/
  exists a b, Q_inv (qneg q) = Ok a /\ Q_inv q = Ok b /\ qrel same a (qneg b).
Proof.
  intros E q F. unfold Q_inv. rewrite norm_qneg_fin by exact F. destruct (feq _ _); [left; split; reflexivity|].
  right. do 2 eexists. split; [reflexivity|]. split; [reflexivity|].
  apply (scale_qneg (@q_conj _ arith_f32 q)).
Qed.

Lemma conj_qneg : forall {E : Env} q, @q_conj _ arith_f32 (qneg q) = qneg (@q_conj _ arith_f32 q).
Proof. reflexivity. Qed.

Lemma qneg_is_scale : forall {E : Env} q, qrel same (@q_scale _ arith_f32 q (fneg F32_ONE)) (qneg q).
Proof.
  intros E q. assert (H : forall x, same (fmul x (fneg F32_ONE)) (fneg x)).
  { intros x. destruct (is_nan x) eqn:N.
    - right. split; [apply fmul_nan; left; exact N|apply fneg_nan; exact N].
    - left. apply fmul_mone_id. exact N. }
  unfold q_scale, qneg, qrel. cbn [q0 q1 q2 q3 amul arith_f32]. repeat split; apply H.
Qed.

Lemma mul_qneg : forall {E : Env} p q,
  qrel negates (@q_mul _ arith_f32 p q) (@q_mul _ arith_f32 (qneg p) q) /\
  qrel negates (@q_mul _ arith_f32 p q) (@q_mul _ arith_f32 p (qneg q)) /\
  qrel same (@q_mul _ arith_f32 (qneg p) (qneg q)) (@q_mul _ arith_f32 p q).
Proof.
  intros E p q. unfold q_mul, qneg, qrel. cbn [q0 q1 q2 q3 aadd asub amul arith_f32].
  split; [|split].
  - repeat split; repeat first [apply negates_fadd | apply negates_fsub | apply negates_mul_l; apply negates_fneg].
  - repeat split; repeat first [apply negates_fadd | apply negates_fsub | apply negates_mul_r; apply negates_fneg].
  - repeat split; repeat first [apply same_add | apply same_sub | apply fmul_fneg_both].
Qed.

Lemma rotate_vneg : forall {E : Env} {C} (into : C -> f32) q v v',
  vrel negates (v3_into_f32 into v) (v3_into_f32 into v') ->
  vrel negates (Q_rotate into q v) (Q_rotate into q v').
Proof.
  intros E C into q v v' (X & Y & Z). unfold v3_into_f32 in X, Y, Z. cbn [v3x v3y v3z] in X, Y, Z.
  unfold Q_rotate, q_rotate, v3_into_f32. cbn [v3x v3y v3z aadd asub amul a2 arith_f32].
  repeat split; cbn [v3x v3y v3z]; repeat apply negates_fadd; apply negates_mul_r; assumption.
Qed.

(** ** Axis and angle *)

Lemma axis_neg : forall {E : Env} {C} (into : C -> f32) v v' t,
  v3_into_f32 into v' = vneg (v3_into_f32 into v) ->
  qrel same (Q_axis_angle into v' t) (@q_conj _ arith_f32 (Q_axis_angle into v t)).
Proof.
  intros E C into v v' t H. unfold v3_into_f32, vneg in H. cbn [v3x v3y v3z] in H. injection H as X Y Z.
  unfold Q_axis_angle, q_conj, qrel. cbn [q0 q1 q2 q3 aneg arith_f32]. rewrite X, Y, Z.
  split; [apply same_refl|]. repeat split; apply fmul_fneg_l.
Qed.

(** conj(p q) = conj(q) conj(p) fails in f32: the terms are added in another order. *)
Lemma conj_mul_bad : forall {E : Env}, exists p q, qfin p /\ qfin q /\
  val (q1 (@q_conj _ arith_f32 (@q_mul _ arith_f32 p q))) = (-16777215)%R /\
  val (q1 (@q_mul _ arith_f32 (@q_conj _ arith_f32 q) (@q_conj _ arith_f32 p))) = (-16777216)%R.
Proof.
  intros E. exists (mkQ (f32_of_Z 16777216) (f32_of_Z 0) (f32_of_Z 1) (f32_of_Z 1)), (mkQ (f32_of_Z 0) (f32_of_Z 1) (f32_of_Z 1) (f32_of_Z 1)).
  split; [repeat split; reflexivity|]. split; [repeat split; reflexivity|].
  unfold q_mul, q_conj. cbn [q0 q1 q2 q3 aadd asub amul aneg arith_f32]. split.
  - match goal with |- val ?t = _ => replace t with (from_bits 0xCB7FFFFF) by (apply to_bits_inj; vm_compute; reflexivity) end.
    lit 0xCB7FFFFF. bpow_lit. lra.
  - match goal with |- val ?t = _ => replace t with (from_bits 0xCB800000) by (apply to_bits_inj; vm_compute; reflexivity) end.
    lit 0xCB800000. bpow_lit. lra.
Qed.

(** ** Swapping the two vectors of from_two_vectors conjugates the result *)

Lemma nn_add : forall {E : Env} x y, is_nan x = false -> sign_bit x = false -> is_nan y = false -> sign_bit y = false ->
  is_nan (fadd x y) = false /\ sign_bit (fadd x y) = false.
Proof.
  intros E x y Nx Sx Ny Sy.
  assert (N : is_nan (fadd x y) = false) by (apply fadd_not_nan; trivial; congruence).
  split; [exact N|]. destruct (fadd_nonneg x y (or_intror Sx) (or_intror Sy)) as [K|K]; [unfold nan in K; congruence|exact K].
Qed.

Lemma norm_not_nan : forall {E : Env} q, qfin q -> is_nan (@q_norm _ arith_f32 q) = false.
Proof.
  intros E q (A & B & C & D). unfold q_norm. cbn [aadd amul arith_f32].
  assert (S : forall x, fin x -> is_nan (fmul x x) = false /\ sign_bit (fmul x x) = false).
  { intros x F. assert (N : is_nan (fmul x x) = false) by (apply fmul_fin_not_nan; exact F).
    split; [exact N|]. apply sq_sign. apply fin_not_nan. exact F. }
  destruct (S _ A), (S _ B), (S _ C), (S _ D).
  destruct (nn_add (fmul (q0 q) (q0 q)) (fmul (q1 q) (q1 q))) as [N1 S1]; trivial.
  destruct (nn_add _ (fmul (q2 q) (q2 q)) N1 S1) as [N2 S2]; trivial.
  apply (nn_add _ (fmul (q3 q) (q3 q)) N2 S2); trivial.
Qed.

Lemma norm_negates : forall {E : Env} p q, crel negates p q -> same (@q_norm _ arith_f32 p) (@q_norm _ arith_f32 q).
Proof.
  intros E p q (A & B & C & D). unfold q_norm. cbn [aadd amul arith_f32].
  repeat apply same_add; [apply same_mul; exact A| | |]; apply negates_sq; assumption.
Qed.

(** A finite product has finite factors, or a NaN-free zero. *)
Lemma mul_fin_l : forall {E : Env} x y, fin (fmul x y) -> fin x.
Proof.
  intros E x y F. destruct x as [s|s|s p H|s m e H]; try reflexivity; exfalso.
  - destruct y as [t|t|t p' H'|t m' e' H']; try discriminate F.
  - pose proof (fmul_nan (B754_nan s p H) y (or_introl eq_refl)) as N. pose proof (fin_not_nan _ F). unfold nan in N. congruence.
Qed.

Lemma add_fin_both : forall {E : Env} x y, fin (fadd x y) -> fin x /\ fin y.
Proof.
  intros E x y F. destruct (is_finite x) eqn:Fx; destruct (is_finite y) eqn:Fy; [split; assumption| | |];
    exfalso; pose proof (fadd_nonfinite x y) as H; unfold fin in F; rewrite H in F; (discriminate || auto).
Qed.

Lemma two_vectors_swap : forall {E : Env} u v a, @Q_from_two_vectors E f32 comp_f32 (fun x => x) u v = Ok a ->
  qfin a -> (val (q0 a) <> 0)%R ->
  exists b, @Q_from_two_vectors E f32 comp_f32 (fun x => x) v u = Ok b /\ crel negates a b.
Proof.
  intros E u v a.
  unfold Q_from_two_vectors, v3_dot, v3_mul, v3_cross, v3_into_f32. cbn [c_mul c_add c_sub comp_f32 bind v3x v3y v3z].
  set (uu := fadd (fadd (fmul (v3x u) (v3x u)) (fmul (v3y u) (v3y u))) (fmul (v3z u) (v3z u))).
  set (vv := fadd (fadd (fmul (v3x v) (v3x v)) (fmul (v3y v) (v3y v))) (fmul (v3z v) (v3z v))).
  set (uv := fadd (fadd (fmul (v3x u) (v3x v)) (fmul (v3y u) (v3y v))) (fmul (v3z u) (v3z v))).
  set (vu := fadd (fadd (fmul (v3x v) (v3x u)) (fmul (v3y v) (v3y u))) (fmul (v3z v) (v3z u))).
  assert (SD : same uv vu) by (unfold uv, vu; repeat apply same_add; apply fmul_comm).
  destruct (sqrt_total (fmul uu vv)) as [n Hn]. destruct (sqrt_total (fmul vv uu)) as [n' Hn']. rewrite Hn, Hn'. cbn [bind].
  destruct (flt (fadd n uv) (fmul c_1em6 n)) eqn:BR.
  { (* antiparallel: the scalar part is zero *)
    intros H F NZ. exfalso.
    assert (Z : exists w k, a = @q_mul_scalar _ arith_f32 (mkQ F32_ZERO (v3x w) (v3y w) (v3z w)) k).
    { destruct (fgt _ _); cbn [bind] in H; destruct (F32_invsqrt _) as [k| |]; try discriminate; cbn [bind] in H; injection H as <-;
        [exists (mkV3 (fneg (v3y u)) (v3x u) F32_ZERO)|exists (mkV3 F32_ZERO (fneg (v3z u)) (v3y u))]; exists k; reflexivity. }
    destruct Z as (w & k & ->). destruct F as [F _]. unfold q_mul_scalar, q_scale in F, NZ. cbn [q0 amul arith_f32] in F, NZ.
    assert (Fk : fin k).
    { apply (mul_fin_l k F32_ZERO). destruct (fmul_comm k F32_ZERO) as [->|[_ Q]]; [exact F|]. pose proof (fin_not_nan _ F). unfold nan in Q. congruence. }
    apply NZ. destruct zero_val as [Fz Vz]. destruct (fmul_R F32_ZERO k Fz Fk) as [_ ->].
    - rewrite Vz, Rmult_0_l, rnd_fmt by apply generic_format_0. rewrite Rabs_R0. apply bpow_gt_0.
    - rewrite Vz, Rmult_0_l. apply rnd_fmt, generic_format_0. }
  cbn [bind v3x v3y v3z].
  set (w1 := fsub (fmul (v3y u) (v3z v)) (fmul (v3z u) (v3y v))). set (w2 := fsub (fmul (v3z u) (v3x v)) (fmul (v3x u) (v3z v))).
  set (w3 := fsub (fmul (v3x u) (v3y v)) (fmul (v3y u) (v3x v))).
  set (w1' := fsub (fmul (v3y v) (v3z u)) (fmul (v3z v) (v3y u))). set (w2' := fsub (fmul (v3z v) (v3x u)) (fmul (v3x v) (v3z u))).
  set (w3' := fsub (fmul (v3x v) (v3y u)) (fmul (v3y v) (v3x u))).
  destruct (F32_invsqrt (@q_norm _ arith_f32 (mkQ (fadd n uv) w1 w2 w3))) as [k| |] eqn:K; try discriminate. cbn [bind].
  intros H F NZ. injection H as <-. destruct F as (F0 & F1 & F2 & F3).
  unfold q_mul_scalar, q_scale in F0, F1, F2, F3. cbn [q0 q1 q2 q3 amul arith_f32] in F0, F1, F2, F3.
  apply mul_fin_l in F0. apply mul_fin_l in F1. apply mul_fin_l in F2. apply mul_fin_l in F3.
  destruct (add_fin_both _ _ F0) as [Fn Fuv].
  assert (EQ : vu = uv) by (destruct SD as [->|[Q _]]; [reflexivity|pose proof (fin_not_nan _ Fuv); unfold nan in Q; congruence]).
  assert (EN : n' = n).
  { destruct (fmul_comm uu vv) as [Q|[Q _]].
    - rewrite Q in Hn. rewrite Hn in Hn'. injection Hn' as <-. reflexivity.
    - destruct (sqrt_neg_nan (fmul uu vv) (or_introl Q)) as (z & A & B). rewrite Hn in A. injection A as <-.
      pose proof (fin_not_nan _ Fn). unfold nan in B. congruence. }
  rewrite EN, EQ, BR. cbn [bind v3x v3y v3z]. fold w1' w2' w3'.
  assert (W : forall a b c d, same a d -> same b c -> negates (fsub a b) (fsub c d)).
  { intros p q c d S1 S2. apply (negates_same_r (fsub q p)); [apply same_sub; assumption|apply negates_sub_swap]. }
  assert (W1 : negates w1 w1') by (apply W; apply fmul_comm). assert (W2 : negates w2 w2') by (apply W; apply fmul_comm).
  assert (W3 : negates w3 w3') by (apply W; apply fmul_comm).
  assert (SN : same (@q_norm _ arith_f32 (mkQ (fadd n uv) w1 w2 w3)) (@q_norm _ arith_f32 (mkQ (fadd n uv) w1' w2' w3'))).
  { apply norm_negates. split; [apply same_refl|]. repeat split; assumption. }
  destruct SN as [SN|[Q _]].
  - rewrite <- SN, K. cbn [bind]. eexists. split; [reflexivity|]. unfold q_mul_scalar, q_scale, crel. cbn [q0 q1 q2 q3 amul arith_f32].
    split; [apply same_refl|]. repeat split; apply negates_mul_l; assumption.
  - exfalso. pose proof (norm_not_nan (mkQ (fadd n uv) w1 w2 w3)) as Z. unfold nan in Q. rewrite Z in Q; [discriminate|].
    repeat split; assumption.
Qed.
