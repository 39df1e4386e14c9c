(** * Proofs for C130: equality of vectors and quaternions *)

From Coq Require Import ZArith Reals Bool List Lia Lra.
From Flocq Require Import Core IEEE754.Binary IEEE754.Bits.
From Verif Require Import Base Spec Float Vector Quaternion Equality SpecEq F32Lemmas BitLemmas P_RoundEdge NanLemmas P_Roots P_Vector P_VecF32 P_Ext.
Import ListNotations.
Open Scope Z_scope.

(** ** Single floats *)

(** [==] holds between identical numbers and between zeros. *)
Definition twin (a b : f32) : Prop := (a = b /\ is_nan a = false) \/ exists s t, a = B754_zero s /\ b = B754_zero t.

Lemma fin_val_twin : forall a b, fin a -> fin b -> val a = val b -> twin a b.
Proof.
  intros a b Fa Fb H. destruct (Req_dec (val a) 0) as [Z|Z].
  - right. assert (K : forall c, fin c -> val c = 0%R -> exists s, c = B754_zero s).
    { intros c Fc Vc. destruct c as [s|s|s p q|s m e q]; try discriminate Fc; [exists s; reflexivity|].
      exfalso. unfold val, B2R in Vc. apply F2R_eq_0_reg in Vc || apply eq_0_F2R in Vc. simpl in Vc. destruct s; discriminate Vc. }
    destruct (K a Fa Z) as [s ->]. destruct (K b Fb ltac:(congruence)) as [t ->]. exists s, t. split; reflexivity.
  - left. split; [|apply fin_not_nan; exact Fa]. apply (B2R_inj 24 128); [| |exact H].
    + destruct a as [s|s|s p q|s m e q]; try discriminate Fa; [|reflexivity]. exfalso. apply Z. reflexivity.
    + destruct b as [s|s|s p q|s m e q]; try discriminate Fb; [|reflexivity]. exfalso. apply Z. rewrite H. reflexivity.
Qed.

Lemma num_eq_twin : forall a b, num_eq a b <-> twin a b.
Proof.
  intros a b. split.
  - intros [(Fa & Fb & V)|(s & -> & ->)]; [apply fin_val_twin; assumption|left; split; reflexivity].
  - intros [[<- N]|(s & t & -> & ->)]; [|left; repeat split; reflexivity].
    destruct a as [s|s|s p q|s m e q]; try discriminate N; [left|right; exists s|left]; repeat split; reflexivity.
Qed.

Lemma feq_num : forall a b, feq a b = true <-> num_eq a b.
Proof.
  intros a b. split.
  - intros H. destruct (is_finite a) eqn:Fa; destruct (is_finite b) eqn:Fb.
    + left. rewrite feq_R in H by assumption. destruct (Req_bool_spec (val a) (val b)); [|discriminate]. repeat split; assumption.
    + exfalso. destruct b as [s|s|s p q|s m e q]; try discriminate Fb; destruct a as [s'|s'|s' p' q'|s' m' e' q']; try discriminate Fa; unfold feq in H; simpl in H; destruct s; discriminate H.
    + exfalso. destruct b as [s|s|s p q|s m e q]; try discriminate Fb; destruct a as [s'|s'|s' p' q'|s' m' e' q']; try discriminate Fa; unfold feq in H; simpl in H; try destruct s'; discriminate H.
    + right. destruct b as [s|s|s p q|s m e q]; try discriminate Fb; destruct a as [s'|s'|s' p' q'|s' m' e' q']; try discriminate Fa; unfold feq in H; simpl in H; try discriminate H; destruct s', s; try discriminate H; eexists; split; reflexivity.
  - intros H. apply num_eq_twin in H. destruct H as [[<- N]|(s & t & -> & ->)]; [apply feq_refl_nn; exact N|reflexivity].
Qed.

Lemma num_eq_refl : forall a, num_eq a a <-> is_nan a = false.
Proof.
  intros a. rewrite num_eq_twin. split; [intros [[_ N]|(s & t & -> & _)]; [exact N|reflexivity]|intros N; left; split; [reflexivity|exact N]].
Qed.
Lemma num_eq_sym : forall a b, num_eq a b -> num_eq b a.
Proof. intros a b [(A & B & C)|(s & A & B)]; [left; auto|right; exists s; auto]. Qed.
Lemma num_eq_trans : forall a b c, num_eq a b -> num_eq b c -> num_eq a c.
Proof.
  intros a b c [(A & B & C)|(s & A & B)] [(A' & B' & C')|(s' & A' & B')]; subst.
  - left. repeat split; trivial. congruence.
  - discriminate B.
  - discriminate A'.
  - right. injection A'. intros ->. exists s'. split; reflexivity.
Qed.
Lemma alike_of : forall a b, twin a b -> alike a b.
Proof. intros a b H. left. apply num_eq_twin. exact H. Qed.

(** Addition, subtraction and multiplication cannot tell equal numbers apart. *)
Lemma alike_cases : forall a b, alike a b <-> (a = b /\ is_nan a = false) \/ (exists s t, a = B754_zero s /\ b = B754_zero t) \/ (nan a /\ nan b).
Proof.
  intros a b. unfold alike. rewrite num_eq_twin. unfold twin. tauto.
Qed.
Lemma alike_refl : forall a, alike a a.
Proof. intros a. apply alike_cases. destruct (is_nan a) eqn:N; [right; right; split; exact N|left; split; reflexivity]. Qed.
Lemma alike_zeros : forall s t, alike (B754_zero s) (B754_zero t).
Proof. intros s t. apply alike_cases. right; left. exists s, t. split; reflexivity. Qed.
Lemma alike_nans : forall a b, nan a -> nan b -> alike a b.
Proof. intros a b A B. right. split; assumption. Qed.

Ltac zcase := first [apply alike_zeros | apply alike_refl | apply alike_nans; (assumption || reflexivity)].

Lemma alike_add : forall {E : Env} a a' b b', alike a a' -> alike b b' -> alike (fadd a b) (fadd a' b').
Proof.
  intros E a a' b b' A B. apply alike_cases in A. apply alike_cases in B.
  destruct A as [[<- NA]|[(s & t & -> & ->)|[A A']]]; [| |apply alike_nans; apply fadd_nan; left; assumption];
  (destruct B as [[<- NB]|[(s2 & t2 & -> & ->)|[B B']]]; [| |apply alike_nans; apply fadd_nan; right; assumption]).
  - zcase.
  - destruct a as [u|u|u p q|u m e q]; try discriminate NA.
    + destruct u, s2, t2; zcase.
    + zcase.
    + zcase.
  - destruct b as [u|u|u p q|u m e q]; try discriminate NB.
    + destruct s, u, t; zcase.
    + zcase.
    + zcase.
  - destruct s, s2, t, t2; zcase.
Qed.

Lemma alike_sub : forall {E : Env} a a' b b', alike a a' -> alike b b' -> alike (fsub a b) (fsub a' b').
Proof.
  intros E a a' b b' A B. apply alike_cases in A. apply alike_cases in B.
  destruct A as [[<- NA]|[(s & t & -> & ->)|[A A']]]; [| |apply alike_nans; apply fsub_nan; left; assumption];
  (destruct B as [[<- NB]|[(s2 & t2 & -> & ->)|[B B']]]; [| |apply alike_nans; apply fsub_nan; right; assumption]).
  - zcase.
  - destruct a as [u|u|u p q|u m e q]; try discriminate NA.
    + destruct u, s2, t2; zcase.
    + zcase.
    + zcase.
  - destruct b as [u|u|u p q|u m e q]; try discriminate NB.
    + destruct s, u, t; zcase.
    + zcase.
    + zcase.
  - destruct s, s2, t, t2; zcase.
Qed.

Lemma alike_mul : forall {E : Env} a a' b b', alike a a' -> alike b b' -> alike (fmul a b) (fmul a' b').
Proof.
  intros E a a' b b' A B. apply alike_cases in A. apply alike_cases in B.
  destruct A as [[<- NA]|[(s & t & -> & ->)|[A A']]]; [| |apply alike_nans; apply fmul_nan; left; assumption];
  (destruct B as [[<- NB]|[(s2 & t2 & -> & ->)|[B B']]]; [| |apply alike_nans; apply fmul_nan; right; assumption]).
  - zcase.
  - destruct a as [u|u|u p q|u m e q]; try discriminate NA; [zcase|apply alike_nans; exact (build_nan_nan _)|zcase].
  - destruct b as [u|u|u p q|u m e q]; try discriminate NB; [zcase|apply alike_nans; exact (build_nan_nan _)|zcase].
  - zcase.
Qed.

(** Division by the same number. *)
Lemma alike_div : forall {E : Env} a a' b, alike a a' -> alike (fdiv a b) (fdiv a' b).
Proof.
  intros E a a' b A. apply alike_cases in A.
  destruct A as [[<- NA]|[(s & t & -> & ->)|[A A']]]; [zcase| |apply alike_nans; apply fdiv_nan; left; assumption].
  destruct b as [u|u|u p q|u m e q]; [apply alike_nans; exact (build_nan_nan _)|zcase|apply alike_nans; exact (build_nan_nan _)|zcase].
Qed.

Lemma alike_neg : forall a b, alike a b -> alike (fneg a) (fneg b).
Proof.
  intros a b A. apply alike_cases in A.
  destruct A as [[<- NA]|[(s & t & -> & ->)|[A A']]]; [zcase|zcase|apply alike_nans; apply fneg_nan; assumption].
Qed.

(** Squares of equal numbers are identical, and so are squares of differences. *)
Lemma twin_sq : forall {E : Env} a b, a = b \/ (exists s t, a = B754_zero s /\ b = B754_zero t) -> fmul a a = fmul b b.
Proof. intros E a b [<-|(s & t & -> & ->)]; [reflexivity|destruct s, t; reflexivity]. Qed.
Lemma num_sq : forall {E : Env} a b, num_eq a b -> fmul a a = fmul b b.
Proof. intros E a b H. apply num_eq_twin in H. apply twin_sq. destruct H as [[H _]|H]; auto. Qed.
Lemma diff_sq : forall {E : Env} a b c d, num_eq a b -> num_eq c d -> fmul (fsub a c) (fsub a c) = fmul (fsub b d) (fsub b d).
Proof.
  intros E a b c d H K. apply num_eq_twin in H. apply num_eq_twin in K. apply twin_sq.
  destruct H as [[<- NA]|(s & t & -> & ->)]; destruct K as [[<- NB]|(s2 & t2 & -> & ->)].
  - left. reflexivity.
  - destruct a as [u|u|u p q|u m e q]; try discriminate NA; [|left; reflexivity|left; reflexivity].
    right. destruct u, s2, t2; do 2 eexists; split; reflexivity.
  - destruct c as [u|u|u p q|u m e q]; try discriminate NB; [|left; reflexivity|left; reflexivity].
    right. destruct s, u, t; do 2 eexists; split; reflexivity.
  - right. destruct s, s2, t, t2; do 2 eexists; split; reflexivity.
Qed.

(** ** What [==] decides *)

(** Integer vectors: [==] is equality. *)
Lemma int_eq : (forall v w : Vector2d Z, v2_eq Z.eqb v w = true <-> v = w) /\ (forall v w : Vector3d Z, v3_eq Z.eqb v w = true <-> v = w).
Proof.
  split.
  - intros [a b] [c d]. unfold v2_eq; cbn [v2x v2y]. rewrite andb_true_iff, !Z.eqb_eq. split; [intros [-> ->]; reflexivity|intros H; injection H; auto].
  - intros [a b c] [d e f]. unfold v3_eq; cbn [v3x v3y v3z]. rewrite !andb_true_iff, !Z.eqb_eq. split; [intros [[-> ->] ->]; reflexivity|intros H; injection H; auto].
Qed.

Lemma f32_eq : (forall v w, v2_eq feq v w = true <-> v2rel num_eq v w) /\ (forall v w, v3_eq feq v w = true <-> v3rel num_eq v w) /\
  (forall p q, q_eq p q = true <-> q4rel num_eq p q).
Proof.
  split; [|split]; intros v w.
  - unfold v2_eq, v2rel. rewrite andb_true_iff, !feq_num. tauto.
  - unfold v3_eq, v3rel. rewrite !andb_true_iff, !feq_num. tauto.
  - unfold q_eq, q4rel. rewrite !andb_true_iff, !feq_num. tauto.
Qed.

(** An equivalence on what has no NaN, and no NaN is equal to anything. *)
Lemma eq_equiv : (forall v, v2_eq feq v v = true <-> ~ nan (v2x v) /\ ~ nan (v2y v)) /\
  (forall v, v3_eq feq v v = true <-> ~ nan (v3x v) /\ ~ nan (v3y v) /\ ~ nan (v3z v)) /\
  (forall q, q_eq q q = true <-> ~ nan (q0 q) /\ ~ nan (q1 q) /\ ~ nan (q2 q) /\ ~ nan (q3 q)) /\
  (forall v w, v2_eq feq v w = v2_eq feq w v) /\ (forall v w, v3_eq feq v w = v3_eq feq w v) /\ (forall p q, q_eq p q = q_eq q p) /\
  (forall u v w, v2_eq feq u v = true -> v2_eq feq v w = true -> v2_eq feq u w = true) /\
  (forall u v w, v3_eq feq u v = true -> v3_eq feq v w = true -> v3_eq feq u w = true) /\
  (forall p q r, q_eq p q = true -> q_eq q r = true -> q_eq p r = true).
Proof.
  destruct f32_eq as (F2 & F3 & F4).
  assert (R : forall a, num_eq a a <-> ~ nan a) by (intros a; rewrite num_eq_refl; unfold nan; destruct (is_nan a); intuition congruence).
  assert (S : forall a b, num_eq a b <-> num_eq b a) by (intros a b; split; apply num_eq_sym).
  assert (BB : forall a b : bool, (a = true <-> b = true) -> a = b) by (intros [] [] [H K]; auto; symmetry; auto).
  split; [|split; [|split; [|split; [|split; [|split; [|split; [|split]]]]]]].
  - intros v. rewrite F2. unfold v2rel. rewrite !R. tauto.
  - intros v. rewrite F3. unfold v3rel. rewrite !R. tauto.
  - intros v. rewrite F4. unfold q4rel. rewrite !R. tauto.
  - intros v w. apply BB. rewrite !F2. unfold v2rel. rewrite (S (v2x v)), (S (v2y v)). tauto.
  - intros v w. apply BB. rewrite !F3. unfold v3rel. rewrite (S (v3x v)), (S (v3y v)), (S (v3z v)). tauto.
  - intros v w. apply BB. rewrite !F4. unfold q4rel. rewrite (S (q0 v)), (S (q1 v)), (S (q2 v)), (S (q3 v)). tauto.
  - intros u v w. rewrite !F2. unfold v2rel. intros (A & B) (A' & B'). split; eapply num_eq_trans; eassumption.
  - intros u v w. rewrite !F3. unfold v3rel. intros (A & B & C) (A' & B' & C'). split; [|split]; eapply num_eq_trans; eassumption.
  - intros u v w. rewrite !F4. unfold q4rel. intros (A & B & C & D) (A' & B' & C' & D'). split; [|split; [|split]]; eapply num_eq_trans; eassumption.
Qed.

(** ** Operations respect it *)

Lemma num_alike : forall a b, num_eq a b -> alike a b.
Proof. intros a b H. left. exact H. Qed.
Ltac al := repeat first [assumption | apply alike_refl | apply alike_add | apply alike_sub | apply alike_mul | apply alike_div | apply alike_neg].
Ltac both_ok := match goal with |- both _ (Ok ?a) (Ok ?b) => exists a, b; split; [reflexivity|split; [reflexivity|]] end.

Lemma v2_cong : forall {E : Env} v v' w w' k k', v2_eq feq v v' = true -> v2_eq feq w w' = true -> feq k k' = true ->
  both (v2rel alike) (@v2_add _ comp_f32 v w) (@v2_add _ comp_f32 v' w') /\
  both (v2rel alike) (@v2_sub _ comp_f32 v w) (@v2_sub _ comp_f32 v' w') /\
  both (v2rel alike) (@v2_scale _ comp_f32 v k) (@v2_scale _ comp_f32 v' k') /\
  both (v2rel alike) (@v2_div _ comp_f32 v k) (@v2_div _ comp_f32 v' k) /\
  both alike (@v2_dot _ comp_f32 v w) (@v2_dot _ comp_f32 v' w') /\
  both alike (@v2_perpendicular_dot _ comp_f32 v w) (@v2_perpendicular_dot _ comp_f32 v' w') /\
  both (v3rel alike) (@v2_cross _ comp_f32 v w) (@v2_cross _ comp_f32 v' w').
Proof.
  intros E [a b] [a' b'] [c d] [c' d'] k k' V W K. apply (proj1 f32_eq) in V. apply (proj1 f32_eq) in W. apply feq_num in K.
  destruct V as [Va Vb]. destruct W as [Wa Wb]. cbn [v2x v2y] in *. apply num_alike in Va, Vb, Wa, Wb, K.
  refine (conj _ (conj _ (conj _ (conj _ (conj _ (conj _ _))))));
    cbn [v2_add v2_sub v2_scale v2_div v2_dot v2_perpendicular_dot v2_cross v3_mul v3_cross v3_of_v2 comp_f32 c_add c_sub c_mul c_div c_default bind v2x v2y v3x v3y v3z];
    both_ok; repeat split; cbn [v2x v2y v3x v3y v3z]; al.
Qed.

Lemma v3_cong : forall {E : Env} v v' w w' k k', v3_eq feq v v' = true -> v3_eq feq w w' = true -> feq k k' = true ->
  both (v3rel alike) (@v3_add _ comp_f32 v w) (@v3_add _ comp_f32 v' w') /\
  both (v3rel alike) (@v3_sub _ comp_f32 v w) (@v3_sub _ comp_f32 v' w') /\
  both (v3rel alike) (@v3_scale _ comp_f32 v k) (@v3_scale _ comp_f32 v' k') /\
  both (v3rel alike) (@v3_div _ comp_f32 v k) (@v3_div _ comp_f32 v' k) /\
  both alike (@v3_dot _ comp_f32 v w) (@v3_dot _ comp_f32 v' w') /\
  both (v3rel alike) (@v3_cross _ comp_f32 v w) (@v3_cross _ comp_f32 v' w').
Proof.
  intros E [a b e] [a' b' e'] [c d f] [c' d' f'] k k' V W K. apply (proj1 (proj2 f32_eq)) in V. apply (proj1 (proj2 f32_eq)) in W. apply feq_num in K.
  destruct V as (Va & Vb & Ve). destruct W as (Wa & Wb & We). cbn [v3x v3y v3z] in *. apply num_alike in Va, Vb, Wa, Wb, Ve, We, K.
  refine (conj _ (conj _ (conj _ (conj _ (conj _ _)))));
    cbn [v3_add v3_sub v3_scale v3_div v3_dot v3_mul v3_cross comp_f32 c_add c_sub c_mul c_div c_default bind v3x v3y v3z];
    both_ok; repeat split; cbn [v3x v3y v3z]; al.
Qed.

Lemma v_cong_metric : forall {E : Env},
  (forall v v' w w', v2_eq feq v v' = true -> v2_eq feq w w' = true ->
     vt_magnitude (fun c => c) v = vt_magnitude (fun c => c) v' /\ vt_distance (fun c => c) v w = vt_distance (fun c => c) v' w' /\
     both (v2rel alike) (vt_normalized (fun c => c) (fun c => c) v) (vt_normalized (fun c => c) (fun c => c) v')) /\
  (forall v v' w w', v3_eq feq v v' = true -> v3_eq feq w w' = true ->
     vt_magnitude (fun c => c) v = vt_magnitude (fun c => c) v' /\ vt_distance (fun c => c) v w = vt_distance (fun c => c) v' w' /\
     both (v3rel alike) (vt_normalized (fun c => c) (fun c => c) v) (vt_normalized (fun c => c) (fun c => c) v')).
Proof.
  intros E. split.
  - intros [a b] [a' b'] [c d] [c' d'] V W. apply (proj1 f32_eq) in V. apply (proj1 f32_eq) in W.
    destruct V as [Va Vb]. destruct W as [Wa Wb]. cbn [v2x v2y] in *.
    assert (M : vt_magnitude (fun c => c) (mkV2 a b) = vt_magnitude (fun c => c) (mkV2 a' b')).
    { unfold vt_magnitude. rewrite !v2_items. cbn [map v2_to_array v2x v2y]. rewrite (num_sq _ _ Va), (num_sq _ _ Vb). reflexivity. }
    split; [exact M|split].
    + unfold vt_distance. rewrite !v2_items. cbn [map combine fst snd v2_to_array v2x v2y]. rewrite (diff_sq _ _ _ _ Va Wa), (diff_sq _ _ _ _ Vb Wb). reflexivity.
    + unfold vt_normalized. rewrite M. destruct (sqrt_total (F32_sum (map (fun n => fmul n n) (vt_items (mkV2 a' b'))))) as [m Hm].
      unfold vt_magnitude. rewrite Hm. cbn [bind]. unfold vt_map. rewrite !v2_items. cbn [map v2_to_array v2x v2y vt_from_iter vt2 v2_from_iter].
      both_ok. apply num_alike in Va, Vb. split; cbn [v2x v2y]; al.
  - intros [a b e] [a' b' e'] [c d f] [c' d' f'] V W. apply (proj1 (proj2 f32_eq)) in V. apply (proj1 (proj2 f32_eq)) in W.
    destruct V as (Va & Vb & Ve). destruct W as (Wa & Wb & We). cbn [v3x v3y v3z] in *.
    assert (M : vt_magnitude (fun c => c) (mkV3 a b e) = vt_magnitude (fun c => c) (mkV3 a' b' e')).
    { unfold vt_magnitude. rewrite !v3_items. cbn [map v3_to_array v3x v3y v3z]. rewrite (num_sq _ _ Va), (num_sq _ _ Vb), (num_sq _ _ Ve). reflexivity. }
    split; [exact M|split].
    + unfold vt_distance. rewrite !v3_items. cbn [map combine fst snd v3_to_array v3x v3y v3z]. rewrite (diff_sq _ _ _ _ Va Wa), (diff_sq _ _ _ _ Vb Wb), (diff_sq _ _ _ _ Ve We). reflexivity.
    + unfold vt_normalized. rewrite M. destruct (sqrt_total (F32_sum (map (fun n => fmul n n) (vt_items (mkV3 a' b' e'))))) as [m Hm].
      unfold vt_magnitude. rewrite Hm. cbn [bind]. unfold vt_map. rewrite !v3_items. cbn [map v3_to_array v3x v3y v3z vt_from_iter vt3 v3_from_iter].
      both_ok. apply num_alike in Va, Vb, Ve. repeat split; cbn [v3x v3y v3z]; al.
Qed.

(** Quaternions. *)
Lemma q_cong : forall {E : Env} p p' q q' k k' v v', q_eq p p' = true -> q_eq q q' = true -> feq k k' = true -> v3_eq feq v v' = true ->
  q4rel alike (@q_add _ arith_f32 p q) (@q_add _ arith_f32 p' q') /\
  q4rel alike (@q_sub _ arith_f32 p q) (@q_sub _ arith_f32 p' q') /\
  q4rel alike (@q_mul _ arith_f32 p q) (@q_mul _ arith_f32 p' q') /\
  q4rel alike (@q_scale _ arith_f32 p k) (@q_scale _ arith_f32 p' k') /\
  q4rel alike (@q_conj _ arith_f32 p) (@q_conj _ arith_f32 p') /\
  alike (@q_dot _ arith_f32 p q) (@q_dot _ arith_f32 p' q') /\
  v3rel alike (Q_rotate (fun c => c) q v) (Q_rotate (fun c => c) q' v') /\
  q4rel alike (@q_of_vector _ arith_f32 v) (@q_of_vector _ arith_f32 v').
Proof.
  intros E [a b c d] [a' b' c' d'] [e f g h] [e' f' g' h'] k k' [x y z] [x' y' z'] P Q K V.
  apply (proj2 (proj2 f32_eq)) in P. apply (proj2 (proj2 f32_eq)) in Q. apply feq_num in K. apply (proj1 (proj2 f32_eq)) in V.
  destruct P as (Pa & Pb & Pc & Pd). destruct Q as (Qa & Qb & Qc & Qd). destruct V as (Vx & Vy & Vz). cbn [q0 q1 q2 q3 v3x v3y v3z] in *.
  apply num_alike in Pa, Pb, Pc, Pd, Qa, Qb, Qc, Qd, K, Vx, Vy, Vz.
  refine (conj _ (conj _ (conj _ (conj _ (conj _ (conj _ (conj _ _)))))));
    cbv [q_add q_sub q_mul q_scale q_conj q_dot q_of_vector Q_rotate q_rotate v3_into_f32 aadd asub amul aneg a2 a0 arith_f32 q0 q1 q2 q3 v3x v3y v3z q4rel v3rel];
    repeat split; al.
Qed.

(** Both panic, or both return related results. *)
Lemma q_cong_norm : forall {E : Env} p q, q_eq p q = true ->
  @q_norm _ arith_f32 p = @q_norm _ arith_f32 q /\ Q_magnitude p = Q_magnitude q /\
  ((Q_inv p = Panic /\ Q_inv q = Panic) \/ both (q4rel alike) (Q_inv p) (Q_inv q)) /\
  ((Q_normalize p = Panic /\ Q_normalize q = Panic) \/ both (q4rel alike) (Q_normalize p) (Q_normalize q)).
Proof.
  intros E [a b c d] [a' b' c' d'] P. apply (proj2 (proj2 f32_eq)) in P. destruct P as (Pa & Pb & Pc & Pd). cbn [q0 q1 q2 q3] in *.
  assert (N : @q_norm _ arith_f32 (mkQ a b c d) = @q_norm _ arith_f32 (mkQ a' b' c' d')).
  { cbv [q_norm amul aadd arith_f32 q0 q1 q2 q3]. rewrite (num_sq _ _ Pa), (num_sq _ _ Pb), (num_sq _ _ Pc), (num_sq _ _ Pd). reflexivity. }
  apply num_alike in Pa, Pb, Pc, Pd.
  split; [exact N|split; [|split]].
  - unfold Q_magnitude. rewrite N. reflexivity.
  - unfold Q_inv. rewrite N. destruct (feq _ _); [left; split; reflexivity|right]. both_ok.
    cbv [q_mul_scalar q_scale q_conj amul aneg arith_f32 q0 q1 q2 q3 q4rel]. repeat split; al.
  - unfold Q_normalize. rewrite N. destruct (feq _ _); [left; split; reflexivity|]. 
    destruct (invsqrt_or (@q_norm _ arith_f32 (mkQ a' b' c' d'))) as [->|[r ->]]; cbn [bind]; [left; split; reflexivity|right]. both_ok.
    cbv [q_scale amul arith_f32 q0 q1 q2 q3 q4rel]. repeat split; al.
Qed.

(** ** Neutral elements and conversions *)

Lemma num_of : forall a b, fin a -> fin b -> val a = val b -> num_eq a b.
Proof. intros a b A B V. left. auto. Qed.
Lemma add_zero_num : forall {E : Env} a, ~ nan a -> num_eq (fadd a (f32_zero false)) a.
Proof.
  intros E a N. destruct a as [s|s|s p q|s m e q].
  - destruct s; left; repeat split; reflexivity.
  - right. exists s. split; reflexivity.
  - exfalso. apply N. reflexivity.
  - apply num_eq_twin. left. split; reflexivity.
Qed.

Lemma neutral : forall {E : Env},
  (forall v : Vector2d f32, ~ nan (v2x v) -> ~ nan (v2y v) ->
     exists r, @v2_add _ comp_f32 v (@v2_default _ comp_f32) = Ok r /\ v2_eq feq r v = true) /\
  (forall v : Vector3d f32, ~ nan (v3x v) -> ~ nan (v3y v) -> ~ nan (v3z v) ->
     exists r, @v3_add _ comp_f32 v (@v3_default _ comp_f32) = Ok r /\ v3_eq feq r v = true) /\
  (forall v : Vector2d f32, fin (v2x v) -> fin (v2y v) ->
     exists r, @v2_sub _ comp_f32 v v = Ok r /\ v2_eq feq r (@v2_default _ comp_f32) = true) /\
  (forall v : Vector3d f32, fin (v3x v) -> fin (v3y v) -> fin (v3z v) ->
     exists r, @v3_sub _ comp_f32 v v = Ok r /\ v3_eq feq r (@v3_default _ comp_f32) = true).
Proof.
  intros E. destruct f32_eq as (F2 & F3 & _). refine (conj _ (conj _ (conj _ _))).
  - intros [a b] A B. eexists. split; [reflexivity|]. apply F2. split; apply add_zero_num; assumption.
  - intros [a b c] A B C. eexists. split; [reflexivity|]. apply F3. split; [|split]; apply add_zero_num; assumption.
  - intros [a b] A B. eexists. split; [reflexivity|]. apply F2. unfold v2rel. cbn [v2x v2y v2_default comp_f32 c_default] in *.
    rewrite !fsub_self by assumption. split; apply num_eq_refl; reflexivity.
  - intros [a b c] A B C. eexists. split; [reflexivity|]. apply F3. unfold v3rel. cbn [v3x v3y v3z v3_default comp_f32 c_default] in *.
    rewrite !fsub_self by assumption. split; [|split]; apply num_eq_refl; reflexivity.
Qed.

Lemma conversions : forall {E : Env},
  (forall v w : Vector2d f32, v3_eq feq (@v3_of_v2 _ comp_f32 v) (@v3_of_v2 _ comp_f32 w) = v2_eq feq v w) /\
  (forall v w : Vector2d Z, (forall c, In c [v2x v; v2y v; v2x w; v2y w] -> -32768 <= c <= 65535) ->
     v2_eq feq (v2_into_f32 F32_from_int v) (v2_into_f32 F32_from_int w) = v2_eq Z.eqb v w) /\
  (forall v w : Vector3d Z, (forall c, In c [v3x v; v3y v; v3z v; v3x w; v3y w; v3z w] -> -32768 <= c <= 65535) ->
     v3_eq feq (v3_into_f32 F32_from_int v) (v3_into_f32 F32_from_int w) = v3_eq Z.eqb v w).
Proof.
  intros E.
  assert (K : forall m n, -32768 <= m <= 65535 -> -32768 <= n <= 65535 -> feq (F32_from_int m) (F32_from_int n) = (m =? n)).
  { intros m n M N. unfold F32_from_int. destruct (f32_of_Z_exact m ltac:(lia)) as [Fm Vm]. destruct (f32_of_Z_exact n ltac:(lia)) as [Fn Vn].
    rewrite feq_R by assumption. rewrite Vm, Vn. destruct (Z.eqb_spec m n) as [->|D].
    - apply Req_bool_true. reflexivity.
    - apply Req_bool_false. intros H. apply D. apply eq_IZR. exact H. }
  split; [|split].
  - intros [a b] [c d]. unfold v3_eq, v2_eq. cbn [v3_of_v2 v3x v3y v3z v2x v2y comp_f32 c_default]. rewrite (feq_refl_nn (f32_zero false) eq_refl), andb_true_r. reflexivity.
  - intros [a b] [c d] H. unfold v2_eq. cbn [v2_into_f32 v2x v2y] in *. rewrite !K by (apply H; cbn; tauto). reflexivity.
  - intros [a b c] [d e f] H. unfold v3_eq. cbn [v3_into_f32 v3x v3y v3z] in *. rewrite !K by (apply H; cbn; tauto). reflexivity.
Qed.

(** Equal, without zeros: identical.  Division by equal zeros tells them apart. *)
Lemma nonzero_same : (forall v w, v2_eq feq v w = true -> (val (v2x v) <> 0 \/ ~ fin (v2x v))%R -> (val (v2y v) <> 0 \/ ~ fin (v2y v))%R -> v = w) /\
  (forall v w, v3_eq feq v w = true -> (val (v3x v) <> 0 \/ ~ fin (v3x v))%R -> (val (v3y v) <> 0 \/ ~ fin (v3y v))%R -> (val (v3z v) <> 0 \/ ~ fin (v3z v))%R -> v = w).
Proof.
  assert (K : forall a b, num_eq a b -> (val a <> 0 \/ ~ fin a)%R -> a = b).
  { intros a b H N. apply num_eq_twin in H. destruct H as [[H _]|(s & t & -> & ->)]; [exact H|]. exfalso. destruct N as [N|N]; apply N; reflexivity. }
  split.
  - intros [a b] [c d] H A B. apply (proj1 f32_eq) in H. destruct H as [H1 H2]. cbn [v2x v2y] in *. rewrite (K _ _ H1 A), (K _ _ H2 B). reflexivity.
  - intros [a b c] [d e f] H A B C. apply (proj1 (proj2 f32_eq)) in H. destruct H as (H1 & H2 & H3). cbn [v3x v3y v3z] in *. rewrite (K _ _ H1 A), (K _ _ H2 B), (K _ _ H3 C). reflexivity.
Qed.

Lemma div_tells : forall {E : Env}, exists (v : Vector2d f32) k k' r r',
  feq k k' = true /\ @v2_div _ comp_f32 v k = Ok r /\ @v2_div _ comp_f32 v k' = Ok r' /\
  v = mkV2 F32_ONE F32_ONE /\ r = mkV2 F32_INFINITY F32_INFINITY /\ r' = mkV2 F32_NEG_INFINITY F32_NEG_INFINITY /\ v2_eq feq r r' = false.
Proof.
  intros E. exists (mkV2 F32_ONE F32_ONE), (f32_zero false), (f32_zero true), (mkV2 F32_INFINITY F32_INFINITY), (mkV2 F32_NEG_INFINITY F32_NEG_INFINITY).
  refine (conj _ (conj _ (conj _ (conj _ (conj _ (conj _ _)))))); reflexivity.
Qed.
