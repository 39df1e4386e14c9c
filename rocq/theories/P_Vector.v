(** * Proofs: vectors *)

From Coq Require Import ZArith Reals Bool List Lia Lra Psatz Permutation.
From Flocq Require Import Core IEEE754.BinarySingleNaN IEEE754.Binary IEEE754.Bits.
From Verif Require Import Base Spec Float Vector F32Lemmas BitLemmas P_Trunc P_Floor Literals ErrLemmas P_RoundEdge
  NanLemmas P_Euclid P_Roots P_InvSqrt P_Recip.
Import ListNotations.
Open Scope Z_scope.

(** ** Integer conversions *)

Lemma from_int_exact : forall n, -32768 <= n <= 65535 ->
  fin (F32_from_int n) /\ val (F32_from_int n) = IZR n.
Proof. intros n H. apply f32_of_Z_exact. lia. Qed.

Lemma from_int_order : forall m n, -32768 <= m <= 65535 -> -32768 <= n <= 65535 ->
  fle (F32_from_int m) (F32_from_int n) = (m <=? n) /\ (F32_from_int m = F32_from_int n -> m = n).
Proof.
  intros m n Hm Hn. destruct (from_int_exact m Hm) as [A B]. destruct (from_int_exact n Hn) as [C D].
  split.
  - rewrite fle_R by assumption. rewrite B, D. destruct (Z.leb_spec m n) as [L|L].
    + apply Rle_bool_true. apply IZR_le. assumption.
    + apply Rle_bool_false. apply IZR_lt. assumption.
  - intros H. apply eq_IZR. rewrite <- B, <- D, H. reflexivity.
Qed.

(** ** Sequences *)

Lemma v2_from_iter_spec : forall {C} (l : list C),
  (length l <> 2%nat -> v2_from_iter l = Panic) /\
  (length l = 2%nat -> exists v, v2_from_iter l = Ok v /\ v2_to_array v = l).
Proof.
  intros C l. split; intros H.
  - destruct l as [|a [|b [|c l]]]; try reflexivity. exfalso; apply H; reflexivity.
  - destruct l as [|a [|b [|c l]]]; try discriminate. exists (mkV2 a b). split; reflexivity.
Qed.

Lemma v3_from_iter_spec : forall {C} (l : list C),
  (length l <> 3%nat -> v3_from_iter l = Panic) /\
  (length l = 3%nat -> exists v, v3_from_iter l = Ok v /\ v3_to_array v = l).
Proof.
  intros C l. split; intros H.
  - destruct l as [|a [|b [|c [|d l]]]]; try reflexivity. exfalso; apply H; reflexivity.
  - destruct l as [|a [|b [|c [|d l]]]]; try discriminate. exists (mkV3 a b c). split; reflexivity.
Qed.

(** The iterator after [k] calls of [next]. *)
Fixpoint iter_after {V C} `{VectorT V C} (k : nat) (it : Iter V) : Iter V :=
  match k with O => it | S k => iter_after k (snd (iter_next it)) end.

Lemma iter_next_some : forall {V C} {T : VectorT V C} it c,
  vt_get (it_vector it) (it_position it) = Some c ->
  iter_next it = (Some c, mkIter (it_vector it) (it_position it + 1)).
Proof. intros V C T it c H. unfold iter_next. rewrite H. reflexivity. Qed.
Lemma iter_next_none : forall {V C} {T : VectorT V C} it,
  vt_get (it_vector it) (it_position it) = None -> iter_next it = (None, it).
Proof. intros V C T it H. unfold iter_next. rewrite H. reflexivity. Qed.

Lemma iter_stuck : forall {V C} {T : VectorT V C} it k,
  vt_get (it_vector it) (it_position it) = None -> iter_after k it = it.
Proof.
  intros V C T it k H. induction k as [|k IH]; [reflexivity|]. simpl. rewrite iter_next_none by assumption. exact IH.
Qed.

Lemma v2_iter_spec : forall {C} (v : Vector2d C) k,
  fst (iter_next (iter_after k (iter_new v))) = nth_error (v2_to_array v) k.
Proof.
  intros C v k. destruct k as [|[|k]]; try reflexivity.
  simpl. rewrite iter_stuck by reflexivity. destruct k; reflexivity.
Qed.
Lemma v3_iter_spec : forall {C} (v : Vector3d C) k,
  fst (iter_next (iter_after k (iter_new v))) = nth_error (v3_to_array v) k.
Proof.
  intros C v k. destruct k as [|[|[|k]]]; try reflexivity.
  simpl. rewrite iter_stuck by reflexivity. destruct k; reflexivity.
Qed.

Lemma v2_items : forall {C} (v : Vector2d C), vt_items v = v2_to_array v.
Proof. reflexivity. Qed.
Lemma v3_items : forall {C} (v : Vector3d C), vt_items v = v3_to_array v.
Proof. reflexivity. Qed.

Lemma v2_get_spec : forall {C} (v : Vector2d C) i, 0 <= i ->
  v2_get v i = nth_error (v2_to_array v) (Z.to_nat i) /\
  (forall c, v2_index v i = Ok c <-> v2_get v i = Some c) /\
  (v2_index v i = Panic <-> v2_get v i = None) /\ (v2_get v i = None <-> 2 <= i).
Proof.
  intros C v i Hi. unfold v2_get, v2_index.
  destruct (Z.eqb_spec i 0) as [->|N0]; [|destruct (Z.eqb_spec i 1) as [->|N1]].
  - repeat split; intros; try reflexivity; try discriminate; try congruence; lia.
  - repeat split; intros; try reflexivity; try discriminate; try congruence; lia.
  - split; [|repeat split; intros; try reflexivity; try discriminate; lia].
    symmetry. apply nth_error_None. change (length (v2_to_array v)) with 2%nat. lia.
Qed.
Lemma v3_get_spec : forall {C} (v : Vector3d C) i, 0 <= i ->
  v3_get v i = nth_error (v3_to_array v) (Z.to_nat i) /\
  (forall c, v3_index v i = Ok c <-> v3_get v i = Some c) /\
  (v3_index v i = Panic <-> v3_get v i = None) /\ (v3_get v i = None <-> 3 <= i).
Proof.
  intros C v i Hi. unfold v3_get, v3_index.
  destruct (Z.eqb_spec i 0) as [->|N0]; [|destruct (Z.eqb_spec i 1) as [->|N1];
    [|destruct (Z.eqb_spec i 2) as [->|N2]]].
  - repeat split; intros; try reflexivity; try discriminate; try congruence; lia.
  - repeat split; intros; try reflexivity; try discriminate; try congruence; lia.
  - repeat split; intros; try reflexivity; try discriminate; try congruence; lia.
  - split; [|repeat split; intros; try reflexivity; try discriminate; lia].
    symmetry. apply nth_error_None. change (length (v3_to_array v)) with 3%nat. lia.
Qed.

Lemma v2_map_spec : forall {C} (f : C -> C) (v : Vector2d C),
  vt_map f v = Ok (mkV2 (f (v2x v)) (f (v2y v))).
Proof. reflexivity. Qed.
Lemma v3_map_spec : forall {C} (f : C -> C) (v : Vector3d C),
  vt_map f v = Ok (mkV3 (f (v3x v)) (f (v3y v)) (f (v3z v))).
Proof. reflexivity. Qed.

(** ** Machine integer arithmetic *)

Lemma bits_pos : forall t, int_type t -> 0 < ity_bits t.
Proof. intros t H. repeat (destruct H as [<-|H]; [reflexivity|]). destruct H. Qed.

Lemma in_range_fits : forall t z, int_type t -> (in_range t z = true <-> fits t z).
Proof.
  intros t z H. unfold in_range, fits. rewrite andb_true_iff, !Z.leb_le. unfold ity_min, ity_max.
  destruct (ity_signed t); lia.
Qed.

Lemma wrap_wraps : forall t z, int_type t -> wraps_to t z (wrap t z).
Proof.
  intros t z H. pose proof (bits_pos t H) as B.
  assert (P : 2 ^ ity_bits t = 2 * 2 ^ (ity_bits t - 1)).
  { rewrite <- Z.pow_succ_r by lia. f_equal. lia. }
  assert (P0 : 0 < 2 ^ (ity_bits t - 1)) by (apply Z.pow_pos_nonneg; lia).
  unfold wraps_to, wrap. split.
  - pose proof (Z.mod_pos_bound (z - ity_min t) (2 ^ ity_bits t) ltac:(lia)) as M.
    unfold fits. unfold ity_min in *. destruct (ity_signed t); lia.
  - exists (- ((z - ity_min t) / 2 ^ ity_bits t)).
    pose proof (Z.div_mod (z - ity_min t) (2 ^ ity_bits t) ltac:(lia)). lia.
Qed.

Lemma wraps_unique : forall t z w w', int_type t -> wraps_to t z w -> wraps_to t z w' -> w = w'.
Proof.
  intros t z w w' H [F [k K]] [F' [k' K']]. pose proof (bits_pos t H) as B.
  assert (P : 2 ^ ity_bits t = 2 * 2 ^ (ity_bits t - 1)).
  { rewrite <- Z.pow_succ_r by lia. f_equal. lia. }
  assert (P0 : 0 < 2 ^ (ity_bits t - 1)) by (apply Z.pow_pos_nonneg; lia).
  unfold fits in *. assert (k = k') by (destruct (ity_signed t); nia). lia.
Qed.

Lemma wraps_fits : forall t z, int_type t -> fits t z -> wrap t z = z.
Proof.
  intros t z H F. apply (wraps_unique t z); trivial; [apply wrap_wraps; assumption|].
  split; [assumption|]. exists 0. lia.
Qed.

Lemma arith_machine : forall {E : Env} t z, int_type t -> machine t z (arith t z).
Proof.
  intros E t z H. unfold machine, arith. pose proof (in_range_fits t z H) as I. split; intros F.
  - apply I in F. rewrite F. reflexivity.
  - destruct (in_range t z); [exfalso; apply F, I; reflexivity|].
    destruct overflow_checks; [reflexivity|]. eexists. split; [reflexivity|]. apply wrap_wraps. assumption.
Qed.

(** Whatever the mode, a returned value fits and is congruent to the exact one;
    with overflow checks it is the exact one. *)
Lemma arith_ok_inv : forall {E : Env} t z w, int_type t -> arith t z = Ok w ->
  wraps_to t z w /\ (overflow_checks = true -> w = z /\ fits t z).
Proof.
  intros E t z w H A. unfold arith in A. pose proof (in_range_fits t z H) as I.
  destruct (in_range t z).
  - inversion A; subst w. assert (F : fits t z) by (apply I; reflexivity).
    split; [split; [assumption|exists 0; lia]|]. intros _. split; [reflexivity|assumption].
  - destruct overflow_checks; [discriminate|]. inversion A; subst w.
    split; [apply wrap_wraps; assumption|discriminate].
Qed.

Lemma arith_total : forall {E : Env} t z, overflow_checks = false -> exists w, arith t z = Ok w.
Proof. intros E t z H. unfold arith. rewrite H. destruct (in_range t z); eexists; reflexivity. Qed.

Lemma arith_wrap : forall {E : Env} t z, int_type t -> overflow_checks = false -> arith t z = Ok (wrap t z).
Proof.
  intros E t z T H. unfold arith. rewrite H. destruct (in_range t z) eqn:I; [|reflexivity].
  rewrite wraps_fits; trivial. apply in_range_fits; assumption.
Qed.

(** Panics of sequenced operations. *)
Lemma bind_ok : forall {A B} (a : res A) (f : A -> res B) r, bind a f = Ok r <-> exists x, a = Ok x /\ f x = Ok r.
Proof.
  intros A B a f r. split.
  - destruct a; simpl; try discriminate. eauto.
  - intros (x & -> & H). exact H.
Qed.

Lemma arith_nofuel : forall {E : Env} t z, arith t z <> NoFuel.
Proof. intros E t z. unfold arith. destruct (in_range t z), overflow_checks; discriminate. Qed.

Lemma fits_dec : forall t z, {fits t z} + {~ fits t z}.
Proof.
  intros t z. unfold fits. destruct (ity_signed t).
  - destruct (Z_le_dec (- 2 ^ (ity_bits t - 1)) z), (Z_lt_dec z (2 ^ (ity_bits t - 1))); [left; lia|right; lia..].
  - destruct (Z_le_dec 0 z), (Z_lt_dec z (2 ^ ity_bits t)); [left; lia|right; lia..].
Qed.

Lemma fits_wraps : forall t z, fits t z -> wraps_to t z z.
Proof. intros t z H. split; [assumption|exists 0; lia]. Qed.

Definition res_map {A B} (f : A -> B) (r : res A) : res B := a <- r ;; Ok (f a).

Lemma pair_machine : forall {E : Env} t a b, int_type t ->
  all_machine t [a; b] (res_map v2_to_array (x <- arith t a ;; y <- arith t b ;; Ok (mkV2 x y))).
Proof.
  intros E t a b T. destruct (arith_machine t a T) as [A1 A2]. destruct (arith_machine t b T) as [B1 B2].
  split.
  - intros F. inversion F; subst. inversion H2; subst. rewrite A1, B1 by assumption. reflexivity.
  - intros N. destruct (fits_dec t a) as [Fa|Fa].
    + rewrite (A1 Fa). simpl. destruct (fits_dec t b) as [Fb|Fb].
      { exfalso. apply N. repeat constructor; assumption. }
      specialize (B2 Fb). destruct overflow_checks.
      * rewrite B2. reflexivity.
      * destruct B2 as (w & -> & W). exists [a; w]. split; [reflexivity|].
        repeat apply Forall2_cons; trivial. apply fits_wraps; assumption.
    + specialize (A2 Fa). destruct overflow_checks eqn:O.
      * rewrite A2. reflexivity.
      * destruct A2 as (w & -> & W). simpl. rewrite (arith_wrap t b T O). exists [w; wrap t b].
        split; [reflexivity|]. repeat apply Forall2_cons; trivial. apply wrap_wraps; assumption.
Qed.

Lemma triple_machine : forall {E : Env} t a b c, int_type t ->
  all_machine t [a; b; c]
    (res_map v3_to_array (x <- arith t a ;; y <- arith t b ;; z <- arith t c ;; Ok (mkV3 x y z))).
Proof.
  intros E t a b c T. destruct (arith_machine t a T) as [A1 A2]. destruct (arith_machine t b T) as [B1 B2].
  destruct (arith_machine t c T) as [C1 C2]. split.
  - intros F. inversion F; subst. inversion H2; subst. inversion H4; subst. rewrite A1, B1, C1 by assumption. reflexivity.
  - intros N. destruct overflow_checks eqn:O.
    + destruct (fits_dec t a) as [Fa|Fa]; [|rewrite (A2 Fa); reflexivity]. rewrite (A1 Fa). simpl.
      destruct (fits_dec t b) as [Fb|Fb]; [|rewrite (B2 Fb); reflexivity]. rewrite (B1 Fb). simpl.
      destruct (fits_dec t c) as [Fc|Fc]; [|rewrite (C2 Fc); reflexivity].
      exfalso. apply N. repeat constructor; assumption.
    + rewrite !(arith_wrap t _ T O). simpl. eexists. split; [reflexivity|].
      repeat apply Forall2_cons; try apply Forall2_nil; apply wrap_wraps; assumption.
Qed.

(** ** C60: division *)

Lemma int_div_spec : forall t a c, int_type t -> fits t a -> fits t c ->
  (int_div t a c = Panic <-> c = 0 \/ (ity_signed t = true /\ a = - 2 ^ (ity_bits t - 1) /\ c = -1)) /\
  (c <> 0 -> int_div t a c <> Panic -> int_div t a c = Ok (Z.quot a c)).
Proof.
  intros t a c T Fa Fc. pose proof (bits_pos t T) as B.
  assert (P0 : 0 < 2 ^ (ity_bits t - 1)) by (apply Z.pow_pos_nonneg; lia).
  assert (P : 2 ^ ity_bits t = 2 * 2 ^ (ity_bits t - 1)).
  { rewrite <- Z.pow_succ_r by lia. f_equal. lia. }
  unfold int_div. destruct (Z.eqb_spec c 0) as [->|N].
  { split; [|congruence]. split; [left; reflexivity|reflexivity]. }
  pose proof (in_range_fits t (Z.quot a c) T) as I.
  assert (Q : fits t (Z.quot a c) <-> ~ (ity_signed t = true /\ a = - 2 ^ (ity_bits t - 1) /\ c = -1)).
  { unfold fits in *. set (K := 2 ^ (ity_bits t - 1)) in *. rewrite P in *. clearbody K. destruct (ity_signed t).
    - assert (A : Z.abs (Z.quot a c) <= Z.abs a) by (rewrite <- Z.quot_abs by assumption; apply Z.quot_le_upper_bound; nia).
      destruct (Z.eq_dec c (-1)) as [->|M].
      + replace (Z.quot a (-1)) with (- a) by (change (-1) with (- (1)); rewrite Z.quot_opp_r, Z.quot_1_r by lia; reflexivity). lia.
      + split; [intros _; lia|]. intros _.
        assert (Z.quot a c <> K); [|lia].
        intros C. assert (Z.abs (Z.quot a c) * Z.abs c <= Z.abs a).
        { rewrite <- Z.abs_mul. pose proof (Z.quot_rem a c N). pose proof (Z.rem_sign_nz a c N).
          pose proof (Z.rem_bound_abs a c N). nia. }
        assert (2 <= Z.abs c \/ c = 1) by lia. destruct H0 as [H0|H0].
        * rewrite C in H. nia.
        * subst c. rewrite Z.quot_1_r in C. lia.
    - split; [intros _ [C _]; discriminate|]. intros _. split.
      + apply Z.quot_pos; lia.
      + apply Z.le_lt_trans with a; [|lia]. apply Z.quot_le_upper_bound; nia. }
  split.
  - split.
    + destruct (in_range t (Z.quot a c)) eqn:R; [discriminate|]. intros _. right.
      destruct (ity_signed t) eqn:S; [|exfalso].
      * destruct (Z.eq_dec c (-1)) as [->|M]; [destruct (Z.eq_dec a (- 2 ^ (ity_bits t - 1))) as [->|M]|];
          try (split; [reflexivity|split; reflexivity]);
          exfalso; assert (false = true) by (apply I, Q; intros (_ & ? & ?); congruence); discriminate.
      * assert (false = true) by (apply I, Q; intros (? & _); discriminate). discriminate.
    + intros [C|C]; [congruence|]. destruct (in_range t (Z.quot a c)) eqn:R; [|reflexivity].
      exfalso. apply I in R || idtac. apply Q in C; [assumption|]. apply I. reflexivity.
  - intros _. destruct (in_range t (Z.quot a c)); [reflexivity|congruence].
Qed.
