(** * Proofs: dot, cross and sum of integer vectors *)

From Coq Require Import ZArith Bool List Lia Setoid Morphisms Permutation.
From Verif Require Import Base Spec Float Vector P_Vector.
Import ListNotations.
Open Scope Z_scope.

(** Congruence modulo N. *)
Definition eqm (N a b : Z) : Prop := exists k, a = b + k * N.
#[local] Instance eqm_equiv N : Equivalence (eqm N).
Proof.
  split.
  - intros a. exists 0. ring.
  - intros a b [k ->]. exists (- k). ring.
  - intros a b c [k ->] [l ->]. exists (k + l). ring.
Qed.
#[local] Instance eqm_add N : Proper (eqm N ==> eqm N ==> eqm N) Z.add.
Proof. intros a b [k ->] c d [l ->]. exists (k + l). ring. Qed.
#[local] Instance eqm_sub N : Proper (eqm N ==> eqm N ==> eqm N) Z.sub.
Proof. intros a b [k ->] c d [l ->]. exists (k - l). ring. Qed.
#[local] Instance eqm_mul N : Proper (eqm N ==> eqm N ==> eqm N) Z.mul.
Proof. intros a b [k ->] c d [l ->]. exists (b * l + k * d + k * l * N). ring. Qed.
#[local] Instance eqm_opp N : Proper (eqm N ==> eqm N) Z.opp.
Proof. intros a b [k ->]. exists (- k). ring. Qed.
Lemma eqm_eq : forall N a b, a = b -> eqm N a b.
Proof. intros N a b ->. reflexivity. Qed.

Lemma eqm_of_wraps : forall t z w, int_type t -> wraps_to t z w -> fits t w /\ eqm (2 ^ ity_bits t) w z.
Proof. intros t z w T H. exact H. Qed.
Lemma wraps_of_eqm : forall t z w, int_type t -> fits t w /\ eqm (2 ^ ity_bits t) w z -> wraps_to t z w.
Proof. intros t z w T H. exact H. Qed.

Lemma arith_eqm : forall {E : Env} t z w, int_type t -> arith t z = Ok w -> fits t w /\ eqm (2 ^ ity_bits t) w z.
Proof. intros E t z w T H. apply eqm_of_wraps; [assumption|]. apply (arith_ok_inv t z w T H). Qed.

Lemma arith_checked : forall {E : Env} t z w, int_type t -> overflow_checks = true ->
  (arith t z = Ok w <-> fits t z /\ w = z).
Proof.
  intros E t z w T O. split.
  - intros H. destruct (arith_ok_inv t z w T H) as [_ X]. destruct (X O). auto.
  - intros [F ->]. apply arith_machine; assumption.
Qed.

Ltac okinv :=
  repeat match goal with
  | H : bind _ _ = Ok _ |- _ => apply bind_ok in H; destruct H as (? & ? & H)
  end.

Ltac okstep := apply bind_ok; eexists; split;
  [apply arith_checked; [assumption..|split; [|reflexivity]; assumption]|].

(** Everything an integer operation returns is congruent to the exact value. *)
Ltac congr T :=
  okinv;
  repeat match goal with
  | H : arith _ _ = Ok _ |- _ => apply (arith_eqm _ _ _ T) in H; destruct H as [? H]
  end.

Lemma v2_dot_eqm : forall {E : Env} t v w d, int_type t -> v2_dot (H := comp_int t) v w = Ok d ->
  wraps_to t (v2x v * v2x w + v2y v * v2y w) d.
Proof.
  intros E t v w d T H. apply wraps_of_eqm; [assumption|]. unfold v2_dot, comp_int, c_mul, c_add in H. congr T.
  split; [assumption|]. rewrite H, H0, H1. reflexivity.
Qed.

Lemma v3_dot_eqm : forall {E : Env} t v w d, int_type t -> v3_dot (H := comp_int t) v w = Ok d ->
  wraps_to t (v3x v * v3x w + v3y v * v3y w + v3z v * v3z w) d.
Proof.
  intros E t v w d T H. apply wraps_of_eqm; [assumption|]. unfold v3_dot, comp_int, c_mul, c_add in H. congr T.
  split; [assumption|]. rewrite H, H2, H3, H0, H1. reflexivity.
Qed.

Lemma v2_dot_checked : forall {E : Env} t v w d, int_type t -> overflow_checks = true ->
  (v2_dot (H := comp_int t) v w = Ok d <->
   fits t (v2x v * v2x w) /\ fits t (v2y v * v2y w) /\ fits t (v2x v * v2x w + v2y v * v2y w) /\
   d = v2x v * v2x w + v2y v * v2y w).
Proof.
  intros E t v w d T O. unfold v2_dot, comp_int, c_mul, c_add. split.
  - intros H. okinv. rewrite arith_checked in * by assumption. intuition (subst; assumption || reflexivity).
  - intros (A & B & C & ->). do 2 okstep.
    apply arith_checked; auto.
Qed.

Lemma v3_dot_checked : forall {E : Env} t v w d, int_type t -> overflow_checks = true ->
  (v3_dot (H := comp_int t) v w = Ok d <->
   fits t (v3x v * v3x w) /\ fits t (v3y v * v3y w) /\ fits t (v3z v * v3z w) /\
   fits t (v3x v * v3x w + v3y v * v3y w) /\
   fits t (v3x v * v3x w + v3y v * v3y w + v3z v * v3z w) /\
   d = v3x v * v3x w + v3y v * v3y w + v3z v * v3z w).
Proof.
  intros E t v w d T O. unfold v3_dot, comp_int, c_mul, c_add. split.
  - intros H. okinv. rewrite arith_checked in * by assumption. intuition (subst; assumption || reflexivity).
  - intros (A & B & C & D & F & ->).
    do 4 okstep.
    apply arith_checked; auto.
Qed.

Lemma v2_dot_comm : forall {E : Env} t v w, v2_dot (H := comp_int t) v w = v2_dot (H := comp_int t) w v.
Proof.
  intros E t v w. unfold v2_dot, comp_int, c_mul, c_add.
  rewrite (Z.mul_comm (v2x v)), (Z.mul_comm (v2y v)). reflexivity.
Qed.
Lemma v3_dot_comm : forall {E : Env} t v w, v3_dot (H := comp_int t) v w = v3_dot (H := comp_int t) w v.
Proof.
  intros E t v w. unfold v3_dot, comp_int, c_mul, c_add.
  rewrite (Z.mul_comm (v3x v)), (Z.mul_comm (v3y v)), (Z.mul_comm (v3z v)). reflexivity.
Qed.

Ltac rel_total T O :=
  repeat (rewrite (arith_wrap _ _ T O); try (unfold bind at 1; cbv beta iota)); eexists; reflexivity.

Lemma v2_dot_release : forall {E : Env} t v w, int_type t -> overflow_checks = false ->
  exists d, v2_dot (H := comp_int t) v w = Ok d.
Proof.
  intros E t v w T O. unfold v2_dot, comp_int, c_mul, c_add.
  rel_total T O.
Qed.
Lemma v3_dot_release : forall {E : Env} t v w, int_type t -> overflow_checks = false ->
  exists d, v3_dot (H := comp_int t) v w = Ok d.
Proof.
  intros E t v w T O. unfold v3_dot, comp_int, c_mul, c_add.
  rel_total T O.
Qed.

(** Bilinearity modulo 2^bits. *)
Lemma v3_dot_linear : forall {E : Env} t u v w uv d1 d2 d12, int_type t ->
  v3_add (H := comp_int t) u v = Ok uv ->
  v3_dot (H := comp_int t) u w = Ok d1 -> v3_dot (H := comp_int t) v w = Ok d2 ->
  v3_dot (H := comp_int t) uv w = Ok d12 -> wraps_to t (d1 + d2) d12.
Proof.
  intros E t u v w uv d1 d2 d12 T A D1 D2 D12.
  apply v3_dot_eqm in D1; [|assumption]. apply v3_dot_eqm in D2; [|assumption].
  apply v3_dot_eqm in D12; [|assumption].
  apply eqm_of_wraps in D1, D2, D12; try assumption. destruct D1 as [_ D1], D2 as [_ D2], D12 as [F D12].
  apply wraps_of_eqm; [assumption|]. split; [assumption|]. rewrite D12, D1, D2.
  unfold v3_add, comp_int, c_add in A. congr T. injection A as <-. simpl v3x. simpl v3y. simpl v3z.
  rewrite H, H0, H1. apply eqm_eq. ring.
Qed.
Lemma v2_dot_linear : forall {E : Env} t u v w uv d1 d2 d12, int_type t ->
  v2_add (H := comp_int t) u v = Ok uv ->
  v2_dot (H := comp_int t) u w = Ok d1 -> v2_dot (H := comp_int t) v w = Ok d2 ->
  v2_dot (H := comp_int t) uv w = Ok d12 -> wraps_to t (d1 + d2) d12.
Proof.
  intros E t u v w uv d1 d2 d12 T A D1 D2 D12.
  apply v2_dot_eqm in D1; [|assumption]. apply v2_dot_eqm in D2; [|assumption].
  apply v2_dot_eqm in D12; [|assumption].
  apply eqm_of_wraps in D1, D2, D12; try assumption. destruct D1 as [_ D1], D2 as [_ D2], D12 as [F D12].
  apply wraps_of_eqm; [assumption|]. split; [assumption|]. rewrite D12, D1, D2.
  unfold v2_add, comp_int, c_add in A. congr T. injection A as <-. simpl v2x. simpl v2y.
  rewrite H, H0. apply eqm_eq. ring.
Qed.

(** ** cross *)

Lemma v3_cross_eqm : forall {E : Env} t v w c, int_type t -> v3_cross (H := comp_int t) v w = Ok c ->
  wraps_to t (v3y v * v3z w - v3z v * v3y w) (v3x c) /\
  wraps_to t (v3z v * v3x w - v3x v * v3z w) (v3y c) /\
  wraps_to t (v3x v * v3y w - v3y v * v3x w) (v3z c).
Proof.
  intros E t v w c T H. unfold v3_cross, comp_int, c_mul, c_sub in H. congr T. injection H as <-.
  simpl v3x. simpl v3y. simpl v3z.
  split; [|split]; (apply wraps_of_eqm; [assumption|split; [assumption|]]).
  - rewrite H2, H0, H1. reflexivity.
  - rewrite H5, H3, H4. reflexivity.
  - rewrite H8, H6, H7. reflexivity.
Qed.

Lemma v3_cross_checked : forall {E : Env} t v w c, int_type t -> overflow_checks = true ->
  (v3_cross (H := comp_int t) v w = Ok c <->
   Forall (fits t) [v3y v * v3z w; v3z v * v3y w; v3y v * v3z w - v3z v * v3y w;
                    v3z v * v3x w; v3x v * v3z w; v3z v * v3x w - v3x v * v3z w;
                    v3x v * v3y w; v3y v * v3x w; v3x v * v3y w - v3y v * v3x w] /\
   c = mkV3 (v3y v * v3z w - v3z v * v3y w) (v3z v * v3x w - v3x v * v3z w)
            (v3x v * v3y w - v3y v * v3x w)).
Proof.
  intros E t v w c T O. unfold v3_cross, comp_int, c_mul, c_sub. split.
  - intros H. okinv. rewrite arith_checked in * by assumption. injection H as <-.
    repeat match goal with X : _ /\ _ |- _ => destruct X end. subst. split; [|reflexivity].
    repeat (apply Forall_cons; [assumption|]). apply Forall_nil.
  - intros (A & ->). repeat match goal with X : Forall _ (_ :: _) |- _ => inversion X; clear X; subst end.
    do 9 okstep.
    reflexivity.
Qed.

Lemma v3_cross_release : forall {E : Env} t v w, int_type t -> overflow_checks = false ->
  exists c, v3_cross (H := comp_int t) v w = Ok c.
Proof.
  intros E t v w T O. unfold v3_cross, comp_int, c_mul, c_sub.
  rel_total T O.
Qed.

Lemma fits_0 : forall t, int_type t -> fits t 0.
Proof.
  intros t H. repeat (destruct H as [<-|H]; [unfold fits; cbn; lia|]). destruct H.
Qed.
Lemma eqm_0 : forall t d, int_type t -> fits t d -> eqm (2 ^ ity_bits t) d 0 -> d = 0.
Proof.
  intros t d T F H. apply (wraps_unique t 0); [assumption| |].
  - apply wraps_of_eqm; auto.
  - apply fits_wraps. apply fits_0. assumption.
Qed.

(** Anticommutativity, modulo 2^bits. *)
Lemma v3_cross_anti : forall {E : Env} t v w c c', int_type t ->
  v3_cross (H := comp_int t) v w = Ok c -> v3_cross (H := comp_int t) w v = Ok c' ->
  wraps_to t (- v3x c') (v3x c) /\ wraps_to t (- v3y c') (v3y c) /\ wraps_to t (- v3z c') (v3z c).
Proof.
  intros E t v w c c' T H H'. apply v3_cross_eqm in H, H'; try assumption.
  destruct H as (A & B & C), H' as (A' & B' & C').
  apply eqm_of_wraps in A, B, C, A', B', C'; try assumption.
  destruct A as [FA A], B as [FB B], C as [FC C], A' as [_ A'], B' as [_ B'], C' as [_ C'].
  split; [|split]; (apply wraps_of_eqm; [assumption|split; [assumption|]]).
  - rewrite A, A'. apply eqm_eq. ring.
  - rewrite B, B'. apply eqm_eq. ring.
  - rewrite C, C'. apply eqm_eq. ring.
Qed.

Lemma v3_cross_self : forall {E : Env} t v c, int_type t ->
  v3_cross (H := comp_int t) v v = Ok c -> c = mkV3 0 0 0.
Proof.
  intros E t v c T H. apply v3_cross_eqm in H; [|assumption]. destruct H as (A & B & C).
  apply eqm_of_wraps in A, B, C; try assumption. destruct A as [FA A], B as [FB B], C as [FC C].
  destruct c as [x y z]. cbn [v3x v3y v3z] in *.
  f_equal; apply (eqm_0 t); trivial.
  - rewrite A. apply eqm_eq. ring.
  - rewrite B. apply eqm_eq. ring.
  - rewrite C. apply eqm_eq. ring.
Qed.

Lemma v3_cross_orth : forall {E : Env} t v w c d, int_type t ->
  v3_cross (H := comp_int t) v w = Ok c ->
  (v3_dot (H := comp_int t) v c = Ok d -> d = 0) /\ (v3_dot (H := comp_int t) w c = Ok d -> d = 0).
Proof.
  intros E t v w c d T H. apply v3_cross_eqm in H; [|assumption]. destruct H as (A & B & C).
  apply eqm_of_wraps in A, B, C; try assumption. destruct A as [FA A], B as [FB B], C as [FC C].
  split; intros D; apply v3_dot_eqm in D; try assumption; apply eqm_of_wraps in D; try assumption;
    destruct D as [FD D]; apply (eqm_0 t); trivial; rewrite D, A, B, C; apply eqm_eq; ring.
Qed.

(** Lagrange's identity, modulo 2^bits. *)
Lemma v3_lagrange : forall {E : Env} t v w c vv ww vw cc, int_type t ->
  v3_cross (H := comp_int t) v w = Ok c ->
  v3_dot (H := comp_int t) v v = Ok vv -> v3_dot (H := comp_int t) w w = Ok ww ->
  v3_dot (H := comp_int t) v w = Ok vw -> v3_dot (H := comp_int t) c c = Ok cc ->
  wraps_to t (vv * ww - vw * vw) cc.
Proof.
  intros E t v w c vv ww vw cc T H A1 A2 A3 A4. apply v3_cross_eqm in H; [|assumption]. destruct H as (A & B & C).
  apply eqm_of_wraps in A, B, C; try assumption. destruct A as [FA A], B as [FB B], C as [FC C].
  apply v3_dot_eqm in A1, A2, A3, A4; try assumption.
  apply eqm_of_wraps in A1, A2, A3, A4; try assumption.
  destruct A1 as [_ A1], A2 as [_ A2], A3 as [_ A3], A4 as [F A4].
  apply wraps_of_eqm; [assumption|]. split; [assumption|].
  rewrite A4, A, B, C, A1, A2, A3. apply eqm_eq. ring.
Qed.

(** ** perpendicular dot *)

Lemma arith_0 : forall {E : Env} t, int_type t -> arith t 0 = Ok 0.
Proof. intros E t T. apply arith_machine; [assumption|]. apply fits_0. assumption. Qed.

Lemma v2_cross_int : forall {E : Env} t v w, int_type t ->
  v2_cross (H := comp_int t) v w = res_map (fun d => mkV3 0 0 d) (v2_perpendicular_dot (H := comp_int t) v w).
Proof.
  intros E t v w T.
  unfold v2_cross, v3_mul, v3_cross, v2_perpendicular_dot, v3_of_v2, res_map, comp_int, c_mul, c_sub, c_default.
  cbn [v3x v3y v3z]. rewrite !Z.mul_0_r, !Z.mul_0_l.
  rewrite !(arith_0 t T). unfold bind at 1 2 3 4 5 6. change (0 - 0) with 0. rewrite !(arith_0 t T).
  cbv beta iota delta [bind].
  destruct (arith t (v2x v * v2y w)); trivial. destruct (arith t (v2y v * v2x w)); trivial.
Qed.

Lemma v2_perp_eqm : forall {E : Env} t v w d, int_type t -> v2_perpendicular_dot (H := comp_int t) v w = Ok d ->
  wraps_to t (v2x v * v2y w - v2y v * v2x w) d.
Proof.
  intros E t v w d T H. apply wraps_of_eqm; [assumption|].
  unfold v2_perpendicular_dot, comp_int, c_mul, c_sub in H. congr T.
  split; [assumption|]. rewrite H, H0, H1. reflexivity.
Qed.
Lemma v2_perp_checked : forall {E : Env} t v w d, int_type t -> overflow_checks = true ->
  (v2_perpendicular_dot (H := comp_int t) v w = Ok d <->
   fits t (v2x v * v2y w) /\ fits t (v2y v * v2x w) /\ fits t (v2x v * v2y w - v2y v * v2x w) /\
   d = v2x v * v2y w - v2y v * v2x w).
Proof.
  intros E t v w d T O. unfold v2_perpendicular_dot, comp_int, c_mul, c_sub. split.
  - intros H. okinv. rewrite arith_checked in * by assumption. intuition (subst; assumption || reflexivity).
  - intros (A & B & C & ->). do 2 okstep.
    apply arith_checked; auto.
Qed.

(** ** sums *)

Lemma foldM_v3 : forall {E : Env} t l a s, int_type t -> fits t (v3x a) -> fits t (v3y a) -> fits t (v3z a) ->
  foldM (v3_add (H := comp_int t)) l a = Ok s ->
  wraps_to t (v3x a + zsum (map v3x l)) (v3x s) /\
  wraps_to t (v3y a + zsum (map v3y l)) (v3y s) /\
  wraps_to t (v3z a + zsum (map v3z l)) (v3z s).
Proof.
  intros E t l. induction l as [|v l IH]; intros a s T Fx Fy Fz H.
  - injection H as <-. unfold zsum. simpl. rewrite !Z.add_0_r. repeat split; trivial; exists 0; lia.
  - simpl in H. apply bind_ok in H. destruct H as (a' & A & H).
    unfold v3_add, comp_int, c_add in A. congr T. injection A as <-.
    apply IH in H; trivial. cbn [v3x v3y v3z] in H. destruct H as (X & Y & Z).
    apply eqm_of_wraps in X, Y, Z; try assumption. destruct X as [? X], Y as [? Y], Z as [? Z].
    split; [|split]; (apply wraps_of_eqm; [assumption|split; [assumption|]]).
    + rewrite X, H0. apply eqm_eq. unfold zsum. simpl. ring.
    + rewrite Y, H1. apply eqm_eq. unfold zsum. simpl. ring.
    + rewrite Z, H2. apply eqm_eq. unfold zsum. simpl. ring.
Qed.
Lemma foldM_v2 : forall {E : Env} t l a s, int_type t -> fits t (v2x a) -> fits t (v2y a) ->
  foldM (v2_add (H := comp_int t)) l a = Ok s ->
  wraps_to t (v2x a + zsum (map v2x l)) (v2x s) /\
  wraps_to t (v2y a + zsum (map v2y l)) (v2y s).
Proof.
  intros E t l. induction l as [|v l IH]; intros a s T Fx Fy H.
  - injection H as <-. unfold zsum. simpl. rewrite !Z.add_0_r. repeat split; trivial; exists 0; lia.
  - simpl in H. apply bind_ok in H. destruct H as (a' & A & H).
    unfold v2_add, comp_int, c_add in A. congr T. injection A as <-.
    apply IH in H; trivial. cbn [v2x v2y] in H. destruct H as (X & Y).
    apply eqm_of_wraps in X, Y; try assumption. destruct X as [? X], Y as [? Y].
    split; (apply wraps_of_eqm; [assumption|split; [assumption|]]).
    + rewrite X, H0. apply eqm_eq. unfold zsum. simpl. ring.
    + rewrite Y, H1. apply eqm_eq. unfold zsum. simpl. ring.
Qed.

Lemma v3_sum_eqm : forall {E : Env} t l s, int_type t -> v3_sum (H := comp_int t) l = Ok s ->
  wraps_to t (zsum (map v3x l)) (v3x s) /\ wraps_to t (zsum (map v3y l)) (v3y s) /\
  wraps_to t (zsum (map v3z l)) (v3z s).
Proof. intros E t l s T H. apply (foldM_v3 t l (mkV3 0 0 0)); trivial; apply fits_0; assumption. Qed.
Lemma v2_sum_eqm : forall {E : Env} t l s, int_type t -> v2_sum (H := comp_int t) l = Ok s ->
  wraps_to t (zsum (map v2x l)) (v2x s) /\ wraps_to t (zsum (map v2y l)) (v2y s).
Proof. intros E t l s T H. apply (foldM_v2 t l (mkV2 0 0)); trivial; apply fits_0; assumption. Qed.

(** With overflow checks: the sum is returned iff every prefix sum of every
    component fits, and it is exact. *)
Lemma foldM_v3_checked : forall {E : Env} t l a s, int_type t -> overflow_checks = true ->
  (foldM (v3_add (H := comp_int t)) l a = Ok s <->
   (forall k, (0 < k <= length l)%nat ->
      fits t (v3x a + zsum (firstn k (map v3x l))) /\ fits t (v3y a + zsum (firstn k (map v3y l))) /\
      fits t (v3z a + zsum (firstn k (map v3z l)))) /\
   s = mkV3 (v3x a + zsum (map v3x l)) (v3y a + zsum (map v3y l)) (v3z a + zsum (map v3z l))).
Proof.
  intros E t l. induction l as [|v l IH]; intros a s T O.
  - unfold zsum. simpl. rewrite !Z.add_0_r. split.
    + intros H. injection H as <-. split; [intros k K; lia|]. destruct a; reflexivity.
    + intros [_ ->]. destruct a; reflexivity.
  - simpl foldM. rewrite bind_ok. split.
    + intros (a' & A & H). apply IH in H; trivial. destruct H as [P ->].
      unfold v3_add, comp_int, c_add in A. okinv. rewrite arith_checked in * by assumption.
      injection A as <-. destruct H as [F0 ->], H0 as [F1 ->], H1 as [F2 ->]. cbn [v3x v3y v3z] in *.
      split.
      * intros k K. destruct k as [|k]; [lia|]. destruct k as [|k].
        { simpl. unfold zsum. simpl. rewrite !Z.add_0_r. auto. }
        specialize (P (S k) ltac:(simpl in K; lia)). unfold zsum in *.
        change (firstn (S (S k)) (map ?f (v :: l))) with (f v :: firstn (S k) (map f l)).
        cbn [map firstn fold_right] in *. rewrite !Z.add_assoc in *. exact P.
      * unfold zsum. cbn [map fold_right]. rewrite !Z.add_assoc. reflexivity.
    + intros [P ->]. exists (mkV3 (v3x a + v3x v) (v3y a + v3y v) (v3z a + v3z v)). split.
      * specialize (P 1%nat ltac:(simpl; lia)). unfold zsum in P. cbn [map firstn fold_right] in P.
        rewrite !Z.add_0_r in P. destruct P as (F0 & F1 & F2).
        unfold v3_add, comp_int, c_add.
        do 3 okstep.
        reflexivity.
      * apply IH; trivial. cbn [v3x v3y v3z]. split.
        { intros k K. specialize (P (S k) ltac:(simpl; lia)). unfold zsum in *.
          cbn [map firstn fold_right] in P. rewrite !Z.add_assoc in P. exact P. }
        unfold zsum. cbn [map fold_right]. rewrite !Z.add_assoc. reflexivity.
Qed.
Lemma foldM_v2_checked : forall {E : Env} t l a s, int_type t -> overflow_checks = true ->
  (foldM (v2_add (H := comp_int t)) l a = Ok s <->
   (forall k, (0 < k <= length l)%nat ->
      fits t (v2x a + zsum (firstn k (map v2x l))) /\ fits t (v2y a + zsum (firstn k (map v2y l)))) /\
   s = mkV2 (v2x a + zsum (map v2x l)) (v2y a + zsum (map v2y l))).
Proof.
  intros E t l. induction l as [|v l IH]; intros a s T O.
  - unfold zsum. simpl. rewrite !Z.add_0_r. split.
    + intros H. injection H as <-. split; [intros k K; lia|]. destruct a; reflexivity.
    + intros [_ ->]. destruct a; reflexivity.
  - simpl foldM. rewrite bind_ok. split.
    + intros (a' & A & H). apply IH in H; trivial. destruct H as [P ->].
      unfold v2_add, comp_int, c_add in A. okinv. rewrite arith_checked in * by assumption.
      injection A as <-. destruct H as [F0 ->], H0 as [F1 ->]. cbn [v2x v2y] in *.
      split.
      * intros k K. destruct k as [|k]; [lia|]. destruct k as [|k].
        { simpl. unfold zsum. simpl. rewrite !Z.add_0_r. auto. }
        specialize (P (S k) ltac:(simpl in K; lia)). unfold zsum in *.
        cbn [map firstn fold_right] in *. rewrite !Z.add_assoc in *. exact P.
      * unfold zsum. cbn [map fold_right]. rewrite !Z.add_assoc. reflexivity.
    + intros [P ->]. exists (mkV2 (v2x a + v2x v) (v2y a + v2y v)). split.
      * specialize (P 1%nat ltac:(simpl; lia)). unfold zsum in P. cbn [map firstn fold_right] in P.
        rewrite !Z.add_0_r in P. destruct P as (F0 & F1).
        unfold v2_add, comp_int, c_add.
        do 2 okstep.
        reflexivity.
      * apply IH; trivial. cbn [v2x v2y]. split.
        { intros k K. specialize (P (S k) ltac:(simpl; lia)). unfold zsum in *.
          cbn [map firstn fold_right] in P. rewrite !Z.add_assoc in P. exact P. }
        unfold zsum. cbn [map fold_right]. rewrite !Z.add_assoc. reflexivity.
Qed.

Lemma prefixes_nonempty : forall t l, int_type t ->
  (prefixes_fit t l <-> forall k, (0 < k <= length l)%nat -> fits t (0 + zsum (firstn k l))).
Proof.
  intros t l T. unfold prefixes_fit. split; intros H k K.
  - rewrite Z.add_0_l. apply H. lia.
  - destruct k as [|k]; [simpl; apply fits_0; assumption|]. rewrite <- (Z.add_0_l (zsum _)). apply H. lia.
Qed.

Lemma v3_sum_checked : forall {E : Env} t l s, int_type t -> overflow_checks = true ->
  (v3_sum (H := comp_int t) l = Ok s <->
   prefixes_fit t (map v3x l) /\ prefixes_fit t (map v3y l) /\ prefixes_fit t (map v3z l) /\
   s = mkV3 (zsum (map v3x l)) (zsum (map v3y l)) (zsum (map v3z l))).
Proof.
  intros E t l s T O. unfold v3_sum, v3_default. cbn [c_default comp_int].
  rewrite foldM_v3_checked by assumption. rewrite !prefixes_nonempty by assumption. rewrite !map_length.
  cbn [v3x v3y v3z]. rewrite !Z.add_0_l. split.
  - intros [P ->]. repeat split; intros; apply P; assumption.
  - intros (A & B & C & ->). split; [|reflexivity]. intros k K. auto.
Qed.
Lemma v2_sum_checked : forall {E : Env} t l s, int_type t -> overflow_checks = true ->
  (v2_sum (H := comp_int t) l = Ok s <->
   prefixes_fit t (map v2x l) /\ prefixes_fit t (map v2y l) /\
   s = mkV2 (zsum (map v2x l)) (zsum (map v2y l))).
Proof.
  intros E t l s T O. unfold v2_sum, v2_default. cbn [c_default comp_int].
  rewrite foldM_v2_checked by assumption. rewrite !prefixes_nonempty by assumption. rewrite !map_length.
  cbn [v2x v2y]. rewrite !Z.add_0_l. split.
  - intros [P ->]. repeat split; intros; apply P; assumption.
  - intros (A & B & ->). split; [|reflexivity]. intros k K. auto.
Qed.

Lemma foldM_total : forall {A B} (f : B -> A -> res B) l acc,
  (forall b a, exists r, f b a = Ok r) -> exists r, foldM f l acc = Ok r.
Proof.
  intros A B f l. induction l as [|a l IH]; intros acc H; simpl.
  - eauto.
  - destruct (H acc a) as [r ->]. simpl. apply IH. exact H.
Qed.

Lemma v3_sum_release : forall {E : Env} t l, int_type t -> overflow_checks = false ->
  exists s, v3_sum (H := comp_int t) l = Ok s.
Proof.
  intros E t l T O. apply foldM_total. intros b a. unfold v3_add, comp_int, c_add.
  rel_total T O.
Qed.
Lemma v2_sum_release : forall {E : Env} t l, int_type t -> overflow_checks = false ->
  exists s, v2_sum (H := comp_int t) l = Ok s.
Proof.
  intros E t l T O. apply foldM_total. intros b a. unfold v2_add, comp_int, c_add.
  rel_total T O.
Qed.

Lemma zsum_perm : forall l l', Permutation l l' -> zsum l = zsum l'.
Proof. intros l l' P. induction P; unfold zsum in *; simpl; lia. Qed.

Lemma v3_sum_perm : forall {E : Env} t l l' s s', int_type t -> Permutation l l' ->
  v3_sum (H := comp_int t) l = Ok s -> v3_sum (H := comp_int t) l' = Ok s' -> s = s'.
Proof.
  intros E t l l' s s' T P A B. apply v3_sum_eqm in A, B; try assumption.
  rewrite <- (zsum_perm _ _ (Permutation_map v3x P)), <- (zsum_perm _ _ (Permutation_map v3y P)),
    <- (zsum_perm _ _ (Permutation_map v3z P)) in B.
  destruct s as [a b c], s' as [a' b' c']. cbn [v3x v3y v3z] in *. destruct A as (? & ? & ?), B as (? & ? & ?).
  f_equal; eapply wraps_unique; eauto.
Qed.
Lemma v2_sum_perm : forall {E : Env} t l l' s s', int_type t -> Permutation l l' ->
  v2_sum (H := comp_int t) l = Ok s -> v2_sum (H := comp_int t) l' = Ok s' -> s = s'.
Proof.
  intros E t l l' s s' T P A B. apply v2_sum_eqm in A, B; try assumption.
  rewrite <- (zsum_perm _ _ (Permutation_map v2x P)), <- (zsum_perm _ _ (Permutation_map v2y P)) in B.
  destruct s as [a b], s' as [a' b']. cbn [v2x v2y] in *. destruct A as (? & ?), B as (? & ?).
  f_equal; eapply wraps_unique; eauto.
Qed.

(** ** magnitude_sq *)

Lemma arith_again : forall {E : Env} t z w, int_type t -> arith t z = Ok w -> arith t (0 + w) = Ok w.
Proof.
  intros E t z w T H. rewrite Z.add_0_l. apply arith_machine; [assumption|].
  apply (arith_eqm t z w T H).
Qed.

Lemma v2_magsq : forall {E : Env} t v, int_type t ->
  vt_magnitude_sq (H0 := comp_int t) v = v2_dot (H := comp_int t) v v.
Proof.
  intros E t v T. unfold vt_magnitude_sq, v2_dot. rewrite v2_items.
  unfold v2_to_array, comp_int, c_mul, c_add, c_sum_zero. cbn [mapM].
  destruct (arith t (v2x v * v2x v)) as [a| |] eqn:A; trivial. cbn [bind].
  destruct (arith t (v2y v * v2y v)) as [b| |] eqn:B; trivial. cbn [bind foldM].
  rewrite (arith_again t _ a T A). cbn [bind]. destruct (arith t (a + b)); reflexivity.
Qed.
Lemma v3_magsq : forall {E : Env} t v, int_type t ->
  vt_magnitude_sq (H0 := comp_int t) v = v3_dot (H := comp_int t) v v.
Proof.
  intros E t v T. unfold vt_magnitude_sq, v3_dot. rewrite v3_items.
  unfold v3_to_array, comp_int, c_mul, c_add, c_sum_zero. cbn [mapM].
  destruct (arith t (v3x v * v3x v)) as [a| |] eqn:A; trivial. cbn [bind].
  destruct (arith t (v3y v * v3y v)) as [b| |] eqn:B; trivial. cbn [bind].
  destruct (arith t (v3z v * v3z v)) as [c| |] eqn:C.
  - cbn [bind foldM]. rewrite (arith_again t _ a T A). cbn [bind].
    destruct (arith t (a + b)) as [s| |]; trivial. cbn [bind]. destruct (arith t (s + c)); reflexivity.
  - cbn [bind]. destruct (arith t (a + b)) as [s| |] eqn:S; trivial. exfalso. exact (arith_nofuel t _ S).
  - exfalso. exact (arith_nofuel t _ C).
Qed.

(** ** division *)

Lemma mapM_div : forall t c l, int_type t -> Forall (fits t) l -> fits t c ->
  (mapM (fun a => int_div t a c) l = Panic <->
   l <> [] /\ c = 0 \/ (ity_signed t = true /\ In (- 2 ^ (ity_bits t - 1)) l /\ c = -1)) /\
  (c <> 0 -> mapM (fun a => int_div t a c) l <> Panic ->
   mapM (fun a => int_div t a c) l = Ok (map (fun a => Z.quot a c) l)).
Proof.
  intros t c l T F Fc. induction F as [|a l Fa F IH].
  - simpl. split; [split; [discriminate|]|reflexivity]. intros [[C _]|(_ & C & _)]; [congruence|destruct C].
  - destruct IH as [I1 I2]. destruct (int_div_spec t a c T Fa Fc) as [D1 D2]. simpl.
    assert (N : int_div t a c <> NoFuel).
    { unfold int_div. destruct (c =? 0); [discriminate|]. destruct (in_range t (Z.quot a c)); discriminate. }
    destruct (int_div t a c) as [q| |] eqn:Q; [|split|congruence].
    + assert (c <> 0) as C0.
      { intros ->. assert (X : Ok q = Panic) by (apply D1; left; reflexivity). discriminate. }
      specialize (D2 C0 ltac:(discriminate)). injection D2 as ->. simpl. split.
      * destruct (mapM _ l) as [r| |] eqn:R; simpl.
        { split; [discriminate|]. intros [[_ C]|(S & [C|C] & M)]; [congruence| |].
          - assert (X : Ok (Z.quot a c) = Panic) by (apply D1; right; auto). discriminate.
          - assert (X : Ok r = Panic) by (apply I1; right; auto). discriminate. }
        { split; [intros _|reflexivity]. destruct (proj1 I1 eq_refl) as [[_ C]|(S & C & M)]; [congruence|].
          right. auto. }
        { specialize (I2 C0 ltac:(discriminate)). discriminate. }
      * intros _ M. destruct (mapM _ l) as [r| |] eqn:R; simpl in *.
        { specialize (I2 C0 ltac:(discriminate)). injection I2 as ->. reflexivity. }
        { congruence. }
        { specialize (I2 C0 ltac:(discriminate)). discriminate. }
    + simpl. split; [intros _|reflexivity]. destruct (proj1 D1 eq_refl) as [->|(S & -> & ->)].
      * left. split; [discriminate|reflexivity].
      * right. auto.
    + simpl. congruence.
Qed.

Lemma v2_div_mapM : forall {E : Env} t v c, res_map v2_to_array (v2_div (H := comp_int t) v c)
  = mapM (fun a => int_div t a c) (v2_to_array v).
Proof.
  intros E t v c. unfold v2_div, v2_to_array, comp_int, c_div, res_map. cbn [mapM].
  destruct (int_div t (v2x v) c); trivial. cbn [bind]. destruct (int_div t (v2y v) c); reflexivity.
Qed.
Lemma v3_div_mapM : forall {E : Env} t v c, res_map v3_to_array (v3_div (H := comp_int t) v c)
  = mapM (fun a => int_div t a c) (v3_to_array v).
Proof.
  intros E t v c. unfold v3_div, v3_to_array, comp_int, c_div, res_map. cbn [mapM].
  destruct (int_div t (v3x v) c); trivial. cbn [bind]. destruct (int_div t (v3y v) c); trivial. cbn [bind].
  destruct (int_div t (v3z v) c); reflexivity.
Qed.
Lemma v2_div_assign_eq : forall {C} {K : Component C} (v : Vector2d C) c, v2_div_assign v c = v2_div v c.
Proof. reflexivity. Qed.
Lemma v3_div_assign_eq : forall {C} {K : Component C} (v : Vector3d C) c, v3_div_assign v c = v3_div v c.
Proof. reflexivity. Qed.
