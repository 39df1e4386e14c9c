(** * Proofs: powi accuracy *)

From Coq Require Import ZArith Reals Bool List Lia Lra Arith.
From Flocq Require Import Core IEEE754.BinarySingleNaN IEEE754.Binary IEEE754.Bits.
From Verif Require Import Base Spec Float F32Lemmas BitLemmas Literals ErrLemmas NanLemmas
  P_Trunc P_Floor P_Euclid P_RoundEdge P_Roots P_InvSqrt P_Atan P_Recip P_VecF32 P_Quat P_Powf P_Powi P_Powi2.
Open Scope Z_scope.

Definition uu : R := bpow radix2 (-24).
Definition maxf : R := (IZR (2 ^ 24 - 1) * bpow radix2 104)%R.

Lemma uu_bounds : (0 < uu < 1)%R.
Proof. unfold uu. split; [apply bpow_gt_0|]. change 1%R with (bpow radix2 0). apply bpow_lt. lia. Qed.

Lemma maxf_fmt : fmt maxf.
Proof. apply fmt_scaled; simpl; lia. Qed.

Lemma maxf_128 : (maxf < bpow radix2 128)%R.
Proof.
  unfold maxf. replace (bpow radix2 128) with (IZR (2 ^ 24) * bpow radix2 104)%R.
  - apply Rmult_lt_compat_r; [apply bpow_gt_0|]. apply IZR_lt. lia.
  - change (IZR (2 ^ 24)) with (bpow radix2 24). rewrite <- bpow_plus. reflexivity.
Qed.

Lemma maxf_1 : (1 <= maxf)%R.
Proof.
  unfold maxf. assert (A : (1 <= bpow radix2 104)%R) by (change 1%R with (bpow radix2 0); apply bpow_le; lia).
  assert (B : (1 <= IZR (2 ^ 24 - 1))%R) by (apply IZR_le; lia).
  replace 1%R with (1 * 1)%R by ring. apply Rmult_le_compat; lra.
Qed.

(** [v] approximates [X] up to [k] roundings. *)
Definition rel (k : nat) (v X : R) : Prop := exists t, v = (X * t)%R /\ ((1 - uu) ^ k <= t <= (1 + uu) ^ k)%R.

Lemma lo_pos : forall k, (0 < (1 - uu) ^ k)%R.
Proof. intros k. apply pow_lt. pose proof uu_bounds. lra. Qed.
Lemma hi_1 : forall k, (1 <= (1 + uu) ^ k)%R.
Proof. intros k. apply pow_R1_Rle. pose proof uu_bounds. lra. Qed.
Lemma lo_1 : forall k, ((1 - uu) ^ k <= 1)%R.
Proof.
  intros k. pose proof uu_bounds. apply Rle_trans with (1 ^ k)%R; [apply pow_incr; lra|rewrite pow1; lra].
Qed.
Lemma hi_mono : forall k m, (k <= m)%nat -> ((1 + uu) ^ k <= (1 + uu) ^ m)%R.
Proof. intros k m H. apply Rle_pow; [pose proof uu_bounds; lra|exact H]. Qed.
Lemma lo_mono : forall k m, (k <= m)%nat -> ((1 - uu) ^ m <= (1 - uu) ^ k)%R.
Proof.
  intros k m H. replace m with (k + (m - k))%nat by lia. rewrite pow_add.
  rewrite <- (Rmult_1_r ((1 - uu) ^ k)) at 2. apply Rmult_le_compat_l; [left; apply lo_pos|apply lo_1].
Qed.

Lemma rel_mul : forall i j a b A B, rel i a A -> rel j b B -> rel (i + j) (a * b) (A * B).
Proof.
  intros i j a b A B (s & Hs & S1 & S2) (t & Ht & T1 & T2). exists (s * t)%R. split; [subst; ring|].
  pose proof (lo_pos i). pose proof (lo_pos j). rewrite !pow_add. split; apply Rmult_le_compat; lra.
Qed.

Lemma rel_round : forall k r X, rel k r X -> (bpow radix2 (-126) <= Rabs r)%R -> rel (k + 1) (rnd r) X.
Proof.
  intros k r X (t & Ht & T1 & T2) H. destruct (rnd_rel_d r H) as (d & D & Hd). fold uu in Hd. apply Rabs_le_inv in Hd.
  exists (t * (1 + d))%R. split; [rewrite D, Ht; ring|]. pose proof uu_bounds. pose proof (lo_pos k). rewrite !pow_add, !pow_1.
  split; apply Rmult_le_compat; lra.
Qed.

Lemma rel_err : forall k v X, rel k v X -> (Rabs (v - X) <= ((1 + uu) ^ k - 1) * Rabs X)%R.
Proof.
  intros k v X (t & Ht & T1 & T2). replace (v - X)%R with ((t - 1) * X)%R by (rewrite Ht; ring).
  rewrite Rabs_mult. apply Rmult_le_compat_r; [apply Rabs_pos|]. apply Rabs_le. split; [|lra].
  assert (Q : (2 <= (1 + uu) ^ k + (1 - uu) ^ k)%R).
  { pose proof uu_bounds as U. clear T1 T2 Ht. 
    assert (K : ((1 + uu) ^ k >= 1 + INR k * uu)%R /\ ((1 - uu) ^ k >= 1 - INR k * uu)%R); [|lra].
    induction k as [|k [I1 I2]]; [simpl; lra|]. rewrite S_INR. simpl pow. pose proof (pos_INR k) as PI.
    assert (0 <= INR k * uu * uu)%R by (apply Rmult_le_pos; [apply Rmult_le_pos|]; lra). split.
    - apply Rle_ge. apply Rle_trans with ((1 + uu) * (1 + INR k * uu))%R; [lra|]. apply Rmult_le_compat_l; lra.
    - apply Rle_ge. apply Rle_trans with ((1 - uu) * (1 - INR k * uu))%R; [lra|]. apply Rmult_le_compat_l; lra. }
  lra.
Qed.

(** ** The growing and the shrinking case *)

Definition qr (g : bool) (A : R) : Prop := if g then (1 <= Rabs A)%R else (Rabs A <= 1)%R.
Definition bnd (g : bool) (W : R) (m : nat) : Prop :=
  if g then (Rabs W * (1 + uu) ^ m <= maxf)%R else (bpow radix2 (-126) <= Rabs W * (1 - uu) ^ m)%R.

Lemma qr_mul : forall g A B, qr g A -> qr g B -> qr g (A * B).
Proof.
  intros g A B. unfold qr. rewrite Rabs_mult. pose proof (Rabs_pos A). pose proof (Rabs_pos B). destruct g; intros P Q.
  - replace 1%R with (1 * 1)%R by ring. apply Rmult_le_compat; lra.
  - replace 1%R with (1 * 1)%R by ring. apply Rmult_le_compat; lra.
Qed.

Lemma qr_pow : forall g A n, qr g A -> qr g (A ^ n).
Proof.
  intros g A n H. induction n as [|n IH]; [unfold qr; simpl; rewrite Rabs_R1; destruct g; lra|]. simpl. apply qr_mul; assumption.
Qed.

Lemma bnd_le : forall g A B m m', bnd g (A * B) m -> (m' <= m)%nat -> qr g B -> bnd g A m'.
Proof.
  intros g A B m m'. unfold bnd, qr. rewrite Rabs_mult. pose proof (Rabs_pos A) as PA. pose proof (Rabs_pos B) as PB.
  destruct g; intros H L Q.
  - apply Rle_trans with (2 := H). apply Rmult_le_compat; [exact PA|pose proof (hi_1 m'); lra| |apply hi_mono; exact L].
    rewrite <- (Rmult_1_r (Rabs A)) at 1. apply Rmult_le_compat_l; assumption.
  - apply Rle_trans with (1 := H). apply Rmult_le_compat; [apply Rmult_le_pos; assumption|left; apply lo_pos| |apply lo_mono; exact L].
    rewrite <- (Rmult_1_r (Rabs A)) at 2. apply Rmult_le_compat_l; assumption.
Qed.

Lemma rnd_ge1 : forall r, (1 <= Rabs r)%R -> (1 <= Rabs (rnd r))%R.
Proof.
  intros r H. assert (F1 : fmt 1) by (change 1%R with (bpow radix2 0); apply fmt_bpow; lia).
  destruct (Rle_or_lt 0 r) as [P|P].
  - rewrite Rabs_pos_eq in H by exact P. rewrite <- (rnd_fmt 1 F1) at 1. apply Rle_trans with (rnd r); [apply rnd_le; exact H|apply Rle_abs].
  - rewrite Rabs_left in H by exact P. rewrite <- Rabs_Ropp, <- rnd_opp. rewrite <- (rnd_fmt 1 F1) at 1.
    apply Rle_trans with (rnd (- r)); [apply rnd_le; exact H|apply Rle_abs].
Qed.

Lemma rnd_le_maxf : forall r, (Rabs r <= maxf)%R -> (Rabs (rnd r) <= maxf)%R.
Proof.
  intros r H. apply Rabs_le_inv in H. apply Rabs_le. rewrite <- (rnd_fmt maxf maxf_fmt). rewrite <- rnd_opp.
  split; apply rnd_le; lra.
Qed.

(** Rounding an approximated quantity. *)
Lemma round_ok : forall g k r X, rel k r X -> qr g r -> bnd g X k ->
  (Rabs (rnd r) < bpow radix2 128)%R /\ rel (k + 1) (rnd r) X /\ qr g (rnd r).
Proof.
  intros g k r X R Q B. pose proof R as (t & Ht & T1 & T2).
  pose proof (lo_pos k) as LP. assert (TP : (0 < t)%R) by lra.
  assert (AR : Rabs r = (Rabs X * t)%R) by (rewrite Ht, Rabs_mult, (Rabs_pos_eq t) by lra; reflexivity).
  assert (b126 : (bpow radix2 (-126) <= 1)%R) by (change 1%R with (bpow radix2 0); apply bpow_le; lia).
  unfold qr, bnd in *. destruct g.
  - assert (H : (Rabs r <= maxf)%R).
    { rewrite AR. apply Rle_trans with (2 := B). apply Rmult_le_compat_l; [apply Rabs_pos|exact T2]. }
    split; [pose proof (rnd_le_maxf r H); pose proof maxf_128; lra|]. split; [apply rel_round; [exact R|lra]|apply rnd_ge1; exact Q].
  - assert (H : (Rabs (rnd r) <= 1)%R) by (change 1%R with (bpow radix2 0); apply rnd_abs_le; [lia|exact Q]).
    split; [pose proof maxf_128; pose proof maxf_1; lra|]. split; [|exact H]. apply rel_round; [exact R|].
    rewrite AR. apply Rle_trans with (1 := B). apply Rmult_le_compat_l; [apply Rabs_pos|exact T1].
Qed.

Lemma mul_ok : forall {E : Env} g i j a b A B, fin a -> fin b -> rel i (val a) A -> rel j (val b) B ->
  qr g (val a) -> qr g (val b) -> bnd g (A * B) (i + j) ->
  fin (fmul a b) /\ rel (i + j + 1) (val (fmul a b)) (A * B) /\ qr g (val (fmul a b)).
Proof.
  intros E g i j a b A B Fa Fb Ra Rb Qa Qb H.
  destruct (round_ok g _ _ _ (rel_mul i j _ _ A B Ra Rb) (qr_mul g _ _ Qa Qb) H) as (O & R & Q).
  destruct (fmul_R a b Fa Fb O) as [F V]. rewrite V. split; [exact F|]. split; [exact R|exact Q].
Qed.

Lemma one_fmul : forall {E : Env} x, is_nan x = false -> fmul F32_ONE x = x.
Proof.
  intros E x N. rewrite <- (fmul_one_id x N) at 2. destruct (fmul_comm F32_ONE x) as [H|[_ H]]; [exact H|].
  rewrite fmul_one_id in H by exact N. unfold nan in H. congruence.
Qed.

(** State of [result]: exactly one, or an approximation with d-1 roundings. *)
Definition st (d : nat) (r : f32) (R0 : R) : Prop :=
  (d = O /\ r = F32_ONE /\ R0 = 1%R) \/ (exists k, d = S k /\ fin r /\ rel k (val r) R0).

Lemma st_mul : forall {E : Env} g i d r b X R0, fin b -> rel i (val b) X -> st d r R0 -> qr g (val b) -> qr g (val r) ->
  bnd g (R0 * X) (d + i) -> st (d + (i + 1)) (fmul r b) (R0 * X) /\ qr g (val (fmul r b)).
Proof.
  intros E g i d r b X R0 Fb Rb S Qb Qr B. destruct S as [(-> & -> & ->)|(k & -> & Fr & Rr)].
  - rewrite one_fmul by (apply fin_not_nan; exact Fb).
    split; [|exact Qb]. right. exists i. split; [lia|]. split; [exact Fb|]. rewrite Rmult_1_l. exact Rb.
  - assert (B' : bnd g (R0 * X) (k + i)).
    { apply (bnd_le g (R0 * X) 1 (S k + i)); [rewrite Rmult_1_r; exact B|lia|]. unfold qr. rewrite Rabs_R1. destruct g; lra. }
    destruct (mul_ok g k i r b R0 X Fr Fb Rr Rb Qr Qb B') as (F & R & Q).
    split; [|exact Q]. right. exists (k + i + 1)%nat. split; [lia|]. split; [exact F|exact R].
Qed.

Lemma loop_acc : forall {E : Env} g fuel N i d b r X R0, (1 <= N)%nat -> Z.of_nat N < 2 ^ Z.of_nat fuel ->
  fin b -> rel i (val b) X -> qr g X -> qr g (val b) -> st d r R0 -> qr g R0 -> qr g (val r) ->
  bnd g (R0 * X ^ N) (d + N * (i + 1) - 1) ->
  exists v, powi_loop fuel (Z.of_nat N) b r = Ok v /\ fin v /\ rel (d + N * (i + 1) - 1) (val v) (R0 * X ^ N).
Proof.
  intros E g fuel. induction fuel as [|fuel IH]; intros N i d b r X R0 HN HF Fb Rb QX Qb S QR Qr B.
  { exfalso. simpl in HF. lia. }
  rewrite loop_S. cbv zeta.
  assert (DV : Z.of_nat N / 2 = Z.of_nat (N / 2)) by (rewrite (Nat2Z.inj_div N 2); reflexivity). rewrite DV.
  assert (OD : Z.odd (Z.of_nat N) = Nat.odd N).
  { rewrite <- Z.negb_even, <- Nat.negb_even. f_equal. destruct (Nat.even N) eqn:P.
    - apply Nat.even_spec in P. destruct P as [h ->]. rewrite Nat2Z.inj_mul. apply Z.even_mul.
    - assert (P' : Nat.odd N = true) by (rewrite <- Nat.negb_even, P; reflexivity). apply Nat.odd_spec in P'. destruct P' as [h ->].
      rewrite Nat2Z.inj_add, Nat2Z.inj_mul. rewrite Z.even_add, Z.even_mul. reflexivity. }
  rewrite OD. pose proof (Nat.div_mod N 2 ltac:(lia)) as DM. pose proof (Nat.bit0_mod N) as BM.
  set (M := (N / 2)%nat) in *.
  assert (NM : N = (2 * M + (if Nat.odd N then 1 else 0))%nat).
  { destruct (Nat.odd N) eqn:P.
    - apply Nat.odd_spec in P. destruct P as [h P]. unfold M. rewrite P. rewrite (Nat.mul_comm 2 h). rewrite Nat.div_add_l by lia. simpl. lia.
    - assert (P' : Nat.even N = true) by (rewrite <- Nat.negb_odd, P; reflexivity). apply Nat.even_spec in P'. destruct P' as [h P']. unfold M. rewrite P'.
      rewrite (Nat.mul_comm 2 h). rewrite Nat.div_mul by lia. lia. }
  clearbody M. clear DM BM.
  (* the result after the conditional multiplication *)
  assert (T : exists d' R', st d' (if Nat.odd N then fmul r b else r) R' /\ qr g (val (if Nat.odd N then fmul r b else r)) /\ qr g R' /\
     (d' + M * (2 * (i + 1)) = d + N * (i + 1))%nat /\ (R' * (X * X) ^ M = R0 * X ^ N)%R).
  { assert (PW : forall Y, (Y ^ (2 * M) = (Y * Y) ^ M)%R).
    { intros Y. rewrite pow_mult. f_equal. simpl. ring. }
    destruct (Nat.odd N) eqn:P.
    - exists (d + (i + 1))%nat, (R0 * X)%R.
      assert (PX : (R0 * X * (X * X) ^ M = R0 * X ^ N)%R) by (rewrite NM, pow_add, pow_1, PW; ring).
      destruct (st_mul g i d r b X R0 Fb Rb S Qb Qr) as [S' Q'].
      + apply (bnd_le g (R0 * X) ((X * X) ^ M) (d + N * (i + 1) - 1)); [rewrite PX; exact B|nia|apply qr_pow, qr_mul; exact QX].
      + split; [exact S'|]. split; [exact Q'|]. split; [apply qr_mul; assumption|]. split; [nia|exact PX].
    - exists d, R0. split; [exact S|]. split; [exact Qr|]. split; [exact QR|]. split; [nia|].
      rewrite NM, Nat.add_0_r, PW. reflexivity. }
  set (r' := if Nat.odd N then fmul r b else r) in *. clearbody r'. clear S Qr QR.
  destruct T as (d' & R' & S & Qr & QR & DD & PP). rewrite <- PP in *. rewrite <- DD in *.
  destruct (Z.eqb_spec (Z.of_nat M) 0) as [M0|M0].
  - assert (M = O) by lia. subst M. exists r'. split; [reflexivity|]. simpl Nat.mul. rewrite Nat.add_0_r. simpl pow. rewrite Rmult_1_r.
    destruct S as [(S1 & _)|(k & -> & F & R)]; [exfalso; subst d'; nia|].
    split; [exact F|]. replace (S k - 1)%nat with k by lia. exact R.
  - assert (B2 : bnd g (X * X) (i + i)).
    { apply (bnd_le g (X * X) (R' * (X * X) ^ (M - 1)) (d' + M * (2 * (i + 1)) - 1)); [|nia|apply qr_mul; [exact QR|apply qr_pow, qr_mul; exact QX]].
      replace (X * X * (R' * (X * X) ^ (M - 1)))%R with (R' * (X * X) ^ M)%R; [exact B|].
      assert (PM : ((X * X) ^ M = X * X * (X * X) ^ (M - 1))%R); [|rewrite PM; ring].
      destruct M as [|M']; [lia|]. replace (Datatypes.S M' - 1)%nat with M' by lia. reflexivity. }
    destruct (mul_ok g i i b b X X Fb Fb Rb Rb Qb Qb B2) as (F2 & R2 & Q2).
    destruct (IH M (i + i + 1)%nat d' (fmul b b) r' (X * X)%R R') as (v & V1 & V2 & V3); trivial.
    + lia.
    + rewrite Nat2Z.inj_succ, Z.pow_succ_r in HF by lia. assert (Z.of_nat N = 2 * Z.of_nat M + (if Nat.odd N then 1 else 0)) by (destruct (Nat.odd N); lia).
      destruct (Nat.odd N); lia.
    + apply qr_mul; exact QX.
    + replace (M * (i + i + 1 + 1))%nat with (M * (2 * (i + 1)))%nat by lia. exact B.
    + exists v. split; [exact V1|]. split; [exact V2|]. replace (M * (i + i + 1 + 1))%nat with (M * (2 * (i + 1)))%nat in V3 by lia. exact V3.
Qed.

(** ** powi *)

Lemma bpow_pow : forall e N, (bpow radix2 e ^ N = bpow radix2 (e * Z.of_nat N))%R.
Proof.
  intros e N. induction N as [|N IH]; [rewrite Z.mul_0_r; reflexivity|].
  rewrite Nat2Z.inj_succ. replace (e * Z.succ (Z.of_nat N)) with (e + e * Z.of_nat N) by lia. rewrite bpow_plus, <- IH. reflexivity.
Qed.

Lemma normal_bracket : forall x, fin x -> (bpow radix2 (-126) <= Rabs (val x))%R ->
  exists e, -126 <= e <= 127 /\ (bpow radix2 e <= Rabs (val x) < bpow radix2 (e + 1))%R.
Proof.
  intros x F H. pose proof (bexp_ge x (-126) F ltac:(lia) H) as L. pose proof (proj1 (fin_bexp_lt x) F) as U.
  assert (N : bexp (to_bits x) <> 0) by lia. pose proof (abs_normal_bounds x F N) as B.
  exists (bexp (to_bits x) - 127). split; [lia|]. replace (bexp (to_bits x) - 127 + 1) with (bexp (to_bits x) - 126) by lia. exact B.
Qed.

Lemma bracket_unique : forall r e e', (bpow radix2 e <= r < bpow radix2 (e + 1))%R -> (bpow radix2 e' <= r < bpow radix2 (e' + 1))%R -> e = e'.
Proof.
  intros r e e' [A B] [A' B']. assert (L : (bpow radix2 e < bpow radix2 (e' + 1))%R) by lra. apply lt_bpow in L.
  assert (L' : (bpow radix2 e' < bpow radix2 (e + 1))%R) by lra. apply lt_bpow in L'. lia.
Qed.

Lemma pow_ge : forall e N r, (bpow radix2 e <= Rabs r)%R -> (bpow radix2 (e * Z.of_nat N) <= Rabs (r ^ N))%R.
Proof. intros e N r H. rewrite <- bpow_pow, <- RPow_abs. apply pow_incr. split; [left; apply bpow_gt_0|exact H]. Qed.

Lemma powi_acc_pos : forall {E : Env} g x N fuel, fin x -> (bpow radix2 (-126) <= Rabs (val x))%R -> (1 <= N)%nat -> Z.of_nat N < 2 ^ 31 -> (31 <= fuel)%nat ->
  qr g (val x) -> bnd g (val x ^ N) (N - 1) ->
  ((1 / 2 <= Rabs (val x))%R \/ exists e, (bpow radix2 e <= Rabs (val x) < bpow radix2 (e + 1))%R /\ -149 <= e * Z.of_nat N) ->
  exists r, F32_powi fuel x (Z.of_nat N) = Ok r /\ fin r /\ rel (N - 1) (val r) (val x ^ N).
Proof.
  intros E g x N fuel F Hx HN HZ HF Q B C. destruct (normal_bracket x F Hx) as (e & He & Be).
  assert (UP : 1 <= e -> e * Z.of_nat N <= 127).
  { intros P. destruct g.
    - unfold bnd in B. assert (K : (Rabs (val x ^ N) <= maxf)%R).
      { apply Rle_trans with (2 := B). rewrite <- (Rmult_1_r (Rabs (val x ^ N))) at 1. apply Rmult_le_compat_l; [apply Rabs_pos|apply hi_1]. }
      pose proof (pow_ge e N (val x) (proj1 Be)) as G. pose proof maxf_128 as MF. assert (L : (bpow radix2 (e * Z.of_nat N) < bpow radix2 128)%R) by lra.
      apply lt_bpow in L. lia.
    - exfalso. unfold qr in Q. assert (K : (bpow radix2 1 <= bpow radix2 e)%R) by (apply bpow_le; lia). simpl in K. lra. }
  rewrite (powi_no_early fuel x (Z.of_nat N) e); trivial; try lia.
  - rewrite Z.abs_eq by lia. replace (Z.of_nat N <? 0) with false by (symmetry; apply Z.ltb_ge; lia).
    destruct (loop_acc g 31 N 0 0 x F32_ONE (val x) 1%R) as (v & V1 & V2 & V3); trivial.
    + exists 1%R. split; [ring|simpl; lra].
    + left. split; [reflexivity|split; reflexivity].
    + unfold qr. rewrite Rabs_R1. destruct g; lra.
    + unfold qr. rewrite (proj2 one_val), Rabs_R1. destruct g; lra.
    + rewrite Rmult_1_l. replace (0 + N * (0 + 1) - 1)%nat with (N - 1)%nat by lia. exact B.
    + rewrite Rmult_1_l in V3. replace (0 + N * (0 + 1) - 1)%nat with (N - 1)%nat in V3 by lia.
      exists v. split; [replace fuel with (31 + (fuel - 31))%nat by lia; apply loop_more; exact V1|]. split; assumption.
  - destruct (Z_le_gt_dec 1 e) as [P|P]; [right; right; split; [nia|exact (UP P)]|].
    destruct C as [C|(e' & Be' & C)].
    + assert (L : (bpow radix2 (-1) < bpow radix2 (e + 1))%R) by (simpl; lra). apply lt_bpow in L. lia.
    + rewrite (bracket_unique _ _ _ Be Be'). right. right. split; [exact C|]. rewrite <- (bracket_unique _ _ _ Be Be'). nia.
Qed.

Lemma powi_acc_neg : forall {E : Env} g x N fuel, fin x -> (bpow radix2 (-126) <= Rabs (val x))%R -> (1 <= N)%nat -> Z.of_nat N < 2 ^ 31 -> (31 <= fuel)%nat ->
  qr g (/ val x) -> bnd g ((/ val x) ^ N) (2 * N - 1) ->
  ((1 / 2 <= Rabs (val x))%R \/ exists e, (bpow radix2 e <= Rabs (val x) < bpow radix2 (e + 1))%R /\ - (e * Z.of_nat N) <= 127) ->
  exists r, F32_powi fuel x (- Z.of_nat N) = Ok r /\ fin r /\ rel (2 * N - 1) (val r) ((/ val x) ^ N).
Proof.
  intros E g x N fuel F Hx HN HZ HF Q B C. destruct (normal_bracket x F Hx) as (e & He & Be).
  assert (X0 : (val x <> 0)%R) by (intros K; rewrite K, Rabs_R0 in Hx; pose proof (bpow_gt_0 radix2 (-126)); lra).
  assert (BX : bnd g (/ val x) 0).
  { apply (bnd_le g (/ val x) ((/ val x) ^ (N - 1)) (2 * N - 1)); [|lia|apply qr_pow; exact Q].
    destruct N as [|N']; [lia|]. replace (Datatypes.S N' - 1)%nat with N' by lia. exact B. }
  assert (UP : 1 <= e -> -149 <= e * - Z.of_nat N).
  { intros P. destruct g.
    - exfalso. unfold qr in Q. rewrite Rabs_inv in Q. assert (K : (bpow radix2 1 <= bpow radix2 e)%R) by (apply bpow_le; lia). simpl in K.
      assert (K2 : (/ Rabs (val x) <= / 2)%R) by (apply Rinv_le; lra). lra.
    - unfold bnd in B. assert (K : (bpow radix2 (-126) <= Rabs ((/ val x) ^ N))%R).
      { apply Rle_trans with (1 := B). rewrite <- (Rmult_1_r (Rabs _)) at 2. apply Rmult_le_compat_l; [apply Rabs_pos|apply lo_1]. }
      assert (G : (Rabs ((/ val x) ^ N) <= bpow radix2 (- e * Z.of_nat N))%R).
      { rewrite <- bpow_pow, <- RPow_abs. apply pow_incr. split; [apply Rabs_pos|]. rewrite Rabs_inv, bpow_opp. apply Rinv_le; [apply bpow_gt_0|exact (proj1 Be)]. }
      assert (L : (bpow radix2 (-126) <= bpow radix2 (- e * Z.of_nat N))%R) by lra. apply le_bpow in L. lia. }
  rewrite (powi_no_early fuel x (- Z.of_nat N) e); trivial; try lia.
  - rewrite Z.abs_opp, Z.abs_eq by lia. replace (- Z.of_nat N <? 0) with true by (symmetry; apply Z.ltb_lt; lia).
    assert (R0 : rel 0 (/ val x) (/ val x)) by (exists 1%R; split; [ring|simpl; lra]).
    destruct (round_ok g 0 _ _ R0 Q BX) as (O & R1 & Q1).
    destruct (fdiv_R F32_ONE x (proj1 one_val) F X0) as [FB VB].
    { rewrite (proj2 one_val). unfold Rdiv. rewrite Rmult_1_l. exact O. }
    rewrite (proj2 one_val) in VB. unfold Rdiv in VB. rewrite Rmult_1_l in VB. rewrite <- VB in R1, Q1.
    destruct (loop_acc g 31 N 1 0 (fdiv F32_ONE x) F32_ONE (/ val x)%R 1%R) as (v & V1 & V2 & V3); trivial.
    + left. split; [reflexivity|split; reflexivity].
    + unfold qr. rewrite Rabs_R1. destruct g; lra.
    + unfold qr. rewrite (proj2 one_val), Rabs_R1. destruct g; lra.
    + rewrite Rmult_1_l. replace (0 + N * (1 + 1) - 1)%nat with (2 * N - 1)%nat by lia. exact B.
    + rewrite Rmult_1_l in V3. replace (0 + N * (1 + 1) - 1)%nat with (2 * N - 1)%nat in V3 by lia.
      exists v. split; [replace fuel with (31 + (fuel - 31))%nat by lia; apply loop_more; exact V1|]. split; assumption.
  - destruct (Z_le_gt_dec 1 e) as [P|P]; [right; right; split; [exact (UP P)|nia]|].
    destruct C as [C|(e' & Be' & C)].
    + assert (L : (bpow radix2 (-1) < bpow radix2 (e + 1))%R) by (simpl; lra). apply lt_bpow in L. lia.
    + pose proof (bracket_unique _ _ _ Be Be'). subst e'. destruct (Z.eq_dec e 0) as [->|E0]; [right; left; reflexivity|]. right. right. split; [nia|lia].
Qed.

(** Restated with the error bound. *)
Lemma powi_accuracy_grow : forall {E : Env} x N fuel, fin x -> (1 <= Rabs (val x))%R -> (1 <= N)%nat -> Z.of_nat N < 2 ^ 31 -> (31 <= fuel)%nat ->
  (Rabs (val x ^ N) * (1 + bpow radix2 (-24)) ^ (N - 1) <= IZR (2 ^ 24 - 1) * bpow radix2 104)%R ->
  exists r, F32_powi fuel x (Z.of_nat N) = Ok r /\ fin r /\
    (Rabs (val r - val x ^ N) <= ((1 + bpow radix2 (-24)) ^ (N - 1) - 1) * Rabs (val x ^ N))%R.
Proof.
  intros E x N fuel F H HN HZ HF B.
  assert (H' : (bpow radix2 (-126) <= Rabs (val x))%R) by (apply Rle_trans with (2 := H); change 1%R with (bpow radix2 0); apply bpow_le; lia).
  destruct (powi_acc_pos true x N fuel F H' HN HZ HF H B) as (r & A & A' & R); [left; lra|].
  exists r. split; [exact A|]. split; [exact A'|]. exact (rel_err _ _ _ R).
Qed.

Lemma powi_accuracy_shrink : forall {E : Env} x N fuel, fin x -> (Rabs (val x) <= 1)%R -> (1 <= N)%nat -> Z.of_nat N < 2 ^ 31 -> (31 <= fuel)%nat ->
  (bpow radix2 (-126) <= Rabs (val x ^ N) * (1 - bpow radix2 (-24)) ^ (N - 1))%R ->
  ((1 / 2 <= Rabs (val x))%R \/ exists e, (bpow radix2 e <= Rabs (val x) < bpow radix2 (e + 1))%R /\ -149 <= e * Z.of_nat N) ->
  exists r, F32_powi fuel x (Z.of_nat N) = Ok r /\ fin r /\
    (Rabs (val r - val x ^ N) <= ((1 + bpow radix2 (-24)) ^ (N - 1) - 1) * Rabs (val x ^ N))%R.
Proof.
  intros E x N fuel F H HN HZ HF B C.
  assert (H' : (bpow radix2 (-126) <= Rabs (val x))%R).
  { assert (K : bnd false (val x) 0).
    { apply (bnd_le false (val x) (val x ^ (N - 1)) (N - 1)); [|lia|apply qr_pow; exact H].
      destruct N as [|N']; [lia|]. replace (Datatypes.S N' - 1)%nat with N' in * by lia. exact B. }
    unfold bnd in K. simpl in K. rewrite Rmult_1_r in K. exact K. }
  destruct (powi_acc_pos false x N fuel F H' HN HZ HF H B C) as (r & A & A' & R).
  exists r. split; [exact A|]. split; [exact A'|]. exact (rel_err _ _ _ R).
Qed.

Lemma powi_accuracy_neg_shrink : forall {E : Env} x N fuel, fin x -> (1 <= Rabs (val x))%R -> (1 <= N)%nat -> Z.of_nat N < 2 ^ 31 -> (31 <= fuel)%nat ->
  (bpow radix2 (-126) <= Rabs ((/ val x) ^ N) * (1 - bpow radix2 (-24)) ^ (2 * N - 1))%R ->
  exists r, F32_powi fuel x (- Z.of_nat N) = Ok r /\ fin r /\
    (Rabs (val r - (/ val x) ^ N) <= ((1 + bpow radix2 (-24)) ^ (2 * N - 1) - 1) * Rabs ((/ val x) ^ N))%R.
Proof.
  intros E x N fuel F H HN HZ HF B.
  assert (H' : (bpow radix2 (-126) <= Rabs (val x))%R) by (apply Rle_trans with (2 := H); change 1%R with (bpow radix2 0); apply bpow_le; lia).
  assert (Q : qr false (/ val x)).
  { unfold qr. rewrite Rabs_inv. rewrite <- Rinv_1. apply Rinv_le; lra. }
  destruct (powi_acc_neg false x N fuel F H' HN HZ HF Q B) as (r & A & A' & R); [left; lra|].
  exists r. split; [exact A|]. split; [exact A'|]. exact (rel_err _ _ _ R).
Qed.

Lemma powi_accuracy_neg_grow : forall {E : Env} x N fuel, fin x -> (bpow radix2 (-126) <= Rabs (val x) <= 1)%R -> (1 <= N)%nat -> Z.of_nat N < 2 ^ 31 -> (31 <= fuel)%nat ->
  (Rabs ((/ val x) ^ N) * (1 + bpow radix2 (-24)) ^ (2 * N - 1) <= IZR (2 ^ 24 - 1) * bpow radix2 104)%R ->
  ((1 / 2 <= Rabs (val x))%R \/ exists e, (bpow radix2 e <= Rabs (val x) < bpow radix2 (e + 1))%R /\ - (e * Z.of_nat N) <= 127) ->
  exists r, F32_powi fuel x (- Z.of_nat N) = Ok r /\ fin r /\
    (Rabs (val r - (/ val x) ^ N) <= ((1 + bpow radix2 (-24)) ^ (2 * N - 1) - 1) * Rabs ((/ val x) ^ N))%R.
Proof.
  intros E x N fuel F [H' H] HN HZ HF B C.
  assert (Q : qr true (/ val x)).
  { unfold qr. rewrite Rabs_inv. rewrite <- Rinv_1 at 1. pose proof (bpow_gt_0 radix2 (-126)). apply Rinv_le; lra. }
  destruct (powi_acc_neg true x N fuel F H' HN HZ HF Q B C) as (r & A & A' & R).
  exists r. split; [exact A|]. split; [exact A'|]. exact (rel_err _ _ _ R).
Qed.

(** powi(x,1) = x and powi(x,-1) = 1/x. *)
Lemma powi_1 : forall {E : Env} fuel x, fin x -> (31 <= fuel)%nat -> F32_powi fuel x 1 = Ok x.
Proof.
  intros E fuel x F HF. destruct (feq x F32_ZERO) eqn:Z0; [apply powi_zero_base; [exact Z0|lia]|].
  destruct fuel as [|fuel]; [lia|].
  assert (L : powi_loop (S fuel) (Z.abs 1) (if 1 <? 0 then fdiv F32_ONE x else x) F32_ONE = Ok x).
  { rewrite loop_S. cbv zeta. simpl (Z.odd (Z.abs 1)). simpl (Z.abs 1 / 2 =? 0). cbv iota. simpl (1 <? 0). cbv iota. rewrite one_fmul by (apply fin_not_nan; exact F). reflexivity. }
  pose proof (exp_range x) as X. destruct (mid x) eqn:M.
  - rewrite powi_unfold. rewrite arith_i32 by (unfold i32_ok; simpl; lia). unfold bind at 1. rewrite Z0, M. exact L.
  - assert (FX : extract_exponent_value x <= 127).
    { rewrite extract_exponent_value_eq. pose proof (proj1 (fin_bexp_lt x) F). lia. }
    rewrite powi_early_eq; [|lia|lia|exact Z0|exact M|unfold i32_ok; lia]. rewrite Z.mul_1_r.
    replace (127 <? extract_exponent_value x) with false by (symmetry; apply Z.ltb_ge; lia).
    replace (extract_exponent_value x <? -149) with false by (symmetry; apply Z.ltb_ge; lia). exact L.
Qed.

(** ** Premature exits *)

Lemma x4999 : fin (from_bits 0x3EFFF2E5) /\ (val (from_bits 0x3EFFF2E5) = IZR 16773861 * bpow radix2 (-25))%R.
Proof. split; [reflexivity|]. lit 0x3EFFF2E5. bpow_lit. lra. Qed.

Lemma x4999_pow : forall N k, 0 <= k + 25 * Z.of_nat N -> 2 ^ (k + 25 * Z.of_nat N) <= 16773861 ^ Z.of_nat N ->
  (bpow radix2 k <= val (from_bits 0x3EFFF2E5) ^ N)%R.
Proof.
  intros N k K H. rewrite (proj2 x4999). rewrite Rpow_mult_distr, bpow_pow, pow_IZR.
  replace k with ((k + 25 * Z.of_nat N) + (-25 * Z.of_nat N)) at 1 by lia. rewrite bpow_plus.
  apply Rmult_le_compat_r; [apply bpow_ge_0|]. rewrite <- (IZR_Zpower radix2) by exact K. apply IZR_le. exact H.
Qed.

Lemma powi_premature_zero : forall {E : Env} fuel, exists x, fin x /\ (0.49 < val x < 0.5)%R /\
  F32_powi fuel x 75 = Ok F32_ZERO /\ (bpow radix2 (-76) <= val x ^ 75)%R.
Proof.
  intros E fuel. exists (from_bits 0x3EFFF2E5). destruct x4999 as [F V].
  assert (V2 : (0.49 < val (from_bits 0x3EFFF2E5) < 0.5)%R) by (rewrite V; bpow_lit; lra).
  split; [exact F|]. split; [exact V2|]. split.
  - apply (powi_early_zero fuel _ 75 (-2)); trivial; try lia. rewrite Rabs_pos_eq by lra. change (-2 + 1) with (-1). bpow_lit. lra.
  - apply x4999_pow; [simpl; lia|]. apply Z.leb_le. vm_compute. reflexivity.
Qed.

Lemma powi_premature_inf : forall {E : Env} fuel, exists x, fin x /\ (0.49 < val x < 0.5)%R /\
  F32_powi fuel x (-64) = Ok F32_INFINITY /\ ((/ val x) ^ 64 <= bpow radix2 65)%R.
Proof.
  intros E fuel. exists (from_bits 0x3EFFF2E5). destruct x4999 as [F V].
  assert (V2 : (0.49 < val (from_bits 0x3EFFF2E5) < 0.5)%R) by (rewrite V; bpow_lit; lra).
  split; [exact F|]. split; [exact V2|]. split.
  - rewrite (powi_early_inf fuel _ (-64) (-2)); trivial; try lia. rewrite Rabs_pos_eq by lra. change (-2 + 1) with (-1). bpow_lit. lra.
  - assert (P : (bpow radix2 (-65) <= val (from_bits 0x3EFFF2E5) ^ 64)%R).
    { apply x4999_pow; [simpl; lia|]. apply Z.leb_le. vm_compute. reflexivity. }
    rewrite pow_inv. replace 65 with (- (-65)) by lia. rewrite bpow_opp. apply Rinv_le; [apply bpow_gt_0|exact P].
Qed.

(** 4^(2^30): the exponent product is 2^31. *)
Lemma powi_exponent_overflow : forall {E : Env} fuel, fin c_4 /\ val c_4 = 4%R /\
  F32_powi fuel c_4 (2 ^ 30) = if overflow_checks then Panic else Ok F32_ZERO.
Proof.
  intros E fuel. assert (F : fin c_4) by reflexivity. assert (V : val c_4 = 4%R) by (unfold c_4; lit 0x40800000; bpow_lit; lra).
  split; [exact F|]. split; [exact V|]. rewrite powi_unfold. rewrite arith_i32 by (unfold i32_ok; simpl; lia). unfold bind at 1.
  replace (feq c_4 F32_ZERO) with false by reflexivity. replace (mid c_4) with false by reflexivity.
  replace (extract_exponent_value c_4) with 2 by reflexivity. 
  rewrite arith_i32_bad by (unfold i32_ok; simpl; lia). destruct overflow_checks; reflexivity.
Qed.
