(** * Proofs for C108-C110: order, idempotence and zero signs of the rounding functions *)

From Coq Require Import ZArith Reals Bool List Lia Lra.
From Flocq Require Import Core IEEE754.Binary IEEE754.Bits.
From Verif Require Import Base Spec SpecOps Float F32Wrap F32Lemmas BitLemmas P_Trunc P_Floor P_RoundEdge NanLemmas P_Wrap.
Open Scope Z_scope.

(** [fle] through the ordered key. *)
Lemma fle_key : forall x y, fle x y = true <-> is_nan x = false /\ is_nan y = false /\ (key x <= key y)%R.
Proof.
  intros x y. unfold fle. split.
  - intros L. destruct (is_nan x) eqn:Nx.
    { rewrite cmp_nan_l in L by exact Nx. discriminate. }
    destruct (is_nan y) eqn:Ny.
    { destruct y; try discriminate Ny. destruct x; discriminate L. }
    split; [reflexivity|]. split; [reflexivity|].
    pose proof (cmp_key x y Nx Ny) as C. unfold f32_partial_cmp in C. rewrite C in L.
    destruct (Rcompare_spec (key x) (key y)); try lra; try discriminate.
  - intros (Nx & Ny & L). pose proof (cmp_key x y Nx Ny) as C. unfold f32_partial_cmp in C. rewrite C.
    destruct (Rcompare_spec (key x) (key y)); trivial. lra.
Qed.

Lemma fin_key : forall x, fin x -> is_nan x = false /\ key x = val x.
Proof. intros x F. destruct x; try discriminate F; split; reflexivity. Qed.
Lemma inf_key : forall x, is_finite x = false -> is_nan x = false -> key x = (sgn x * bpow radix2 128)%R.
Proof. intros x F N. destruct x as [s|s|s p H|s m e H]; try discriminate. unfold key, sgn. cbn [is_infinite sign_bit Bsign]. destruct s; ring. Qed.
Lemma key_opp : forall x, key (fneg x) = (- key x)%R.
Proof.
  intros x. unfold key. rewrite fneg_val, fneg_sign. replace (is_infinite (fneg x)) with (is_infinite x) by (destruct x; reflexivity).
  destruct (is_infinite x); [|reflexivity]. destruct (sign_bit x); cbn [negb]; ring.
Qed.
Lemma fle_fneg : forall x y, fle x y = true -> fle (fneg y) (fneg x) = true.
Proof. intros x y L. apply fle_key in L. apply fle_key. rewrite !fneg_is_nan, !key_opp. repeat split; try tauto. lra. Qed.

(** The argument clamped to [-2^31, 2^31]. *)
Definition cl (r : R) : R := Rmax (- bpow radix2 31) (Rmin (bpow radix2 31) r).
Lemma cl_mono : forall r s, (r <= s)%R -> (cl r <= cl s)%R.
Proof. intros r s H. unfold cl. apply Rle_max_compat_l, Rle_min_compat_l. exact H. Qed.
Lemma cl_id : forall r, (Rabs r <= bpow radix2 31)%R -> cl r = r.
Proof. intros r H. apply Rabs_le_inv in H. unfold cl. rewrite Rmin_right, Rmax_right by lra. reflexivity. Qed.
Lemma cl_hi : forall r, (bpow radix2 31 <= r)%R -> cl r = bpow radix2 31.
Proof. intros r H. pose proof (bpow_gt_0 radix2 31). unfold cl. rewrite Rmin_left, Rmax_right by lra. reflexivity. Qed.
Lemma cl_lo : forall r, (r <= - bpow radix2 31)%R -> cl r = (- bpow radix2 31)%R.
Proof. intros r H. pose proof (bpow_gt_0 radix2 31). unfold cl. rewrite Rmin_right, Rmax_left by lra. reflexivity. Qed.

(** Every non-NaN float is in the i32 range or beyond it. *)
Lemma range_split : forall x, is_nan x = false ->
  (fin x /\ (Rabs (val x) <= bpow radix2 31)%R /\ cl (key x) = val x) \/
  ((fin x -> (bpow radix2 31 <= Rabs (val x))%R) /\ cl (key x) = (sgn x * bpow radix2 31)%R).
Proof.
  intros x N. destruct (is_finite x) eqn:F.
  - destruct (fin_key x F) as [_ K]. rewrite K. destruct (Rle_or_lt (Rabs (val x)) (bpow radix2 31)) as [L|L].
    + left. split; [exact F|]. split; [exact L|]. apply cl_id, L.
    + right. split; [intros; lra|]. unfold sgn. destruct (sign_bit x) eqn:S.
      * rewrite cl_lo; [ring|]. pose proof (sign_val_neg x S). rewrite Rabs_left1 in L by assumption. lra.
      * rewrite cl_hi; [ring|]. pose proof (sign_val_pos x S). rewrite Rabs_pos_eq in L by assumption. lra.
  - right. split; [intros; congruence|]. rewrite (inf_key x F N).
    assert (bpow radix2 31 <= bpow radix2 128)%R by (apply bpow_le; lia).
    unfold sgn. destruct (sign_bit x); [rewrite cl_lo; [ring|lra]|rewrite cl_hi; [ring|lra]].
Qed.

Lemma sat_val : forall s : bool, let y := from_bits (if s then 0xCF000000 else 0x4F000000) in
  fin y /\ val y = ((if s then -1 else 1) * bpow radix2 31)%R /\ sign_bit y = s.
Proof.
  intros s y. unfold y. destruct s; (split; [reflexivity|split; [|reflexivity]]).
  - replace (from_bits 0xCF000000) with (f32_of_Z (- 2 ^ 31)) by (apply to_bits_inj; vm_compute; reflexivity).
    rewrite (proj2 f32_min_i32). change (bpow radix2 31) with (IZR (2 ^ 31)). rewrite opp_IZR. ring.
  - replace (from_bits 0x4F000000) with (f32_of_Z (2 ^ 31 - 1)) by (apply to_bits_inj; vm_compute; reflexivity).
    rewrite (proj2 f32_max_i32). change (bpow radix2 31) with (IZR (2 ^ 31)). ring.
Qed.

(** ** floor and ceil *)

Lemma floor_clamped : forall {E : Env} x, is_nan x = false ->
  fin (F32_floor x) /\ val (F32_floor x) = IZR (Zfloor (cl (key x))).
Proof.
  intros E x N. destruct (range_split x N) as [(F & L & K)|(L & K)]; rewrite K.
  - apply floor_exact; assumption.
  - rewrite floor_big by assumption. destruct (sat_val (sign_bit x)) as (A & B & _). split; [exact A|]. rewrite B.
    unfold sgn. change (bpow radix2 31) with (IZR (2 ^ 31)). destruct (sign_bit x).
    + replace (-1 * IZR (2 ^ 31))%R with (IZR (- 2 ^ 31)) by (rewrite opp_IZR; ring). rewrite Zfloor_IZR. reflexivity.
    + rewrite Rmult_1_l, Zfloor_IZR. reflexivity.
Qed.

Lemma floor_mono : forall {E : Env} x y, fle x y = true -> fle (F32_floor x) (F32_floor y) = true.
Proof.
  intros E x y L. apply fle_key in L. destruct L as (Nx & Ny & L).
  destruct (floor_clamped x Nx) as [Fx Vx]. destruct (floor_clamped y Ny) as [Fy Vy].
  rewrite fle_R by assumption. apply Rle_bool_true. rewrite Vx, Vy. apply IZR_le, Zfloor_le, cl_mono. exact L.
Qed.

Lemma ceil_mono : forall {E : Env} x y, fle x y = true -> fle (F32_ceil x) (F32_ceil y) = true.
Proof. intros E x y L. unfold F32_ceil. apply fle_fneg, floor_mono, fle_fneg. exact L. Qed.

(** Integers converted to f32 have no negative zero. *)
Lemma rnd_ge_one : forall n, n <> 0 -> (1 <= Rabs (rnd (IZR n)))%R.
Proof.
  intros n N. destruct (Z_lt_le_dec n 0) as [L|L].
  - assert (H : (rnd (IZR n) <= -1)%R).
    { rewrite <- (rnd_fmt (-1)) by (replace (-1)%R with (IZR (-1) * bpow radix2 0)%R by (simpl; ring); apply fmt_scaled; lia). apply rnd_le. apply IZR_le. lia. }
    rewrite Rabs_left1; lra.
  - assert (H : (1 <= rnd (IZR n))%R).
    { rewrite <- (rnd_fmt 1) by (replace 1%R with (IZR 1 * bpow radix2 0)%R by (simpl; ring); apply fmt_scaled; lia). apply rnd_le. apply IZR_le. lia. }
    rewrite Rabs_pos_eq; lra.
Qed.
Lemma of_Z_zero : forall n, Z.abs n <= 2 ^ 64 -> f32_of_Z n <> f32_zero true.
Proof.
  intros n B H. destruct (Z.eq_dec n 0) as [->|N].
  - vm_compute in H. discriminate.
  - destruct (f32_of_Z_R n) as [F V]. { eapply Z.le_trans; [exact B|]. apply Z.pow_le_mono_r; lia. }
    rewrite H in V. change (val (f32_zero true)) with 0%R in V.
    pose proof (rnd_ge_one n N) as G. rewrite <- V, Rabs_R0 in G. lra.
Qed.
Lemma to_i32_small : forall x, Z.abs (to_i32 x) <= 2 ^ 64.
Proof.
  intros x. assert (- 2 ^ 31 <= to_i32 x <= 2 ^ 31 - 1); [|lia].
  destruct (is_nan x) eqn:N. { destruct x; try discriminate. vm_compute. split; discriminate. }
  destruct (range_split x N) as [(F & L & _)|(L & _)].
  - rewrite to_i32_fin by exact F. unfold clamp. change (ity_min i32) with (- 2 ^ 31). change (ity_max i32) with (2 ^ 31 - 1). lia.
  - rewrite to_i32_big by assumption. destruct (sign_bit x); lia.
Qed.

Lemma floor_no_neg_zero : forall {E : Env} x, F32_floor x <> f32_zero true.
Proof.
  intros E x K. destruct (is_nan x) eqn:N. { rewrite floor_nan in K by exact N. discriminate. }
  destruct (range_split x N) as [(F & L & _)|(L & _)].
  - destruct (floor_exact x F L) as [_ V]. rewrite K in V. change (val (f32_zero true)) with (IZR 0) in V. apply eq_IZR in V.
    assert (P : (0 <= val x)%R) by (pose proof (Zfloor_lb (val x)) as Q; rewrite <- V in Q; exact Q).
    destruct (to_from_i32 x F L) as [Fa Va]. rewrite Ztrunc_floor in Va by exact P.
    unfold F32_floor in K. cbv zeta in K. rewrite flt_R in K by assumption.
    rewrite Rlt_bool_false in K. 2: { rewrite Va. apply Zfloor_lb. }
    revert K. apply of_Z_zero, to_i32_small.
  - rewrite floor_big in K by assumption. destruct (sign_bit x); vm_compute in K; discriminate.
Qed.

Lemma ceil_no_pos_zero : forall {E : Env} x, F32_ceil x <> f32_zero false.
Proof.
  intros E x K. apply (floor_no_neg_zero (fneg x)). unfold F32_ceil in K. rewrite <- (fneg_involutive (F32_floor (fneg x))), K. reflexivity.
Qed.

Lemma round_no_neg_zero : forall {E : Env} x, F32_round x <> f32_zero true.
Proof. intros E x. unfold F32_round. apply of_Z_zero, to_i32_small. Qed.

(** Equal values and no negative zero: equal floats. *)
Lemma eq_no_neg_zero : forall x y, fin x -> fin y -> val x = val y -> x <> f32_zero true -> y <> f32_zero true -> x = y.
Proof.
  intros x y Fx Fy V Nx Ny. destruct (Req_dec (val x) 0) as [Z|Z]; [|apply val_inj_nz; assumption].
  assert (G : forall a, fin a -> val a = 0%R -> a <> f32_zero true -> a = f32_zero false).
  { intros a Fa Va Na. destruct a as [s|s|s p H|s m e H]; try discriminate Fa.
    - destruct s; [exfalso; apply Na; reflexivity|reflexivity].
    - exfalso. unfold val, B2R in Va. apply eq_0_F2R in Va. destruct s; discriminate. }
  rewrite (G x), (G y); trivial; congruence.
Qed.

Lemma cl_bound : forall r, (Rabs (cl r) <= bpow radix2 31)%R.
Proof.
  intros r. pose proof (bpow_gt_0 radix2 31). unfold cl. apply Rabs_le. split; [apply Rmax_l|].
  apply Rmax_lub; [lra|apply Rmin_l].
Qed.
Lemma floor_int31 : forall r, (Rabs r <= bpow radix2 31)%R -> (Rabs (IZR (Zfloor r)) <= bpow radix2 31)%R.
Proof.
  intros r H. apply Rabs_le_inv in H. change (bpow radix2 31) with (IZR (2 ^ 31)) in *. rewrite <- opp_IZR in *. apply Rabs_le. rewrite <- opp_IZR. split.
  - apply IZR_le, Zfloor_lub. lra.
  - eapply Rle_trans; [apply Zfloor_lb|]. lra.
Qed.

Lemma floor_idem : forall {E : Env} x, F32_floor (F32_floor x) = F32_floor x.
Proof.
  intros E x. destruct (is_nan x) eqn:N.
  { rewrite (floor_nan x N). apply to_bits_inj. vm_compute. reflexivity. }
  destruct (floor_clamped x N) as [F V].
  destruct (floor_exact (F32_floor x) F) as [F2 V2]. { rewrite V. apply floor_int31, cl_bound. }
  apply eq_no_neg_zero; trivial; try apply floor_no_neg_zero.
  rewrite V2, V, Zfloor_IZR. reflexivity.
Qed.
Lemma ceil_idem : forall {E : Env} x, F32_ceil (F32_ceil x) = F32_ceil x.
Proof. intros E x. unfold F32_ceil. rewrite fneg_involutive, floor_idem. reflexivity. Qed.

(** ** round *)

Definition rh (a : R) : R := IZR (Zfloor (rnd (a + / 2))).

Lemma rh_mono : forall a b, (a <= b)%R -> (rh a <= rh b)%R.
Proof. intros a b H. apply IZR_le, Zfloor_le, rnd_le. lra. Qed.
Lemma rh_pos : forall a, (0 <= a)%R -> (0 <= rh a)%R.
Proof. intros a H. apply IZR_le, Zfloor_lub, rnd_nonneg. lra. Qed.
Lemma rnd_2p31 : rnd (bpow radix2 31 + / 2) = bpow radix2 31.
Proof.
  assert (A : (bpow radix2 31 + / 2 = (IZR 2147483648 + / 2))%R) by reflexivity.
  destruct sat_val with (s := false) as (F & V & _). rewrite Rmult_1_l in V.
  rewrite <- V at 1. rewrite <- (Rabs_pos_eq (val _)) by (rewrite V; apply bpow_ge_0).
  rewrite rnd_big_half; [rewrite V; apply Rabs_pos_eq, bpow_ge_0|exact F|].
  rewrite V, Rabs_pos_eq by apply bpow_ge_0. apply bpow_le. lia.
Qed.

Lemma round_clamped : forall {E : Env} x, is_nan x = false ->
  fin (F32_round x) /\ val (F32_round x) = (sgn x * rh (Rabs (cl (key x))))%R.
Proof.
  intros E x N. destruct (range_split x N) as [(F & L & K)|(L & K)]; rewrite K.
  - apply round_floor; [exact F|]. rewrite <- rnd_2p31. apply rnd_le. lra.
  - rewrite round_big by assumption. destruct (sat_val (sign_bit x)) as (A & B & _). split; [exact A|]. rewrite B.
    rewrite sgn_abs, Rabs_pos_eq by apply bpow_ge_0. unfold rh. rewrite rnd_2p31.
    change (bpow radix2 31) with (IZR (2 ^ 31)). rewrite Zfloor_IZR. reflexivity.
Qed.

Lemma key_sign : forall x, is_nan x = false -> (if sign_bit x then key x <= 0 else 0 <= key x)%R.
Proof.
  intros x N. unfold key. pose proof (bpow_gt_0 radix2 128). destruct (is_infinite x).
  - destruct (sign_bit x); lra.
  - destruct (sign_bit x) eqn:S; [apply sign_val_neg; exact S|apply sign_val_pos; exact S].
Qed.
Lemma cl_0 : cl 0 = 0%R.
Proof. apply cl_id. rewrite Rabs_R0. apply bpow_ge_0. Qed.
Lemma rh_0 : rh 0 = 0%R.
Proof.
  unfold rh. rewrite Rplus_0_l, rnd_fmt. 2:{ replace (/ 2)%R with (IZR 1 * bpow radix2 (-1))%R by (simpl; lra). apply fmt_scaled; lia. }
  replace (Zfloor (/ 2)) with 0; [reflexivity|]. symmetry. apply Zfloor_imp. simpl. lra.
Qed.

Lemma round_mono : forall {E : Env} x y, fle x y = true -> fle (F32_round x) (F32_round y) = true.
Proof.
  intros E x y L. apply fle_key in L. destruct L as (Nx & Ny & L).
  destruct (round_clamped x Nx) as [Fx Vx]. destruct (round_clamped y Ny) as [Fy Vy].
  rewrite fle_R by assumption. apply Rle_bool_true. rewrite Vx, Vy.
  pose proof (key_sign x Nx) as Kx. pose proof (key_sign y Ny) as Ky.
  pose proof (rh_pos _ (Rabs_pos (cl (key x)))) as Px. pose proof (rh_pos _ (Rabs_pos (cl (key y)))) as Py.
  pose proof (cl_mono _ _ L) as M.
  unfold sgn. destruct (sign_bit x), (sign_bit y).
  - apply cl_mono in Kx, Ky. rewrite cl_0 in *. rewrite !Rabs_left1 in * by assumption.
    pose proof (rh_mono (- cl (key y)) (- cl (key x)) ltac:(lra)). lra.
  - lra.
  - assert (key x = 0 /\ key y = 0)%R as [-> ->] by lra. rewrite cl_0, Rabs_R0, rh_0. lra.
  - apply cl_mono in Kx, Ky. rewrite cl_0 in *. rewrite !Rabs_pos_eq in * by assumption.
    pose proof (rh_mono (cl (key x)) (cl (key y)) ltac:(lra)). lra.
Qed.

Lemma rha_IZR : forall n, round_half_away (IZR n) = n.
Proof.
  intros n. unfold round_half_away. destruct (Rle_bool_spec 0 (IZR n)) as [P|P].
  - apply Zfloor_imp. rewrite plus_IZR. lra.
  - apply Zceil_imp. rewrite minus_IZR. lra.
Qed.
Lemma rha_bound : forall r n, (Rabs r <= IZR n)%R -> Z.abs (round_half_away r) <= n.
Proof.
  intros r n H. apply Rabs_le_inv in H. unfold round_half_away. destruct (Rle_bool_spec 0 r) as [P|P].
  - assert (0 <= Zfloor (r + 1 / 2)) by (apply Zfloor_lub; simpl; lra).
    assert (Zfloor (r + 1 / 2) <= n); [|lia]. assert (Zfloor (r + 1 / 2) < n + 1); [|lia].
    apply lt_IZR. eapply Rle_lt_trans; [apply Zfloor_lb|]. rewrite plus_IZR. lra.
  - assert (Zceil (r - 1 / 2) <= 0) by (apply Zceil_glb; simpl; lra).
    assert (- n <= Zceil (r - 1 / 2)); [|lia]. assert (- n - 1 < Zceil (r - 1 / 2)); [|lia].
    apply lt_IZR. eapply Rlt_le_trans; [|apply Zceil_ub]. rewrite minus_IZR, opp_IZR. lra.
Qed.
Lemma pred_half_val : (0 < val (from_bits 0x3EFFFFFF) < 1)%R.
Proof. vm_compute (from_bits _). unfold val, B2R, F2R. cbn [Fnum Fexp cond_Zopp bpow]. simpl. lra. Qed.
Lemma not_pred_half : forall n, Rabs (IZR n) <> val (from_bits 0x3EFFFFFF).
Proof.
  intros n H. pose proof pred_half_val as P. rewrite <- H, <- abs_IZR in P.
  destruct P as [A B]. apply lt_IZR in A. apply lt_IZR in B. lia.
Qed.

Lemma round_idem : forall {E : Env} x, F32_round (F32_round x) = F32_round x.
Proof.
  intros E x. destruct (is_nan x) eqn:N.
  { rewrite (round_nan x N). apply to_bits_inj. vm_compute. reflexivity. }
  assert (G : fin (F32_round x) -> fin (F32_round (F32_round x)) /\ val (F32_round (F32_round x)) = val (F32_round x) -> F32_round (F32_round x) = F32_round x).
  { intros F [A B]. apply eq_no_neg_zero; trivial; apply round_no_neg_zero. }
  destruct (range_split x N) as [(F & L & _)|(L & _)].
  2:{ rewrite (round_big x N L). destruct (sign_bit x); apply to_bits_inj; vm_compute; reflexivity. }
  destruct (Rle_or_lt (Rabs (val x)) (bpow radix2 23)) as [L1|L1].
  - destruct (Req_dec (Rabs (val x)) (val (from_bits 0x3EFFFFFF))) as [P|P].
    + assert (X : x = from_bits 0x3EFFFFFF \/ x = from_bits 0xBEFFFFFF).
      { pose proof pred_half_val as PV. destruct (Rle_or_lt 0 (val x)) as [S|S].
        - rewrite Rabs_pos_eq in P by exact S. left. apply val_inj_nz; trivial; try reflexivity. lra.
        - rewrite Rabs_left in P by exact S. right. apply val_inj_nz; trivial; try reflexivity; [|lra].
          replace (from_bits 0xBEFFFFFF) with (fneg (from_bits 0x3EFFFFFF)) by (apply to_bits_inj; vm_compute; reflexivity).
          rewrite fneg_val. lra. }
      destruct X as [-> | ->]; apply to_bits_inj; vm_compute; reflexivity.
    + destruct (round_exact x F L1 P) as [Fr Vr]. apply G; [exact Fr|].
      pose proof (rha_bound (val x) (2 ^ 23) L1) as B.
      destruct (round_exact (F32_round x) Fr) as [A C].
      * rewrite Vr, <- abs_IZR. apply (IZR_le _ (2 ^ 23)). exact B.
      * rewrite Vr. apply not_pred_half.
      * split; [exact A|]. rewrite C, Vr, rha_IZR. reflexivity.
  - destruct (Rlt_or_le (Rabs (val x)) (bpow radix2 24)) as [L2|L2].
    + destruct (large_integer x F ltac:(lra)) as [n Hn]. assert (Ha : Rabs (val x) = IZR (Z.abs n)) by (rewrite Hn, <- abs_IZR; reflexivity).
      assert (R : 2 ^ 23 <= Z.abs n < 2 ^ 24).
      { rewrite Ha in L1, L2. split; [apply le_IZR|apply lt_IZR]; [apply Rlt_le; exact L1|exact L2]. }
      destruct (round_int24 x (Z.abs n) F Ha R) as [Fr Vr]. apply G; [exact Fr|].
      set (k := if Z.even (Z.abs n) then Z.abs n else Z.abs n + 1) in *.
      assert (K : 2 ^ 23 <= k <= 2 ^ 24 /\ Z.even k = true).
      { unfold k. destruct (Z.even (Z.abs n)) eqn:Ev; [split; [lia|exact Ev]|]. split; [lia|].
        rewrite Z.add_1_r, Z.even_succ. rewrite <- Z.negb_even, Ev. reflexivity. }
      destruct K as [K Ke].
      assert (Ar : Rabs (val (F32_round x)) = IZR k) by (rewrite Vr, sgn_abs, Rabs_pos_eq; [reflexivity|apply IZR_le; lia]).
      destruct (Z.eq_dec k (2 ^ 24)) as [K2|K2].
      * apply round_int31; [exact Fr|]. rewrite Ar, K2. split; [apply Rle_refl|]. apply (bpow_le radix2 24 31). lia.
      * destruct (round_int24 (F32_round x) k Fr Ar ltac:(lia)) as [A C]. split; [exact A|]. rewrite C, Ke.
        rewrite <- Ar. symmetry. rewrite (val_signed (F32_round x)) at 1. unfold sgn. reflexivity.
    + destruct (round_int31 x F (conj L2 L)) as [Fr Vr]. apply G; [exact Fr|].
      apply round_int31; [exact Fr|]. rewrite Vr. split; assumption.
Qed.

(** The values are odd; the zero is always positive. *)
Lemma round_odd : forall {E : Env} x, is_nan x = false -> val (F32_round (fneg x)) = (- val (F32_round x))%R.
Proof.
  intros E x N. destruct (round_clamped x N) as [_ V]. destruct (round_clamped (fneg x)) as [_ W]; [rewrite fneg_is_nan; exact N|].
  rewrite V, W, key_opp. unfold sgn. rewrite fneg_sign.
  assert (C : Rabs (cl (- key x)) = Rabs (cl (key x))).
  { destruct (Rle_or_lt (Rabs (key x)) (bpow radix2 31)) as [L|L].
    - rewrite !cl_id; [apply Rabs_Ropp| exact L| rewrite Rabs_Ropp; exact L].
    - pose proof (bpow_gt_0 radix2 31). destruct (Rle_or_lt 0 (key x)) as [P|P].
      + rewrite Rabs_pos_eq in L by exact P. rewrite cl_lo, cl_hi by lra. apply Rabs_Ropp.
      + rewrite Rabs_left in L by exact P. rewrite cl_hi, cl_lo by lra. symmetry. apply Rabs_Ropp. }
  rewrite C. destruct (sign_bit x); cbn [negb]; ring.
Qed.

Lemma round_odd_refuted : forall {E : Env}, exists x, fin x /\ F32_round (fneg x) <> fneg (F32_round x).
Proof.
  intros E. exists F32_ZERO. split; [reflexivity|]. intros H.
  assert (T : to_bits (F32_round (fneg F32_ZERO)) = to_bits (fneg (F32_round F32_ZERO))) by (rewrite H; reflexivity).
  vm_compute in T. discriminate.
Qed.

(** ** trunc *)

Lemma trunc_below_one : forall x, fin x -> (Rabs (val x) < 1)%R -> F32_trunc x = f32_zero (sign_bit x).
Proof. intros x F H. apply trunc_small. pose proof (bexp_lt x 0 F ltac:(lia) H). lia. Qed.

Lemma magnitude_exp : forall x, fin x -> (1 <= Rabs (val x))%R -> exists e, 0 <= e /\ (bpow radix2 e <= Rabs (val x) < bpow radix2 (e + 1))%R.
Proof.
  intros x F H. destruct (mag radix2 (val x)) as [m Hm]. cbv beta in Hm.
  specialize (Hm ltac:(intro Z; rewrite Z, Rabs_R0 in H; lra)). exists (m - 1). replace (m - 1 + 1) with m by ring.
  split; [|exact Hm]. assert (0 < m); [|lia]. apply (lt_bpow radix2). simpl (bpow radix2 0). lra.
Qed.

(** The value of trunc x: a multiple of 2^q in the same binade. *)
Lemma trunc_binade : forall x e, fin x -> 0 <= e -> (bpow radix2 e <= Rabs (val x) < bpow radix2 (e + 1))%R ->
  let q := 32 * (e / 32) in let T := (IZR (Zfloor (Rabs (val x) * bpow radix2 (- q))) * bpow radix2 q)%R in
  fin (F32_trunc x) /\ sign_bit (F32_trunc x) = sign_bit x /\ val (F32_trunc x) = (sgn x * T)%R /\
  (bpow radix2 e <= T <= Rabs (val x))%R.
Proof.
  intros x e F e0 H q T. destruct (trunc_cut x e F e0 H) as (A & B & C & _). fold q in C. fold T in C.
  split; [exact A|]. split; [exact B|]. split; [exact C|].
  assert (Q : 0 <= q <= e) by (unfold q; pose proof (Z.div_mod e 32 ltac:(lia)); pose proof (Z.mod_pos_bound e 32 ltac:(lia)); lia).
  assert (P : (bpow radix2 (- q) * bpow radix2 q = 1)%R) by (rewrite <- bpow_plus, Z.add_opp_diag_l; reflexivity).
  split.
  - unfold T. replace e with (e - q + q) at 1 by ring. rewrite bpow_plus. apply Rmult_le_compat_r; [apply bpow_ge_0|].
    rewrite bpow_Z by lia. apply IZR_le, Zfloor_lub. rewrite <- bpow_Z by lia. replace (e - q) with (e + - q) by ring. rewrite bpow_plus.
    apply Rmult_le_compat_r; [apply bpow_ge_0|apply H].
  - unfold T. apply Rle_trans with (Rabs (val x) * bpow radix2 (- q) * bpow radix2 q)%R.
    + apply Rmult_le_compat_r; [apply bpow_ge_0|apply Zfloor_lb].
    + rewrite Rmult_assoc, P. lra.
Qed.

(** Magnitude of trunc x. *)
Definition tm (x : f32) : R := Rabs (key (F32_trunc x)).
Lemma trunc_key : forall x, is_nan x = false -> key (F32_trunc x) = (sgn x * tm x)%R /\ is_nan (F32_trunc x) = false.
Proof.
  intros x N. unfold tm. destruct (is_finite x) eqn:F.
  - destruct (Rlt_or_le (Rabs (val x)) 1) as [L|L].
    + rewrite trunc_below_one by assumption. unfold sgn. destruct (sign_bit x); (split; [|reflexivity]); change (key _) with 0%R; rewrite Rabs_R0; ring.
    + destruct (magnitude_exp x F L) as (e & e0 & H). destruct (trunc_binade x e F e0 H) as (A & B & C & D). cbv zeta in *.
      destruct (fin_key _ A) as [N2 ->]. split; [|exact N2]. rewrite C, sgn_abs.
      pose proof (bpow_gt_0 radix2 e). set (T := (IZR _ * bpow radix2 _)%R) in *. rewrite (Rabs_pos_eq T) by lra. reflexivity.
  - rewrite trunc_nonfinite by exact F. unfold sgn. destruct (sign_bit x); (split; [|reflexivity]); unfold key; cbn [is_infinite f32_inf sign_bit Bsign].
    + rewrite Rabs_Ropp, Rabs_pos_eq by apply bpow_ge_0. ring.
    + rewrite Rabs_pos_eq by apply bpow_ge_0. ring.
Qed.

Lemma abs_key_inf : forall x, is_finite x = false -> is_nan x = false -> Rabs (key x) = bpow radix2 128 /\ tm x = bpow radix2 128.
Proof.
  intros x F N. rewrite (inf_key x F N). unfold tm. rewrite trunc_nonfinite by exact F.
  rewrite sgn_abs, Rabs_pos_eq by apply bpow_ge_0. split; [reflexivity|].
  destruct (sign_bit x); unfold key; cbn [is_infinite f32_inf sign_bit Bsign]; rewrite ?Rabs_Ropp, Rabs_pos_eq by apply bpow_ge_0; reflexivity.
Qed.
Lemma fin_lt_128 : forall x, fin x -> (Rabs (val x) < bpow radix2 128)%R.
Proof. intros x F. apply (abs_B2R_lt_emax 24 128). Qed.

Lemma tm_mono : forall x y, is_nan x = false -> is_nan y = false -> (Rabs (key x) <= Rabs (key y))%R -> (tm x <= tm y)%R.
Proof.
  intros x y Nx Ny L.
  assert (B : forall z, fin z -> (tm z <= Rabs (val z))%R).
  { intros z F. unfold tm. destruct (Rlt_or_le (Rabs (val z)) 1) as [H|H].
    - rewrite trunc_below_one by assumption. destruct (sign_bit z); change (key _) with 0%R; rewrite Rabs_R0; apply Rabs_pos.
    - destruct (magnitude_exp z F H) as (e & e0 & G). destruct (trunc_binade z e F e0 G) as (A & _ & C & D). cbv zeta in *.
      destruct (fin_key _ A) as [_ ->]. rewrite C, sgn_abs. pose proof (bpow_gt_0 radix2 e). set (T := (IZR _ * bpow radix2 _)%R) in *. rewrite (Rabs_pos_eq T) by lra. apply D. }
  destruct (is_finite y) eqn:Fy.
  2:{ destruct (abs_key_inf y Fy Ny) as [_ ->]. destruct (is_finite x) eqn:Fx.
      - eapply Rle_trans; [apply B; exact Fx|]. apply Rlt_le, fin_lt_128. exact Fx.
      - destruct (abs_key_inf x Fx Nx) as [_ ->]. lra. }
  destruct (fin_key y Fy) as [_ Ky]. rewrite Ky in L.
  destruct (is_finite x) eqn:Fx.
  2:{ destruct (abs_key_inf x Fx Nx) as [K _]. rewrite K in L. pose proof (fin_lt_128 y Fy). lra. }
  destruct (fin_key x Fx) as [_ Kx]. rewrite Kx in L.
  destruct (Rlt_or_le (Rabs (val x)) 1) as [Hx|Hx].
  { unfold tm at 1. rewrite trunc_below_one by assumption. destruct (sign_bit x); change (key (f32_zero _)) with 0%R; rewrite Rabs_R0; apply Rabs_pos. }
  destruct (magnitude_exp x Fx Hx) as (e & e0 & G). destruct (magnitude_exp y Fy ltac:(lra)) as (f & f0 & H).
  destruct (trunc_binade x e Fx e0 G) as (A1 & _ & C1 & D1). destruct (trunc_binade y f Fy f0 H) as (A2 & _ & C2 & D2). cbv zeta in *.
  pose proof (bpow_gt_0 radix2 e). pose proof (bpow_gt_0 radix2 f).
  assert (Tx : tm x = (IZR (Zfloor (Rabs (val x) * bpow radix2 (- (32 * (e / 32))))) * bpow radix2 (32 * (e / 32)))%R).
  { unfold tm. destruct (fin_key _ A1) as [_ ->]. rewrite C1, sgn_abs. set (T := (IZR _ * bpow radix2 (32 * (e / 32)))%R) in *. apply Rabs_pos_eq. lra. }
  assert (Ty : tm y = (IZR (Zfloor (Rabs (val y) * bpow radix2 (- (32 * (f / 32))))) * bpow radix2 (32 * (f / 32)))%R).
  { unfold tm. destruct (fin_key _ A2) as [_ ->]. rewrite C2, sgn_abs. set (T := (IZR _ * bpow radix2 (32 * (f / 32)))%R) in *. apply Rabs_pos_eq. lra. }
  assert (EF : e <= f). { assert (e < f + 1); [|lia]. apply (lt_bpow radix2). lra. }
  destruct (Z.eq_dec e f) as [->|NE].
  - rewrite Tx, Ty. apply Rmult_le_compat_r; [apply bpow_ge_0|]. apply IZR_le, Zfloor_le. apply Rmult_le_compat_r; [apply bpow_ge_0|exact L].
  - apply Rle_trans with (bpow radix2 f); [|rewrite Ty; apply D2].
    apply Rle_trans with (bpow radix2 (e + 1)); [|apply bpow_le; lia]. rewrite Tx. lra.
Qed.

Lemma trunc_mono : forall x y, fle x y = true -> fle (F32_trunc x) (F32_trunc y) = true.
Proof.
  intros x y L. apply fle_key in L. destruct L as (Nx & Ny & L). apply fle_key.
  destruct (trunc_key x Nx) as [Kx Mx]. destruct (trunc_key y Ny) as [Ky My]. split; [exact Mx|]. split; [exact My|].
  rewrite Kx, Ky. pose proof (key_sign x Nx) as Sx. pose proof (key_sign y Ny) as Sy.
  assert (Px : (0 <= tm x)%R) by apply Rabs_pos. assert (Py : (0 <= tm y)%R) by apply Rabs_pos.
  pose proof (tm_mono x y Nx Ny) as A. pose proof (tm_mono y x Ny Nx) as B.
  unfold sgn. destruct (sign_bit x), (sign_bit y).
  - rewrite !Rabs_left1 in * by assumption. pose proof (B ltac:(lra)). lra.
  - lra.
  - rewrite Rabs_pos_eq, (Rabs_left1 (key y)) in * by assumption.
    assert (Zx : key x = 0%R) by lra. assert (Zy : key y = 0%R) by lra.
    assert (G : forall z, is_nan z = false -> key z = 0%R -> tm z = 0%R).
    { intros z Nz Kz. destruct (is_finite z) eqn:Fz.
      - destruct (fin_key z Fz) as [_ Hz]. unfold tm. rewrite trunc_below_one; [|exact Fz|rewrite <- Hz, Kz, Rabs_R0; lra].
        destruct (sign_bit z); change (key _) with 0%R; apply Rabs_R0.
      - destruct (abs_key_inf z Fz Nz) as [H _]. rewrite Kz, Rabs_R0 in H. pose proof (bpow_gt_0 radix2 128). lra. }
    rewrite (G x), (G y) by assumption. lra.
  - rewrite !Rabs_pos_eq in * by assumption. pose proof (A ltac:(lra)). lra.
Qed.

Lemma trunc_idem : forall x, F32_trunc (F32_trunc x) = F32_trunc x.
Proof.
  intros x. destruct (is_finite x) eqn:F.
  2:{ rewrite (trunc_nonfinite x F). destruct (sign_bit x); apply to_bits_inj; vm_compute; reflexivity. }
  destruct (Rlt_or_le (Rabs (val x)) 1) as [L|L].
  { rewrite (trunc_below_one x F L). destruct (sign_bit x); apply to_bits_inj; vm_compute; reflexivity. }
  destruct (magnitude_exp x F L) as (e & e0 & H). destruct (trunc_binade x e F e0 H) as (A & B & C & D). cbv zeta in *.
  pose proof (bpow_gt_0 radix2 e).
  assert (Ab : Rabs (val (F32_trunc x)) = (IZR (Zfloor (Rabs (val x) * bpow radix2 (- (32 * (e / 32))))) * bpow radix2 (32 * (e / 32)))%R).
  { rewrite C, sgn_abs. apply Rabs_pos_eq. lra. }
  apply (trunc_cut (F32_trunc x) e A e0); [rewrite Ab; lra|]. eexists. exact Ab.
Qed.

Lemma trunc_odd : forall x, F32_trunc (fneg x) = fneg (F32_trunc x).
Proof.
  intros x. destruct (is_finite x) eqn:F.
  2:{ rewrite !trunc_nonfinite; [|exact F|rewrite fneg_is_finite; exact F]. rewrite fneg_sign. destruct (sign_bit x); reflexivity. }
  assert (F' : fin (fneg x)) by (apply fneg_fin; exact F).
  destruct (Rlt_or_le (Rabs (val x)) 1) as [L|L].
  { rewrite !trunc_below_one; [|exact F|exact L|exact F'|rewrite fneg_val, Rabs_Ropp; exact L]. rewrite fneg_sign. destruct (sign_bit x); reflexivity. }
  destruct (magnitude_exp x F L) as (e & e0 & H). destruct (trunc_binade x e F e0 H) as (A & B & C & D).
  assert (H' : (bpow radix2 e <= Rabs (val (fneg x)) < bpow radix2 (e + 1))%R) by (rewrite fneg_val, Rabs_Ropp; exact H).
  destruct (trunc_binade (fneg x) e F' e0 H') as (A' & B' & C' & D'). cbv zeta in *.
  apply fin_dec_eq; [exact A'|apply fneg_fin; exact A| |].
  - rewrite fneg_val, C, C', fneg_val, Rabs_Ropp. unfold sgn. rewrite fneg_sign. destruct (sign_bit x); cbn [negb]; ring.
  - rewrite fneg_sign, B, B', fneg_sign. reflexivity.
Qed.

(** ** Between floor and ceil *)

Lemma floor_ceil_around : forall {E : Env} x, fin x -> (Rabs (val x) <= bpow radix2 31)%R ->
  (val (F32_floor x) <= val x <= val (F32_ceil x))%R /\
  (val (F32_ceil x) - val (F32_floor x) <= 1)%R /\
  (val (F32_floor x) <= val (F32_trunc x) <= val (F32_ceil x))%R /\
  ((exists n, val x = IZR n) <-> val (F32_floor x) = val (F32_ceil x)) /\
  ((exists n, val x = IZR n) -> val (F32_floor x) = val x /\ val (F32_trunc x) = val x /\ val (F32_ceil x) = val x).
Proof.
  intros E x F L. destruct (floor_exact x F L) as [_ A]. destruct (ceil_exact x F L) as [_ B].
  destruct (trunc_exact x F) as (_ & C & _). { eapply Rle_lt_trans; [exact L|]. apply bpow_lt. lia. }
  rewrite A, B, C.
  pose proof (Zfloor_lb (val x)) as P. pose proof (Zceil_ub (val x)) as Q.
  assert (W : (exists n, val x = IZR n) -> IZR (Zfloor (val x)) = val x /\ IZR (Zceil (val x)) = val x /\ IZR (Ztrunc (val x)) = val x).
  { intros [n ->]. rewrite Zfloor_IZR, Zceil_IZR, Ztrunc_IZR. auto. }
  split; [lra|]. split; [|split; [|split]].
  - destruct (Req_dec (IZR (Zfloor (val x))) (val x)) as [Eq|Ne].
    + destruct (W (ex_intro _ _ (eq_sym Eq))) as (_ & -> & _). lra.
    + rewrite (Zceil_floor_neq _ Ne), plus_IZR. lra.
  - unfold Ztrunc. destruct (Rlt_bool (val x) 0); lra.
  - split.
    + intros X. destruct (W X) as (-> & -> & _). reflexivity.
    + intros X. exists (Zfloor (val x)). lra.
  - intros X. destruct (W X) as (-> & -> & ->). auto.
Qed.

Lemma zeros_change : forall {E : Env},
  F32_floor (f32_zero true) = f32_zero false /\ F32_round (f32_zero true) = f32_zero false /\
  F32_ceil (f32_zero false) = f32_zero true.
Proof. intros E. repeat split; apply to_bits_inj; vm_compute; reflexivity. Qed.

Lemma fract_not_mono : forall {E : Env}, exists x y a b, fle x y = true /\
  F32_fract x = Ok a /\ F32_fract y = Ok b /\ fle a b = false.
Proof.
  intros E. exists (from_bits 0x3F400000), (from_bits 0x3F800000), (from_bits 0x3F400000), (from_bits 0).
  split; [vm_compute; reflexivity|]. split; [apply ok_bits; vm_compute; reflexivity|].
  split; [apply ok_bits; vm_compute; reflexivity|vm_compute; reflexivity].
Qed.

Lemma negation_all : forall {E : Env} x,
  F32_ceil (fneg x) = fneg (F32_floor x) /\ F32_floor (fneg x) = fneg (F32_ceil x) /\
  F32_trunc (fneg x) = fneg (F32_trunc x) /\
  (is_nan x = false -> val (F32_round (fneg x)) = (- val (F32_round x))%R).
Proof.
  intros E x. unfold F32_ceil. rewrite !fneg_involutive. repeat split; [apply trunc_odd|apply round_odd].
Qed.
