(** * Proofs: corollaries and counterexamples for the rounding functions *)

From Coq Require Import ZArith Reals Bool List Lia Lra.
From Flocq Require Import Core IEEE754.BinarySingleNaN IEEE754.Binary IEEE754.Bits.
From Verif Require Import Base Spec Float F32Lemmas BitLemmas P_Trunc P_Floor Literals.
Open Scope Z_scope.

(** Equality of results from equality of bit patterns (avoids comparing the
    proofs carried by floats). *)
Definition res_bits (r : res f32) : option Z :=
  match r with Ok z => Some (to_bits z) | _ => None end.

Lemma ok_bits : forall r b, (match res_bits r with Some c => (c =? b) && (0 <=? b) && (b <? 2 ^ 32) | None => false end) = true ->
  r = Ok (from_bits b).
Proof.
  intros r b H. destruct r as [z| |]; try discriminate H. simpl in H.
  apply andb_prop in H. destruct H as [H H2]. apply andb_prop in H. destruct H as [H H1].
  apply Z.eqb_eq in H. apply Z.leb_le in H1. apply Z.ltb_lt in H2.
  f_equal. apply to_bits_inj. rewrite to_from_bits; lia.
Qed.

Lemma trunc_cut : forall x e, fin x -> 0 <= e ->
  (bpow radix2 e <= Rabs (val x) < bpow radix2 (e + 1))%R ->
  let q := 32 * (e / 32) in
  fin (F32_trunc x) /\ sign_bit (F32_trunc x) = sign_bit x /\
  val (F32_trunc x) = (sgn x * (IZR (Zfloor (Rabs (val x) * bpow radix2 (- q))) * bpow radix2 q))%R /\
  (F32_trunc x = x <-> exists n, Rabs (val x) = (IZR n * bpow radix2 q)%R).
Proof.
  intros x e Hx He [H1 H2] q.
  pose proof (bexp_ge x e Hx ltac:(lia) H1). pose proof (bexp_lt x (e + 1) Hx ltac:(lia) H2).
  assert (C : cut x = q).
  { unfold cut, q. replace (bexp (to_bits x) - 127) with e by lia. cbv zeta.
    pose proof (Z.div_mod e 32 ltac:(lia)). lia. }
  assert (L : (1 <= Rabs (val x))%R).
  { apply Rle_trans with (2 := H1). change 1%R with (bpow radix2 0). apply bpow_le. assumption. }
  destruct (trunc_general x Hx L) as (A & B & D). rewrite C in D.
  repeat split; try assumption; rewrite <- C; apply trunc_fixed_iff; assumption.
Qed.

Lemma trunc_wrong : exists x, fin x /\ val x = 6442450944%R /\
  val (F32_trunc x) = 4294967296%R /\ val (F32_trunc x) <> IZR (Ztrunc (val x)).
Proof.
  exists (from_bits 0x4FC00000).
  assert (V : val (from_bits 0x4FC00000) = 6442450944%R) by (lit 0x4FC00000; bpow_lit; lra).
  assert (T : F32_trunc (from_bits 0x4FC00000) = from_bits 0x4F800000)
    by (apply to_bits_inj; vm_compute; reflexivity).
  assert (W : val (from_bits 0x4F800000) = 4294967296%R) by (lit 0x4F800000; bpow_lit; lra).
  split; [reflexivity|]. rewrite T, V, W. repeat split.
  rewrite Ztrunc_IZR. lra.
Qed.

Lemma fract_wrong : forall {E : Env}, exists x z, fin x /\ val x = 6442450944%R /\
  F32_fract x = Ok z /\ val z = (/ 2)%R.
Proof.
  intros E. exists (from_bits 0x4FC00000), (from_bits 0x3F000000).
  split; [reflexivity|]. split; [lit 0x4FC00000; bpow_lit; lra|].
  split; [|apply c_0_5_val]. apply ok_bits. vm_compute. reflexivity.
Qed.

Lemma floor_ceil_nan : forall {E : Env} x, nan x ->
  F32_floor x = f32_zero false /\ F32_ceil x = f32_zero true.
Proof. intros E x H. split; [apply floor_nan|apply ceil_nan]; assumption. Qed.

Lemma fin_not_nan : forall x, fin x -> is_nan x = false.
Proof. intros x H. destruct x; try reflexivity. discriminate H. Qed.

Lemma floor_ceil_wrong : forall {E : Env} x, fin x -> (bpow radix2 31 < Rabs (val x))%R ->
  val (F32_floor x) <> IZR (Zfloor (val x)) /\ val (F32_ceil x) <> IZR (Zceil (val x)).
Proof.
  intros E x Hx Hb.
  destruct (large_integer x Hx) as [n Hn].
  { apply Rlt_le, Rle_lt_trans with (2 := Hb). apply bpow_le. lia. }
  rewrite floor_big, ceil_big by (try apply fin_not_nan; trivial; intros; lra).
  rewrite Hn, Zfloor_IZR, Zceil_IZR, <- Hn.
  assert (D : val (from_bits (if sign_bit x then 0xCF000000 else 0x4F000000)) <> val x).
  { assert (V1 : val (from_bits 0x4F000000) = bpow radix2 31) by (lit 0x4F000000; bpow_lit; lra).
    assert (V2 : val (from_bits 0xCF000000) = (- bpow radix2 31)%R) by (lit 0xCF000000; bpow_lit; lra).
    destruct (sign_bit x) eqn:S.
    - rewrite V2. pose proof (sign_val_neg x S). rewrite Rabs_left1 in Hb by assumption. lra.
    - rewrite V1. pose proof (sign_val_pos x S). rewrite Rabs_pos_eq in Hb by assumption. lra. }
  split; assumption.
Qed.

Lemma round_wrong : forall {E : Env}, exists x, fin x /\ (0 < val x < / 2)%R /\
  F32_round x = from_bits 0x3F800000 /\ F32_round (fneg x) = from_bits 0xBF800000 /\
  val (F32_round x) <> IZR (round_half_away (val x)).
Proof.
  intros E. exists pred_half. destruct round_pred_half as [A B].
  assert (V : (0 < val pred_half < / 2)%R).
  { unfold pred_half. lit 0x3EFFFFFF. bpow_lit. lra. }
  split; [reflexivity|]. split; [assumption|]. split; [assumption|]. split; [assumption|].
  rewrite A. fold F32_ONE. rewrite (proj2 one_val). unfold round_half_away.
  rewrite Rle_bool_true by lra.
  rewrite (Zfloor_imp 0) by (change (0 + 1) with 1; lra). lra.
Qed.
