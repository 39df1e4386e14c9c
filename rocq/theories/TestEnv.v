(** * Two concrete environments, used only in examples and witnesses *)

From Coq Require Import ZArith Bool.
From Flocq Require Import Core IEEE754.Binary IEEE754.Bits.
From Verif Require Import Base.
Open Scope Z_scope.

(** The quiet NaN 0x7FC00000. *)
Definition qnan : nan_f32 :=
  exist _ (@B754_nan 24 128 false (Pos.pow 2 22) eq_refl) eq_refl.

Definition mkenv (ovf dbg : bool) : Env := {|
  overflow_checks := ovf;
  debug_assertions := dbg;
  nan_add := fun _ _ => qnan;
  nan_sub := fun _ _ => qnan;
  nan_mul := fun _ _ => qnan;
  nan_div := fun _ _ => qnan;
  nan_rem := fun _ _ => qnan;
  nan_const := qnan;
  sum_start := true
|}.

(** [cargo build] and [cargo build --release]. *)
Definition env_debug : Env := mkenv true true.
Definition env_release : Env := mkenv false false.
