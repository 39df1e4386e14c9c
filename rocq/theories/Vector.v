(** * Model of src/vector.rs and src/vector/*.rs *)

From Coq Require Import ZArith Bool List.
From Verif Require Import Base Float.
Import ListNotations.
Open Scope Z_scope.

(** component.rs 20-43: the operations of a component type, with panics.
    [c_sum_zero] is where [Iterator::sum] of the type starts (used by
    [magnitude_sq]). *)
Class Component (C : Type) : Type := {
  c_default : C;
  c_sum_zero : C;
  c_add : C -> C -> res C;
  c_sub : C -> C -> res C;
  c_mul : C -> C -> res C;
  c_div : C -> C -> res C
}.

(** component.rs 36-41: [i8 i16 i32 u8 u16 u32]. *)
Definition comp_int {E : Env} (t : ity) : Component Z := {|
  c_default := 0;
  c_sum_zero := 0;
  c_add a b := arith t (a + b);
  c_sub a b := arith t (a - b);
  c_mul a b := arith t (a * b);
  c_div a b := int_div t a b
|}.

(** component.rs 42-43: [f32] and [F32]. *)
Definition comp_f32 {E : Env} : Component f32 := {|
  c_default := f32_zero false;
  c_sum_zero := f32_zero sum_start;
  c_add a b := Ok (fadd a b);
  c_sub a b := Ok (fsub a b);
  c_mul a b := Ok (fmul a b);
  c_div a b := Ok (fdiv a b)
|}.

(** vector2d.rs 44-50, vector3d.rs 43-52. *)
Record Vector2d (C : Type) : Type := mkV2 { v2x : C; v2y : C }.
Arguments mkV2 {C} v2x v2y.
Arguments v2x {C} v.
Arguments v2y {C} v.
Record Vector3d (C : Type) : Type := mkV3 { v3x : C; v3y : C; v3z : C }.
Arguments mkV3 {C} v3x v3y v3z.
Arguments v3x {C} v.
Arguments v3y {C} v.
Arguments v3z {C} v.

(** ** Conversions *)

(** vector2d.rs 58-60, 129-169. *)
Definition v2_to_array {C} (v : Vector2d C) : list C := [v2x v; v2y v].
Definition v2_of_tuple {C} (t : C * C) : Vector2d C := mkV2 (fst t) (snd t).
Definition v2_to_tuple {C} (v : Vector2d C) : C * C := (v2x v, v2y v).
(** vector2d.rs 154-159: from an array (of length two: two arguments). *)
Definition v2_of_array {C} (a0 a1 : C) : Vector2d C := mkV2 a0 a1.

(** vector3d.rs 60-62, 122-178. *)
Definition v3_to_array {C} (v : Vector3d C) : list C := [v3x v; v3y v; v3z v].
Definition v3_of_tuple {C} (t : C * C * C) : Vector3d C :=
  let '(a, b, c) := t in mkV3 a b c.
Definition v3_to_tuple {C} (v : Vector3d C) : C * C * C := (v3x v, v3y v, v3z v).
Definition v3_of_array {C} (a0 a1 a2 : C) : Vector3d C := mkV3 a0 a1 a2.
(** vector3d.rs 126-133. *)
Definition v3_of_v2 {C} `{Component C} (v : Vector2d C) : Vector3d C :=
  mkV3 (v2x v) (v2y v) c_default.

(** vector2d.rs 336-370, vector3d.rs 355-393: integer vectors to [F32x2]/[F32x3]. *)
Definition v2_into_f32 {C} (into : C -> f32) (v : Vector2d C) : Vector2d f32 :=
  mkV2 (into (v2x v)) (into (v2y v)).
Definition v3_into_f32 {C} (into : C -> f32) (v : Vector3d C) : Vector3d f32 :=
  mkV3 (into (v3x v)) (into (v3y v)) (into (v3z v)).

(** vector2d.rs 92-107.  The iterator argument is given by the list of items it
    yields before its first [None]. *)
Definition v2_from_iter {C} (l : list C) : res (Vector2d C) :=
  match l with
  | [] => Panic
  | x :: l =>
      match l with
      | [] => Panic
      | y :: l => match l with [] => Ok (mkV2 x y) | _ => Panic end
      end
  end.

(** vector3d.rs 83-99. *)
Definition v3_from_iter {C} (l : list C) : res (Vector3d C) :=
  match l with
  | [] => Panic
  | x :: l =>
      match l with
      | [] => Panic
      | y :: l =>
          match l with
          | [] => Panic
          | z :: l => match l with [] => Ok (mkV3 x y z) | _ => Panic end
          end
      end
  end.

(** vector2d.rs 116-122, vector3d.rs 108-115. *)
Definition v2_get {C} (v : Vector2d C) (i : Z) : option C :=
  if i =? 0 then Some (v2x v) else if i =? 1 then Some (v2y v) else None.
Definition v3_get {C} (v : Vector3d C) (i : Z) : option C :=
  if i =? 0 then Some (v3x v) else if i =? 1 then Some (v3y v)
  else if i =? 2 then Some (v3z v) else None.

(** vector2d.rs 177-183, vector3d.rs 186-193. *)
Definition v2_index {C} (v : Vector2d C) (i : Z) : res C :=
  if i =? 0 then Ok (v2x v) else if i =? 1 then Ok (v2y v) else Panic.
Definition v3_index {C} (v : Vector3d C) (i : Z) : res C :=
  if i =? 0 then Ok (v3x v) else if i =? 1 then Ok (v3y v)
  else if i =? 2 then Ok (v3z v) else Panic.

(** ** The [Vector] trait (vector.rs 25-36) *)
Class VectorT (V C : Type) : Type := {
  vt_axes : Z;
  vt_get : V -> Z -> option C;
  vt_from_iter : list C -> res V
}.
#[global] Instance vt2 {C} : VectorT (Vector2d C) C :=
  {| vt_axes := 2; vt_get := v2_get; vt_from_iter := v2_from_iter |}.
#[global] Instance vt3 {C} : VectorT (Vector3d C) C :=
  {| vt_axes := 3; vt_get := v3_get; vt_from_iter := v3_from_iter |}.

(** vector.rs 41-43. *)
Definition vt_from_slice {V C} `{VectorT V C} (slice : list C) : res V := vt_from_iter slice.

(** iter.rs 8-21, 29-35. *)
Record Iter (V : Type) : Type := mkIter { it_vector : V; it_position : Z }.
Arguments mkIter {V} it_vector it_position.
Arguments it_vector {V} i.
Arguments it_position {V} i.
Definition iter_new {V} (v : V) : Iter V := mkIter v 0.

(** iter.rs 45-53. *)
Definition iter_next {V C} `{VectorT V C} (it : Iter V) : option C * Iter V :=
  let item := vt_get (it_vector it) (it_position it) in
  match item with
  | Some _ => (item, mkIter (it_vector it) (it_position it + 1))
  | None => (item, it)
  end.

(** The items yielded by at most [fuel] calls of [next], up to the first [None]. *)
Fixpoint iter_collect {V C} `{VectorT V C} (fuel : nat) (it : Iter V) : list C :=
  match fuel with
  | O => []
  | S fuel =>
      match iter_next it with
      | (Some c, it) => c :: iter_collect fuel it
      | (None, _) => []
      end
  end.

(** vector.rs 46-48, consumed to the end (one call more than there are axes). *)
Definition vt_items {V C} `{VectorT V C} (v : V) : list C :=
  iter_collect (Z.to_nat vt_axes + 1) (iter_new v).

(** [Iterator::map] with a function that may panic, collected. *)
Fixpoint mapM {A B} (f : A -> res B) (l : list A) : res (list B) :=
  match l with
  | [] => Ok []
  | a :: l => b <- f a ;; r <- mapM f l ;; Ok (b :: r)
  end.
(** [Iterator::fold] with a function that may panic. *)
Fixpoint foldM {A B} (f : B -> A -> res B) (l : list A) (acc : B) : res B :=
  match l with
  | [] => Ok acc
  | a :: l => acc <- f acc a ;; foldM f l acc
  end.

(** vector.rs 51-61.  [into] is [Into<f32>] of the component type. *)
Definition vt_distance {E : Env} {V C} `{VectorT V C} (into : C -> f32) (v w : V) : res f32 :=
  let differences :=
    map (fun ab => fsub (into (fst ab)) (into (snd ab))) (combine (vt_items v) (vt_items w)) in
  F32_sqrt (F32_sum (map (fun n => fmul n n) differences)).

(** vector.rs 64-69. *)
Definition vt_magnitude_sq {V C} `{VectorT V C} `{Component C} (v : V) : res C :=
  l <- mapM (fun n => c_mul n n) (vt_items v) ;;
  foldM c_add l c_sum_zero.

(** vector.rs 72-83. *)
Definition vt_magnitude {E : Env} {V C} `{VectorT V C} (into : C -> f32) (v : V) : res f32 :=
  F32_sqrt (F32_sum (map (fun n => fmul (into n) (into n)) (vt_items v))).

(** vector.rs 97-102.  A pure closure, over each item in turn. *)
Definition vt_map {V C} `{VectorT V C} (f : C -> C) (v : V) : res V :=
  vt_from_iter (map f (vt_items v)).

(** vector.rs 86-93. *)
Definition vt_normalized {E : Env} {V C} `{VectorT V C}
    (into : C -> f32) (from : f32 -> C) (v : V) : res V :=
  norm <- vt_magnitude into v ;;
  vt_map (fun n => from (fdiv (into n) norm)) v.

(** ** Arithmetic on [Vector2d] *)
(** vector2d.rs 63-65. *)
Definition v2_dot {C} `{Component C} (v w : Vector2d C) : res C :=
  a <- c_mul (v2x v) (v2x w) ;;
  b <- c_mul (v2y v) (v2y w) ;;
  c_add a b.

(** vector2d.rs 75-77. *)
Definition v2_perpendicular_dot {C} `{Component C} (v w : Vector2d C) : res C :=
  a <- c_mul (v2x v) (v2y w) ;;
  b <- c_mul (v2y v) (v2x w) ;;
  c_sub a b.

(** vector3d.rs 70-76. *)
Definition v3_cross {C} `{Component C} (v w : Vector3d C) : res (Vector3d C) :=
  a <- c_mul (v3y v) (v3z w) ;;
  b <- c_mul (v3z v) (v3y w) ;;
  x <- c_sub a b ;;
  a <- c_mul (v3z v) (v3x w) ;;
  b <- c_mul (v3x v) (v3z w) ;;
  y <- c_sub a b ;;
  a <- c_mul (v3x v) (v3y w) ;;
  b <- c_mul (v3y v) (v3x w) ;;
  z <- c_sub a b ;;
  Ok (mkV3 x y z).

(** vector3d.rs 251-253: [Mul for Vector3d]. *)
Definition v3_mul {C} `{Component C} (v w : Vector3d C) : res (Vector3d C) := v3_cross v w.

(** vector2d.rs 83-85, 252-254. *)
Definition v2_cross {C} `{Component C} (v w : Vector2d C) : res (Vector3d C) :=
  v3_mul (v3_of_v2 v) (v3_of_v2 w).
Definition v2_mul {C} `{Component C} (v w : Vector2d C) : res (Vector3d C) := v2_cross v w.

(** vector2d.rs 192-206. *)
Definition v2_add {C} `{Component C} (v w : Vector2d C) : res (Vector2d C) :=
  x <- c_add (v2x v) (v2x w) ;; y <- c_add (v2y v) (v2y w) ;; Ok (mkV2 x y).
Definition v2_add_assign {C} `{Component C} (v w : Vector2d C) : res (Vector2d C) := v2_add v w.

(** vector2d.rs 215-229. *)
Definition v2_sub {C} `{Component C} (v w : Vector2d C) : res (Vector2d C) :=
  x <- c_sub (v2x v) (v2x w) ;; y <- c_sub (v2y v) (v2y w) ;; Ok (mkV2 x y).
Definition v2_sub_assign {C} `{Component C} (v w : Vector2d C) : res (Vector2d C) := v2_sub v w.

(** vector2d.rs 238-243, 261-263; commutative.rs 7-9. *)
Definition v2_scale {C} `{Component C} (v : Vector2d C) (c : C) : res (Vector2d C) :=
  x <- c_mul (v2x v) c ;; y <- c_mul (v2y v) c ;; Ok (mkV2 x y).
Definition v2_mul_assign {C} `{Component C} (v : Vector2d C) (c : C) : res (Vector2d C) :=
  v2_scale v c.
Definition v2_scale_left {C} `{Component C} (c : C) (v : Vector2d C) : res (Vector2d C) :=
  v2_scale v c.

(** vector2d.rs 272-277. *)
Definition v2_div {C} `{Component C} (v : Vector2d C) (c : C) : res (Vector2d C) :=
  x <- c_div (v2x v) c ;; y <- c_div (v2y v) c ;; Ok (mkV2 x y).
(** vector2d.rs 284-287: the fields are updated one after the other. *)
Definition v2_div_assign {C} `{Component C} (v : Vector2d C) (c : C) : res (Vector2d C) :=
  x <- c_div (v2x v) c ;;
  let v := mkV2 x (v2y v) in
  y <- c_div (v2y v) c ;;
  let v := mkV2 (v2x v) y in
  Ok v.

(** vector2d.rs 308-310, 331-333. *)
Definition v2_default {C} `{Component C} : Vector2d C := mkV2 c_default c_default.
Definition v2_sum {C} `{Component C} (l : list (Vector2d C)) : res (Vector2d C) :=
  foldM v2_add l v2_default.

(** ** Arithmetic on [Vector3d] *)
(** vector3d.rs 65-67, 117-119. *)
Definition v3_dot {C} `{Component C} (v w : Vector3d C) : res C :=
  a <- c_mul (v3x v) (v3x w) ;;
  b <- c_mul (v3y v) (v3y w) ;;
  s <- c_add a b ;;
  c <- c_mul (v3z v) (v3z w) ;;
  c_add s c.

(** vector3d.rs 202-218. *)
Definition v3_add {C} `{Component C} (v w : Vector3d C) : res (Vector3d C) :=
  x <- c_add (v3x v) (v3x w) ;; y <- c_add (v3y v) (v3y w) ;;
  z <- c_add (v3z v) (v3z w) ;; Ok (mkV3 x y z).
Definition v3_add_assign {C} `{Component C} (v w : Vector3d C) : res (Vector3d C) := v3_add v w.

(** vector3d.rs 226-242. *)
Definition v3_sub {C} `{Component C} (v w : Vector3d C) : res (Vector3d C) :=
  x <- c_sub (v3x v) (v3x w) ;; y <- c_sub (v3y v) (v3y w) ;;
  z <- c_sub (v3z v) (v3z w) ;; Ok (mkV3 x y z).
Definition v3_sub_assign {C} `{Component C} (v w : Vector3d C) : res (Vector3d C) := v3_sub v w.

(** vector3d.rs 263-279; commutative.rs 7-9. *)
Definition v3_scale {C} `{Component C} (v : Vector3d C) (c : C) : res (Vector3d C) :=
  x <- c_mul (v3x v) c ;; y <- c_mul (v3y v) c ;; z <- c_mul (v3z v) c ;; Ok (mkV3 x y z).
Definition v3_mul_assign {C} `{Component C} (v : Vector3d C) (c : C) : res (Vector3d C) :=
  v3_scale v c.
Definition v3_scale_left {C} `{Component C} (c : C) (v : Vector3d C) : res (Vector3d C) :=
  v3_scale v c.

(** vector3d.rs 287-293. *)
Definition v3_div {C} `{Component C} (v : Vector3d C) (c : C) : res (Vector3d C) :=
  x <- c_div (v3x v) c ;; y <- c_div (v3y v) c ;; z <- c_div (v3z v) c ;; Ok (mkV3 x y z).
(** vector3d.rs 300-304. *)
Definition v3_div_assign {C} `{Component C} (v : Vector3d C) (c : C) : res (Vector3d C) :=
  x <- c_div (v3x v) c ;;
  let v := mkV3 x (v3y v) (v3z v) in
  y <- c_div (v3y v) c ;;
  let v := mkV3 (v3x v) y (v3z v) in
  z <- c_div (v3z v) c ;;
  let v := mkV3 (v3x v) (v3y v) z in
  Ok v.

(** vector3d.rs 326-328, 350-352. *)
Definition v3_default {C} `{Component C} : Vector3d C := mkV3 c_default c_default c_default.
Definition v3_sum {C} `{Component C} (l : list (Vector3d C)) : res (Vector3d C) :=
  foldM v3_add l v3_default.
