(** * Model of src/statistics/*.rs

    In the [no_std] build [.sqrt()] and [.abs()] on [f32] are those of [F32Ext]. *)

From Coq Require Import ZArith Bool List.
From Verif Require Import Base Float.
Import ListNotations.
Open Scope Z_scope.

(** mean.rs 20-23: one pass over the items; the counter is an i32. *)
Fixpoint mean_loop {E : Env} (l : list f32) (num_items : Z) (sum : f32) : res (Z * f32) :=
  match l with
  | [] => Ok (num_items, sum)
  | item :: l =>
      num_items <- arith i32 (num_items + 1) ;;
      mean_loop l num_items (fadd sum item)
  end.

(** mean.rs 16-26. *)
Definition mean {E : Env} (l : list f32) : res f32 :=
  ns <- mean_loop l 0 (f32_zero false) ;;
  Ok (fdiv (snd ns) (f32_of_Z (fst ns))).

(** variance.rs 21-26 / trim.rs 71-74: sum of squared deviations. *)
Definition sum_sq_dev {E : Env} (l : list f32) (mean : f32) : f32 :=
  fold_left (fun sum item => let n := fsub item mean in fadd sum (fmul n n)) l (f32_zero false).

(** variance.rs 19-29.  [into] is [Into<f32>] of the element type. *)
Definition variance {E : Env} {T} (into : T -> f32) (l : list T) : res f32 :=
  m <- mean (map into l) ;;
  let sum := sum_sq_dev (map into l) m in
  Ok (fdiv sum (fsub (f32_of_Z (Z.of_nat (length l))) F32_ONE)).

(** stddev.rs 21-23. *)
Definition stddev {E : Env} {T} (into : T -> f32) (l : list T) : res f32 :=
  v <- variance into l ;; F32_sqrt v.

(** trim.rs 10. *)
Definition DEFAULT_THRESHOLD : f32 := c_2.

(** trim.rs 41-53. *)
Record TrimIter (T : Type) : Type := mkTrim {
  ti_input : list T;
  ti_mean : f32;
  ti_stddev : f32;
  ti_threshold : f32
}.
Arguments mkTrim {T}.
Arguments ti_input {T} t.
Arguments ti_mean {T} t.
Arguments ti_stddev {T} t.
Arguments ti_threshold {T} t.

(** trim.rs 64-84. *)
Definition trim_new {E : Env} {T} (into : T -> f32) (input : list T) (threshold : f32)
  : res (TrimIter T) :=
  let len := f32_of_Z (Z.of_nat (length input)) in
  m <- mean (map into input) ;;
  let sum := sum_sq_dev (map into input) m in
  let variance := fdiv sum (fsub len F32_ONE) in
  sd <- F32_sqrt variance ;;
  Ok (mkTrim input m sd threshold).

(** trim.rs 96-99: the test applied to an item. *)
Definition trim_keep {E : Env} {T} (into : T -> f32) (it : TrimIter T) (n : T) : bool :=
  let distance := F32_abs (fsub (into n) (ti_mean it)) in
  flt (fdiv distance (ti_stddev it)) (ti_threshold it).

(** trim.rs 94-105: the [while let] loop, by recursion on the remaining input. *)
Fixpoint trim_next_loop {E : Env} {T} (into : T -> f32) (it : TrimIter T) (input : list T)
  : option T * list T :=
  match input with
  | [] => (None, [])
  | n :: input => if trim_keep into it n then (Some n, input) else trim_next_loop into it input
  end.
Definition trim_next {E : Env} {T} (into : T -> f32) (it : TrimIter T) : option T * TrimIter T :=
  let '(o, rest) := trim_next_loop into it (ti_input it) in
  (o, mkTrim rest (ti_mean it) (ti_stddev it) (ti_threshold it)).

(** Items yielded by at most [fuel] calls of [next], up to the first [None]. *)
Fixpoint trim_collect {E : Env} {T} (into : T -> f32) (fuel : nat) (it : TrimIter T) : list T :=
  match fuel with
  | O => []
  | S fuel =>
      match trim_next into it with
      | (Some n, it) => n :: trim_collect into fuel it
      | (None, _) => []
      end
  end.

(** trim.rs 34-36 and 19-21, consumed to the end. *)
Definition trim_at {E : Env} {T} (into : T -> f32) (l : list T) (threshold : f32) : res (list T) :=
  it <- trim_new into l threshold ;;
  Ok (trim_collect into (length l + 1) it).
Definition trim {E : Env} {T} (into : T -> f32) (l : list T) : res (list T) :=
  trim_at into l DEFAULT_THRESHOLD.
