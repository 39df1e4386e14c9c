(** * The source text of the other files and what the model says it means

    The text of src/f32ext.rs, src/vector.rs, src/vector/*.rs, src/quaternion.rs
    and src/statistics/*.rs (SrcText2.v) as read by RustSyntax.v, after three
    steps that the compiler takes as well: the aliases F32x2 and F32x3 are
    replaced by what the [type] declarations say, [impl_commutative!] is expanded,
    and the methods with a body in [trait Vector] are added to the impls for
    Vector2d and Vector3d. *)

From Coq Require Import ZArith Bool List String.
From Verif Require Import Base Float Vector Quaternion Stats RustSyntax RustSem SrcText2 Source.
Import ListNotations.
Open Scope Z_scope.

(** The aliases of the vectors of f32: [type F32x2 = Vector2d<f32>;]. *)
Fixpoint aliases (l : list tok) : list (string * string) :=
  match l with
  | [] => []
  | _ :: r =>
      match l with
      | TId k :: TId x :: TP _ :: TId y :: TP _ :: TId c :: TP _ :: _ =>
          if (String.eqb k "type" && String.eqb c "f32")%bool then (x, y) :: aliases r else aliases r
      | _ => aliases r
      end
  end.
Definition rename (al : list (string * string)) (t : tok) : tok :=
  match t with
  | TId x => match find (fun p => String.eqb (fst p) x) al with Some (_, y) => TId y | None => t end
  | _ => t
  end.

(** [impl_commutative!]: the tokens between the braces after [=>], ... *)
Fixpoint macro_body (l : list tok) : list tok :=
  match l with
  | [] => []
  | t :: r =>
      if (isP "=>" l && isP "{" r)%bool
      then firstn (List.length (tl r) - List.length (skip_close "{" "}" 0 (tl r)) - 1) (tl r)
      else macro_body r
  end.
(** ... with the arguments put in, ... *)
Fixpoint put (v c : string) (l : list tok) : list tok :=
  match l with
  | [] => []
  | t :: r =>
      match l with
      | TP d :: TId x :: r' =>
          if String.eqb d "$" then
            (if String.eqb x "vector" then TId v else if String.eqb x "component" then TId c else TId x)
            :: put v c r'
          else t :: put v c r
      | _ => t :: put v c r
      end
  end.
(** ... for every use. *)
Fixpoint expand (body l : list tok) : list tok :=
  match l with
  | [] => []
  | t :: r =>
      match l with
      | TId m :: TP _ :: TP _ :: TId v :: TP _ :: TId c :: TP _ :: TP _ :: r' =>
          if String.eqb m "impl_commutative" then (put v c body ++ expand body r')%list
          else t :: expand body r
      | _ => t :: expand body r
      end
  end.

(** Methods with a body in a trait, for a type that implements it. *)
Definition inherit (tr : string) (slf : ty) (l : list item) : list item :=
  map (fun i => mkitem slf slf (i_name i) (i_params i) (i_ret i) (i_gen i) (i_body i))
    (filter (fun i => String.eqb (i_impl i) tr && match i_body i with Some _ => true | None => false end)%bool l).

Definition vector_types : list string := ["Vector2d"; "Vector3d"]%string.

Definition read_file (ds : list string) (s : string) : option (list item) :=
  parse_items 200 ds
    (map (rename (aliases (lex_string (src_vector_vector2d ++ src_vector_vector3d)%string)))
      (expand (macro_body (lex_string src_vector_commutative)) (lex_string s))).

Fixpoint read_files (ds : list string) (l : list string) : option (list item) :=
  match l with
  | [] => Some []
  | s :: r =>
      let* a := read_file ds s in
      let* b := read_files ds r in Some (a ++ b)%list
  end.

(** Vectors and quaternions. *)
Definition geo_files : list string :=
  [ src_f32ext; src_vector_vector2d; src_vector_vector3d; src_vector_iter; src_vector; src_quaternion ].
Definition geo_program : list item :=
  let l := or_else [] (read_files ("Quaternion"%string :: vector_types) geo_files) in
  (l ++ inherit "Vector" "Vector2d" l ++ inherit "Vector" "Vector3d" l)%list.

(** Statistics. *)
Definition stat_files : list string :=
  [ src_f32ext; src_statistics_mean; src_statistics_variance; src_statistics_stddev; src_statistics_trim ].
Definition stat_program : list item :=
  let l := or_else [] (read_files [] stat_files) in
  (l ++ inherit "Trim" "&[]" l)%list.

(** ** Linking *)

Definition find_in (p : list item) (f : string) : item :=
  or_else (mkitem "" "" "" [] "" false None) (find_item f p).

(** The items after the first of a name: a method of a trait of the same name as
    one outside it. *)
Fixpoint after (f : string) (p : list item) : list item :=
  match p with
  | [] => []
  | i :: p => if String.eqb (key i) f then p else after f p
  end.

(** Each after those it refers to. *)
Definition ext_order : list string :=
  [ "f32::abs"; "f32::acos"; "f32::asin"; "f32::atan"; "f32::atan_norm"; "f32::atan2";
    "f32::atan2_norm"; "f32::ceil"; "f32::copysign"; "f32::cos"; "f32::div_euclid";
    "f32::exp"; "f32::floor"; "f32::fract"; "f32::hypot"; "f32::inv"; "f32::invsqrt";
    "f32::ln"; "f32::log"; "f32::log2"; "f32::log10"; "f32::mul_add"; "f32::powf";
    "f32::powi"; "f32::recip"; "f32::rem_euclid"; "f32::round"; "f32::signum";
    "f32::sin"; "f32::sin_cos"; "f32::sqrt"; "f32::tan"; "f32::trunc" ]%string.
Definition geo_order : list string :=
  [ "Vector2d::default"; "PartialEq<Vector2d>forVector2d::eq"; "Vector2d::AXES";
    "Vector2d::to_array"; "Vector2d::get"; "Vector2d::from_iter";
    "Index<#>forVector2d::index"; "From<(C,C)>forVector2d::from";
    "From<Vector2d>for(C,C)::from"; "From<[C;]>forVector2d::from";
    "From<Vector2d>for[C;]::from"; "Vector2d::dot"; "Add<Vector2d>forVector2d::add";
    "AddAssignforVector2d::add_assign"; "Sub<Vector2d>forVector2d::sub";
    "SubAssignforVector2d::sub_assign"; "Mul<#>forVector2d::mul";
    "MulAssign<#>forVector2d::mul_assign"; "Div<#>forVector2d::div";
    "DivAssign<#>forVector2d::div_assign"; "Sum<Vector2d>forVector2d::sum";
    "Sum<&Vector2d>forVector2d::sum"; "Mul<Vector2d>fori8::mul";
    "Mul<Vector2d>fori16::mul"; "Mul<Vector2d>fori32::mul"; "Mul<Vector2d>foru8::mul";
    "Mul<Vector2d>foru16::mul"; "Mul<Vector2d>foru32::mul"; "Mul<Vector2d>forf32::mul";
    "Mul<Vector2d>forF32::mul"; "From<I8x2>forVector2d::from";
    "From<I16x2>forVector2d::from"; "From<U8x2>forVector2d::from";
    "From<U16x2>forVector2d::from"; "Vector3d::default";
    "PartialEq<Vector3d>forVector3d::eq"; "Vector3d::AXES"; "Vector3d::to_array";
    "Vector3d::get"; "Vector3d::from_iter"; "Index<#>forVector3d::index";
    "From<(C,C,C)>forVector3d::from"; "From<Vector3d>for(C,C,C)::from";
    "From<[C;]>forVector3d::from"; "From<Vector3d>for[C;]::from"; "Vector3d::dot";
    "Add<Vector3d>forVector3d::add"; "AddAssignforVector3d::add_assign";
    "Sub<Vector3d>forVector3d::sub"; "SubAssignforVector3d::sub_assign";
    "Mul<#>forVector3d::mul"; "MulAssign<#>forVector3d::mul_assign";
    "Div<#>forVector3d::div"; "DivAssign<#>forVector3d::div_assign";
    "Sum<Vector3d>forVector3d::sum"; "Sum<&Vector3d>forVector3d::sum";
    "Mul<Vector3d>fori8::mul"; "Mul<Vector3d>fori16::mul"; "Mul<Vector3d>fori32::mul";
    "Mul<Vector3d>foru8::mul"; "Mul<Vector3d>foru16::mul"; "Mul<Vector3d>foru32::mul";
    "Mul<Vector3d>forf32::mul"; "Mul<Vector3d>forF32::mul";
    "From<I8x3>forVector3d::from"; "From<I16x3>forVector3d::from";
    "From<U8x3>forVector3d::from"; "From<U16x3>forVector3d::from";
    "From<Vector2d>forVector3d::from"; "From<Vector3d>forVector3d::from";
    "Vector3d::cross"; "Mul<Vector3d>forVector3d::mul"; "Vector2d::perpendicular_dot";
    "Vector2d::cross"; "Mul<Vector2d>forVector2d::mul"; "Iter::new"; "Iter::next";
    "Vector2d::from_slice"; "Vector2d::iter"; "Vector2d::distance";
    "Vector2d::magnitude_sq"; "Vector2d::magnitude"; "Vector2d::map";
    "Vector2d::normalized"; "Vector3d::from_slice"; "Vector3d::iter";
    "Vector3d::distance"; "Vector3d::magnitude_sq"; "Vector3d::magnitude";
    "Vector3d::map"; "Vector3d::normalized"; "PartialEq<Quaternion>forQuaternion::eq";
    "Quaternion::IDENTITY"; "Quaternion::new"; "Quaternion::conj"; "Quaternion::dot";
    "Quaternion::norm"; "Quaternion::to_array"; "Quaternion::w"; "Quaternion::x";
    "Quaternion::y"; "Quaternion::z"; "Quaternion::scale";
    "DefaultforQuaternion::default"; "Add<Quaternion>forQuaternion::add";
    "AddAssignforQuaternion::add_assign"; "Sub<Quaternion>forQuaternion::sub";
    "SubAssignforQuaternion::sub_assign"; "Mul<Quaternion>forQuaternion::mul";
    "Mul<#>forQuaternion::mul"; "Mul<Quaternion>forf32::mul";
    "MulAssign<#>forQuaternion::mul_assign";
    "From<(f32,f32,f32,f32)>forQuaternion::from";
    "From<Quaternion>for(f32,f32,f32,f32)::from"; "From<[f32;]>forQuaternion::from";
    "From<Quaternion>for[f32;]::from"; "From<Vector3d>forQuaternion::from";
    "Quaternion::magnitude"; "Quaternion::inv"; "Quaternion::normalize";
    "Quaternion::axis_angle"; "Quaternion::rotate"; "Quaternion::to_euler";
    "Quaternion::from_two_vectors"; "Mul<Vector3d>forQuaternion::mul" ]%string.
Definition stat_order : list string :=
  [ "I::mean"; "&[]::variance"; "&[]::stddev"; "DEFAULT_THRESHOLD"; "Iter::new";
    "Iter::next"; "&[]::trim_at"; "&[]::trim" ]%string.

(** On top of src/float.rs: the sum and the product of F32, and f32ext.rs. *)
Definition base_linked : list item :=
  (map (find_in stat_program) (rev ext_order) ++
   map get ["SumforF32::sum"; "ProductforF32::product"]%string ++ linked)%list.
Definition geo_linked : list item := (map (find_in geo_program) (rev geo_order) ++ base_linked)%list.
Definition stat_linked : list item := (map (find_in stat_program) (rev stat_order) ++ base_linked)%list.

(** Running a function of the text; a loop goes round at most [lf] times. *)
Definition geo_run {E : Env} (lf : nat) (f : string) (args : list V) : res V :=
  link lf geo_linked f args Ok.
Definition stat_run {E : Env} (lf : nat) (f : string) (args : list V) : res V :=
  link lf stat_linked f args Ok.

(** ** Values of the model as values of the interpreter *)

(** The component types (component.rs 36-43). *)
Inductive ckind : Set := KI8 | KI16 | KI32 | KU8 | KU16 | KU32 | Kf32 | KF32.
Definition cty (k : ckind) : Type := match k with Kf32 | KF32 => f32 | _ => Z end.
Definition cval (k : ckind) : cty k -> V :=
  match k with
  | KI8 => VI I8 | KI16 => VI I16 | KI32 => VI I32 | KU8 => VI U8 | KU16 => VI U16 | KU32 => VI U32
  | Kf32 => VF | KF32 => VW
  end.
#[global] Instance ccomp {E : Env} (k : ckind) : Component (cty k) :=
  match k with
  | KI8 => comp_int i8 | KI16 => comp_int i16 | KI32 => comp_int i32
  | KU8 => comp_int u8 | KU16 => comp_int u16 | KU32 => comp_int u32
  | Kf32 => comp_f32 | KF32 => comp_f32
  end.
(** [Into<f32>] (i32 and u32 have none: the value does not matter there) and [==]. *)
Definition cinto (k : ckind) : cty k -> f32 :=
  match k with Kf32 | KF32 => fun x => x | _ => f32_of_Z end.
Definition cname (k : ckind) : string :=
  match k with
  | KI8 => "i8" | KI16 => "i16" | KI32 => "i32" | KU8 => "u8" | KU16 => "u16" | KU32 => "u32"
  | Kf32 => "f32" | KF32 => "F32"
  end%string.
Definition has_into (k : ckind) : bool :=
  match k with KI32 | KU32 => false | _ => true end.
Definition ceq (k : ckind) : cty k -> cty k -> bool :=
  match k with Kf32 | KF32 => feq | _ => Z.eqb end.

Definition V2 (k : ckind) (v : Vector2d (cty k)) : V :=
  VD "Vector2d" [("x", cval k (v2x v)); ("y", cval k (v2y v))]%string.
Definition V3 (k : ckind) (v : Vector3d (cty k)) : V :=
  VD "Vector3d" [("x", cval k (v3x v)); ("y", cval k (v3y v)); ("z", cval k (v3z v))]%string.
Definition VIter (v : V) (i : Z) : V :=
  VD "Iter" [("vector", v); ("position", VI Usize i); ("component", VU)]%string.
(** The trimmed iterator; [w]: a value of the item type. *)
Definition VTrim (k : ckind) (w : V) (it : TrimIter (cty k)) : V :=
  VD "Iter" [("input", VA w (map (cval k) (ti_input it))); ("mean", VF (ti_mean it));
             ("stddev", VF (ti_stddev it)); ("threshold", VF (ti_threshold it))]%string.
Definition VQ (q : Quat f32) : V :=
  VD "Quaternion" [("0", VF (q0 q)); ("1", VF (q1 q)); ("2", VF (q2 q)); ("3", VF (q3 q))]%string.
(** A sequence with or without a value of the item type. *)
Definition VSeq (o : option V) (l : list V) : V := match o with Some w => VA w l | None => VS l end.

(** ** What is covered *)

(** Every item with a body, save those of the [defmt] feature, is one of those
    above.  A method of a trait with a body is taken over by the types. *)
Definition handled (order : list string) (s : string) : bool :=
  String.prefix "defmt::" s || mem s order ||
  (String.prefix "Vector::" s &&
   mem ("Vector2d" ++ substring 6 100 s) order && mem ("Vector3d" ++ substring 6 100 s) order)%string ||
  (String.eqb s "Trim::trim" && mem "&[]::trim" order)%string.
Definition with_body (l : list item) : list string :=
  map key (filter (fun i => match i_body i with Some _ => true | None => false end) l).
Fixpoint repeated (l : list string) : list string :=
  match l with
  | [] => []
  | s :: l => if mem s l then s :: repeated l else repeated l
  end.
