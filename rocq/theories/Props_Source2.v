(** * Property C133: the model is the meaning of the source text of vectors, quaternions and statistics *)

From Coq Require Import ZArith Bool List String.
From Flocq Require Import Core IEEE754.Binary IEEE754.Bits.
From Verif Require Import Base Float Vector Quaternion Stats F32Ext F32Wrap Equality.
From Verif Require Import RustSyntax RustSem SrcText2 Source Source2 TestEnv P_Source2.
#[local] Existing Instance arith_f32.
Import ListNotations.
Open Scope Z_scope.

(** ** C133 *)

(** The methods of F32Ext for f32. *)
Theorem C133_f32ext : forall {E : Env} lf (x y z : f32) (n : Z),
  geo_run lf "f32::abs" [VF x] = (r <- ext_run lf (X_abs x) ;; Ok (VF r)) /\
  geo_run lf "f32::acos" [VF x] = (r <- ext_run lf (X_acos x) ;; Ok (VF r)) /\
  geo_run lf "f32::asin" [VF x] = (r <- ext_run lf (X_asin x) ;; Ok (VF r)) /\
  geo_run lf "f32::atan" [VF x] = (r <- ext_run lf (X_atan x) ;; Ok (VF r)) /\
  geo_run lf "f32::atan_norm" [VF x] = (r <- ext_run lf (X_atan_norm x) ;; Ok (VF r)) /\
  geo_run lf "f32::ceil" [VF x] = (r <- ext_run lf (X_ceil x) ;; Ok (VF r)) /\
  geo_run lf "f32::cos" [VF x] = (r <- ext_run lf (X_cos x) ;; Ok (VF r)) /\
  geo_run lf "f32::exp" [VF x] = (r <- ext_run lf (X_exp x) ;; Ok (VF r)) /\
  geo_run lf "f32::floor" [VF x] = (r <- ext_run lf (X_floor x) ;; Ok (VF r)) /\
  geo_run lf "f32::fract" [VF x] = (r <- ext_run lf (X_fract x) ;; Ok (VF r)) /\
  geo_run lf "f32::inv" [VF x] = (r <- ext_run lf (X_inv x) ;; Ok (VF r)) /\
  geo_run lf "f32::invsqrt" [VF x] = (r <- ext_run lf (X_invsqrt x) ;; Ok (VF r)) /\
  geo_run lf "f32::ln" [VF x] = (r <- ext_run lf (X_ln x) ;; Ok (VF r)) /\
  geo_run lf "f32::log2" [VF x] = (r <- ext_run lf (X_log2 x) ;; Ok (VF r)) /\
  geo_run lf "f32::log10" [VF x] = (r <- ext_run lf (X_log10 x) ;; Ok (VF r)) /\
  geo_run lf "f32::recip" [VF x] = (r <- ext_run lf (X_recip x) ;; Ok (VF r)) /\
  geo_run lf "f32::round" [VF x] = (r <- ext_run lf (X_round x) ;; Ok (VF r)) /\
  geo_run lf "f32::signum" [VF x] = (r <- ext_run lf (X_signum x) ;; Ok (VF r)) /\
  geo_run lf "f32::sin" [VF x] = (r <- ext_run lf (X_sin x) ;; Ok (VF r)) /\
  geo_run lf "f32::sqrt" [VF x] = (r <- ext_run lf (X_sqrt x) ;; Ok (VF r)) /\
  geo_run lf "f32::tan" [VF x] = (r <- ext_run lf (X_tan x) ;; Ok (VF r)) /\
  geo_run lf "f32::trunc" [VF x] = (r <- ext_run lf (X_trunc x) ;; Ok (VF r)) /\
  geo_run lf "f32::atan2" [VF x; VF y] = (r <- ext_run lf (X_atan2 x y) ;; Ok (VF r)) /\
  geo_run lf "f32::atan2_norm" [VF x; VF y] = (r <- ext_run lf (X_atan2_norm x y) ;; Ok (VF r)) /\
  geo_run lf "f32::copysign" [VF x; VF y] = (r <- ext_run lf (X_copysign x y) ;; Ok (VF r)) /\
  geo_run lf "f32::div_euclid" [VF x; VF y] = (r <- ext_run lf (X_div_euclid x y) ;; Ok (VF r)) /\
  geo_run lf "f32::hypot" [VF x; VF y] = (r <- ext_run lf (X_hypot x y) ;; Ok (VF r)) /\
  geo_run lf "f32::log" [VF x; VF y] = (r <- ext_run lf (X_log x y) ;; Ok (VF r)) /\
  geo_run lf "f32::powf" [VF x; VF y] = (r <- ext_run lf (X_powf x y) ;; Ok (VF r)) /\
  geo_run lf "f32::rem_euclid" [VF x; VF y] = (r <- ext_run lf (X_rem_euclid x y) ;; Ok (VF r)) /\
  geo_run lf "f32::mul_add" [VF x; VF y; VF z] = (r <- ext_run lf (X_mul_add x y z) ;; Ok (VF r)) /\
  geo_run lf "f32::powi" [VF x; VI I32 n] = (r <- ext_run lf (X_powi x n) ;; Ok (VF r)) /\
  geo_run lf "f32::sin_cos" [VF x] = Ok (VT [VF (fst (ext_sin_cos x)); VF (snd (ext_sin_cos x))]).
Proof. exact @source2_ext. Qed.
Print Assumptions C133_f32ext.

(** Two-dimensional vectors, for each of the eight component types; has_into: the types with a conversion to f32. *)
Theorem C133_vector2d : forall {E : Env} lf (k : ckind) (v w : Vector2d (cty k)) (a b c : cty k) (i : Z)
    (l : list (cty k)) (vl : list (Vector2d (cty k))),
  geo_run lf "Vector2d::default" [cval k c] = Ok (V2 k v2_default) /\
  geo_run lf "PartialEq<Vector2d>forVector2d::eq" [V2 k v; V2 k w] = Ok (VB (v2_eq (ceq k) v w)) /\
  geo_run lf "Vector2d::AXES" [] = Ok (VI Usize (vt_axes (V := Vector2d (cty k)))) /\
  geo_run lf "Vector2d::to_array" [V2 k v] = Ok (VA (cval k (v2x v)) (map (cval k) (v2_to_array v))) /\
  geo_run lf "From<Vector2d>for[C;]::from" [V2 k v] = Ok (VA (cval k (v2x v)) (map (cval k) (v2_to_array v))) /\
  geo_run lf "From<[C;]>forVector2d::from" [VA (cval k c) [cval k a; cval k b]] = Ok (V2 k (v2_of_array a b)) /\
  geo_run lf "From<(C,C)>forVector2d::from" [VT [cval k a; cval k b]] = Ok (V2 k (v2_of_tuple (a, b))) /\
  geo_run lf "From<Vector2d>for(C,C)::from" [V2 k v] = Ok (VT [cval k (v2x v); cval k (v2y v)]) /\
  geo_run lf "Vector2d::get" [V2 k v; VI Usize i] = Ok (VO (option_map (cval k) (v2_get v i))) /\
  geo_run lf "Index<#>forVector2d::index" [V2 k v; VI Usize i] = (r <- v2_index v i ;; Ok (cval k r)) /\
  geo_run lf "Vector2d::from_iter" [VA (cval k c) (map (cval k) l)] = (r <- v2_from_iter l ;; Ok (V2 k r)) /\
  geo_run lf "Vector2d::from_slice" [VA (cval k c) (map (cval k) l)] = (r <- vt_from_slice (V := Vector2d (cty k)) l ;; Ok (V2 k r)) /\
  geo_run lf "Vector2d::dot" [V2 k v; V2 k w] = (r <- v2_dot v w ;; Ok (cval k r)) /\
  geo_run lf "Add<Vector2d>forVector2d::add" [V2 k v; V2 k w] = (r <- v2_add v w ;; Ok (V2 k r)) /\
  geo_run lf "AddAssignforVector2d::add_assign" [V2 k v; V2 k w] = (r <- v2_add_assign v w ;; Ok (V2 k r)) /\
  geo_run lf "Sub<Vector2d>forVector2d::sub" [V2 k v; V2 k w] = (r <- v2_sub v w ;; Ok (V2 k r)) /\
  geo_run lf "SubAssignforVector2d::sub_assign" [V2 k v; V2 k w] = (r <- v2_sub_assign v w ;; Ok (V2 k r)) /\
  geo_run lf "Mul<#>forVector2d::mul" [V2 k v; cval k c] = (r <- v2_scale v c ;; Ok (V2 k r)) /\
  geo_run lf "MulAssign<#>forVector2d::mul_assign" [V2 k v; cval k c] = (r <- v2_mul_assign v c ;; Ok (V2 k r)) /\
  geo_run lf "Div<#>forVector2d::div" [V2 k v; cval k c] = (r <- v2_div v c ;; Ok (V2 k r)) /\
  geo_run lf "DivAssign<#>forVector2d::div_assign" [V2 k v; cval k c] = (r <- v2_div_assign v c ;; Ok (V2 k r)) /\
  geo_run lf "Sum<Vector2d>forVector2d::sum" [VA (V2 k v) (map (V2 k) vl)] = (r <- v2_sum vl ;; Ok (V2 k r)) /\
  geo_run lf "Sum<&Vector2d>forVector2d::sum" [VA (V2 k v) (map (V2 k) vl)] = (r <- v2_sum vl ;; Ok (V2 k r)) /\
  geo_run lf "Vector2d::iter" [V2 k v] = Ok (VIter (V2 k v) 0) /\
  geo_run lf "Iter::new" [V2 k v] = Ok (VIter (V2 k v) 0) /\
  geo_run lf "Iter::next" [VIter (V2 k v) i] = Ok (pack (VO (option_map (cval k) (fst (iter_next (mkIter v i)))))
    (VIter (V2 k v) (it_position (snd (iter_next (mkIter v i)))))) /\
  (has_into k = true ->
    geo_run lf "Vector2d::distance" [V2 k v; V2 k w] = (r <- vt_distance (cinto k) v w ;; Ok (VF r))) /\
  geo_run lf "Vector2d::magnitude_sq" [V2 k v] = (r <- vt_magnitude_sq v ;; Ok (cval k r)) /\
  (has_into k = true ->
    geo_run lf "Vector2d::magnitude" [V2 k v] = (r <- vt_magnitude (cinto k) v ;; Ok (VF r))) /\
  geo_run lf ("Mul<Vector2d>for" ++ cname k ++ "::mul") [cval k c; V2 k v] = (r <- v2_scale_left c v ;; Ok (V2 k r)) /\
  geo_run lf "From<Vector2d>forVector3d::from" [V2 k v] = Ok (V3 k (v3_of_v2 v)) /\
  geo_run lf "Vector2d::perpendicular_dot" [V2 k v; V2 k w] = (r <- v2_perpendicular_dot v w ;; Ok (cval k r)) /\
  geo_run lf "Vector2d::cross" [V2 k v; V2 k w] = (r <- v2_cross v w ;; Ok (V3 k r)) /\
  geo_run lf "Mul<Vector2d>forVector2d::mul" [V2 k v; V2 k w] = (r <- v2_mul v w ;; Ok (V3 k r)).
Proof. exact @source2_vector2d. Qed.
Print Assumptions C133_vector2d.

(** Three-dimensional vectors, for each of the eight component types. *)
Theorem C133_vector3d : forall {E : Env} lf (k : ckind) (v w : Vector3d (cty k)) (a b c : cty k) (i : Z)
    (l : list (cty k)) (vl : list (Vector3d (cty k))),
  geo_run lf "Vector3d::default" [cval k c] = Ok (V3 k v3_default) /\
  geo_run lf "PartialEq<Vector3d>forVector3d::eq" [V3 k v; V3 k w] = Ok (VB (v3_eq (ceq k) v w)) /\
  geo_run lf "Vector3d::AXES" [] = Ok (VI Usize (vt_axes (V := Vector3d (cty k)))) /\
  geo_run lf "Vector3d::to_array" [V3 k v] = Ok (VA (cval k (v3x v)) (map (cval k) (v3_to_array v))) /\
  geo_run lf "From<Vector3d>for[C;]::from" [V3 k v] = Ok (VA (cval k (v3x v)) (map (cval k) (v3_to_array v))) /\
  geo_run lf "From<[C;]>forVector3d::from" [VA (cval k c) [cval k a; cval k b; cval k c]] = Ok (V3 k (v3_of_array a b c)) /\
  geo_run lf "From<(C,C,C)>forVector3d::from" [VT [cval k a; cval k b; cval k c]] = Ok (V3 k (v3_of_tuple (a, b, c))) /\
  geo_run lf "From<Vector3d>for(C,C,C)::from" [V3 k v] = Ok (VT [cval k (v3x v); cval k (v3y v); cval k (v3z v)]) /\
  geo_run lf "Vector3d::get" [V3 k v; VI Usize i] = Ok (VO (option_map (cval k) (v3_get v i))) /\
  geo_run lf "Index<#>forVector3d::index" [V3 k v; VI Usize i] = (r <- v3_index v i ;; Ok (cval k r)) /\
  geo_run lf "Vector3d::from_iter" [VA (cval k c) (map (cval k) l)] = (r <- v3_from_iter l ;; Ok (V3 k r)) /\
  geo_run lf "Vector3d::from_slice" [VA (cval k c) (map (cval k) l)] = (r <- vt_from_slice (V := Vector3d (cty k)) l ;; Ok (V3 k r)) /\
  geo_run lf "Vector3d::dot" [V3 k v; V3 k w] = (r <- v3_dot v w ;; Ok (cval k r)) /\
  geo_run lf "Add<Vector3d>forVector3d::add" [V3 k v; V3 k w] = (r <- v3_add v w ;; Ok (V3 k r)) /\
  geo_run lf "AddAssignforVector3d::add_assign" [V3 k v; V3 k w] = (r <- v3_add_assign v w ;; Ok (V3 k r)) /\
  geo_run lf "Sub<Vector3d>forVector3d::sub" [V3 k v; V3 k w] = (r <- v3_sub v w ;; Ok (V3 k r)) /\
  geo_run lf "SubAssignforVector3d::sub_assign" [V3 k v; V3 k w] = (r <- v3_sub_assign v w ;; Ok (V3 k r)) /\
  geo_run lf "Mul<#>forVector3d::mul" [V3 k v; cval k c] = (r <- v3_scale v c ;; Ok (V3 k r)) /\
  geo_run lf "MulAssign<#>forVector3d::mul_assign" [V3 k v; cval k c] = (r <- v3_mul_assign v c ;; Ok (V3 k r)) /\
  geo_run lf "Div<#>forVector3d::div" [V3 k v; cval k c] = (r <- v3_div v c ;; Ok (V3 k r)) /\
  geo_run lf "DivAssign<#>forVector3d::div_assign" [V3 k v; cval k c] = (r <- v3_div_assign v c ;; Ok (V3 k r)) /\
  geo_run lf "Sum<Vector3d>forVector3d::sum" [VA (V3 k v) (map (V3 k) vl)] = (r <- v3_sum vl ;; Ok (V3 k r)) /\
  geo_run lf "Sum<&Vector3d>forVector3d::sum" [VA (V3 k v) (map (V3 k) vl)] = (r <- v3_sum vl ;; Ok (V3 k r)) /\
  geo_run lf "Vector3d::iter" [V3 k v] = Ok (VIter (V3 k v) 0) /\
  geo_run lf "Iter::new" [V3 k v] = Ok (VIter (V3 k v) 0) /\
  geo_run lf "Iter::next" [VIter (V3 k v) i] = Ok (pack (VO (option_map (cval k) (fst (iter_next (mkIter v i)))))
    (VIter (V3 k v) (it_position (snd (iter_next (mkIter v i)))))) /\
  (has_into k = true ->
    geo_run lf "Vector3d::distance" [V3 k v; V3 k w] = (r <- vt_distance (cinto k) v w ;; Ok (VF r))) /\
  geo_run lf "Vector3d::magnitude_sq" [V3 k v] = (r <- vt_magnitude_sq v ;; Ok (cval k r)) /\
  (has_into k = true ->
    geo_run lf "Vector3d::magnitude" [V3 k v] = (r <- vt_magnitude (cinto k) v ;; Ok (VF r))) /\
  geo_run lf ("Mul<Vector3d>for" ++ cname k ++ "::mul") [cval k c; V3 k v] = (r <- v3_scale_left c v ;; Ok (V3 k r)) /\
  geo_run lf "Vector3d::cross" [V3 k v; V3 k w] = (r <- v3_cross v w ;; Ok (V3 k r)) /\
  geo_run lf "Mul<Vector3d>forVector3d::mul" [V3 k v; V3 k w] = (r <- v3_mul v w ;; Ok (V3 k r)).
Proof. exact @source2_vector3d. Qed.
Print Assumptions C133_vector3d.

(** Conversions of two-dimensional vectors of integers. *)
Theorem C133_vector2d_int : forall {E : Env} lf (v : Vector2d Z) (c : Z),
  geo_run lf "From<I8x2>forVector2d::from" [V2 KI8 v] = Ok (V2 Kf32 (v2_into_f32 f32_of_Z v)) /\
  geo_run lf "From<I16x2>forVector2d::from" [V2 KI16 v] = Ok (V2 Kf32 (v2_into_f32 f32_of_Z v)) /\
  geo_run lf "From<U8x2>forVector2d::from" [V2 KU8 v] = Ok (V2 Kf32 (v2_into_f32 f32_of_Z v)) /\
  geo_run lf "From<U16x2>forVector2d::from" [V2 KU16 v] = Ok (V2 Kf32 (v2_into_f32 f32_of_Z v)).
Proof. exact @source2_vector2d_int. Qed.
Print Assumptions C133_vector2d_int.

(** Conversions of three-dimensional vectors of integers. *)
Theorem C133_vector3d_int : forall {E : Env} lf (v : Vector3d Z) (c : Z),
  geo_run lf "From<I8x3>forVector3d::from" [V3 KI8 v] = Ok (V3 Kf32 (v3_into_f32 f32_of_Z v)) /\
  geo_run lf "From<I16x3>forVector3d::from" [V3 KI16 v] = Ok (V3 Kf32 (v3_into_f32 f32_of_Z v)) /\
  geo_run lf "From<U8x3>forVector3d::from" [V3 KU8 v] = Ok (V3 Kf32 (v3_into_f32 f32_of_Z v)) /\
  geo_run lf "From<U16x3>forVector3d::from" [V3 KU16 v] = Ok (V3 Kf32 (v3_into_f32 f32_of_Z v)).
Proof. exact @source2_vector3d_int. Qed.
Print Assumptions C133_vector3d_int.

(** Two-dimensional vectors of f32 or F32. *)
Theorem C133_vector2d_f32 : forall {E : Env} lf (v : Vector2d f32) (c : f32),
  geo_run lf "Vector2d::normalized" [V2 Kf32 v] = (r <- vt_normalized (V := Vector2d f32) (fun x => x) (fun x => x) v ;; Ok (V2 Kf32 r)) /\
  geo_run lf "Vector2d::normalized" [V2 KF32 v] = (r <- vt_normalized (V := Vector2d f32) (fun x => x) (fun x => x) v ;; Ok (V2 KF32 r)).
Proof. exact @source2_vector2d_f32. Qed.
Print Assumptions C133_vector2d_f32.

(** Three-dimensional vectors of f32 or F32. *)
Theorem C133_vector3d_f32 : forall {E : Env} lf (v : Vector3d f32) (c : f32),
  geo_run lf "Vector3d::normalized" [V3 Kf32 v] = (r <- vt_normalized (V := Vector3d f32) (fun x => x) (fun x => x) v ;; Ok (V3 Kf32 r)) /\
  geo_run lf "Vector3d::normalized" [V3 KF32 v] = (r <- vt_normalized (V := Vector3d f32) (fun x => x) (fun x => x) v ;; Ok (V3 KF32 r)) /\
  geo_run lf "From<Vector3d>forVector3d::from" [V3 KF32 v] = Ok (V3 Kf32 (v3_into_f32 (fun x => x) v)).
Proof. exact @source2_vector3d_f32. Qed.
Print Assumptions C133_vector3d_f32.

(** The method dot of the trait. *)
Theorem C133_dot : forall {E : Env} lf k (a b : Vector2d (cty k)) (v w : Vector3d (cty k)),
  run_item lf (link lf geo_linked) (find_in (after "Vector2d::dot" geo_program) "Vector2d::dot")
    [V2 k a; V2 k b] Ok = (r <- v2_dot a b ;; Ok (cval k r)) /\
  run_item lf (link lf geo_linked) (find_in (after "Vector3d::dot" geo_program) "Vector3d::dot")
    [V3 k v; V3 k w] Ok = (r <- v3_dot v w ;; Ok (cval k r)).
Proof. exact @source2_dot. Qed.
Print Assumptions C133_dot.

(** Quaternions. *)
Theorem C133_quaternion : forall {E : Env} lf (p q : Quat f32) (a b c d : f32),
  geo_run lf "PartialEq<Quaternion>forQuaternion::eq" [VQ p; VQ q] = Ok (VB (q_eq p q)) /\
  geo_run lf "Quaternion::IDENTITY" [] = Ok (VQ q_identity) /\
  geo_run lf "DefaultforQuaternion::default" [] = Ok (VQ q_identity) /\
  geo_run lf "Quaternion::new" [VF a; VF b; VF c; VF d] = Ok (VQ (q_new a b c d)) /\
  geo_run lf "Quaternion::conj" [VQ q] = Ok (VQ (q_conj q)) /\
  geo_run lf "Quaternion::dot" [VQ p; VQ q] = Ok (VF (q_dot p q)) /\
  geo_run lf "Quaternion::norm" [VQ q] = Ok (VF (q_norm q)) /\
  geo_run lf "Quaternion::magnitude" [VQ q] = (r <- Q_magnitude q ;; Ok (VF r)) /\
  geo_run lf "Quaternion::inv" [VQ q] = (r <- Q_inv q ;; Ok (VQ r)) /\
  geo_run lf "Quaternion::normalize" [VQ q] = (r <- Q_normalize q ;; Ok (VQ r)) /\
  geo_run lf "Quaternion::to_euler" [VQ q] = (r <- Q_to_euler q ;; Ok (VT [VF (fst (fst r)); VF (snd (fst r)); VF (snd r)])) /\
  geo_run lf "Quaternion::to_array" [VQ q] = Ok (VA (VF (q0 q)) (map VF (q_to_array q))) /\
  geo_run lf "From<Quaternion>for[f32;]::from" [VQ q] = Ok (VA (VF (q0 q)) (map VF (q_to_array q))) /\
  geo_run lf "From<[f32;]>forQuaternion::from" [VA (VF a) [VF a; VF b; VF c; VF d]] = Ok (VQ (q_of_array a b c d)) /\
  geo_run lf "From<(f32,f32,f32,f32)>forQuaternion::from" [VT [VF a; VF b; VF c; VF d]] = Ok (VQ (q_of_tuple (a, b, c, d))) /\
  geo_run lf "From<Quaternion>for(f32,f32,f32,f32)::from" [VQ q] = Ok (VT [VF (q0 q); VF (q1 q); VF (q2 q); VF (q3 q)]) /\
  geo_run lf "Quaternion::w" [VQ q] = Ok (VF (q0 q)) /\
  geo_run lf "Quaternion::x" [VQ q] = Ok (VF (q1 q)) /\
  geo_run lf "Quaternion::y" [VQ q] = Ok (VF (q2 q)) /\
  geo_run lf "Quaternion::z" [VQ q] = Ok (VF (q3 q)) /\
  geo_run lf "Add<Quaternion>forQuaternion::add" [VQ p; VQ q] = Ok (VQ (q_add p q)) /\
  geo_run lf "AddAssignforQuaternion::add_assign" [VQ p; VQ q] = Ok (VQ (q_add_assign p q)) /\
  geo_run lf "Sub<Quaternion>forQuaternion::sub" [VQ p; VQ q] = Ok (VQ (q_sub p q)) /\
  geo_run lf "SubAssignforQuaternion::sub_assign" [VQ p; VQ q] = Ok (VQ (q_sub_assign p q)) /\
  geo_run lf "Mul<Quaternion>forQuaternion::mul" [VQ p; VQ q] = Ok (VQ (q_mul p q)) /\
  geo_run lf "Mul<#>forQuaternion::mul" [VQ q; VF a] = Ok (VQ (q_mul_scalar q a)) /\
  geo_run lf "Mul<Quaternion>forf32::mul" [VF a; VQ q] = Ok (VQ (q_scalar_mul a q)) /\
  geo_run lf "MulAssign<#>forQuaternion::mul_assign" [VQ q; VF a] = Ok (VQ (q_mul_assign_scalar q a)).
Proof. exact @source2_quaternion. Qed.
Print Assumptions C133_quaternion.

(** Functions of quaternions and vectors of any component type. *)
Theorem C133_quaternion_vector : forall {E : Env} lf (q : Quat f32) (k : ckind) (v w : Vector3d (cty k)) (c : cty k),
  (has_into k = true ->
    geo_run lf "Quaternion::scale" [VQ q; cval k c] = Ok (VQ (q_scale q (cinto k c)))) /\
  (has_into k = true ->
    geo_run lf "From<Vector3d>forQuaternion::from" [V3 k v] = Ok (VQ (q_of_vector (v3_into_f32 (cinto k) v)))) /\
  (has_into k = true ->
    geo_run lf "Quaternion::axis_angle" [V3 k v; cval k c] = Ok (VQ (Q_axis_angle (cinto k) v c))) /\
  (has_into k = true ->
    geo_run lf "Quaternion::rotate" [VQ q; V3 k v] = Ok (V3 Kf32 (Q_rotate (cinto k) q v))) /\
  (has_into k = true ->
    geo_run lf "Mul<Vector3d>forQuaternion::mul" [VQ q; V3 k v] = Ok (V3 Kf32 (Q_mul_vector (cinto k) q v))) /\
  (has_into k = true ->
    geo_run lf "Quaternion::from_two_vectors" [V3 k v; V3 k w] = (r <- Q_from_two_vectors (cinto k) v w ;; Ok (VQ r))).
Proof. exact @source2_quaternion_vector. Qed.
Print Assumptions C133_quaternion_vector.

(** The statistics, for lists of any length; next with a loop of at most lf rounds. *)
Theorem C133_statistics : forall {E : Env} lf (l : list f32) o (k : ckind) (m : list (cty k)) (w : V) (t : f32)
    (it : TrimIter (cty k)),
  stat_run lf "I::mean" [VSeq o (map VF l)] = (r <- mean l ;; Ok (VF r)) /\
  stat_run lf "DEFAULT_THRESHOLD" [] = Ok (VF DEFAULT_THRESHOLD) /\
  (has_into k = true ->
    stat_run lf "&[]::variance" [VSeq o (map (cval k) m)] = (r <- variance (cinto k) m ;; Ok (VF r)) /\
    stat_run lf "&[]::stddev" [VSeq o (map (cval k) m)] = (r <- stddev (cinto k) m ;; Ok (VF r)) /\
    stat_run lf "Iter::new" [VA w (map (cval k) m); VF t] = (r <- trim_new (cinto k) m t ;; Ok (VTrim k w r)) /\
    stat_run lf "&[]::trim_at" [VA w (map (cval k) m); VF t] = (r <- trim_new (cinto k) m t ;; Ok (VTrim k w r)) /\
    stat_run lf "&[]::trim" [VA w (map (cval k) m)] =
      (r <- trim_new (cinto k) m DEFAULT_THRESHOLD ;; Ok (VTrim k w r)) /\
    ((List.length (ti_input it) < lf)%nat ->
     stat_run lf "Iter::next" [VTrim k w it] =
     Ok (pack (VO (option_map (cval k) (fst (trim_next (cinto k) it))))
              (VTrim k w (snd (trim_next (cinto k) it)))))).
Proof. exact @source2_statistics. Qed.
Print Assumptions C133_statistics.

(** Sum and product of F32. *)
Theorem C133_sum : forall {E : Env} lf w l,
  stat_run lf "SumforF32::sum" [VA (VW w) (map VW l)] = Ok (VW (F32_sum l)) /\
  stat_run lf "ProductforF32::product" [VA (VW w) (map VW l)] = Ok (VW (F32_product l)).
Proof. exact @source2_sum. Qed.
Print Assumptions C133_sum.

(** Every function with a body in these files is one of those above, save those of the defmt feature. *)
Theorem C133_covered : forallb (handled (geo_order ++ ext_order)) (with_body geo_program) = true /\
  forallb (handled (stat_order ++ ext_order)) (with_body stat_program) = true /\
  repeated (with_body geo_program) = ["Vector2d::dot"; "Vector3d::dot"]%string /\
  repeated (with_body stat_program) = [] /\
  (List.length (with_body geo_program), List.length (with_body stat_program)) = (170, 42)%nat.
Proof. exact @source2_covered. Qed.
Print Assumptions C133_covered.

(** Running the text: the variance of 1, 3, 5 is 4; trimming 1, 2, 3, 999 at 2.0 keeps
    the first item; the dot product of i8 overflows in a checked build and wraps
    otherwise; a slice of the wrong length panics;
    the distance 7 comes out as 7.0625. *)
Definition C133_bits (r : res V) : Z :=
  match r with Ok (VF x) => to_bits x | Ok (VI _ z) => z | Panic => -1 | _ => -2 end.
Definition C133_f (l : list Z) : V := VA (VF (f32_zero false)) (map (fun z => VF (f32_of_Z z)) l).
Definition C133_next (r : res V) : Z :=
  match r with Ok (VD _ [(_, VO (Some (VF x))); _]) => to_bits x | _ => -2 end.
Example C133_case :
  C133_bits (@stat_run env_debug 40 "&[]::variance" [C133_f [1; 3; 5]]) = to_bits (f32_of_Z 4) /\
  C133_next (it <- @stat_run env_debug 40 "&[]::trim" [C133_f [1; 2; 3; 999]] ;;
             @stat_run env_debug 40 "Iter::next" [it]) = to_bits (f32_of_Z 1) /\
  C133_bits (@geo_run env_debug 40 "Vector2d::dot" [V2 KI8 (mkV2 100 1); V2 KI8 (mkV2 2 3)]) = -1 /\
  C133_bits (@geo_run env_release 40 "Vector2d::dot" [V2 KI8 (mkV2 100 1); V2 KI8 (mkV2 2 3)]) = -53 /\
  C133_bits (@geo_run env_debug 40 "Vector2d::from_slice" [VA (VI I8 0) [VI I8 1]]) = -1 /\
  C133_bits (@geo_run env_debug 40 "Vector3d::distance"
    [V3 KU8 (mkV3 1 1 1); V3 KU8 (mkV3 3 4 7)]) = 0x40E20000.
Proof. vm_compute. repeat split. Qed.
