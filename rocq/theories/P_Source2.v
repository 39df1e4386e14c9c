(** * The text of the other files means what the model says *)

From Coq Require Import ZArith Bool List String Lia FunctionalExtensionality.
From Flocq Require Import Core IEEE754.Binary.
From Verif Require Import Base Float Vector Quaternion Stats F32Ext F32Wrap Equality.
From Verif Require Import RustSyntax RustSem SrcText2 Source Source2 P_Source.
Import ListNotations.
Open Scope Z_scope.

(** ** Linking on top of the models of src/float.rs *)

Section On.
Context {E : Env} (base : string -> list V -> (V -> res V) -> res V) (lf : nat).
Fixpoint link_on (l : list (string * item)) (f : string) (args : list V) (k : V -> res V) : res V :=
  match l with
  | [] => base f args k
  | (s, i) :: l => if String.eqb f s then run_item lf (link_on l) i args k else link_on l f args k
  end.
End On.

Definition keyed (l : list item) : list (string * item) := map (fun i => (key i, i)) l.

Lemma link_on_eq : forall {E : Env} lf l,
  link lf (l ++ linked) = link_on (by_table (model_sem lf)) lf (keyed l).
Proof.
  intros E lf l. induction l as [|i l IH].
  - cbn [app]. rewrite link_all. reflexivity.
  - apply functional_extensionality. intros f. apply functional_extensionality. intros args.
    apply functional_extensionality. intros k. cbn [app link keyed map link_on].
    unfold keyed in IH. rewrite IH. reflexivity.
Qed.

Definition base_items : list item :=
  (map (find_in stat_program) (rev ext_order) ++ map get ["SumforF32::sum"; "ProductforF32::product"]%string)%list.
Definition base_nf : list (string * item) := Eval vm_compute in keyed base_items.
Definition geo_nf : list (string * item) :=
  Eval vm_compute in (keyed (map (find_in geo_program) (rev geo_order)) ++ base_nf)%list.
Definition stat_nf : list (string * item) :=
  Eval vm_compute in (keyed (map (find_in stat_program) (rev stat_order)) ++ base_nf)%list.

Lemma geo_nf_eq : keyed (map (find_in geo_program) (rev geo_order) ++ base_items) = geo_nf.
Proof. vm_compute. reflexivity. Qed.
Lemma stat_nf_eq : keyed (map (find_in stat_program) (rev stat_order) ++ base_items) = stat_nf.
Proof. vm_compute. reflexivity. Qed.

Lemma geo_link : forall {E : Env} lf f args,
  geo_run lf f args = link_on (by_table (model_sem lf)) lf geo_nf f args Ok.
Proof.
  intros. unfold geo_run, geo_linked, base_linked. rewrite <- geo_nf_eq, <- link_on_eq. unfold base_items.
  rewrite <- !app_assoc. reflexivity.
Qed.
Lemma stat_link : forall {E : Env} lf f args,
  stat_run lf f args = link_on (by_table (model_sem lf)) lf stat_nf f args Ok.
Proof.
  intros. unfold stat_run, stat_linked, base_linked. rewrite <- stat_nf_eq, <- link_on_eq. unfold base_items.
  rewrite <- !app_assoc. reflexivity.
Qed.

(** ** Tactics *)

(** As in P_Source.v; the integers that are known are computed with. *)
Ltac sim2 :=
  cbv -[fadd fsub fmul fdiv frem fneg feq flt fle fgt fge from_bits to_bits f32_of_Z to_i32
        arith int_div clamp wrap shl32 shr32 not32 lz32 f32_NAN f32_zero f32_inf
        is_nan is_infinite is_finite sign_bit Binary.Bcompare
        Z.land Z.lor Z.lxor Z.shiftr Z.shiftl Z.sub Z.mul Z.modulo Z.rem Z.abs Z.max
        run_loop fold_list map_list count foldM
        extract_exponent_bits extract_exponent_value set_exponent without_sign is_integer is_even
        F32_sqrt F32_sin F32_cos F32_abs F32_invsqrt F32_inv F32_asin F32_atan2 F32_acos F32_atan F32_atan_norm
        F32_atan2_norm F32_ceil F32_copysign F32_div_euclid F32_exp F32_floor F32_fract F32_hypot F32_ln F32_log
        F32_log2 F32_log10 F32_mul_add F32_powf F32_powi F32_recip F32_rem_euclid F32_round F32_signum F32_tan
        F32_trunc];
  rewrite ?zero_lit.
(** With lists of known length. *)
Ltac sim3 :=
  cbv -[fadd fsub fmul fdiv frem fneg feq flt fle fgt fge from_bits to_bits f32_of_Z to_i32
        arith int_div clamp wrap shl32 shr32 not32 lz32 f32_NAN f32_zero f32_inf
        is_nan is_infinite is_finite sign_bit Binary.Bcompare
        Z.land Z.lor Z.lxor Z.shiftr Z.shiftl Z.sub Z.mul Z.modulo Z.rem Z.abs Z.max
        run_loop
        extract_exponent_bits extract_exponent_value set_exponent without_sign is_integer is_even
        F32_sqrt F32_sin F32_cos F32_abs F32_invsqrt F32_inv F32_asin F32_atan2 F32_acos F32_atan F32_atan_norm
        F32_atan2_norm F32_ceil F32_copysign F32_div_euclid F32_exp F32_floor F32_fract F32_hypot F32_ln F32_log
        F32_log2 F32_log10 F32_mul_add F32_powf F32_powi F32_recip F32_rem_euclid F32_round F32_signum F32_tan
        F32_trunc];
  rewrite ?zero_lit.
(** With the operators left alone. *)
Ltac sim4 :=
  cbv -[fadd fsub fmul fdiv frem fneg feq flt fle fgt fge from_bits to_bits f32_of_Z to_i32
        arith int_div clamp wrap shl32 shr32 not32 lz32 f32_NAN f32_zero f32_inf
        is_nan is_infinite is_finite sign_bit Binary.Bcompare
        Z.land Z.lor Z.lxor Z.shiftr Z.shiftl Z.sub Z.mul Z.modulo Z.rem Z.abs Z.max
        run_loop fold_list binop map_list count foldM
        extract_exponent_bits extract_exponent_value set_exponent without_sign is_integer is_even
        F32_sqrt F32_sin F32_cos F32_abs F32_invsqrt F32_inv F32_asin F32_atan2 F32_acos F32_atan F32_atan_norm
        F32_atan2_norm F32_ceil F32_copysign F32_div_euclid F32_exp F32_floor F32_fract F32_hypot F32_ln F32_log
        F32_log2 F32_log10 F32_mul_add F32_powf F32_powi F32_recip F32_rem_euclid F32_round F32_signum F32_tan
        F32_trunc];
  rewrite ?zero_lit.
(** Of the integers only the variables are taken apart. *)
Ltac cases := repeat (reflexivity || match goal with
  | |- context [match ?c with _ => _ end] =>
      lazymatch type of c with Z => is_var c | positive => is_var c | _ => idtac end;
      lazymatch c with
      | context [match ?d with _ => _ end] =>
          lazymatch type of c with res _ => lazymatch c with match _ with _ => _ end => fail | _ => idtac end | _ => fail end
      | _ => idtac
      end; destruct c
  end).
Ltac go := intros; rewrite geo_link; sim3; cases.
Ltac gok := match goal with k : ckind |- _ => destruct k end; try (exfalso; discriminate); sim3; cases.
Ltac goc := intros; rewrite geo_link; gok.

#[local] Existing Instance arith_f32.

(** ** Lists *)

Lemma fold_list_run : forall {A B : Type} (inj : A -> V) (injB : B -> V) f g,
  (forall b a k, f (injB b) (inj a) k = (r <- g b a ;; k (injB r))) ->
  forall l b k, fold_list f (map inj l) (injB b) k = (r <- foldM g l b ;; k (injB r)).
Proof.
  intros A B inj injB f g H l. induction l as [|a l IH]; intros b k. reflexivity.
  cbn [map fold_list foldM]. rewrite H. destruct (g b a) as [r| |]; [apply IH|reflexivity|reflexivity].
Qed.

Lemma fold_list_pure : forall {A B : Type} (inj : A -> V) (injB : B -> V) f g,
  (forall b a k, f (injB b) (inj a) k = k (injB (g b a))) ->
  forall l b k, fold_list f (map inj l) (injB b) k = k (injB (fold_left g l b)).
Proof.
  intros A B inj injB f g H l. induction l as [|a l IH]; intros b k. reflexivity.
  cbn [map fold_list fold_left]. rewrite H. apply IH.
Qed.

Lemma map_list_run : forall {A B : Type} (inj : A -> V) (injB : B -> V) f g,
  (forall a k, f (inj a) k = k (injB (g a))) ->
  forall l k, map_list f (map inj l) k = k (map injB (map g l)).
Proof.
  intros A B inj injB f g H l. induction l as [|a l IH]; intros k. reflexivity.
  cbn [map map_list]. rewrite H. apply IH.
Qed.

Lemma count_map : forall {A : Type} (inj : A -> V) l, count (map inj l) = Z.of_nat (List.length l).
Proof. intros A inj l. induction l as [|a l IH]. reflexivity. cbn [map count List.length]. rewrite IH. lia. Qed.

(** ** Entering a function *)

Fixpoint split_on (f : string) (l : list (string * item)) : option (item * list (string * item)) :=
  match l with
  | [] => None
  | (s, i) :: l => if String.eqb f s then Some (i, l) else split_on f l
  end.

Lemma link_on_split : forall {E : Env} base lf l f args k,
  link_on base lf l f args k =
  match split_on f l with
  | Some (i, tl) => run_item lf (link_on base lf tl) i args k
  | None => base f args k
  end.
Proof.
  intros E base lf l f args k. induction l as [|[s i] l IH]. reflexivity.
  cbn [link_on split_on]. destruct (String.eqb f s). reflexivity. exact IH.
Qed.

(** ** Sums of vectors *)

Definition sum2_item : item := Eval vm_compute in
  fst (or_else (get "F32::abs", []) (split_on "Sum<Vector2d>forVector2d::sum" geo_nf)).
Definition sum2_tail : list (string * item) := Eval vm_compute in
  snd (or_else (get "F32::abs", []) (split_on "Sum<Vector2d>forVector2d::sum" geo_nf)).
Lemma sum2_split : split_on "Sum<Vector2d>forVector2d::sum" geo_nf = Some (sum2_item, sum2_tail).
Proof. vm_compute. reflexivity. Qed.
Definition rsum2_item : item := Eval vm_compute in
  fst (or_else (get "F32::abs", []) (split_on "Sum<&Vector2d>forVector2d::sum" geo_nf)).
Definition rsum2_tail : list (string * item) := Eval vm_compute in
  snd (or_else (get "F32::abs", []) (split_on "Sum<&Vector2d>forVector2d::sum" geo_nf)).
Lemma rsum2_split : split_on "Sum<&Vector2d>forVector2d::sum" geo_nf = Some (rsum2_item, rsum2_tail).
Proof. vm_compute. reflexivity. Qed.
Lemma rsum2_split' : split_on "Sum<Vector2d>forVector2d::sum" rsum2_tail = Some (sum2_item, sum2_tail).
Proof. vm_compute. reflexivity. Qed.

Lemma sum2_enter : forall {E : Env} call lf k,
  (forall c kk, call "Vector2d::default"%string [cval k c] kk = kk (V2 k v2_default)) ->
  (forall a b kk, binop call OAdd (V2 k a) (V2 k b) kk = (r <- v2_add a b ;; kk (V2 k r))) ->
  forall v l kk,
  run_item lf call sum2_item [VA (V2 k v) (map (V2 k) l)] kk = (r <- v2_sum l ;; kk (V2 k r)).
Proof.
  intros E call lf k Hd Ha v l kk. set (L := map _ l).
  match goal with |- _ = ?x => remember x as R eqn:HR end. revert HR.
  assert (HL : L = map (V2 k) l) by reflexivity. clearbody L.
  destruct k; sim4; intros HR; (etransitivity; [apply Hd|]); rewrite HL;
    (etransitivity; [refine (fold_list_run (V2 _) (V2 _) _ v2_add _ l v2_default _);
       intros; apply Ha|]); rewrite HR; unfold v2_sum; destruct (foldM _ _ _) as [[]|?|]; reflexivity.
Qed.
Lemma rsum2_enter : forall {E : Env} call lf k v L r kk,
  (forall kk, call "Sum<Vector2d>forVector2d::sum"%string [VA (V2 k v) L] kk = (r <- r ;; kk (V2 k r))) ->
  run_item lf call rsum2_item [VA (V2 k v) L] kk = (r <- r ;; kk (V2 k r)).
Proof.
  intros E call lf k v L r kk H. destruct k; sim4; (etransitivity; [apply H|]); cases.
Qed.

Lemma sum2_default : forall {E : Env} lf k (c : cty k) kk,
  link_on (by_table (model_sem lf)) lf sum2_tail "Vector2d::default" [cval k c] kk = kk (V2 k v2_default).
Proof. intros. destruct k; sim2; reflexivity. Qed.
Lemma sum2_add : forall {E : Env} lf k v w kk,
  binop (link_on (by_table (model_sem lf)) lf sum2_tail) OAdd (V2 k v) (V2 k w) kk =
  (r <- v2_add v w ;; kk (V2 k r)).
Proof. intros. destruct k; sim2; cases. Qed.

Lemma sum2_body : forall {E : Env} lf k v vl kk,
  run_item lf (link_on (by_table (model_sem lf)) lf sum2_tail) sum2_item [VA (V2 k v) (map (V2 k) vl)] kk =
  (r <- v2_sum vl ;; kk (V2 k r)).
Proof.
  intros. apply sum2_enter. intros. apply sum2_default. intros. apply sum2_add.
Qed.
Lemma sum2_run : forall {E : Env} lf f k v vl,
  In f ["Sum<Vector2d>forVector2d::sum"; "Sum<&Vector2d>forVector2d::sum"]%string ->
  link_on (by_table (model_sem lf)) lf geo_nf f [VA (V2 k v) (map (V2 k) vl)] Ok =
  (r <- v2_sum vl ;; Ok (V2 k r)).
Proof.
  intros E lf f k v vl [<-|[<-|[]]]; rewrite link_on_split.
  - rewrite sum2_split. apply sum2_body.
  - rewrite rsum2_split. apply rsum2_enter. intros. rewrite link_on_split, rsum2_split'. apply sum2_body.
Qed.

Definition sum3_item : item := Eval vm_compute in
  fst (or_else (get "F32::abs", []) (split_on "Sum<Vector3d>forVector3d::sum" geo_nf)).
Definition sum3_tail : list (string * item) := Eval vm_compute in
  snd (or_else (get "F32::abs", []) (split_on "Sum<Vector3d>forVector3d::sum" geo_nf)).
Lemma sum3_split : split_on "Sum<Vector3d>forVector3d::sum" geo_nf = Some (sum3_item, sum3_tail).
Proof. vm_compute. reflexivity. Qed.
Definition rsum3_item : item := Eval vm_compute in
  fst (or_else (get "F32::abs", []) (split_on "Sum<&Vector3d>forVector3d::sum" geo_nf)).
Definition rsum3_tail : list (string * item) := Eval vm_compute in
  snd (or_else (get "F32::abs", []) (split_on "Sum<&Vector3d>forVector3d::sum" geo_nf)).
Lemma rsum3_split : split_on "Sum<&Vector3d>forVector3d::sum" geo_nf = Some (rsum3_item, rsum3_tail).
Proof. vm_compute. reflexivity. Qed.
Lemma rsum3_split' : split_on "Sum<Vector3d>forVector3d::sum" rsum3_tail = Some (sum3_item, sum3_tail).
Proof. vm_compute. reflexivity. Qed.

Lemma sum3_enter : forall {E : Env} call lf k,
  (forall c kk, call "Vector3d::default"%string [cval k c] kk = kk (V3 k v3_default)) ->
  (forall a b kk, binop call OAdd (V3 k a) (V3 k b) kk = (r <- v3_add a b ;; kk (V3 k r))) ->
  forall v l kk,
  run_item lf call sum3_item [VA (V3 k v) (map (V3 k) l)] kk = (r <- v3_sum l ;; kk (V3 k r)).
Proof.
  intros E call lf k Hd Ha v l kk. set (L := map _ l).
  match goal with |- _ = ?x => remember x as R eqn:HR end. revert HR.
  assert (HL : L = map (V3 k) l) by reflexivity. clearbody L.
  destruct k; sim4; intros HR; (etransitivity; [apply Hd|]); rewrite HL;
    (etransitivity; [refine (fold_list_run (V3 _) (V3 _) _ v3_add _ l v3_default _);
       intros; apply Ha|]); rewrite HR; unfold v3_sum; destruct (foldM _ _ _) as [[]|?|]; reflexivity.
Qed.
Lemma rsum3_enter : forall {E : Env} call lf k v L r kk,
  (forall kk, call "Sum<Vector3d>forVector3d::sum"%string [VA (V3 k v) L] kk = (r <- r ;; kk (V3 k r))) ->
  run_item lf call rsum3_item [VA (V3 k v) L] kk = (r <- r ;; kk (V3 k r)).
Proof.
  intros E call lf k v L r kk H. destruct k; sim4; (etransitivity; [apply H|]); cases.
Qed.

Lemma sum3_default : forall {E : Env} lf k (c : cty k) kk,
  link_on (by_table (model_sem lf)) lf sum3_tail "Vector3d::default" [cval k c] kk = kk (V3 k v3_default).
Proof. intros. destruct k; sim2; reflexivity. Qed.
Lemma sum3_add : forall {E : Env} lf k v w kk,
  binop (link_on (by_table (model_sem lf)) lf sum3_tail) OAdd (V3 k v) (V3 k w) kk =
  (r <- v3_add v w ;; kk (V3 k r)).
Proof. intros. destruct k; sim2; cases. Qed.

Lemma sum3_body : forall {E : Env} lf k v vl kk,
  run_item lf (link_on (by_table (model_sem lf)) lf sum3_tail) sum3_item [VA (V3 k v) (map (V3 k) vl)] kk =
  (r <- v3_sum vl ;; kk (V3 k r)).
Proof.
  intros. apply sum3_enter. intros. apply sum3_default. intros. apply sum3_add.
Qed.
Lemma sum3_run : forall {E : Env} lf f k v vl,
  In f ["Sum<Vector3d>forVector3d::sum"; "Sum<&Vector3d>forVector3d::sum"]%string ->
  link_on (by_table (model_sem lf)) lf geo_nf f [VA (V3 k v) (map (V3 k) vl)] Ok =
  (r <- v3_sum vl ;; Ok (V3 k r)).
Proof.
  intros E lf f k v vl [<-|[<-|[]]]; rewrite link_on_split.
  - rewrite sum3_split. apply sum3_body.
  - rewrite rsum3_split. apply rsum3_enter. intros. rewrite link_on_split, rsum3_split'. apply sum3_body.
Qed.


(** ** One by one *)

Lemma source2_ext_0 : forall {E : Env} lf (x y z : f32) (n : Z),
  geo_run lf "f32::abs" [VF x] = (r <- ext_run lf (X_abs x) ;; Ok (VF r)).
Proof. go. Qed.
Lemma source2_ext_1 : forall {E : Env} lf (x y z : f32) (n : Z),
  geo_run lf "f32::acos" [VF x] = (r <- ext_run lf (X_acos x) ;; Ok (VF r)).
Proof. go. Qed.
Lemma source2_ext_2 : forall {E : Env} lf (x y z : f32) (n : Z),
  geo_run lf "f32::asin" [VF x] = (r <- ext_run lf (X_asin x) ;; Ok (VF r)).
Proof. go. Qed.
Lemma source2_ext_3 : forall {E : Env} lf (x y z : f32) (n : Z),
  geo_run lf "f32::atan" [VF x] = (r <- ext_run lf (X_atan x) ;; Ok (VF r)).
Proof. go. Qed.
Lemma source2_ext_4 : forall {E : Env} lf (x y z : f32) (n : Z),
  geo_run lf "f32::atan_norm" [VF x] = (r <- ext_run lf (X_atan_norm x) ;; Ok (VF r)).
Proof. go. Qed.
Lemma source2_ext_5 : forall {E : Env} lf (x y z : f32) (n : Z),
  geo_run lf "f32::ceil" [VF x] = (r <- ext_run lf (X_ceil x) ;; Ok (VF r)).
Proof. go. Qed.
Lemma source2_ext_6 : forall {E : Env} lf (x y z : f32) (n : Z),
  geo_run lf "f32::cos" [VF x] = (r <- ext_run lf (X_cos x) ;; Ok (VF r)).
Proof. go. Qed.
Lemma source2_ext_7 : forall {E : Env} lf (x y z : f32) (n : Z),
  geo_run lf "f32::exp" [VF x] = (r <- ext_run lf (X_exp x) ;; Ok (VF r)).
Proof. go. Qed.
Lemma source2_ext_8 : forall {E : Env} lf (x y z : f32) (n : Z),
  geo_run lf "f32::floor" [VF x] = (r <- ext_run lf (X_floor x) ;; Ok (VF r)).
Proof. go. Qed.
Lemma source2_ext_9 : forall {E : Env} lf (x y z : f32) (n : Z),
  geo_run lf "f32::fract" [VF x] = (r <- ext_run lf (X_fract x) ;; Ok (VF r)).
Proof. go. Qed.
Lemma source2_ext_10 : forall {E : Env} lf (x y z : f32) (n : Z),
  geo_run lf "f32::inv" [VF x] = (r <- ext_run lf (X_inv x) ;; Ok (VF r)).
Proof. go. Qed.
Lemma source2_ext_11 : forall {E : Env} lf (x y z : f32) (n : Z),
  geo_run lf "f32::invsqrt" [VF x] = (r <- ext_run lf (X_invsqrt x) ;; Ok (VF r)).
Proof. go. Qed.
Lemma source2_ext_12 : forall {E : Env} lf (x y z : f32) (n : Z),
  geo_run lf "f32::ln" [VF x] = (r <- ext_run lf (X_ln x) ;; Ok (VF r)).
Proof. go. Qed.
Lemma source2_ext_13 : forall {E : Env} lf (x y z : f32) (n : Z),
  geo_run lf "f32::log2" [VF x] = (r <- ext_run lf (X_log2 x) ;; Ok (VF r)).
Proof. go. Qed.
Lemma source2_ext_14 : forall {E : Env} lf (x y z : f32) (n : Z),
  geo_run lf "f32::log10" [VF x] = (r <- ext_run lf (X_log10 x) ;; Ok (VF r)).
Proof. go. Qed.
Lemma source2_ext_15 : forall {E : Env} lf (x y z : f32) (n : Z),
  geo_run lf "f32::recip" [VF x] = (r <- ext_run lf (X_recip x) ;; Ok (VF r)).
Proof. go. Qed.
Lemma source2_ext_16 : forall {E : Env} lf (x y z : f32) (n : Z),
  geo_run lf "f32::round" [VF x] = (r <- ext_run lf (X_round x) ;; Ok (VF r)).
Proof. go. Qed.
Lemma source2_ext_17 : forall {E : Env} lf (x y z : f32) (n : Z),
  geo_run lf "f32::signum" [VF x] = (r <- ext_run lf (X_signum x) ;; Ok (VF r)).
Proof. go. Qed.
Lemma source2_ext_18 : forall {E : Env} lf (x y z : f32) (n : Z),
  geo_run lf "f32::sin" [VF x] = (r <- ext_run lf (X_sin x) ;; Ok (VF r)).
Proof. go. Qed.
Lemma source2_ext_19 : forall {E : Env} lf (x y z : f32) (n : Z),
  geo_run lf "f32::sqrt" [VF x] = (r <- ext_run lf (X_sqrt x) ;; Ok (VF r)).
Proof. go. Qed.
Lemma source2_ext_20 : forall {E : Env} lf (x y z : f32) (n : Z),
  geo_run lf "f32::tan" [VF x] = (r <- ext_run lf (X_tan x) ;; Ok (VF r)).
Proof. go. Qed.
Lemma source2_ext_21 : forall {E : Env} lf (x y z : f32) (n : Z),
  geo_run lf "f32::trunc" [VF x] = (r <- ext_run lf (X_trunc x) ;; Ok (VF r)).
Proof. go. Qed.
Lemma source2_ext_22 : forall {E : Env} lf (x y z : f32) (n : Z),
  geo_run lf "f32::atan2" [VF x; VF y] = (r <- ext_run lf (X_atan2 x y) ;; Ok (VF r)).
Proof. go. Qed.
Lemma source2_ext_23 : forall {E : Env} lf (x y z : f32) (n : Z),
  geo_run lf "f32::atan2_norm" [VF x; VF y] = (r <- ext_run lf (X_atan2_norm x y) ;; Ok (VF r)).
Proof. go. Qed.
Lemma source2_ext_24 : forall {E : Env} lf (x y z : f32) (n : Z),
  geo_run lf "f32::copysign" [VF x; VF y] = (r <- ext_run lf (X_copysign x y) ;; Ok (VF r)).
Proof. go. Qed.
Lemma source2_ext_25 : forall {E : Env} lf (x y z : f32) (n : Z),
  geo_run lf "f32::div_euclid" [VF x; VF y] = (r <- ext_run lf (X_div_euclid x y) ;; Ok (VF r)).
Proof. go. Qed.
Lemma source2_ext_26 : forall {E : Env} lf (x y z : f32) (n : Z),
  geo_run lf "f32::hypot" [VF x; VF y] = (r <- ext_run lf (X_hypot x y) ;; Ok (VF r)).
Proof. go. Qed.
Lemma source2_ext_27 : forall {E : Env} lf (x y z : f32) (n : Z),
  geo_run lf "f32::log" [VF x; VF y] = (r <- ext_run lf (X_log x y) ;; Ok (VF r)).
Proof. go. Qed.
Lemma source2_ext_28 : forall {E : Env} lf (x y z : f32) (n : Z),
  geo_run lf "f32::powf" [VF x; VF y] = (r <- ext_run lf (X_powf x y) ;; Ok (VF r)).
Proof. go. Qed.
Lemma source2_ext_29 : forall {E : Env} lf (x y z : f32) (n : Z),
  geo_run lf "f32::rem_euclid" [VF x; VF y] = (r <- ext_run lf (X_rem_euclid x y) ;; Ok (VF r)).
Proof. go. Qed.
Lemma source2_ext_30 : forall {E : Env} lf (x y z : f32) (n : Z),
  geo_run lf "f32::mul_add" [VF x; VF y; VF z] = (r <- ext_run lf (X_mul_add x y z) ;; Ok (VF r)).
Proof. go. Qed.
Lemma source2_ext_31 : forall {E : Env} lf (x y z : f32) (n : Z),
  geo_run lf "f32::powi" [VF x; VI I32 n] = (r <- ext_run lf (X_powi x n) ;; Ok (VF r)).
Proof. go. Qed.
Lemma source2_ext_32 : forall {E : Env} lf (x y z : f32) (n : Z),
  geo_run lf "f32::sin_cos" [VF x] = Ok (VT [VF (fst (ext_sin_cos x)); VF (snd (ext_sin_cos x))]).
Proof. go. Qed.
(** src/f32ext.rs. *)
Lemma source2_ext : forall {E : Env} lf (x y z : f32) (n : Z),
  geo_run lf "f32::abs" [VF x] = (r <- ext_run lf (X_abs x) ;; Ok (VF r)) /\
  geo_run lf "f32::acos" [VF x] = (r <- ext_run lf (X_acos x) ;; Ok (VF r)) /\
  geo_run lf "f32::asin" [VF x] = (r <- ext_run lf (X_asin x) ;; Ok (VF r)) /\
  geo_run lf "f32::atan" [VF x] = (r <- ext_run lf (X_atan x) ;; Ok (VF r)) /\
  geo_run lf "f32::atan_norm" [VF x] = (r <- ext_run lf (X_atan_norm x) ;; Ok (VF r)) /\
  geo_run lf "f32::ceil" [VF x] = (r <- ext_run lf (X_ceil x) ;; Ok (VF r)) /\
  geo_run lf "f32::cos" [VF x] = (r <- ext_run lf (X_cos x) ;; Ok (VF r)) /\
  geo_run lf "f32::exp" [VF x] = (r <- ext_run lf (X_exp x) ;; Ok (VF r)) /\
  geo_run lf "f32::floor" [VF x] = (r <- ext_run lf (X_floor x) ;; Ok (VF r)) /\
  geo_run lf "f32::fract" [VF x] = (r <- ext_run lf (X_fract x) ;; Ok (VF r)) /\
  geo_run lf "f32::inv" [VF x] = (r <- ext_run lf (X_inv x) ;; Ok (VF r)) /\
  geo_run lf "f32::invsqrt" [VF x] = (r <- ext_run lf (X_invsqrt x) ;; Ok (VF r)) /\
  geo_run lf "f32::ln" [VF x] = (r <- ext_run lf (X_ln x) ;; Ok (VF r)) /\
  geo_run lf "f32::log2" [VF x] = (r <- ext_run lf (X_log2 x) ;; Ok (VF r)) /\
  geo_run lf "f32::log10" [VF x] = (r <- ext_run lf (X_log10 x) ;; Ok (VF r)) /\
  geo_run lf "f32::recip" [VF x] = (r <- ext_run lf (X_recip x) ;; Ok (VF r)) /\
  geo_run lf "f32::round" [VF x] = (r <- ext_run lf (X_round x) ;; Ok (VF r)) /\
  geo_run lf "f32::signum" [VF x] = (r <- ext_run lf (X_signum x) ;; Ok (VF r)) /\
  geo_run lf "f32::sin" [VF x] = (r <- ext_run lf (X_sin x) ;; Ok (VF r)) /\
  geo_run lf "f32::sqrt" [VF x] = (r <- ext_run lf (X_sqrt x) ;; Ok (VF r)) /\
  geo_run lf "f32::tan" [VF x] = (r <- ext_run lf (X_tan x) ;; Ok (VF r)) /\
  geo_run lf "f32::trunc" [VF x] = (r <- ext_run lf (X_trunc x) ;; Ok (VF r)) /\
  geo_run lf "f32::atan2" [VF x; VF y] = (r <- ext_run lf (X_atan2 x y) ;; Ok (VF r)) /\
  geo_run lf "f32::atan2_norm" [VF x; VF y] = (r <- ext_run lf (X_atan2_norm x y) ;; Ok (VF r)) /\
  geo_run lf "f32::copysign" [VF x; VF y] = (r <- ext_run lf (X_copysign x y) ;; Ok (VF r)) /\
  geo_run lf "f32::div_euclid" [VF x; VF y] = (r <- ext_run lf (X_div_euclid x y) ;; Ok (VF r)) /\
  geo_run lf "f32::hypot" [VF x; VF y] = (r <- ext_run lf (X_hypot x y) ;; Ok (VF r)) /\
  geo_run lf "f32::log" [VF x; VF y] = (r <- ext_run lf (X_log x y) ;; Ok (VF r)) /\
  geo_run lf "f32::powf" [VF x; VF y] = (r <- ext_run lf (X_powf x y) ;; Ok (VF r)) /\
  geo_run lf "f32::rem_euclid" [VF x; VF y] = (r <- ext_run lf (X_rem_euclid x y) ;; Ok (VF r)) /\
  geo_run lf "f32::mul_add" [VF x; VF y; VF z] = (r <- ext_run lf (X_mul_add x y z) ;; Ok (VF r)) /\
  geo_run lf "f32::powi" [VF x; VI I32 n] = (r <- ext_run lf (X_powi x n) ;; Ok (VF r)) /\
  geo_run lf "f32::sin_cos" [VF x] = Ok (VT [VF (fst (ext_sin_cos x)); VF (snd (ext_sin_cos x))]).
Proof.
  intros. repeat apply conj.
  - exact (source2_ext_0 lf x y z n).
  - exact (source2_ext_1 lf x y z n).
  - exact (source2_ext_2 lf x y z n).
  - exact (source2_ext_3 lf x y z n).
  - exact (source2_ext_4 lf x y z n).
  - exact (source2_ext_5 lf x y z n).
  - exact (source2_ext_6 lf x y z n).
  - exact (source2_ext_7 lf x y z n).
  - exact (source2_ext_8 lf x y z n).
  - exact (source2_ext_9 lf x y z n).
  - exact (source2_ext_10 lf x y z n).
  - exact (source2_ext_11 lf x y z n).
  - exact (source2_ext_12 lf x y z n).
  - exact (source2_ext_13 lf x y z n).
  - exact (source2_ext_14 lf x y z n).
  - exact (source2_ext_15 lf x y z n).
  - exact (source2_ext_16 lf x y z n).
  - exact (source2_ext_17 lf x y z n).
  - exact (source2_ext_18 lf x y z n).
  - exact (source2_ext_19 lf x y z n).
  - exact (source2_ext_20 lf x y z n).
  - exact (source2_ext_21 lf x y z n).
  - exact (source2_ext_22 lf x y z n).
  - exact (source2_ext_23 lf x y z n).
  - exact (source2_ext_24 lf x y z n).
  - exact (source2_ext_25 lf x y z n).
  - exact (source2_ext_26 lf x y z n).
  - exact (source2_ext_27 lf x y z n).
  - exact (source2_ext_28 lf x y z n).
  - exact (source2_ext_29 lf x y z n).
  - exact (source2_ext_30 lf x y z n).
  - exact (source2_ext_31 lf x y z n).
  - exact (source2_ext_32 lf x y z n).
Qed.

Lemma source2_vector2d_0 : forall {E : Env} lf (k : ckind) (v w : Vector2d (cty k)) (a b c : cty k) (i : Z)
    (l : list (cty k)) (vl : list (Vector2d (cty k))),
  geo_run lf "Vector2d::default" [cval k c] = Ok (V2 k v2_default).
Proof. goc. Qed.
Lemma source2_vector2d_1 : forall {E : Env} lf (k : ckind) (v w : Vector2d (cty k)) (a b c : cty k) (i : Z)
    (l : list (cty k)) (vl : list (Vector2d (cty k))),
  geo_run lf "PartialEq<Vector2d>forVector2d::eq" [V2 k v; V2 k w] = Ok (VB (v2_eq (ceq k) v w)).
Proof. goc. Qed.
Lemma source2_vector2d_2 : forall {E : Env} lf (k : ckind) (v w : Vector2d (cty k)) (a b c : cty k) (i : Z)
    (l : list (cty k)) (vl : list (Vector2d (cty k))),
  geo_run lf "Vector2d::AXES" [] = Ok (VI Usize (vt_axes (V := Vector2d (cty k)))).
Proof. goc. Qed.
Lemma source2_vector2d_3 : forall {E : Env} lf (k : ckind) (v w : Vector2d (cty k)) (a b c : cty k) (i : Z)
    (l : list (cty k)) (vl : list (Vector2d (cty k))),
  geo_run lf "Vector2d::to_array" [V2 k v] = Ok (VA (cval k (v2x v)) (map (cval k) (v2_to_array v))).
Proof. goc. Qed.
Lemma source2_vector2d_4 : forall {E : Env} lf (k : ckind) (v w : Vector2d (cty k)) (a b c : cty k) (i : Z)
    (l : list (cty k)) (vl : list (Vector2d (cty k))),
  geo_run lf "From<Vector2d>for[C;]::from" [V2 k v] = Ok (VA (cval k (v2x v)) (map (cval k) (v2_to_array v))).
Proof. goc. Qed.
Lemma source2_vector2d_5 : forall {E : Env} lf (k : ckind) (v w : Vector2d (cty k)) (a b c : cty k) (i : Z)
    (l : list (cty k)) (vl : list (Vector2d (cty k))),
  geo_run lf "From<[C;]>forVector2d::from" [VA (cval k c) [cval k a; cval k b]] = Ok (V2 k (v2_of_array a b)).
Proof. goc. Qed.
Lemma source2_vector2d_6 : forall {E : Env} lf (k : ckind) (v w : Vector2d (cty k)) (a b c : cty k) (i : Z)
    (l : list (cty k)) (vl : list (Vector2d (cty k))),
  geo_run lf "From<(C,C)>forVector2d::from" [VT [cval k a; cval k b]] = Ok (V2 k (v2_of_tuple (a, b))).
Proof. goc. Qed.
Lemma source2_vector2d_7 : forall {E : Env} lf (k : ckind) (v w : Vector2d (cty k)) (a b c : cty k) (i : Z)
    (l : list (cty k)) (vl : list (Vector2d (cty k))),
  geo_run lf "From<Vector2d>for(C,C)::from" [V2 k v] = Ok (VT [cval k (v2x v); cval k (v2y v)]).
Proof. goc. Qed.
Lemma source2_vector2d_8 : forall {E : Env} lf (k : ckind) (v w : Vector2d (cty k)) (a b c : cty k) (i : Z)
    (l : list (cty k)) (vl : list (Vector2d (cty k))),
  geo_run lf "Vector2d::get" [V2 k v; VI Usize i] = Ok (VO (option_map (cval k) (v2_get v i))).
Proof. goc. Qed.
Lemma source2_vector2d_9 : forall {E : Env} lf (k : ckind) (v w : Vector2d (cty k)) (a b c : cty k) (i : Z)
    (l : list (cty k)) (vl : list (Vector2d (cty k))),
  geo_run lf "Index<#>forVector2d::index" [V2 k v; VI Usize i] = (r <- v2_index v i ;; Ok (cval k r)).
Proof. goc. Qed.
Lemma source2_vector2d_10 : forall {E : Env} lf (k : ckind) (v w : Vector2d (cty k)) (a b c : cty k) (i : Z)
    (l : list (cty k)) (vl : list (Vector2d (cty k))),
  geo_run lf "Vector2d::from_iter" [VA (cval k c) (map (cval k) l)] = (r <- v2_from_iter l ;; Ok (V2 k r)).
Proof. intros; rewrite geo_link; destruct l as [|? l]; [gok|]; destruct l as [|? l]; [gok|]; destruct l as [|? l]; [gok|]; gok. Qed.
Lemma source2_vector2d_11 : forall {E : Env} lf (k : ckind) (v w : Vector2d (cty k)) (a b c : cty k) (i : Z)
    (l : list (cty k)) (vl : list (Vector2d (cty k))),
  geo_run lf "Vector2d::from_slice" [VA (cval k c) (map (cval k) l)] = (r <- vt_from_slice (V := Vector2d (cty k)) l ;; Ok (V2 k r)).
Proof. intros; rewrite geo_link; destruct l as [|? l]; [gok|]; destruct l as [|? l]; [gok|]; destruct l as [|? l]; [gok|]; gok. Qed.
Lemma source2_vector2d_12 : forall {E : Env} lf (k : ckind) (v w : Vector2d (cty k)) (a b c : cty k) (i : Z)
    (l : list (cty k)) (vl : list (Vector2d (cty k))),
  geo_run lf "Vector2d::dot" [V2 k v; V2 k w] = (r <- v2_dot v w ;; Ok (cval k r)).
Proof. goc. Qed.
Lemma source2_vector2d_13 : forall {E : Env} lf (k : ckind) (v w : Vector2d (cty k)) (a b c : cty k) (i : Z)
    (l : list (cty k)) (vl : list (Vector2d (cty k))),
  geo_run lf "Add<Vector2d>forVector2d::add" [V2 k v; V2 k w] = (r <- v2_add v w ;; Ok (V2 k r)).
Proof. goc. Qed.
Lemma source2_vector2d_14 : forall {E : Env} lf (k : ckind) (v w : Vector2d (cty k)) (a b c : cty k) (i : Z)
    (l : list (cty k)) (vl : list (Vector2d (cty k))),
  geo_run lf "AddAssignforVector2d::add_assign" [V2 k v; V2 k w] = (r <- v2_add_assign v w ;; Ok (V2 k r)).
Proof. goc. Qed.
Lemma source2_vector2d_15 : forall {E : Env} lf (k : ckind) (v w : Vector2d (cty k)) (a b c : cty k) (i : Z)
    (l : list (cty k)) (vl : list (Vector2d (cty k))),
  geo_run lf "Sub<Vector2d>forVector2d::sub" [V2 k v; V2 k w] = (r <- v2_sub v w ;; Ok (V2 k r)).
Proof. goc. Qed.
Lemma source2_vector2d_16 : forall {E : Env} lf (k : ckind) (v w : Vector2d (cty k)) (a b c : cty k) (i : Z)
    (l : list (cty k)) (vl : list (Vector2d (cty k))),
  geo_run lf "SubAssignforVector2d::sub_assign" [V2 k v; V2 k w] = (r <- v2_sub_assign v w ;; Ok (V2 k r)).
Proof. goc. Qed.
Lemma source2_vector2d_17 : forall {E : Env} lf (k : ckind) (v w : Vector2d (cty k)) (a b c : cty k) (i : Z)
    (l : list (cty k)) (vl : list (Vector2d (cty k))),
  geo_run lf "Mul<#>forVector2d::mul" [V2 k v; cval k c] = (r <- v2_scale v c ;; Ok (V2 k r)).
Proof. goc. Qed.
Lemma source2_vector2d_18 : forall {E : Env} lf (k : ckind) (v w : Vector2d (cty k)) (a b c : cty k) (i : Z)
    (l : list (cty k)) (vl : list (Vector2d (cty k))),
  geo_run lf "MulAssign<#>forVector2d::mul_assign" [V2 k v; cval k c] = (r <- v2_mul_assign v c ;; Ok (V2 k r)).
Proof. goc. Qed.
Lemma source2_vector2d_19 : forall {E : Env} lf (k : ckind) (v w : Vector2d (cty k)) (a b c : cty k) (i : Z)
    (l : list (cty k)) (vl : list (Vector2d (cty k))),
  geo_run lf "Div<#>forVector2d::div" [V2 k v; cval k c] = (r <- v2_div v c ;; Ok (V2 k r)).
Proof. goc. Qed.
Lemma source2_vector2d_20 : forall {E : Env} lf (k : ckind) (v w : Vector2d (cty k)) (a b c : cty k) (i : Z)
    (l : list (cty k)) (vl : list (Vector2d (cty k))),
  geo_run lf "DivAssign<#>forVector2d::div_assign" [V2 k v; cval k c] = (r <- v2_div_assign v c ;; Ok (V2 k r)).
Proof. goc. Qed.
Lemma source2_vector2d_21 : forall {E : Env} lf (k : ckind) (v w : Vector2d (cty k)) (a b c : cty k) (i : Z)
    (l : list (cty k)) (vl : list (Vector2d (cty k))),
  geo_run lf "Sum<Vector2d>forVector2d::sum" [VA (V2 k v) (map (V2 k) vl)] = (r <- v2_sum vl ;; Ok (V2 k r)).
Proof. intros; rewrite geo_link; apply sum2_run; cbn; auto. Qed.
Lemma source2_vector2d_22 : forall {E : Env} lf (k : ckind) (v w : Vector2d (cty k)) (a b c : cty k) (i : Z)
    (l : list (cty k)) (vl : list (Vector2d (cty k))),
  geo_run lf "Sum<&Vector2d>forVector2d::sum" [VA (V2 k v) (map (V2 k) vl)] = (r <- v2_sum vl ;; Ok (V2 k r)).
Proof. intros; rewrite geo_link; apply sum2_run; cbn; auto. Qed.
Lemma source2_vector2d_23 : forall {E : Env} lf (k : ckind) (v w : Vector2d (cty k)) (a b c : cty k) (i : Z)
    (l : list (cty k)) (vl : list (Vector2d (cty k))),
  geo_run lf "Vector2d::iter" [V2 k v] = Ok (VIter (V2 k v) 0).
Proof. goc. Qed.
Lemma source2_vector2d_24 : forall {E : Env} lf (k : ckind) (v w : Vector2d (cty k)) (a b c : cty k) (i : Z)
    (l : list (cty k)) (vl : list (Vector2d (cty k))),
  geo_run lf "Iter::new" [V2 k v] = Ok (VIter (V2 k v) 0).
Proof. goc. Qed.
Lemma source2_vector2d_25 : forall {E : Env} lf (k : ckind) (v w : Vector2d (cty k)) (a b c : cty k) (i : Z)
    (l : list (cty k)) (vl : list (Vector2d (cty k))),
  geo_run lf "Iter::next" [VIter (V2 k v) i] = Ok (pack (VO (option_map (cval k) (fst (iter_next (mkIter v i)))))
    (VIter (V2 k v) (it_position (snd (iter_next (mkIter v i)))))).
Proof. intros; destruct i as [|[p|[p|p|]|]|p]; rewrite geo_link; gok. Qed.
Lemma source2_vector2d_26 : forall {E : Env} lf (k : ckind) (v w : Vector2d (cty k)) (a b c : cty k) (i : Z)
    (l : list (cty k)) (vl : list (Vector2d (cty k))),
  has_into k = true ->
    geo_run lf "Vector2d::distance" [V2 k v; V2 k w] = (r <- vt_distance (cinto k) v w ;; Ok (VF r)).
Proof. goc. Qed.
Lemma source2_vector2d_27 : forall {E : Env} lf (k : ckind) (v w : Vector2d (cty k)) (a b c : cty k) (i : Z)
    (l : list (cty k)) (vl : list (Vector2d (cty k))),
  geo_run lf "Vector2d::magnitude_sq" [V2 k v] = (r <- vt_magnitude_sq v ;; Ok (cval k r)).
Proof. goc. Qed.
Lemma source2_vector2d_28 : forall {E : Env} lf (k : ckind) (v w : Vector2d (cty k)) (a b c : cty k) (i : Z)
    (l : list (cty k)) (vl : list (Vector2d (cty k))),
  has_into k = true ->
    geo_run lf "Vector2d::magnitude" [V2 k v] = (r <- vt_magnitude (cinto k) v ;; Ok (VF r)).
Proof. goc. Qed.
Lemma source2_vector2d_29 : forall {E : Env} lf (k : ckind) (v w : Vector2d (cty k)) (a b c : cty k) (i : Z)
    (l : list (cty k)) (vl : list (Vector2d (cty k))),
  geo_run lf ("Mul<Vector2d>for" ++ cname k ++ "::mul") [cval k c; V2 k v] = (r <- v2_scale_left c v ;; Ok (V2 k r)).
Proof. goc. Qed.
Lemma source2_vector2d_30 : forall {E : Env} lf (k : ckind) (v w : Vector2d (cty k)) (a b c : cty k) (i : Z)
    (l : list (cty k)) (vl : list (Vector2d (cty k))),
  geo_run lf "From<Vector2d>forVector3d::from" [V2 k v] = Ok (V3 k (v3_of_v2 v)).
Proof. goc. Qed.
Lemma source2_vector2d_31 : forall {E : Env} lf (k : ckind) (v w : Vector2d (cty k)) (a b c : cty k) (i : Z)
    (l : list (cty k)) (vl : list (Vector2d (cty k))),
  geo_run lf "Vector2d::perpendicular_dot" [V2 k v; V2 k w] = (r <- v2_perpendicular_dot v w ;; Ok (cval k r)).
Proof. goc. Qed.
Lemma source2_vector2d_32 : forall {E : Env} lf (k : ckind) (v w : Vector2d (cty k)) (a b c : cty k) (i : Z)
    (l : list (cty k)) (vl : list (Vector2d (cty k))),
  geo_run lf "Vector2d::cross" [V2 k v; V2 k w] = (r <- v2_cross v w ;; Ok (V3 k r)).
Proof. goc. Qed.
Lemma source2_vector2d_33 : forall {E : Env} lf (k : ckind) (v w : Vector2d (cty k)) (a b c : cty k) (i : Z)
    (l : list (cty k)) (vl : list (Vector2d (cty k))),
  geo_run lf "Mul<Vector2d>forVector2d::mul" [V2 k v; V2 k w] = (r <- v2_mul v w ;; Ok (V3 k r)).
Proof. goc. Qed.
(** src/vector/vector2d.rs, vector.rs and iter.rs, two axes. *)
Lemma source2_vector2d : forall {E : Env} lf (k : ckind) (v w : Vector2d (cty k)) (a b c : cty k) (i : Z)
    (l : list (cty k)) (vl : list (Vector2d (cty k))),
  geo_run lf "Vector2d::default" [cval k c] = Ok (V2 k v2_default) /\
  geo_run lf "PartialEq<Vector2d>forVector2d::eq" [V2 k v; V2 k w] = Ok (VB (v2_eq (ceq k) v w)) /\
  geo_run lf "Vector2d::AXES" [] = Ok (VI Usize (vt_axes (V := Vector2d (cty k)))) /\
  geo_run lf "Vector2d::to_array" [V2 k v] = Ok (VA (cval k (v2x v)) (map (cval k) (v2_to_array v))) /\
  geo_run lf "From<Vector2d>for[C;]::from" [V2 k v] = Ok (VA (cval k (v2x v)) (map (cval k) (v2_to_array v))) /\
  geo_run lf "From<[C;]>forVector2d::from" [VA (cval k c) [cval k a; cval k b]] = Ok (V2 k (v2_of_array a b)) /\
  geo_run lf "From<(C,C)>forVector2d::from" [VT [cval k a; cval k b]] = Ok (V2 k (v2_of_tuple (a, b))) /\
  geo_run lf "From<Vector2d>for(C,C)::from" [V2 k v] = Ok (VT [cval k (v2x v); cval k (v2y v)]) /\
  geo_run lf "Vector2d::get" [V2 k v; VI Usize i] = Ok (VO (option_map (cval k) (v2_get v i))) /\
  geo_run lf "Index<#>forVector2d::index" [V2 k v; VI Usize i] = (r <- v2_index v i ;; Ok (cval k r)) /\
  geo_run lf "Vector2d::from_iter" [VA (cval k c) (map (cval k) l)] = (r <- v2_from_iter l ;; Ok (V2 k r)) /\
  geo_run lf "Vector2d::from_slice" [VA (cval k c) (map (cval k) l)] = (r <- vt_from_slice (V := Vector2d (cty k)) l ;; Ok (V2 k r)) /\
  geo_run lf "Vector2d::dot" [V2 k v; V2 k w] = (r <- v2_dot v w ;; Ok (cval k r)) /\
  geo_run lf "Add<Vector2d>forVector2d::add" [V2 k v; V2 k w] = (r <- v2_add v w ;; Ok (V2 k r)) /\
  geo_run lf "AddAssignforVector2d::add_assign" [V2 k v; V2 k w] = (r <- v2_add_assign v w ;; Ok (V2 k r)) /\
  geo_run lf "Sub<Vector2d>forVector2d::sub" [V2 k v; V2 k w] = (r <- v2_sub v w ;; Ok (V2 k r)) /\
  geo_run lf "SubAssignforVector2d::sub_assign" [V2 k v; V2 k w] = (r <- v2_sub_assign v w ;; Ok (V2 k r)) /\
  geo_run lf "Mul<#>forVector2d::mul" [V2 k v; cval k c] = (r <- v2_scale v c ;; Ok (V2 k r)) /\
  geo_run lf "MulAssign<#>forVector2d::mul_assign" [V2 k v; cval k c] = (r <- v2_mul_assign v c ;; Ok (V2 k r)) /\
  geo_run lf "Div<#>forVector2d::div" [V2 k v; cval k c] = (r <- v2_div v c ;; Ok (V2 k r)) /\
  geo_run lf "DivAssign<#>forVector2d::div_assign" [V2 k v; cval k c] = (r <- v2_div_assign v c ;; Ok (V2 k r)) /\
  geo_run lf "Sum<Vector2d>forVector2d::sum" [VA (V2 k v) (map (V2 k) vl)] = (r <- v2_sum vl ;; Ok (V2 k r)) /\
  geo_run lf "Sum<&Vector2d>forVector2d::sum" [VA (V2 k v) (map (V2 k) vl)] = (r <- v2_sum vl ;; Ok (V2 k r)) /\
  geo_run lf "Vector2d::iter" [V2 k v] = Ok (VIter (V2 k v) 0) /\
  geo_run lf "Iter::new" [V2 k v] = Ok (VIter (V2 k v) 0) /\
  geo_run lf "Iter::next" [VIter (V2 k v) i] = Ok (pack (VO (option_map (cval k) (fst (iter_next (mkIter v i)))))
    (VIter (V2 k v) (it_position (snd (iter_next (mkIter v i)))))) /\
  (has_into k = true ->
    geo_run lf "Vector2d::distance" [V2 k v; V2 k w] = (r <- vt_distance (cinto k) v w ;; Ok (VF r))) /\
  geo_run lf "Vector2d::magnitude_sq" [V2 k v] = (r <- vt_magnitude_sq v ;; Ok (cval k r)) /\
  (has_into k = true ->
    geo_run lf "Vector2d::magnitude" [V2 k v] = (r <- vt_magnitude (cinto k) v ;; Ok (VF r))) /\
  geo_run lf ("Mul<Vector2d>for" ++ cname k ++ "::mul") [cval k c; V2 k v] = (r <- v2_scale_left c v ;; Ok (V2 k r)) /\
  geo_run lf "From<Vector2d>forVector3d::from" [V2 k v] = Ok (V3 k (v3_of_v2 v)) /\
  geo_run lf "Vector2d::perpendicular_dot" [V2 k v; V2 k w] = (r <- v2_perpendicular_dot v w ;; Ok (cval k r)) /\
  geo_run lf "Vector2d::cross" [V2 k v; V2 k w] = (r <- v2_cross v w ;; Ok (V3 k r)) /\
  geo_run lf "Mul<Vector2d>forVector2d::mul" [V2 k v; V2 k w] = (r <- v2_mul v w ;; Ok (V3 k r)).
Proof.
  intros. repeat apply conj.
  - exact (source2_vector2d_0 lf k v w a b c i l vl).
  - exact (source2_vector2d_1 lf k v w a b c i l vl).
  - exact (source2_vector2d_2 lf k v w a b c i l vl).
  - exact (source2_vector2d_3 lf k v w a b c i l vl).
  - exact (source2_vector2d_4 lf k v w a b c i l vl).
  - exact (source2_vector2d_5 lf k v w a b c i l vl).
  - exact (source2_vector2d_6 lf k v w a b c i l vl).
  - exact (source2_vector2d_7 lf k v w a b c i l vl).
  - exact (source2_vector2d_8 lf k v w a b c i l vl).
  - exact (source2_vector2d_9 lf k v w a b c i l vl).
  - exact (source2_vector2d_10 lf k v w a b c i l vl).
  - exact (source2_vector2d_11 lf k v w a b c i l vl).
  - exact (source2_vector2d_12 lf k v w a b c i l vl).
  - exact (source2_vector2d_13 lf k v w a b c i l vl).
  - exact (source2_vector2d_14 lf k v w a b c i l vl).
  - exact (source2_vector2d_15 lf k v w a b c i l vl).
  - exact (source2_vector2d_16 lf k v w a b c i l vl).
  - exact (source2_vector2d_17 lf k v w a b c i l vl).
  - exact (source2_vector2d_18 lf k v w a b c i l vl).
  - exact (source2_vector2d_19 lf k v w a b c i l vl).
  - exact (source2_vector2d_20 lf k v w a b c i l vl).
  - exact (source2_vector2d_21 lf k v w a b c i l vl).
  - exact (source2_vector2d_22 lf k v w a b c i l vl).
  - exact (source2_vector2d_23 lf k v w a b c i l vl).
  - exact (source2_vector2d_24 lf k v w a b c i l vl).
  - exact (source2_vector2d_25 lf k v w a b c i l vl).
  - exact (source2_vector2d_26 lf k v w a b c i l vl).
  - exact (source2_vector2d_27 lf k v w a b c i l vl).
  - exact (source2_vector2d_28 lf k v w a b c i l vl).
  - exact (source2_vector2d_29 lf k v w a b c i l vl).
  - exact (source2_vector2d_30 lf k v w a b c i l vl).
  - exact (source2_vector2d_31 lf k v w a b c i l vl).
  - exact (source2_vector2d_32 lf k v w a b c i l vl).
  - exact (source2_vector2d_33 lf k v w a b c i l vl).
Qed.

Lemma source2_vector3d_0 : forall {E : Env} lf (k : ckind) (v w : Vector3d (cty k)) (a b c : cty k) (i : Z)
    (l : list (cty k)) (vl : list (Vector3d (cty k))),
  geo_run lf "Vector3d::default" [cval k c] = Ok (V3 k v3_default).
Proof. goc. Qed.
Lemma source2_vector3d_1 : forall {E : Env} lf (k : ckind) (v w : Vector3d (cty k)) (a b c : cty k) (i : Z)
    (l : list (cty k)) (vl : list (Vector3d (cty k))),
  geo_run lf "PartialEq<Vector3d>forVector3d::eq" [V3 k v; V3 k w] = Ok (VB (v3_eq (ceq k) v w)).
Proof. goc. Qed.
Lemma source2_vector3d_2 : forall {E : Env} lf (k : ckind) (v w : Vector3d (cty k)) (a b c : cty k) (i : Z)
    (l : list (cty k)) (vl : list (Vector3d (cty k))),
  geo_run lf "Vector3d::AXES" [] = Ok (VI Usize (vt_axes (V := Vector3d (cty k)))).
Proof. goc. Qed.
Lemma source2_vector3d_3 : forall {E : Env} lf (k : ckind) (v w : Vector3d (cty k)) (a b c : cty k) (i : Z)
    (l : list (cty k)) (vl : list (Vector3d (cty k))),
  geo_run lf "Vector3d::to_array" [V3 k v] = Ok (VA (cval k (v3x v)) (map (cval k) (v3_to_array v))).
Proof. goc. Qed.
Lemma source2_vector3d_4 : forall {E : Env} lf (k : ckind) (v w : Vector3d (cty k)) (a b c : cty k) (i : Z)
    (l : list (cty k)) (vl : list (Vector3d (cty k))),
  geo_run lf "From<Vector3d>for[C;]::from" [V3 k v] = Ok (VA (cval k (v3x v)) (map (cval k) (v3_to_array v))).
Proof. goc. Qed.
Lemma source2_vector3d_5 : forall {E : Env} lf (k : ckind) (v w : Vector3d (cty k)) (a b c : cty k) (i : Z)
    (l : list (cty k)) (vl : list (Vector3d (cty k))),
  geo_run lf "From<[C;]>forVector3d::from" [VA (cval k c) [cval k a; cval k b; cval k c]] = Ok (V3 k (v3_of_array a b c)).
Proof. goc. Qed.
Lemma source2_vector3d_6 : forall {E : Env} lf (k : ckind) (v w : Vector3d (cty k)) (a b c : cty k) (i : Z)
    (l : list (cty k)) (vl : list (Vector3d (cty k))),
  geo_run lf "From<(C,C,C)>forVector3d::from" [VT [cval k a; cval k b; cval k c]] = Ok (V3 k (v3_of_tuple (a, b, c))).
Proof. goc. Qed.
Lemma source2_vector3d_7 : forall {E : Env} lf (k : ckind) (v w : Vector3d (cty k)) (a b c : cty k) (i : Z)
    (l : list (cty k)) (vl : list (Vector3d (cty k))),
  geo_run lf "From<Vector3d>for(C,C,C)::from" [V3 k v] = Ok (VT [cval k (v3x v); cval k (v3y v); cval k (v3z v)]).
Proof. goc. Qed.
Lemma source2_vector3d_8 : forall {E : Env} lf (k : ckind) (v w : Vector3d (cty k)) (a b c : cty k) (i : Z)
    (l : list (cty k)) (vl : list (Vector3d (cty k))),
  geo_run lf "Vector3d::get" [V3 k v; VI Usize i] = Ok (VO (option_map (cval k) (v3_get v i))).
Proof. goc. Qed.
Lemma source2_vector3d_9 : forall {E : Env} lf (k : ckind) (v w : Vector3d (cty k)) (a b c : cty k) (i : Z)
    (l : list (cty k)) (vl : list (Vector3d (cty k))),
  geo_run lf "Index<#>forVector3d::index" [V3 k v; VI Usize i] = (r <- v3_index v i ;; Ok (cval k r)).
Proof. goc. Qed.
Lemma source2_vector3d_10 : forall {E : Env} lf (k : ckind) (v w : Vector3d (cty k)) (a b c : cty k) (i : Z)
    (l : list (cty k)) (vl : list (Vector3d (cty k))),
  geo_run lf "Vector3d::from_iter" [VA (cval k c) (map (cval k) l)] = (r <- v3_from_iter l ;; Ok (V3 k r)).
Proof. intros; rewrite geo_link; destruct l as [|? l]; [gok|]; destruct l as [|? l]; [gok|]; destruct l as [|? l]; [gok|]; destruct l as [|? l]; [gok|]; gok. Qed.
Lemma source2_vector3d_11 : forall {E : Env} lf (k : ckind) (v w : Vector3d (cty k)) (a b c : cty k) (i : Z)
    (l : list (cty k)) (vl : list (Vector3d (cty k))),
  geo_run lf "Vector3d::from_slice" [VA (cval k c) (map (cval k) l)] = (r <- vt_from_slice (V := Vector3d (cty k)) l ;; Ok (V3 k r)).
Proof. intros; rewrite geo_link; destruct l as [|? l]; [gok|]; destruct l as [|? l]; [gok|]; destruct l as [|? l]; [gok|]; destruct l as [|? l]; [gok|]; gok. Qed.
Lemma source2_vector3d_12 : forall {E : Env} lf (k : ckind) (v w : Vector3d (cty k)) (a b c : cty k) (i : Z)
    (l : list (cty k)) (vl : list (Vector3d (cty k))),
  geo_run lf "Vector3d::dot" [V3 k v; V3 k w] = (r <- v3_dot v w ;; Ok (cval k r)).
Proof. goc. Qed.
Lemma source2_vector3d_13 : forall {E : Env} lf (k : ckind) (v w : Vector3d (cty k)) (a b c : cty k) (i : Z)
    (l : list (cty k)) (vl : list (Vector3d (cty k))),
  geo_run lf "Add<Vector3d>forVector3d::add" [V3 k v; V3 k w] = (r <- v3_add v w ;; Ok (V3 k r)).
Proof. goc. Qed.
Lemma source2_vector3d_14 : forall {E : Env} lf (k : ckind) (v w : Vector3d (cty k)) (a b c : cty k) (i : Z)
    (l : list (cty k)) (vl : list (Vector3d (cty k))),
  geo_run lf "AddAssignforVector3d::add_assign" [V3 k v; V3 k w] = (r <- v3_add_assign v w ;; Ok (V3 k r)).
Proof. goc. Qed.
Lemma source2_vector3d_15 : forall {E : Env} lf (k : ckind) (v w : Vector3d (cty k)) (a b c : cty k) (i : Z)
    (l : list (cty k)) (vl : list (Vector3d (cty k))),
  geo_run lf "Sub<Vector3d>forVector3d::sub" [V3 k v; V3 k w] = (r <- v3_sub v w ;; Ok (V3 k r)).
Proof. goc. Qed.
Lemma source2_vector3d_16 : forall {E : Env} lf (k : ckind) (v w : Vector3d (cty k)) (a b c : cty k) (i : Z)
    (l : list (cty k)) (vl : list (Vector3d (cty k))),
  geo_run lf "SubAssignforVector3d::sub_assign" [V3 k v; V3 k w] = (r <- v3_sub_assign v w ;; Ok (V3 k r)).
Proof. goc. Qed.
Lemma source2_vector3d_17 : forall {E : Env} lf (k : ckind) (v w : Vector3d (cty k)) (a b c : cty k) (i : Z)
    (l : list (cty k)) (vl : list (Vector3d (cty k))),
  geo_run lf "Mul<#>forVector3d::mul" [V3 k v; cval k c] = (r <- v3_scale v c ;; Ok (V3 k r)).
Proof. goc. Qed.
Lemma source2_vector3d_18 : forall {E : Env} lf (k : ckind) (v w : Vector3d (cty k)) (a b c : cty k) (i : Z)
    (l : list (cty k)) (vl : list (Vector3d (cty k))),
  geo_run lf "MulAssign<#>forVector3d::mul_assign" [V3 k v; cval k c] = (r <- v3_mul_assign v c ;; Ok (V3 k r)).
Proof. goc. Qed.
Lemma source2_vector3d_19 : forall {E : Env} lf (k : ckind) (v w : Vector3d (cty k)) (a b c : cty k) (i : Z)
    (l : list (cty k)) (vl : list (Vector3d (cty k))),
  geo_run lf "Div<#>forVector3d::div" [V3 k v; cval k c] = (r <- v3_div v c ;; Ok (V3 k r)).
Proof. goc. Qed.
Lemma source2_vector3d_20 : forall {E : Env} lf (k : ckind) (v w : Vector3d (cty k)) (a b c : cty k) (i : Z)
    (l : list (cty k)) (vl : list (Vector3d (cty k))),
  geo_run lf "DivAssign<#>forVector3d::div_assign" [V3 k v; cval k c] = (r <- v3_div_assign v c ;; Ok (V3 k r)).
Proof. goc. Qed.
Lemma source2_vector3d_21 : forall {E : Env} lf (k : ckind) (v w : Vector3d (cty k)) (a b c : cty k) (i : Z)
    (l : list (cty k)) (vl : list (Vector3d (cty k))),
  geo_run lf "Sum<Vector3d>forVector3d::sum" [VA (V3 k v) (map (V3 k) vl)] = (r <- v3_sum vl ;; Ok (V3 k r)).
Proof. intros; rewrite geo_link; apply sum3_run; cbn; auto. Qed.
Lemma source2_vector3d_22 : forall {E : Env} lf (k : ckind) (v w : Vector3d (cty k)) (a b c : cty k) (i : Z)
    (l : list (cty k)) (vl : list (Vector3d (cty k))),
  geo_run lf "Sum<&Vector3d>forVector3d::sum" [VA (V3 k v) (map (V3 k) vl)] = (r <- v3_sum vl ;; Ok (V3 k r)).
Proof. intros; rewrite geo_link; apply sum3_run; cbn; auto. Qed.
Lemma source2_vector3d_23 : forall {E : Env} lf (k : ckind) (v w : Vector3d (cty k)) (a b c : cty k) (i : Z)
    (l : list (cty k)) (vl : list (Vector3d (cty k))),
  geo_run lf "Vector3d::iter" [V3 k v] = Ok (VIter (V3 k v) 0).
Proof. goc. Qed.
Lemma source2_vector3d_24 : forall {E : Env} lf (k : ckind) (v w : Vector3d (cty k)) (a b c : cty k) (i : Z)
    (l : list (cty k)) (vl : list (Vector3d (cty k))),
  geo_run lf "Iter::new" [V3 k v] = Ok (VIter (V3 k v) 0).
Proof. goc. Qed.
Lemma source2_vector3d_25 : forall {E : Env} lf (k : ckind) (v w : Vector3d (cty k)) (a b c : cty k) (i : Z)
    (l : list (cty k)) (vl : list (Vector3d (cty k))),
  geo_run lf "Iter::next" [VIter (V3 k v) i] = Ok (pack (VO (option_map (cval k) (fst (iter_next (mkIter v i)))))
    (VIter (V3 k v) (it_position (snd (iter_next (mkIter v i)))))).
Proof. intros; destruct i as [|[p|[p|p|]|]|p]; rewrite geo_link; gok. Qed.
Lemma source2_vector3d_26 : forall {E : Env} lf (k : ckind) (v w : Vector3d (cty k)) (a b c : cty k) (i : Z)
    (l : list (cty k)) (vl : list (Vector3d (cty k))),
  has_into k = true ->
    geo_run lf "Vector3d::distance" [V3 k v; V3 k w] = (r <- vt_distance (cinto k) v w ;; Ok (VF r)).
Proof. goc. Qed.
Lemma source2_vector3d_27 : forall {E : Env} lf (k : ckind) (v w : Vector3d (cty k)) (a b c : cty k) (i : Z)
    (l : list (cty k)) (vl : list (Vector3d (cty k))),
  geo_run lf "Vector3d::magnitude_sq" [V3 k v] = (r <- vt_magnitude_sq v ;; Ok (cval k r)).
Proof. goc. Qed.
Lemma source2_vector3d_28 : forall {E : Env} lf (k : ckind) (v w : Vector3d (cty k)) (a b c : cty k) (i : Z)
    (l : list (cty k)) (vl : list (Vector3d (cty k))),
  has_into k = true ->
    geo_run lf "Vector3d::magnitude" [V3 k v] = (r <- vt_magnitude (cinto k) v ;; Ok (VF r)).
Proof. goc. Qed.
Lemma source2_vector3d_29 : forall {E : Env} lf (k : ckind) (v w : Vector3d (cty k)) (a b c : cty k) (i : Z)
    (l : list (cty k)) (vl : list (Vector3d (cty k))),
  geo_run lf ("Mul<Vector3d>for" ++ cname k ++ "::mul") [cval k c; V3 k v] = (r <- v3_scale_left c v ;; Ok (V3 k r)).
Proof. goc. Qed.
Lemma source2_vector3d_30 : forall {E : Env} lf (k : ckind) (v w : Vector3d (cty k)) (a b c : cty k) (i : Z)
    (l : list (cty k)) (vl : list (Vector3d (cty k))),
  geo_run lf "Vector3d::cross" [V3 k v; V3 k w] = (r <- v3_cross v w ;; Ok (V3 k r)).
Proof. goc. Qed.
Lemma source2_vector3d_31 : forall {E : Env} lf (k : ckind) (v w : Vector3d (cty k)) (a b c : cty k) (i : Z)
    (l : list (cty k)) (vl : list (Vector3d (cty k))),
  geo_run lf "Mul<Vector3d>forVector3d::mul" [V3 k v; V3 k w] = (r <- v3_mul v w ;; Ok (V3 k r)).
Proof. goc. Qed.
(** src/vector/vector3d.rs, vector.rs and iter.rs, three axes. *)
Lemma source2_vector3d : forall {E : Env} lf (k : ckind) (v w : Vector3d (cty k)) (a b c : cty k) (i : Z)
    (l : list (cty k)) (vl : list (Vector3d (cty k))),
  geo_run lf "Vector3d::default" [cval k c] = Ok (V3 k v3_default) /\
  geo_run lf "PartialEq<Vector3d>forVector3d::eq" [V3 k v; V3 k w] = Ok (VB (v3_eq (ceq k) v w)) /\
  geo_run lf "Vector3d::AXES" [] = Ok (VI Usize (vt_axes (V := Vector3d (cty k)))) /\
  geo_run lf "Vector3d::to_array" [V3 k v] = Ok (VA (cval k (v3x v)) (map (cval k) (v3_to_array v))) /\
  geo_run lf "From<Vector3d>for[C;]::from" [V3 k v] = Ok (VA (cval k (v3x v)) (map (cval k) (v3_to_array v))) /\
  geo_run lf "From<[C;]>forVector3d::from" [VA (cval k c) [cval k a; cval k b; cval k c]] = Ok (V3 k (v3_of_array a b c)) /\
  geo_run lf "From<(C,C,C)>forVector3d::from" [VT [cval k a; cval k b; cval k c]] = Ok (V3 k (v3_of_tuple (a, b, c))) /\
  geo_run lf "From<Vector3d>for(C,C,C)::from" [V3 k v] = Ok (VT [cval k (v3x v); cval k (v3y v); cval k (v3z v)]) /\
  geo_run lf "Vector3d::get" [V3 k v; VI Usize i] = Ok (VO (option_map (cval k) (v3_get v i))) /\
  geo_run lf "Index<#>forVector3d::index" [V3 k v; VI Usize i] = (r <- v3_index v i ;; Ok (cval k r)) /\
  geo_run lf "Vector3d::from_iter" [VA (cval k c) (map (cval k) l)] = (r <- v3_from_iter l ;; Ok (V3 k r)) /\
  geo_run lf "Vector3d::from_slice" [VA (cval k c) (map (cval k) l)] = (r <- vt_from_slice (V := Vector3d (cty k)) l ;; Ok (V3 k r)) /\
  geo_run lf "Vector3d::dot" [V3 k v; V3 k w] = (r <- v3_dot v w ;; Ok (cval k r)) /\
  geo_run lf "Add<Vector3d>forVector3d::add" [V3 k v; V3 k w] = (r <- v3_add v w ;; Ok (V3 k r)) /\
  geo_run lf "AddAssignforVector3d::add_assign" [V3 k v; V3 k w] = (r <- v3_add_assign v w ;; Ok (V3 k r)) /\
  geo_run lf "Sub<Vector3d>forVector3d::sub" [V3 k v; V3 k w] = (r <- v3_sub v w ;; Ok (V3 k r)) /\
  geo_run lf "SubAssignforVector3d::sub_assign" [V3 k v; V3 k w] = (r <- v3_sub_assign v w ;; Ok (V3 k r)) /\
  geo_run lf "Mul<#>forVector3d::mul" [V3 k v; cval k c] = (r <- v3_scale v c ;; Ok (V3 k r)) /\
  geo_run lf "MulAssign<#>forVector3d::mul_assign" [V3 k v; cval k c] = (r <- v3_mul_assign v c ;; Ok (V3 k r)) /\
  geo_run lf "Div<#>forVector3d::div" [V3 k v; cval k c] = (r <- v3_div v c ;; Ok (V3 k r)) /\
  geo_run lf "DivAssign<#>forVector3d::div_assign" [V3 k v; cval k c] = (r <- v3_div_assign v c ;; Ok (V3 k r)) /\
  geo_run lf "Sum<Vector3d>forVector3d::sum" [VA (V3 k v) (map (V3 k) vl)] = (r <- v3_sum vl ;; Ok (V3 k r)) /\
  geo_run lf "Sum<&Vector3d>forVector3d::sum" [VA (V3 k v) (map (V3 k) vl)] = (r <- v3_sum vl ;; Ok (V3 k r)) /\
  geo_run lf "Vector3d::iter" [V3 k v] = Ok (VIter (V3 k v) 0) /\
  geo_run lf "Iter::new" [V3 k v] = Ok (VIter (V3 k v) 0) /\
  geo_run lf "Iter::next" [VIter (V3 k v) i] = Ok (pack (VO (option_map (cval k) (fst (iter_next (mkIter v i)))))
    (VIter (V3 k v) (it_position (snd (iter_next (mkIter v i)))))) /\
  (has_into k = true ->
    geo_run lf "Vector3d::distance" [V3 k v; V3 k w] = (r <- vt_distance (cinto k) v w ;; Ok (VF r))) /\
  geo_run lf "Vector3d::magnitude_sq" [V3 k v] = (r <- vt_magnitude_sq v ;; Ok (cval k r)) /\
  (has_into k = true ->
    geo_run lf "Vector3d::magnitude" [V3 k v] = (r <- vt_magnitude (cinto k) v ;; Ok (VF r))) /\
  geo_run lf ("Mul<Vector3d>for" ++ cname k ++ "::mul") [cval k c; V3 k v] = (r <- v3_scale_left c v ;; Ok (V3 k r)) /\
  geo_run lf "Vector3d::cross" [V3 k v; V3 k w] = (r <- v3_cross v w ;; Ok (V3 k r)) /\
  geo_run lf "Mul<Vector3d>forVector3d::mul" [V3 k v; V3 k w] = (r <- v3_mul v w ;; Ok (V3 k r)).
Proof.
  intros. repeat apply conj.
  - exact (source2_vector3d_0 lf k v w a b c i l vl).
  - exact (source2_vector3d_1 lf k v w a b c i l vl).
  - exact (source2_vector3d_2 lf k v w a b c i l vl).
  - exact (source2_vector3d_3 lf k v w a b c i l vl).
  - exact (source2_vector3d_4 lf k v w a b c i l vl).
  - exact (source2_vector3d_5 lf k v w a b c i l vl).
  - exact (source2_vector3d_6 lf k v w a b c i l vl).
  - exact (source2_vector3d_7 lf k v w a b c i l vl).
  - exact (source2_vector3d_8 lf k v w a b c i l vl).
  - exact (source2_vector3d_9 lf k v w a b c i l vl).
  - exact (source2_vector3d_10 lf k v w a b c i l vl).
  - exact (source2_vector3d_11 lf k v w a b c i l vl).
  - exact (source2_vector3d_12 lf k v w a b c i l vl).
  - exact (source2_vector3d_13 lf k v w a b c i l vl).
  - exact (source2_vector3d_14 lf k v w a b c i l vl).
  - exact (source2_vector3d_15 lf k v w a b c i l vl).
  - exact (source2_vector3d_16 lf k v w a b c i l vl).
  - exact (source2_vector3d_17 lf k v w a b c i l vl).
  - exact (source2_vector3d_18 lf k v w a b c i l vl).
  - exact (source2_vector3d_19 lf k v w a b c i l vl).
  - exact (source2_vector3d_20 lf k v w a b c i l vl).
  - exact (source2_vector3d_21 lf k v w a b c i l vl).
  - exact (source2_vector3d_22 lf k v w a b c i l vl).
  - exact (source2_vector3d_23 lf k v w a b c i l vl).
  - exact (source2_vector3d_24 lf k v w a b c i l vl).
  - exact (source2_vector3d_25 lf k v w a b c i l vl).
  - exact (source2_vector3d_26 lf k v w a b c i l vl).
  - exact (source2_vector3d_27 lf k v w a b c i l vl).
  - exact (source2_vector3d_28 lf k v w a b c i l vl).
  - exact (source2_vector3d_29 lf k v w a b c i l vl).
  - exact (source2_vector3d_30 lf k v w a b c i l vl).
  - exact (source2_vector3d_31 lf k v w a b c i l vl).
Qed.

Lemma source2_quaternion_0 : forall {E : Env} lf (p q : Quat f32) (a b c d : f32),
  geo_run lf "PartialEq<Quaternion>forQuaternion::eq" [VQ p; VQ q] = Ok (VB (q_eq p q)).
Proof. go. Qed.
Lemma source2_quaternion_1 : forall {E : Env} lf (p q : Quat f32) (a b c d : f32),
  geo_run lf "Quaternion::IDENTITY" [] = Ok (VQ q_identity).
Proof. go. Qed.
Lemma source2_quaternion_2 : forall {E : Env} lf (p q : Quat f32) (a b c d : f32),
  geo_run lf "DefaultforQuaternion::default" [] = Ok (VQ q_identity).
Proof. go. Qed.
Lemma source2_quaternion_3 : forall {E : Env} lf (p q : Quat f32) (a b c d : f32),
  geo_run lf "Quaternion::new" [VF a; VF b; VF c; VF d] = Ok (VQ (q_new a b c d)).
Proof. go. Qed.
Lemma source2_quaternion_4 : forall {E : Env} lf (p q : Quat f32) (a b c d : f32),
  geo_run lf "Quaternion::conj" [VQ q] = Ok (VQ (q_conj q)).
Proof. go. Qed.
Lemma source2_quaternion_5 : forall {E : Env} lf (p q : Quat f32) (a b c d : f32),
  geo_run lf "Quaternion::dot" [VQ p; VQ q] = Ok (VF (q_dot p q)).
Proof. go. Qed.
Lemma source2_quaternion_6 : forall {E : Env} lf (p q : Quat f32) (a b c d : f32),
  geo_run lf "Quaternion::norm" [VQ q] = Ok (VF (q_norm q)).
Proof. go. Qed.
Lemma source2_quaternion_7 : forall {E : Env} lf (p q : Quat f32) (a b c d : f32),
  geo_run lf "Quaternion::magnitude" [VQ q] = (r <- Q_magnitude q ;; Ok (VF r)).
Proof. go. Qed.
Lemma source2_quaternion_8 : forall {E : Env} lf (p q : Quat f32) (a b c d : f32),
  geo_run lf "Quaternion::inv" [VQ q] = (r <- Q_inv q ;; Ok (VQ r)).
Proof. go. Qed.
Lemma source2_quaternion_9 : forall {E : Env} lf (p q : Quat f32) (a b c d : f32),
  geo_run lf "Quaternion::normalize" [VQ q] = (r <- Q_normalize q ;; Ok (VQ r)).
Proof. go. Qed.
Lemma source2_quaternion_10 : forall {E : Env} lf (p q : Quat f32) (a b c d : f32),
  geo_run lf "Quaternion::to_euler" [VQ q] = (r <- Q_to_euler q ;; Ok (VT [VF (fst (fst r)); VF (snd (fst r)); VF (snd r)])).
Proof. go. Qed.
Lemma source2_quaternion_11 : forall {E : Env} lf (p q : Quat f32) (a b c d : f32),
  geo_run lf "Quaternion::to_array" [VQ q] = Ok (VA (VF (q0 q)) (map VF (q_to_array q))).
Proof. go. Qed.
Lemma source2_quaternion_12 : forall {E : Env} lf (p q : Quat f32) (a b c d : f32),
  geo_run lf "From<Quaternion>for[f32;]::from" [VQ q] = Ok (VA (VF (q0 q)) (map VF (q_to_array q))).
Proof. go. Qed.
Lemma source2_quaternion_13 : forall {E : Env} lf (p q : Quat f32) (a b c d : f32),
  geo_run lf "From<[f32;]>forQuaternion::from" [VA (VF a) [VF a; VF b; VF c; VF d]] = Ok (VQ (q_of_array a b c d)).
Proof. go. Qed.
Lemma source2_quaternion_14 : forall {E : Env} lf (p q : Quat f32) (a b c d : f32),
  geo_run lf "From<(f32,f32,f32,f32)>forQuaternion::from" [VT [VF a; VF b; VF c; VF d]] = Ok (VQ (q_of_tuple (a, b, c, d))).
Proof. go. Qed.
Lemma source2_quaternion_15 : forall {E : Env} lf (p q : Quat f32) (a b c d : f32),
  geo_run lf "From<Quaternion>for(f32,f32,f32,f32)::from" [VQ q] = Ok (VT [VF (q0 q); VF (q1 q); VF (q2 q); VF (q3 q)]).
Proof. go. Qed.
Lemma source2_quaternion_16 : forall {E : Env} lf (p q : Quat f32) (a b c d : f32),
  geo_run lf "Quaternion::w" [VQ q] = Ok (VF (q0 q)).
Proof. go. Qed.
Lemma source2_quaternion_17 : forall {E : Env} lf (p q : Quat f32) (a b c d : f32),
  geo_run lf "Quaternion::x" [VQ q] = Ok (VF (q1 q)).
Proof. go. Qed.
Lemma source2_quaternion_18 : forall {E : Env} lf (p q : Quat f32) (a b c d : f32),
  geo_run lf "Quaternion::y" [VQ q] = Ok (VF (q2 q)).
Proof. go. Qed.
Lemma source2_quaternion_19 : forall {E : Env} lf (p q : Quat f32) (a b c d : f32),
  geo_run lf "Quaternion::z" [VQ q] = Ok (VF (q3 q)).
Proof. go. Qed.
Lemma source2_quaternion_20 : forall {E : Env} lf (p q : Quat f32) (a b c d : f32),
  geo_run lf "Add<Quaternion>forQuaternion::add" [VQ p; VQ q] = Ok (VQ (q_add p q)).
Proof. go. Qed.
Lemma source2_quaternion_21 : forall {E : Env} lf (p q : Quat f32) (a b c d : f32),
  geo_run lf "AddAssignforQuaternion::add_assign" [VQ p; VQ q] = Ok (VQ (q_add_assign p q)).
Proof. go. Qed.
Lemma source2_quaternion_22 : forall {E : Env} lf (p q : Quat f32) (a b c d : f32),
  geo_run lf "Sub<Quaternion>forQuaternion::sub" [VQ p; VQ q] = Ok (VQ (q_sub p q)).
Proof. go. Qed.
Lemma source2_quaternion_23 : forall {E : Env} lf (p q : Quat f32) (a b c d : f32),
  geo_run lf "SubAssignforQuaternion::sub_assign" [VQ p; VQ q] = Ok (VQ (q_sub_assign p q)).
Proof. go. Qed.
Lemma source2_quaternion_24 : forall {E : Env} lf (p q : Quat f32) (a b c d : f32),
  geo_run lf "Mul<Quaternion>forQuaternion::mul" [VQ p; VQ q] = Ok (VQ (q_mul p q)).
Proof. go. Qed.
Lemma source2_quaternion_25 : forall {E : Env} lf (p q : Quat f32) (a b c d : f32),
  geo_run lf "Mul<#>forQuaternion::mul" [VQ q; VF a] = Ok (VQ (q_mul_scalar q a)).
Proof. go. Qed.
Lemma source2_quaternion_26 : forall {E : Env} lf (p q : Quat f32) (a b c d : f32),
  geo_run lf "Mul<Quaternion>forf32::mul" [VF a; VQ q] = Ok (VQ (q_scalar_mul a q)).
Proof. go. Qed.
Lemma source2_quaternion_27 : forall {E : Env} lf (p q : Quat f32) (a b c d : f32),
  geo_run lf "MulAssign<#>forQuaternion::mul_assign" [VQ q; VF a] = Ok (VQ (q_mul_assign_scalar q a)).
Proof. go. Qed.
(** src/quaternion.rs. *)
Lemma source2_quaternion : forall {E : Env} lf (p q : Quat f32) (a b c d : f32),
  geo_run lf "PartialEq<Quaternion>forQuaternion::eq" [VQ p; VQ q] = Ok (VB (q_eq p q)) /\
  geo_run lf "Quaternion::IDENTITY" [] = Ok (VQ q_identity) /\
  geo_run lf "DefaultforQuaternion::default" [] = Ok (VQ q_identity) /\
  geo_run lf "Quaternion::new" [VF a; VF b; VF c; VF d] = Ok (VQ (q_new a b c d)) /\
  geo_run lf "Quaternion::conj" [VQ q] = Ok (VQ (q_conj q)) /\
  geo_run lf "Quaternion::dot" [VQ p; VQ q] = Ok (VF (q_dot p q)) /\
  geo_run lf "Quaternion::norm" [VQ q] = Ok (VF (q_norm q)) /\
  geo_run lf "Quaternion::magnitude" [VQ q] = (r <- Q_magnitude q ;; Ok (VF r)) /\
  geo_run lf "Quaternion::inv" [VQ q] = (r <- Q_inv q ;; Ok (VQ r)) /\
  geo_run lf "Quaternion::normalize" [VQ q] = (r <- Q_normalize q ;; Ok (VQ r)) /\
  geo_run lf "Quaternion::to_euler" [VQ q] = (r <- Q_to_euler q ;; Ok (VT [VF (fst (fst r)); VF (snd (fst r)); VF (snd r)])) /\
  geo_run lf "Quaternion::to_array" [VQ q] = Ok (VA (VF (q0 q)) (map VF (q_to_array q))) /\
  geo_run lf "From<Quaternion>for[f32;]::from" [VQ q] = Ok (VA (VF (q0 q)) (map VF (q_to_array q))) /\
  geo_run lf "From<[f32;]>forQuaternion::from" [VA (VF a) [VF a; VF b; VF c; VF d]] = Ok (VQ (q_of_array a b c d)) /\
  geo_run lf "From<(f32,f32,f32,f32)>forQuaternion::from" [VT [VF a; VF b; VF c; VF d]] = Ok (VQ (q_of_tuple (a, b, c, d))) /\
  geo_run lf "From<Quaternion>for(f32,f32,f32,f32)::from" [VQ q] = Ok (VT [VF (q0 q); VF (q1 q); VF (q2 q); VF (q3 q)]) /\
  geo_run lf "Quaternion::w" [VQ q] = Ok (VF (q0 q)) /\
  geo_run lf "Quaternion::x" [VQ q] = Ok (VF (q1 q)) /\
  geo_run lf "Quaternion::y" [VQ q] = Ok (VF (q2 q)) /\
  geo_run lf "Quaternion::z" [VQ q] = Ok (VF (q3 q)) /\
  geo_run lf "Add<Quaternion>forQuaternion::add" [VQ p; VQ q] = Ok (VQ (q_add p q)) /\
  geo_run lf "AddAssignforQuaternion::add_assign" [VQ p; VQ q] = Ok (VQ (q_add_assign p q)) /\
  geo_run lf "Sub<Quaternion>forQuaternion::sub" [VQ p; VQ q] = Ok (VQ (q_sub p q)) /\
  geo_run lf "SubAssignforQuaternion::sub_assign" [VQ p; VQ q] = Ok (VQ (q_sub_assign p q)) /\
  geo_run lf "Mul<Quaternion>forQuaternion::mul" [VQ p; VQ q] = Ok (VQ (q_mul p q)) /\
  geo_run lf "Mul<#>forQuaternion::mul" [VQ q; VF a] = Ok (VQ (q_mul_scalar q a)) /\
  geo_run lf "Mul<Quaternion>forf32::mul" [VF a; VQ q] = Ok (VQ (q_scalar_mul a q)) /\
  geo_run lf "MulAssign<#>forQuaternion::mul_assign" [VQ q; VF a] = Ok (VQ (q_mul_assign_scalar q a)).
Proof.
  intros. repeat apply conj.
  - exact (source2_quaternion_0 lf p q a b c d).
  - exact (source2_quaternion_1 lf p q a b c d).
  - exact (source2_quaternion_2 lf p q a b c d).
  - exact (source2_quaternion_3 lf p q a b c d).
  - exact (source2_quaternion_4 lf p q a b c d).
  - exact (source2_quaternion_5 lf p q a b c d).
  - exact (source2_quaternion_6 lf p q a b c d).
  - exact (source2_quaternion_7 lf p q a b c d).
  - exact (source2_quaternion_8 lf p q a b c d).
  - exact (source2_quaternion_9 lf p q a b c d).
  - exact (source2_quaternion_10 lf p q a b c d).
  - exact (source2_quaternion_11 lf p q a b c d).
  - exact (source2_quaternion_12 lf p q a b c d).
  - exact (source2_quaternion_13 lf p q a b c d).
  - exact (source2_quaternion_14 lf p q a b c d).
  - exact (source2_quaternion_15 lf p q a b c d).
  - exact (source2_quaternion_16 lf p q a b c d).
  - exact (source2_quaternion_17 lf p q a b c d).
  - exact (source2_quaternion_18 lf p q a b c d).
  - exact (source2_quaternion_19 lf p q a b c d).
  - exact (source2_quaternion_20 lf p q a b c d).
  - exact (source2_quaternion_21 lf p q a b c d).
  - exact (source2_quaternion_22 lf p q a b c d).
  - exact (source2_quaternion_23 lf p q a b c d).
  - exact (source2_quaternion_24 lf p q a b c d).
  - exact (source2_quaternion_25 lf p q a b c d).
  - exact (source2_quaternion_26 lf p q a b c d).
  - exact (source2_quaternion_27 lf p q a b c d).
Qed.

Lemma source2_quaternion_vector_0 : forall {E : Env} lf (q : Quat f32) (k : ckind) (v w : Vector3d (cty k)) (c : cty k),
  has_into k = true ->
    geo_run lf "Quaternion::scale" [VQ q; cval k c] = Ok (VQ (q_scale q (cinto k c))).
Proof. goc. Qed.
Lemma source2_quaternion_vector_1 : forall {E : Env} lf (q : Quat f32) (k : ckind) (v w : Vector3d (cty k)) (c : cty k),
  has_into k = true ->
    geo_run lf "From<Vector3d>forQuaternion::from" [V3 k v] = Ok (VQ (q_of_vector (v3_into_f32 (cinto k) v))).
Proof. goc. Qed.
Lemma source2_quaternion_vector_2 : forall {E : Env} lf (q : Quat f32) (k : ckind) (v w : Vector3d (cty k)) (c : cty k),
  has_into k = true ->
    geo_run lf "Quaternion::axis_angle" [V3 k v; cval k c] = Ok (VQ (Q_axis_angle (cinto k) v c)).
Proof. goc. Qed.
Lemma source2_quaternion_vector_3 : forall {E : Env} lf (q : Quat f32) (k : ckind) (v w : Vector3d (cty k)) (c : cty k),
  has_into k = true ->
    geo_run lf "Quaternion::rotate" [VQ q; V3 k v] = Ok (V3 Kf32 (Q_rotate (cinto k) q v)).
Proof. goc. Qed.
Lemma source2_quaternion_vector_4 : forall {E : Env} lf (q : Quat f32) (k : ckind) (v w : Vector3d (cty k)) (c : cty k),
  has_into k = true ->
    geo_run lf "Mul<Vector3d>forQuaternion::mul" [VQ q; V3 k v] = Ok (V3 Kf32 (Q_mul_vector (cinto k) q v)).
Proof. goc. Qed.
Lemma source2_quaternion_vector_5 : forall {E : Env} lf (q : Quat f32) (k : ckind) (v w : Vector3d (cty k)) (c : cty k),
  has_into k = true ->
    geo_run lf "Quaternion::from_two_vectors" [V3 k v; V3 k w] = (r <- Q_from_two_vectors (cinto k) v w ;; Ok (VQ r)).
Proof. goc. Qed.
(** src/quaternion.rs, with components of any type. *)
Lemma source2_quaternion_vector : forall {E : Env} lf (q : Quat f32) (k : ckind) (v w : Vector3d (cty k)) (c : cty k),
  (has_into k = true ->
    geo_run lf "Quaternion::scale" [VQ q; cval k c] = Ok (VQ (q_scale q (cinto k c)))) /\
  (has_into k = true ->
    geo_run lf "From<Vector3d>forQuaternion::from" [V3 k v] = Ok (VQ (q_of_vector (v3_into_f32 (cinto k) v)))) /\
  (has_into k = true ->
    geo_run lf "Quaternion::axis_angle" [V3 k v; cval k c] = Ok (VQ (Q_axis_angle (cinto k) v c))) /\
  (has_into k = true ->
    geo_run lf "Quaternion::rotate" [VQ q; V3 k v] = Ok (V3 Kf32 (Q_rotate (cinto k) q v))) /\
  (has_into k = true ->
    geo_run lf "Mul<Vector3d>forQuaternion::mul" [VQ q; V3 k v] = Ok (V3 Kf32 (Q_mul_vector (cinto k) q v))) /\
  (has_into k = true ->
    geo_run lf "Quaternion::from_two_vectors" [V3 k v; V3 k w] = (r <- Q_from_two_vectors (cinto k) v w ;; Ok (VQ r))).
Proof.
  intros. repeat apply conj.
  - exact (source2_quaternion_vector_0 lf q k v w c).
  - exact (source2_quaternion_vector_1 lf q k v w c).
  - exact (source2_quaternion_vector_2 lf q k v w c).
  - exact (source2_quaternion_vector_3 lf q k v w c).
  - exact (source2_quaternion_vector_4 lf q k v w c).
  - exact (source2_quaternion_vector_5 lf q k v w c).
Qed.

Lemma source2_vector2d_int_0 : forall {E : Env} lf (v : Vector2d Z) (c : Z),
  geo_run lf "From<I8x2>forVector2d::from" [V2 KI8 v] = Ok (V2 Kf32 (v2_into_f32 f32_of_Z v)).
Proof. go. Qed.
Lemma source2_vector2d_int_1 : forall {E : Env} lf (v : Vector2d Z) (c : Z),
  geo_run lf "From<I16x2>forVector2d::from" [V2 KI16 v] = Ok (V2 Kf32 (v2_into_f32 f32_of_Z v)).
Proof. go. Qed.
Lemma source2_vector2d_int_2 : forall {E : Env} lf (v : Vector2d Z) (c : Z),
  geo_run lf "From<U8x2>forVector2d::from" [V2 KU8 v] = Ok (V2 Kf32 (v2_into_f32 f32_of_Z v)).
Proof. go. Qed.
Lemma source2_vector2d_int_3 : forall {E : Env} lf (v : Vector2d Z) (c : Z),
  geo_run lf "From<U16x2>forVector2d::from" [V2 KU16 v] = Ok (V2 Kf32 (v2_into_f32 f32_of_Z v)).
Proof. go. Qed.
(** src/vector/vector2d.rs, impls for one integer type. *)
Lemma source2_vector2d_int : forall {E : Env} lf (v : Vector2d Z) (c : Z),
  geo_run lf "From<I8x2>forVector2d::from" [V2 KI8 v] = Ok (V2 Kf32 (v2_into_f32 f32_of_Z v)) /\
  geo_run lf "From<I16x2>forVector2d::from" [V2 KI16 v] = Ok (V2 Kf32 (v2_into_f32 f32_of_Z v)) /\
  geo_run lf "From<U8x2>forVector2d::from" [V2 KU8 v] = Ok (V2 Kf32 (v2_into_f32 f32_of_Z v)) /\
  geo_run lf "From<U16x2>forVector2d::from" [V2 KU16 v] = Ok (V2 Kf32 (v2_into_f32 f32_of_Z v)).
Proof.
  intros. repeat apply conj.
  - exact (source2_vector2d_int_0 lf v c).
  - exact (source2_vector2d_int_1 lf v c).
  - exact (source2_vector2d_int_2 lf v c).
  - exact (source2_vector2d_int_3 lf v c).
Qed.

Lemma source2_vector2d_f32_0 : forall {E : Env} lf (v : Vector2d f32) (c : f32),
  geo_run lf "Vector2d::normalized" [V2 Kf32 v] = (r <- vt_normalized (V := Vector2d f32) (fun x => x) (fun x => x) v ;; Ok (V2 Kf32 r)).
Proof. go. Qed.
Lemma source2_vector2d_f32_1 : forall {E : Env} lf (v : Vector2d f32) (c : f32),
  geo_run lf "Vector2d::normalized" [V2 KF32 v] = (r <- vt_normalized (V := Vector2d f32) (fun x => x) (fun x => x) v ;; Ok (V2 KF32 r)).
Proof. go. Qed.
(** src/vector/vector2d.rs, impls for f32 or F32. *)
Lemma source2_vector2d_f32 : forall {E : Env} lf (v : Vector2d f32) (c : f32),
  geo_run lf "Vector2d::normalized" [V2 Kf32 v] = (r <- vt_normalized (V := Vector2d f32) (fun x => x) (fun x => x) v ;; Ok (V2 Kf32 r)) /\
  geo_run lf "Vector2d::normalized" [V2 KF32 v] = (r <- vt_normalized (V := Vector2d f32) (fun x => x) (fun x => x) v ;; Ok (V2 KF32 r)).
Proof.
  intros. repeat apply conj.
  - exact (source2_vector2d_f32_0 lf v c).
  - exact (source2_vector2d_f32_1 lf v c).
Qed.

Lemma source2_vector3d_int_0 : forall {E : Env} lf (v : Vector3d Z) (c : Z),
  geo_run lf "From<I8x3>forVector3d::from" [V3 KI8 v] = Ok (V3 Kf32 (v3_into_f32 f32_of_Z v)).
Proof. go. Qed.
Lemma source2_vector3d_int_1 : forall {E : Env} lf (v : Vector3d Z) (c : Z),
  geo_run lf "From<I16x3>forVector3d::from" [V3 KI16 v] = Ok (V3 Kf32 (v3_into_f32 f32_of_Z v)).
Proof. go. Qed.
Lemma source2_vector3d_int_2 : forall {E : Env} lf (v : Vector3d Z) (c : Z),
  geo_run lf "From<U8x3>forVector3d::from" [V3 KU8 v] = Ok (V3 Kf32 (v3_into_f32 f32_of_Z v)).
Proof. go. Qed.
Lemma source2_vector3d_int_3 : forall {E : Env} lf (v : Vector3d Z) (c : Z),
  geo_run lf "From<U16x3>forVector3d::from" [V3 KU16 v] = Ok (V3 Kf32 (v3_into_f32 f32_of_Z v)).
Proof. go. Qed.
(** src/vector/vector3d.rs, impls for one integer type. *)
Lemma source2_vector3d_int : forall {E : Env} lf (v : Vector3d Z) (c : Z),
  geo_run lf "From<I8x3>forVector3d::from" [V3 KI8 v] = Ok (V3 Kf32 (v3_into_f32 f32_of_Z v)) /\
  geo_run lf "From<I16x3>forVector3d::from" [V3 KI16 v] = Ok (V3 Kf32 (v3_into_f32 f32_of_Z v)) /\
  geo_run lf "From<U8x3>forVector3d::from" [V3 KU8 v] = Ok (V3 Kf32 (v3_into_f32 f32_of_Z v)) /\
  geo_run lf "From<U16x3>forVector3d::from" [V3 KU16 v] = Ok (V3 Kf32 (v3_into_f32 f32_of_Z v)).
Proof.
  intros. repeat apply conj.
  - exact (source2_vector3d_int_0 lf v c).
  - exact (source2_vector3d_int_1 lf v c).
  - exact (source2_vector3d_int_2 lf v c).
  - exact (source2_vector3d_int_3 lf v c).
Qed.

Lemma source2_vector3d_f32_0 : forall {E : Env} lf (v : Vector3d f32) (c : f32),
  geo_run lf "Vector3d::normalized" [V3 Kf32 v] = (r <- vt_normalized (V := Vector3d f32) (fun x => x) (fun x => x) v ;; Ok (V3 Kf32 r)).
Proof. go. Qed.
Lemma source2_vector3d_f32_1 : forall {E : Env} lf (v : Vector3d f32) (c : f32),
  geo_run lf "Vector3d::normalized" [V3 KF32 v] = (r <- vt_normalized (V := Vector3d f32) (fun x => x) (fun x => x) v ;; Ok (V3 KF32 r)).
Proof. go. Qed.
Lemma source2_vector3d_f32_2 : forall {E : Env} lf (v : Vector3d f32) (c : f32),
  geo_run lf "From<Vector3d>forVector3d::from" [V3 KF32 v] = Ok (V3 Kf32 (v3_into_f32 (fun x => x) v)).
Proof. go. Qed.
(** src/vector/vector3d.rs, impls for f32 or F32. *)
Lemma source2_vector3d_f32 : forall {E : Env} lf (v : Vector3d f32) (c : f32),
  geo_run lf "Vector3d::normalized" [V3 Kf32 v] = (r <- vt_normalized (V := Vector3d f32) (fun x => x) (fun x => x) v ;; Ok (V3 Kf32 r)) /\
  geo_run lf "Vector3d::normalized" [V3 KF32 v] = (r <- vt_normalized (V := Vector3d f32) (fun x => x) (fun x => x) v ;; Ok (V3 KF32 r)) /\
  geo_run lf "From<Vector3d>forVector3d::from" [V3 KF32 v] = Ok (V3 Kf32 (v3_into_f32 (fun x => x) v)).
Proof.
  intros. repeat apply conj.
  - exact (source2_vector3d_f32_0 lf v c).
  - exact (source2_vector3d_f32_1 lf v c).
  - exact (source2_vector3d_f32_2 lf v c).
Qed.

(** ** Statistics *)

Definition stat_at (f : string) : item * list (string * item) :=
  or_else (get "F32::abs", []) (split_on f stat_nf).
Definition mean_item : item := Eval vm_compute in fst (stat_at "I::mean").
Definition variance_item : item := Eval vm_compute in fst (stat_at "&[]::variance").
Definition stddev_item : item := Eval vm_compute in fst (stat_at "&[]::stddev").
Definition tnew_item : item := Eval vm_compute in fst (stat_at "Iter::new").
Definition tnext_item : item := Eval vm_compute in fst (stat_at "Iter::next").
Definition first_loop (i : item) : expr :=
  match i_body i with
  | Some (Block (SExpr e :: _) _) => e
  | Some (Block (_ :: _ :: SExpr e :: _) _) => e
  | _ => EInt 0 ""
  end.
Definition loop_body (e : expr) : block :=
  match e with EFor _ _ b => b | EWhile _ _ b => b | _ => Block [] None end.
Definition mean_for : expr := Eval vm_compute in first_loop mean_item.
Definition mean_blk : block := Eval vm_compute in loop_body mean_for.
Definition variance_for : expr := Eval vm_compute in first_loop variance_item.
Definition variance_blk : block := Eval vm_compute in loop_body variance_for.
Definition tnext_while : expr := Eval vm_compute in first_loop tnext_item.
Definition tnext_cond : expr := Eval vm_compute in
  match tnext_while with EWhile _ c _ => c | _ => EInt 0 "" end.
Definition tnext_blk : block := Eval vm_compute in loop_body tnext_while.

Ltac sim5 :=
  cbv -[fadd fsub fmul fdiv frem fneg feq flt fle fgt fge from_bits to_bits f32_of_Z to_i32
        arith int_div clamp wrap shl32 shr32 not32 lz32 f32_NAN f32_zero f32_inf
        is_nan is_infinite is_finite sign_bit Binary.Bcompare
        Z.land Z.lor Z.lxor Z.shiftr Z.shiftl Z.sub Z.mul Z.modulo Z.rem Z.abs Z.max Z.add
        run_loop fold_list map_list count foldM
        F32_sqrt F32_abs];
  rewrite ?zero_lit.

Section Mean.
Context {E : Env} (call : string -> list V -> (V -> res V) -> res V) (lf : nat).
Open Scope string_scope.

Lemma mean_step : forall ret nv n s a S kk,
  nv = VI I32 n \/ nv = VL n ->
  eval_block call (run_loop call lf 0) "I" depth mean_blk
    [("item", VF a); ("sum", VF s); ("num_items", nv); ("self", S)] ret (fun _ g => kk g) =
  (m <- arith i32 (n + 1) ;;
   kk [("item", VF a); ("sum", VF (fadd s a)); ("num_items", VI I32 m); ("self", S)]).
Proof. intros ret nv n s a S kk [->| ->]; sim5; cases. Qed.

Lemma mean_rounds : forall ret S l n s k,
  for_loop (fun g k => eval_block call (run_loop call lf 0) "I" depth mean_blk g ret (fun _ g => k g))
    "item" (map VF l) [("sum", VF s); ("num_items", VI I32 n); ("self", S)] k =
  (r <- mean_loop l n s ;; k VU [("sum", VF (snd r)); ("num_items", VI I32 (fst r)); ("self", S)]).
Proof.
  intros ret S l. induction l as [|a l IH]; intros n s k. reflexivity.
  cbn [map for_loop mean_loop]. rewrite (mean_step _ _ n) by auto.
  destruct (arith i32 (n + 1)) as [m| |]; [|reflexivity|reflexivity].
  cbn [bind]. rewrite <- IH. reflexivity.
Qed.

Lemma mean_loop_run : forall o l ret k,
  (forall g, k VU (("sum", VF (f32_zero false)) :: ("num_items", VL 0) :: g) =
             k VU (("sum", VF (f32_zero false)) :: ("num_items", VI I32 0) :: g)) ->
  run_loop call lf 1 "I" mean_for
    [("sum", VF (f32_zero false)); ("num_items", VL 0); ("self", VSeq o (map VF l))] ret k =
  (r <- mean_loop l 0 (f32_zero false) ;;
   k VU [("sum", VF (snd r)); ("num_items", VI I32 (fst r)); ("self", VSeq o (map VF l))]).
Proof.
  intros o l ret k Hk.
  transitivity (for_loop (fun g k => eval_block call (run_loop call lf 0) "I" depth mean_blk g ret (fun _ g => k g))
    "item" (map VF l) [("sum", VF (f32_zero false)); ("num_items", VL 0); ("self", VSeq o (map VF l))] k).
  { destruct o; reflexivity. }
  destruct l as [|a l]. apply Hk.
  generalize (VSeq o (map VF (a :: l))). intros S.
  cbn [map for_loop mean_loop]. rewrite (mean_step _ _ 0) by auto.
  destruct (arith i32 (0 + 1)) as [m| |]; [|reflexivity|reflexivity].
  cbn [bind]. rewrite <- (mean_rounds ret). reflexivity.
Qed.

Lemma mean_run : forall o l k,
  run_item lf call mean_item [VSeq o (map VF l)] k = (r <- mean l ;; k (VF r)).
Proof.
  intros o l k. unfold mean.
  transitivity (run_loop call lf 1 "I" mean_for
    [("sum", VF (f32_zero false)); ("num_items", VL 0); ("self", VSeq o (map VF l))]
    (fun v => match coerce "I" "f32" v with Some v => k v | None => stuck end)
    (fun _ g => eval call (run_loop call lf 1) "I" 98
        (EBin ODiv (EPath ["sum"]) (ECast (EPath ["num_items"]) "f32")) g
        (fun v => match coerce "I" "f32" v with Some v => k v | None => stuck end)
        (fun v _ => match coerce "I" "f32" v with Some v => k v | None => stuck end))).
  { destruct o; reflexivity. }
  rewrite mean_loop_run by reflexivity.
  destruct (mean_loop l 0 (f32_zero false)) as [[n s]| |]; reflexivity.
Qed.
End Mean.
(** The element types that can be converted to f32, and a variable whose value is
    not looked into. *)
Ltac kinds k := destruct k; try (exfalso; discriminate).

(** The statements of a block one after the other. *)
Section Stmts.
Context {E : Env} (call : string -> list V -> (V -> res V) -> res V)
  (loops : ty -> expr -> vars -> (V -> res V) -> (V -> vars -> res V) -> res V) (slf : ty) (n : nat)
  (last : option expr) (g : vars) (ret : V -> res V) (k : V -> vars -> res V).
Fixpoint stmts (l : list stmt) (g' : vars) : res V :=
  match l with
  | [] =>
      match last with
      | Some e => eval call loops slf n e g' ret (fun v g' => k v (leave g g'))
      | None => k VU (leave g g')
      end
  | SLet x t e :: l | SConst x t e :: l =>
      eval call loops slf n e g' ret (fun v g' =>
        if String.eqb t "" then stmts l ((x, v) :: g')
        else match coerce slf t v with
             | Some v => stmts l ((x, v) :: g')
             | None => stuck
             end)
  | SLetS c xs e :: l =>
      eval call loops slf n e g' ret (fun v g' =>
        match v with
        | VD m fs => if String.eqb c m then stmts l (combine xs (map snd fs) ++ g')%list else stuck
        | _ => stuck
        end)
  | SExpr e :: l => eval call loops slf n e g' ret (fun _ g' => stmts l g')
  end.
Lemma stmts_eq : forall l, eval_block call loops slf (S n) (Block l last) g ret k = stmts l g.
Proof. intros. reflexivity. Qed.
End Stmts.

Section Variance.
Context {E : Env} (call : string -> list V -> (V -> res V) -> res V) (lf : nat).
Open Scope string_scope.
Hypothesis Hmean : forall o l k, call "I::mean" [VSeq o (map VF l)] k = (r <- mean l ;; k (VF r)).
Hypothesis Hsqrt : forall x k, call "f32::sqrt" [VF x] k = (r <- F32_sqrt x ;; k (VF r)).
Hypothesis Habs : forall x k, call "f32::abs" [VF x] k = k (VF (F32_abs x)).

Lemma variance_step : forall k, has_into k = true -> forall ret (a : cty k) s m S kk,
  eval_block call (run_loop call lf 0) "&[]" depth variance_blk
    [("item", cval k a); ("sum", VF s); ("mean", VF m); ("self", S)] ret (fun _ g => kk g) =
  (kk [("item", cval k a); ("sum", VF (let n := fsub (cinto k a) m in fadd s (fmul n n)));
       ("mean", VF m); ("self", S)]).
Proof. intros k Hk. intros. kinds k; reflexivity. Qed.

Lemma variance_rounds : forall k, has_into k = true -> forall ret m S (l : list (cty k)) s kk,
  for_loop (fun g k => eval_block call (run_loop call lf 0) "&[]" depth variance_blk g ret (fun _ g => k g))
    "item" (map (cval k) l) [("sum", VF s); ("mean", VF m); ("self", S)] kk =
  kk VU [("sum", VF (fold_left (fun sum item => let n := fsub item m in fadd sum (fmul n n)) (map (cinto k) l) s));
         ("mean", VF m); ("self", S)].
Proof.
  intros k Hk ret m S l. induction l as [|a l IH]; intros s kk. reflexivity.
  cbn [map for_loop fold_left]. rewrite (variance_step k Hk). rewrite <- IH. reflexivity.
Qed.

Lemma variance_loop_run : forall k, has_into k = true -> forall m o (l : list (cty k)) ret kk,
  run_loop call lf 1 "&[]" variance_for
    [("sum", VF (f32_zero false)); ("mean", VF m); ("self", VSeq o (map (cval k) l))] ret kk =
  kk VU [("sum", VF (sum_sq_dev (map (cinto k) l) m)); ("mean", VF m); ("self", VSeq o (map (cval k) l))].
Proof.
  intros k Hk m o l ret kk.
  transitivity (for_loop (fun g k => eval_block call (run_loop call lf 0) "&[]" depth variance_blk g ret (fun _ g => k g))
    "item" (map (cval k) l) [("sum", VF (f32_zero false)); ("mean", VF m); ("self", VSeq o (map (cval k) l))] kk).
  { destruct o; reflexivity. }
  apply (variance_rounds k Hk).
Qed.

Lemma variance_run : forall k, has_into k = true -> forall o (l : list (cty k)) kk,
  run_item lf call variance_item [VSeq o (map (cval k) l)] kk = (r <- variance (cinto k) l ;; kk (VF r)).
Proof.
  intros k Hk o l kk. unfold variance. rewrite <- (count_map (cval k)).
  set (ret := fun v => match coerce "&[]" "f32" v with Some v => kk v | None => stuck end).
  transitivity (eval_block call (run_loop call lf 1) "&[]" 100
    (match i_body variance_item with Some b => b | None => Block [] None end)
    [("self", VSeq o (map (cval k) l))] ret (fun v _ => ret v)).
  { destruct o; reflexivity. }
  cbv beta iota delta [i_body variance_item]. rewrite stmts_eq.
  cbn [stmts]. change ("" =? "")%string with true. cbv iota.
  etransitivity.
  { refine ((fun H : forall K, eval call (run_loop call lf 1) "&[]" 99 _ _ ret K =
        (r <- mean (map (cinto k) l) ;; K (VF r) [("self", VSeq o (map (cval k) l))]) => H _) _).
    intros K. clearbody ret. remember (map (cval k) l) as L eqn:HL.
    remember (mean (map (cinto k) l)) as R eqn:HR.
    destruct o as [w|]; sim4; rewrite HL at 1;
      (etransitivity; [refine (map_list_run (cval k) VF _ (cinto k) _ l _); intros; kinds k; reflexivity|]);
      (etransitivity; [apply (Hmean None)|]); rewrite <- HR; destruct R; reflexivity. }
  destruct (mean (map (cinto k) l)) as [m| |]; [|reflexivity|reflexivity]. cbn [bind].
  etransitivity.
  { refine ((fun H : forall K, eval call (run_loop call lf 1) "&[]" 99 (EFlt 0) _ ret K =
        K (VF (f32_zero false)) _ => H _) _).
    intros K. reflexivity. }
  cbv beta. etransitivity; [apply (variance_loop_run k Hk)|].
  destruct o; reflexivity.
Qed.

Lemma eval_method0 : forall slf loops n a m g ret k, String.eqb m "next" = false ->
  exists ap, eval call loops slf (S n) (EMethod a m []) g ret k =
  eval call loops slf n a g ret (fun v g => method call ap v m [] (fun v => unpack a v g k)).
Proof. intros slf loops n a m g ret k H. cbn [eval]. rewrite H. eexists. reflexivity. Qed.

Lemma stddev_run : forall k o (l : list (cty k)) kk,
  (forall kk, call "&[]::variance" [VSeq o (map (cval k) l)] kk = (r <- variance (cinto k) l ;; kk (VF r))) ->
  run_item lf call stddev_item [VSeq o (map (cval k) l)] kk = (r <- stddev (cinto k) l ;; kk (VF r)).
Proof.
  intros k o l kk Hv. unfold stddev.
  set (ret := fun v => match coerce "&[]" "f32" v with Some v => kk v | None => stuck end).
  transitivity (eval_block call (run_loop call lf 1) "&[]" 100
    (match i_body stddev_item with Some b => b | None => Block [] None end)
    [("self", VSeq o (map (cval k) l))] ret (fun v _ => ret v)).
  { destruct o; reflexivity. }
  cbv beta iota delta [i_body stddev_item]. rewrite stmts_eq. cbn [stmts].
  match goal with |- eval _ _ _ _ _ ?g _ ?K = _ =>
    destruct (eval_method0 "&[]" (run_loop call lf 1) 98 (EMethod (EPath ["self"]) "variance" []) "sqrt"
      g ret K eq_refl) as [ap ->] end.
  etransitivity.
  { refine ((fun H : forall K, eval call (run_loop call lf 1) "&[]" 98 _ _ ret K =
        (r <- variance (cinto k) l ;; K (VF r) [("self", VSeq o (map (cval k) l))]) => H _) _).
    intros K. clearbody ret. remember (map (cval k) l) as L eqn:HL.
    remember (variance (cinto k) l) as R eqn:HR.
    destruct o as [w|]; sim4; (etransitivity; [apply Hv|]); destruct R; reflexivity. }
  destruct (variance (cinto k) l) as [v| |]; [|reflexivity|reflexivity]. cbn [bind].
  transitivity (call "f32::sqrt" [VF v] (fun v => unpack (EInt 0 "") v [] (fun v _ => ret v))).
  { reflexivity. }
  rewrite Hsqrt. destruct (F32_sqrt v); reflexivity.
Qed.

Lemma tnew_run : forall k, has_into k = true -> forall w (l : list (cty k)) t kk,
  run_item lf call tnew_item [VA w (map (cval k) l); VF t] kk =
  (r <- trim_new (cinto k) l t ;; kk (VTrim k w r)).
Proof.
  intros k Hk w l t kk. unfold trim_new. rewrite <- (count_map (cval k)).
  set (ret := fun v => match coerce "Iter" "Self" v with Some v => kk v | None => stuck end).
  remember (map (cval k) l) as L eqn:HL.
  transitivity (eval_block call (run_loop call lf 1) "Iter" 100
    (match i_body tnew_item with Some b => b | None => Block [] None end)
    [("input", VA w L); ("threshold", VF t)] ret (fun v _ => ret v)).
  { reflexivity. }
  cbv beta iota delta [i_body tnew_item]. rewrite stmts_eq.
  cbn [stmts]. change ("" =? "")%string with true. cbv iota.
  (* len *)
  etransitivity.
  { refine ((fun H : forall K, eval call (run_loop call lf 1) "Iter" 99 _ _ ret K =
        K (VF (f32_of_Z (count L))) _ => H _) _).
    intros K. reflexivity. }
  (* input *)
  cbv beta. etransitivity.
  { refine ((fun H : forall K, eval call (run_loop call lf 1) "Iter" 99 _ _ ret K =
        K (VA w L) _ => H _) _).
    intros K. reflexivity. }
  (* input_f32 *)
  cbv beta. etransitivity.
  { refine ((fun H : forall K, eval call (run_loop call lf 1) "Iter" 99 _ _ ret K =
        K (VA (VF (f32_zero false)) (map VF (map (cinto k) l))) _ => H _) _).
    intros K. clearbody ret. sim4. rewrite HL at 1.
    etransitivity; [refine (map_list_run (cval k) VF _ (cinto k) _ l _); intros; kinds k; reflexivity|].
    reflexivity. }
  (* mean *)
  remember (map VF (map (cinto k) l)) as L' eqn:HL'.
  cbv beta. etransitivity.
  { refine ((fun H : forall K, eval call (run_loop call lf 1) "Iter" 99 _ ?[g] ret K =
        (r <- mean (map (cinto k) l) ;; K (VF r) ?g) => H _) _).
    intros K. clearbody ret. remember (mean (map (cinto k) l)) as R eqn:HR. sim4. rewrite HL'.
    etransitivity; [apply (Hmean (Some _))|]. rewrite <- HR. destruct R; reflexivity. }
  destruct (mean (map (cinto k) l)) as [m| |]; [|reflexivity|reflexivity]. cbn [bind].
  (* sum *)
  etransitivity.
  { refine ((fun H : forall K, eval call (run_loop call lf 1) "Iter" 99 _ ?[g] ret K =
        K (VF (sum_sq_dev (map (cinto k) l) m)) ?g => H _) _).
    intros K. clearbody ret. remember (sum_sq_dev (map (cinto k) l) m) as R eqn:HR. sim4. rewrite HL'.
    etransitivity; [refine (fold_list_pure VF VF _
      (fun sum item => let n := fsub item m in fadd sum (fmul n n)) _ _ (f32_zero false) _); intros; reflexivity|].
    rewrite HR. reflexivity. }
  (* variance *)
  cbv beta. etransitivity.
  { refine ((fun H : forall K, eval call (run_loop call lf 1) "Iter" 99 _ ?[g] ret K =
        K (VF (fdiv (sum_sq_dev (map (cinto k) l) m) (fsub (f32_of_Z (count L)) F32_ONE))) ?g => H _) _).
    intros K. reflexivity. }
  (* stddev *)
  set (v := fdiv _ _).
  cbv beta. etransitivity.
  { refine ((fun H : forall K, eval call (run_loop call lf 1) "Iter" 99 _ ?[g] ret K =
        (r <- F32_sqrt v ;; K (VF r) ?g) => H _) _).
    intros K. clearbody ret v. remember (F32_sqrt v) as R eqn:HR. sim4.
    etransitivity; [apply Hsqrt|]. rewrite <- HR. destruct R; reflexivity. }
  cbv beta zeta. fold v. destruct (F32_sqrt v) as [sd| |]; [|reflexivity|reflexivity]. cbn [bind].
  unfold VTrim. cbn [ti_input]. rewrite <- HL. reflexivity.
Qed.

Lemma tcond : forall k w l m sd t ret K,
  eval call (run_loop call lf 0) "Iter" depth tnext_cond
    [("self", VTrim k w (mkTrim l m sd t)); ("&mut", VU)] ret K =
  match l with
  | [] => K (VO None) [("self", VTrim k w (mkTrim [] m sd t)); ("&mut", VU)]
  | a :: l => K (VO (Some (cval k a))) [("self", VTrim k w (mkTrim l m sd t)); ("&mut", VU)]
  end.
Proof. intros. destruct l; reflexivity. Qed.

Lemma tbody : forall k, has_into k = true -> forall w it (a : cty k) ret K,
  eval_block call (run_loop call lf 0) "Iter" depth tnext_blk
    [("n", cval k a); ("self", VTrim k w it); ("&mut", VU)] ret (fun _ g => K g) =
  if trim_keep (cinto k) it a then ret (pack (VO (Some (cval k a))) (VTrim k w it))
  else K [("n", cval k a); ("self", VTrim k w it); ("&mut", VU)].
Proof.
  intros k Hk w it a ret K.
  destruct it as [inp mn sd th]. unfold VTrim, trim_keep. cbn [ti_input ti_mean ti_stddev ti_threshold].
  remember (map (cval k) inp) as L eqn:HL.
  match goal with |- _ = ?x => remember x as R eqn:HR end.
  kinds k; sim4; (etransitivity; [apply Habs|]); rewrite HR; clear HR R; cbv zeta;
    (transitivity
      (if flt (fdiv (F32_abs (fsub (cinto _ a) mn)) sd) th then
        ret (pack (VO (Some (cval _ a))) (VD "Iter" [("input", VA w L); ("mean", VF mn); ("stddev", VF sd); ("threshold", VF th)]))
       else K [("n", cval _ a); ("self", VD "Iter" [("input", VA w L); ("mean", VF mn); ("stddev", VF sd); ("threshold", VF th)]); ("&mut", VU)]);
     [reflexivity|reflexivity]).
Qed.

Lemma trounds : forall k, has_into k = true -> forall w ret m sd t K l n, (List.length l < n)%nat ->
  while_loop (fun g k => eval call (run_loop call lf 0) "Iter" depth tnext_cond g ret k)
    (fun g k => eval_block call (run_loop call lf 0) "Iter" depth tnext_blk g ret (fun _ g => k g)) "n" n
    [("self", VTrim k w (mkTrim l m sd t)); ("&mut", VU)] K =
  match trim_next_loop (cinto k) (mkTrim [] m sd t) l with
  | (Some a, r) => ret (pack (VO (Some (cval k a))) (VTrim k w (mkTrim r m sd t)))
  | (None, r) => K VU [("self", VTrim k w (mkTrim r m sd t)); ("&mut", VU)]
  end.
Proof.
  intros k Hk w ret m sd t K l. induction l as [|a l IH]; intros [|n] Hn; try (cbn in Hn; lia).
  - cbn [while_loop trim_next_loop]. rewrite tcond. reflexivity.
  - cbn [while_loop trim_next_loop]. rewrite tcond. cbv beta iota. rewrite (tbody k Hk).
    change (trim_keep (cinto k) (mkTrim l m sd t) a) with (trim_keep (cinto k) (mkTrim [] m sd t) a).
    destruct (trim_keep _ _ a). reflexivity.
    cbn [leave List.length Nat.sub skipn]. apply IH. cbn in Hn. lia.
Qed.

Lemma tnext_run : forall k, has_into k = true -> forall w it kk, (List.length (ti_input it) < lf)%nat ->
  run_item lf call tnext_item [VTrim k w it] kk =
  kk (pack (VO (option_map (cval k) (fst (trim_next (cinto k) it)))) (VTrim k w (snd (trim_next (cinto k) it)))).
Proof.
  intros k Hk w it kk Hlf. destruct it as [l m sd t]. cbn [ti_input] in Hlf.
  set (ret := fun v => match coerce "Iter" "Option<N>" v with Some v => kk v | None => stuck end).
  set (K := fun v g => match lookup "self" g with Some s => kk (pack v s) | None => stuck end).
  transitivity (eval_block call (run_loop call lf 1) "Iter" 100
    (match i_body tnext_item with Some b => b | None => Block [] None end)
    [("self", VTrim k w (mkTrim l m sd t)); ("&mut", VU)] ret K).
  { reflexivity. }
  cbv beta iota delta [i_body tnext_item]. rewrite stmts_eq. cbn [stmts].
  etransitivity.
  { refine ((fun H : forall K, eval call (run_loop call lf 1) "Iter" 99 _ ?[g] ret K =
        match trim_next_loop (cinto k) (mkTrim [] m sd t) l with
        | (Some a, r) => ret (pack (VO (Some (cval k a))) (VTrim k w (mkTrim r m sd t)))
        | (None, r) => K VU [("self", VTrim k w (mkTrim r m sd t)); ("&mut", VU)]
        end => H _) _).
    intros K'. etransitivity; [|apply (trounds k Hk w ret m sd t K' l lf Hlf)]. reflexivity. }
  unfold trim_next. cbn [ti_input ti_mean ti_stddev ti_threshold].
  replace (trim_next_loop (cinto k) (mkTrim [] m sd t) l) with (trim_next_loop (cinto k) (mkTrim l m sd t) l).
  2: { generalize l at 1. intros l0. clear. induction l as [|a l IH]. reflexivity.
       cbn [trim_next_loop]. rewrite IH. reflexivity. }
  destruct (trim_next_loop (cinto k) (mkTrim l m sd t) l) as [[a|] r]; reflexivity.
Qed.
End Variance.

(** ** The statistics as linked *)

Definition stail (f : string) : list (string * item) := snd (stat_at f).
Definition mean_tail := Eval vm_compute in stail "I::mean".
Definition variance_tail := Eval vm_compute in stail "&[]::variance".
Definition stddev_tail := Eval vm_compute in stail "&[]::stddev".
Definition tnew_tail := Eval vm_compute in stail "Iter::new".
Definition tnext_tail := Eval vm_compute in stail "Iter::next".

Section Linked.
Context {E : Env} (lf : nat).
Open Scope string_scope.
Let base := by_table (model_sem lf).

Lemma in_mean : forall l, split_on "I::mean" l = Some (mean_item, mean_tail) -> forall o m k,
  link_on base lf l "I::mean" [VSeq o (map VF m)] k = (r <- mean m ;; k (VF r)).
Proof. intros l H o m k. rewrite link_on_split, H. apply mean_run. Qed.

Lemma in_sqrt : forall l, In l [stat_nf; variance_tail; stddev_tail; tnew_tail; tnext_tail] -> forall x k,
  link_on base lf l "f32::sqrt" [VF x] k = (r <- F32_sqrt x ;; k (VF r)).
Proof. intros l H x k. destruct H as [<-|[<-|[<-|[<-|[<-|[]]]]]]; sim5; cases. Qed.
Lemma in_abs : forall l, In l [stat_nf; variance_tail; stddev_tail; tnew_tail; tnext_tail] -> forall x k,
  link_on base lf l "f32::abs" [VF x] k = k (VF (F32_abs x)).
Proof. intros l H x k. destruct H as [<-|[<-|[<-|[<-|[<-|[]]]]]]; sim5; reflexivity. Qed.

Lemma in_variance : forall l, split_on "&[]::variance" l = Some (variance_item, variance_tail) ->
  forall k, has_into k = true -> forall o (m : list (cty k)) kk,
  link_on base lf l "&[]::variance" [VSeq o (map (cval k) m)] kk = (r <- variance (cinto k) m ;; kk (VF r)).
Proof.
  intros l H k Hk o m kk. rewrite link_on_split, H. apply variance_run; [|exact Hk].
  apply in_mean. vm_compute. reflexivity.
Qed.

Lemma stat_mean : forall o l, stat_run lf "I::mean" [VSeq o (map VF l)] = (r <- mean l ;; Ok (VF r)).
Proof. intros. rewrite stat_link. apply in_mean. vm_compute. reflexivity. Qed.

Lemma stat_variance : forall k, has_into k = true -> forall o (l : list (cty k)),
  stat_run lf "&[]::variance" [VSeq o (map (cval k) l)] = (r <- variance (cinto k) l ;; Ok (VF r)).
Proof. intros. rewrite stat_link. apply in_variance; [vm_compute; reflexivity|assumption]. Qed.

Lemma stat_stddev : forall k, has_into k = true -> forall o (l : list (cty k)),
  stat_run lf "&[]::stddev" [VSeq o (map (cval k) l)] = (r <- stddev (cinto k) l ;; Ok (VF r)).
Proof.
  intros k Hk o l. rewrite stat_link, link_on_split.
  replace (split_on "&[]::stddev" stat_nf) with (Some (stddev_item, stddev_tail)) by (vm_compute; reflexivity).
  apply stddev_run.
  - apply in_sqrt. cbn; auto.
  - intros kk. apply in_variance; [vm_compute; reflexivity|exact Hk].
Qed.

Lemma in_new : forall l, split_on "Iter::new" l = Some (tnew_item, tnew_tail) ->
  forall k, has_into k = true -> forall w (m : list (cty k)) t kk,
  link_on base lf l "Iter::new" [VA w (map (cval k) m); VF t] kk =
  (r <- trim_new (cinto k) m t ;; kk (VTrim k w r)).
Proof.
  intros l H k Hk w m t kk. rewrite link_on_split, H. apply tnew_run; [| |exact Hk].
  - apply in_mean. vm_compute. reflexivity.
  - apply in_sqrt. cbn; auto.
Qed.

Lemma stat_new : forall k, has_into k = true -> forall w (l : list (cty k)) t,
  stat_run lf "Iter::new" [VA w (map (cval k) l); VF t] =
  (r <- trim_new (cinto k) l t ;; Ok (VTrim k w r)).
Proof. intros. rewrite stat_link. apply in_new; [vm_compute; reflexivity|assumption]. Qed.

Lemma stat_next : forall k, has_into k = true -> forall w (it : TrimIter (cty k)),
  (List.length (ti_input it) < lf)%nat ->
  stat_run lf "Iter::next" [VTrim k w it] =
  Ok (pack (VO (option_map (cval k) (fst (trim_next (cinto k) it)))) (VTrim k w (snd (trim_next (cinto k) it)))).
Proof.
  intros k Hk w it Hl. rewrite stat_link, link_on_split.
  replace (split_on "Iter::next" stat_nf) with (Some (tnext_item, tnext_tail)) by (vm_compute; reflexivity).
  apply tnext_run; [|exact Hk|exact Hl]. apply in_abs. cbn; tauto.
Qed.

Definition trimat_item := Eval vm_compute in fst (stat_at "&[]::trim_at").
Definition trimat_tail := Eval vm_compute in stail "&[]::trim_at".
Definition trim_item := Eval vm_compute in fst (stat_at "&[]::trim").
Definition trim_tail := Eval vm_compute in stail "&[]::trim".

Lemma in_trim_at : forall l, split_on "&[]::trim_at" l = Some (trimat_item, trimat_tail) ->
  forall k, has_into k = true -> forall w (m : list (cty k)) t kk,
  link_on base lf l "&[]::trim_at" [VA w (map (cval k) m); VF t] kk =
  (r <- trim_new (cinto k) m t ;; kk (VTrim k w r)).
Proof.
  intros l H k Hk w m t kk. rewrite link_on_split, H.
  assert (Hn : forall kk, link_on base lf trimat_tail "Iter::new" [VA w (map (cval k) m); VF t] kk =
    (r <- trim_new (cinto k) m t ;; kk (VTrim k w r))).
  { intros. apply in_new; [vm_compute; reflexivity|exact Hk]. }
  revert Hn. generalize (link_on base lf trimat_tail). intros call Hn.
  remember (trim_new (cinto k) m t) as R eqn:HR. remember (map (cval k) m) as L eqn:HL.
  sim4. etransitivity; [apply Hn|]. destruct R; reflexivity.
Qed.
Lemma stat_trim_at : forall k, has_into k = true -> forall w (l : list (cty k)) t,
  stat_run lf "&[]::trim_at" [VA w (map (cval k) l); VF t] =
  (r <- trim_new (cinto k) l t ;; Ok (VTrim k w r)).
Proof. intros. rewrite stat_link. apply in_trim_at; [vm_compute; reflexivity|assumption]. Qed.
Lemma stat_threshold : stat_run lf "DEFAULT_THRESHOLD" [] = Ok (VF DEFAULT_THRESHOLD).
Proof. rewrite stat_link. reflexivity. Qed.
Lemma stat_trim : forall k, has_into k = true -> forall w (l : list (cty k)),
  stat_run lf "&[]::trim" [VA w (map (cval k) l)] =
  (r <- trim_new (cinto k) l DEFAULT_THRESHOLD ;; Ok (VTrim k w r)).
Proof.
  intros k Hk w m. rewrite stat_link, link_on_split.
  replace (split_on "&[]::trim" stat_nf) with (Some (trim_item, trim_tail)) by (vm_compute; reflexivity).
  assert (Hn : forall t kk, link_on base lf trim_tail "&[]::trim_at" [VA w (map (cval k) m); VF t] kk =
    (r <- trim_new (cinto k) m t ;; kk (VTrim k w r))).
  { intros. apply in_trim_at; [vm_compute; reflexivity|exact Hk]. }
  assert (Ht : forall kk, link_on base lf trim_tail "DEFAULT_THRESHOLD" [] kk = kk (VF DEFAULT_THRESHOLD)).
  { intros. reflexivity. }
  revert Hn Ht. fold base. generalize (link_on base lf trim_tail). intros call Hn Ht.
  remember (map (cval k) m) as L eqn:HL.
  set (ret := fun v => match coerce "&[]" "Iter<Self::Result>" v with Some v => Ok v | None => stuck end).
  transitivity (eval_block call (run_loop call lf 1) "&[]" 100
    (match i_body trim_item with Some b => b | None => Block [] None end) [("self", VA w L)] ret (fun v _ => ret v)).
  { reflexivity. }
  cbv beta iota delta [i_body trim_item]. rewrite stmts_eq. cbn [stmts].
  etransitivity.
  { refine ((fun H : forall K, eval call (run_loop call lf 1) "&[]" 99 _ _ ret K =
      call "DEFAULT_THRESHOLD" [] (fun t => call "&[]::trim_at" [VA w L; t] (fun v =>
         unpack (EPath ["self"]) v [("self", VA w L)] K)) => H _) _). intros K. reflexivity. }
  rewrite Ht, Hn. destruct (trim_new _ _ _); reflexivity.
Qed.
End Linked.

(** src/statistics/*.rs. *)
Lemma source2_statistics : forall {E : Env} lf (l : list f32) o (k : ckind) (m : list (cty k)) (w : V) (t : f32)
    (it : TrimIter (cty k)),
  stat_run lf "I::mean" [VSeq o (map VF l)] = (r <- mean l ;; Ok (VF r)) /\
  stat_run lf "DEFAULT_THRESHOLD" [] = Ok (VF DEFAULT_THRESHOLD) /\
  (has_into k = true ->
    stat_run lf "&[]::variance" [VSeq o (map (cval k) m)] = (r <- variance (cinto k) m ;; Ok (VF r)) /\
    stat_run lf "&[]::stddev" [VSeq o (map (cval k) m)] = (r <- stddev (cinto k) m ;; Ok (VF r)) /\
    stat_run lf "Iter::new" [VA w (map (cval k) m); VF t] = (r <- trim_new (cinto k) m t ;; Ok (VTrim k w r)) /\
    stat_run lf "&[]::trim_at" [VA w (map (cval k) m); VF t] = (r <- trim_new (cinto k) m t ;; Ok (VTrim k w r)) /\
    stat_run lf "&[]::trim" [VA w (map (cval k) m)] =
      (r <- trim_new (cinto k) m DEFAULT_THRESHOLD ;; Ok (VTrim k w r)) /\
    ((List.length (ti_input it) < lf)%nat ->
     stat_run lf "Iter::next" [VTrim k w it] =
     Ok (pack (VO (option_map (cval k) (fst (trim_next (cinto k) it))))
              (VTrim k w (snd (trim_next (cinto k) it)))))).
Proof.
  intros. split; [apply stat_mean|]. split; [apply stat_threshold|]. intros Hk.
  repeat apply conj; intros;
    [apply stat_variance|apply stat_stddev|apply stat_new|apply stat_trim_at|apply stat_trim|apply stat_next];
    assumption.
Qed.

(** ** Sums and products of F32 (src/float.rs) *)

Definition fsum_item : item := Eval vm_compute in fst (stat_at "SumforF32::sum").
Definition fsum_tail := Eval vm_compute in stail "SumforF32::sum".
Definition fprod_item : item := Eval vm_compute in fst (stat_at "ProductforF32::product").
Definition fprod_tail := Eval vm_compute in stail "ProductforF32::product".

Lemma fold_run : forall {E : Env} lf call (prod : bool) w l kk,
  run_item lf call (if prod then fprod_item else fsum_item) [VA (VW w) (map VW l)] kk =
  kk (VW (if prod then F32_product l else F32_sum l)).
Proof.
  intros E lf call prod w l kk. remember (map VW l) as L eqn:HL.
  remember (VW (if prod then F32_product l else F32_sum l)) as R eqn:HR.
  destruct prod; sim4; rewrite HL;
    (etransitivity; [refine (map_list_run VW VF _ (fun x => x) _ l _); intros; reflexivity|]).
  - etransitivity; [refine (fold_list_pure VF VF _ fmul _ _ (from_bits 0x3F800000) _); intros; reflexivity|].
    rewrite map_id, HR. reflexivity.
  - etransitivity; [refine (fold_list_pure VF VF _ fadd _ _ (f32_zero sum_start) _); intros; reflexivity|].
    rewrite map_id, HR. reflexivity.
Qed.

Lemma source2_sum : forall {E : Env} lf w l,
  stat_run lf "SumforF32::sum" [VA (VW w) (map VW l)] = Ok (VW (F32_sum l)) /\
  stat_run lf "ProductforF32::product" [VA (VW w) (map VW l)] = Ok (VW (F32_product l)).
Proof.
  intros. rewrite !stat_link, !link_on_split.
  replace (split_on "SumforF32::sum" stat_nf) with (Some (fsum_item, fsum_tail)) by (vm_compute; reflexivity).
  replace (split_on "ProductforF32::product" stat_nf) with (Some (fprod_item, fprod_tail)) by (vm_compute; reflexivity).
  split. apply (fold_run lf _ false). apply (fold_run lf _ true).
Qed.

(** ** [Vector::dot], the method of the trait with the name of one outside it *)

Definition tdot2 : item := Eval vm_compute in find_in (after "Vector2d::dot" geo_program) "Vector2d::dot".
Definition tdot3 : item := Eval vm_compute in find_in (after "Vector3d::dot" geo_program) "Vector3d::dot".

Lemma geo_link_all : forall {E : Env} lf, link lf geo_linked = link_on (by_table (model_sem lf)) lf geo_nf.
Proof.
  intros. unfold geo_linked, base_linked. rewrite <- geo_nf_eq, <- link_on_eq. unfold base_items.
  rewrite <- !app_assoc. reflexivity.
Qed.

Lemma source2_dot : forall {E : Env} lf k (a b : Vector2d (cty k)) (v w : Vector3d (cty k)),
  run_item lf (link lf geo_linked) (find_in (after "Vector2d::dot" geo_program) "Vector2d::dot")
    [V2 k a; V2 k b] Ok = (r <- v2_dot a b ;; Ok (cval k r)) /\
  run_item lf (link lf geo_linked) (find_in (after "Vector3d::dot" geo_program) "Vector3d::dot")
    [V3 k v; V3 k w] Ok = (r <- v3_dot v w ;; Ok (cval k r)).
Proof.
  intros E lf k a b v w. rewrite geo_link_all.
  replace (find_in (after "Vector2d::dot" geo_program) "Vector2d::dot") with tdot2 by (vm_compute; reflexivity).
  replace (find_in (after "Vector3d::dot" geo_program) "Vector3d::dot") with tdot3 by (vm_compute; reflexivity).
  split; destruct k; sim3; cases.
Qed.

(** ** What is covered *)

Lemma source2_covered : forallb (handled (geo_order ++ ext_order)) (with_body geo_program) = true /\
  forallb (handled (stat_order ++ ext_order)) (with_body stat_program) = true /\
  repeated (with_body geo_program) = ["Vector2d::dot"; "Vector3d::dot"]%string /\
  repeated (with_body stat_program) = [] /\
  (List.length (with_body geo_program), List.length (with_body stat_program)) = (170, 42)%nat.
Proof. vm_compute. repeat split. Qed.
