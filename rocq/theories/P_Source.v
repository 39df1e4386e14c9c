(** * The source text means what the model says

    For every function of src/float.rs and src/float/*.rs the interpreter of
    RustSem.v, run on the text with the callees replaced by their models, gives
    the model of the function; linking them one after another gives the theorem
    for the text alone. *)

From Coq Require Import ZArith Bool List String Lia FunctionalExtensionality.
From Flocq Require Import Core IEEE754.Binary.
From Verif Require Import Base Float RustSyntax RustSem SrcText Source.
From Verif Require Import F32Lemmas BitLemmas P_Powi.
Import ListNotations.
Open Scope Z_scope.

(** ** Tactics *)

Lemma zero_lit : from_bits 0 = f32_zero false.
Proof. reflexivity. Qed.

(** Run the interpreter, leaving the primitive operations and the models of the
    callees alone. *)
Ltac sim :=
  cbv -[fadd fsub fmul fdiv frem fneg feq flt fle fgt fge from_bits to_bits f32_of_Z to_i32
        arith clamp wrap shl32 shr32 not32 lz32 f32_NAN f32_zero f32_inf
        is_nan is_infinite is_finite sign_bit Binary.Bcompare
        Z.land Z.lor Z.lxor Z.shiftr Z.shiftl Z.add Z.sub Z.mul Z.modulo Z.rem Z.abs Z.max Z.to_nat
        Z.eqb Z.ltb Z.leb run_loop
        extract_exponent_bits extract_exponent_value set_exponent without_sign is_integer is_even
        F32_abs F32_copysign F32_signum F32_trunc F32_fract F32_floor
        F32_ceil F32_round F32_rem_euclid F32_div_euclid F32_sqrt F32_invsqrt
        F32_inv F32_recip F32_hypot F32_mul_add F32_cos F32_sin
        F32_sin_cos F32_sin_cos F32_tan F32_atan_norm F32_atan F32_atan2_norm
        F32_atan2 F32_asin F32_acos F32_exp_smallx F32_exp_ln2_approx F32_exp
        F32_cosh F32_ln F32_log F32_log2 F32_log10 F32_powf
        F32_powi];
  rewrite ?zero_lit.

Ltac isnum a := lazymatch a with Z0 => idtac | Zpos _ => idtac | Zneg _ => idtac end.
Ltac ev t := let r := eval vm_compute in t in change t with r.
Ltac closed1 :=
  match goal with
    | |- context [Z.eqb ?a ?b] => isnum a; isnum b; ev (Z.eqb a b)
    | |- context [Z.ltb ?a ?b] => isnum a; isnum b; ev (Z.ltb a b)
    | |- context [Z.leb ?a ?b] => isnum a; isnum b; ev (Z.leb a b)
    | |- context [Z.add ?a ?b] => isnum a; isnum b; ev (Z.add a b)
    | |- context [Z.sub ?a ?b] => isnum a; isnum b; ev (Z.sub a b)
    | |- context [Z.mul ?a ?b] => isnum a; isnum b; ev (Z.mul a b)
    | |- context [Z.modulo ?a ?b] => isnum a; isnum b; ev (Z.modulo a b)
    | |- context [Z.to_nat ?a] => isnum a; ev (Z.to_nat a)
    | |- context [wrap ?t ?a] => isnum a; ev (wrap t a)
    | |- context [arith ?t ?a] => isnum a; ev (arith t a)
    end.
Ltac closed := repeat (repeat closed1; progress cbv beta iota); repeat closed1.
Ltac cases :=
  repeat (reflexivity
          || match goal with
             | |- context [match ?c with _ => _ end] =>
                 lazymatch c with context [match _ with _ => _ end] => fail | _ => destruct c end
             end).
Ltac keep := lazymatch goal with
  | |- context [VW _ :: nil] => idtac
  | |- context [VW _ :: VW _ :: nil] => idtac
  | |- context [VW _ :: VW _ :: VW _ :: nil] => idtac
  | |- context [VW _ :: VI I32 _ :: nil] => idtac
  | |- context [VW _ :: VI U32 _ :: nil] => idtac
  | |- context [VW _ :: VL _ :: nil] => idtac
  | |- context [VI U32 _ :: nil] => idtac
  | |- context [VL _ :: nil] => idtac
  | _ => reflexivity
  end.
Ltac ar0 := intros [|a args] k; [|reflexivity].
Ltac ar1 := intros [|a [|b args]] k; [reflexivity| |destruct a; reflexivity]; destruct a; lazymatch goal with |- context [VW _ :: nil] => idtac | _ => reflexivity end.
Ltac aru := intros [|a [|b args]] k; [reflexivity| |destruct a as [| |t| | | | | | | | | | | |]; try reflexivity; destruct t; reflexivity];
  destruct a as [| |t| | | | | | | | | | | |]; try reflexivity; try (destruct t; try reflexivity).
Ltac ar2 := intros [|a [|b [|c args]]] k;
  [reflexivity|destruct a; reflexivity| |destruct a; try reflexivity; destruct b; reflexivity];
  destruct a; lazymatch goal with |- context [VW _ :: _] => idtac | _ => reflexivity end;
  destruct b; lazymatch goal with |- context [VW _ :: VW _ :: nil] => idtac | _ => reflexivity end.
Ltac ar3 := intros [|a [|b [|c [|d args]]]] k;
  [reflexivity|destruct a; reflexivity|destruct a; try reflexivity; destruct b; reflexivity| |
   destruct a; try reflexivity; destruct b; try reflexivity; destruct c; reflexivity];
  destruct a; lazymatch goal with |- context [VW _ :: _] => idtac | _ => reflexivity end;
  destruct b; lazymatch goal with |- context [VW _ :: VW _ :: _] => idtac | _ => reflexivity end;
  destruct c; lazymatch goal with |- context [VW _ :: VW _ :: VW _ :: nil] => idtac | _ => reflexivity end.
Ltac arz t0 := intros [|a [|b [|c args]]] k;
  [reflexivity|destruct a; reflexivity| |
   destruct a; try reflexivity; destruct b as [| |t| | | | | | | | | | | |]; try reflexivity; destruct t; reflexivity];
  destruct a; lazymatch goal with |- context [VW _ :: _] => idtac | _ => reflexivity end;
  destruct b as [| |t| | | | | | | | | | | |];
  lazymatch goal with
  | |- context [VW _ :: VI _ _ :: nil] => destruct t;
      lazymatch goal with |- context [VW _ :: VI t0 _ :: nil] => idtac | _ => reflexivity end
  | |- context [VW _ :: VL _ :: nil] => idtac
  | _ => reflexivity
  end.

(** ** Ranges *)

Lemma bits_mod : forall x, extract_exponent_bits x mod 2 ^ 32 = extract_exponent_bits x.
Proof.
  intros x. rewrite extract_exponent_bits_eq. pose proof (bexp_range (to_bits x)).
  apply Z.mod_small. lia.
Qed.

Lemma bits_wrap : forall x, wrap (mkity true 32) (extract_exponent_bits x) = extract_exponent_bits x.
Proof.
  intros x. rewrite extract_exponent_bits_eq. pose proof (bexp_range (to_bits x)).
  unfold wrap. cbn [ity_min ity_signed ity_bits]. unfold ity_min. cbn [ity_signed ity_bits].
  change (2 ^ (32 - 1)) with 2147483648. rewrite Z.mod_small; lia.
Qed.

Lemma exp_arith : forall {E : Env} x, arith (mkity true 32) (extract_exponent_bits x - 127) = Ok (extract_exponent_value x).
Proof.
  intros E x. unfold arith, extract_exponent_value.
  replace (in_range _ _) with true. reflexivity.
  rewrite extract_exponent_bits_eq. pose proof (bexp_range (to_bits x)).
  symmetry. unfold in_range, ity_min, ity_max. cbn [ity_signed ity_bits].
  change (2 ^ (32 - 1)) with 2147483648.
  apply andb_true_intro. split; apply Z.leb_le; lia.
Qed.

Lemma max_mod : forall x, Z.max (extract_exponent_value x) 0 mod 4294967296 = Z.max (extract_exponent_value x) 0.
Proof. intros x. pose proof (exp_range x). apply Z.mod_small. lia. Qed.

Lemma exp_mod : forall x, (extract_exponent_value x <? 0) = false ->
  extract_exponent_value x mod 4294967296 = extract_exponent_value x.
Proof. intros x H. apply Z.ltb_ge in H. pose proof (exp_range x). apply Z.mod_small. lia. Qed.

(** ** The items *)

Definition prog_nf : list item := Eval vm_compute in program.
Lemma program_nf : program = prog_nf.
Proof. vm_compute. reflexivity. Qed.
Definition get_nf (f : string) : item :=
  or_else (mkitem "" "" "" [] "" false None) (find_item f prog_nf).

Definition n_SIGN_MASK : item := Eval vm_compute in get_nf "SIGN_MASK".
Definition n_EXPONENT_MASK : item := Eval vm_compute in get_nf "EXPONENT_MASK".
Definition n_MANTISSA_MASK : item := Eval vm_compute in get_nf "MANTISSA_MASK".
Definition n_EXPONENT_BIAS : item := Eval vm_compute in get_nf "EXPONENT_BIAS".
Definition n_MANTISSA_BITS : item := Eval vm_compute in get_nf "MANTISSA_BITS".
Definition n_ZERO : item := Eval vm_compute in get_nf "F32::ZERO".
Definition n_ONE : item := Eval vm_compute in get_nf "F32::ONE".
Definition n_EPSILON : item := Eval vm_compute in get_nf "F32::EPSILON".
Definition n_NAN : item := Eval vm_compute in get_nf "F32::NAN".
Definition n_INFINITY : item := Eval vm_compute in get_nf "F32::INFINITY".
Definition n_NEG_INFINITY : item := Eval vm_compute in get_nf "F32::NEG_INFINITY".
Definition n_is_nan : item := Eval vm_compute in get_nf "F32::is_nan".
Definition n_is_infinite : item := Eval vm_compute in get_nf "F32::is_infinite".
Definition n_is_finite : item := Eval vm_compute in get_nf "F32::is_finite".
Definition n_is_sign_positive : item := Eval vm_compute in get_nf "F32::is_sign_positive".
Definition n_is_sign_negative : item := Eval vm_compute in get_nf "F32::is_sign_negative".
Definition n_to_bits : item := Eval vm_compute in get_nf "F32::to_bits".
Definition n_from_bits : item := Eval vm_compute in get_nf "F32::from_bits".
Definition n_extract_exponent_bits : item := Eval vm_compute in get_nf "F32::extract_exponent_bits".
Definition n_extract_exponent_value : item := Eval vm_compute in get_nf "F32::extract_exponent_value".
Definition n_without_sign : item := Eval vm_compute in get_nf "F32::without_sign".
Definition n_set_exponent : item := Eval vm_compute in get_nf "F32::set_exponent".
Definition n_is_integer : item := Eval vm_compute in get_nf "F32::is_integer".
Definition n_is_even : item := Eval vm_compute in get_nf "F32::is_even".
Definition n_abs : item := Eval vm_compute in get_nf "F32::abs".
Definition n_copysign : item := Eval vm_compute in get_nf "F32::copysign".
Definition n_signum : item := Eval vm_compute in get_nf "F32::signum".
Definition n_trunc : item := Eval vm_compute in get_nf "F32::trunc".
Definition n_fract : item := Eval vm_compute in get_nf "F32::fract".
Definition n_floor : item := Eval vm_compute in get_nf "F32::floor".
Definition n_ceil : item := Eval vm_compute in get_nf "F32::ceil".
Definition n_round : item := Eval vm_compute in get_nf "F32::round".
Definition n_rem_euclid : item := Eval vm_compute in get_nf "F32::rem_euclid".
Definition n_div_euclid : item := Eval vm_compute in get_nf "F32::div_euclid".
Definition n_sqrt : item := Eval vm_compute in get_nf "F32::sqrt".
Definition n_invsqrt : item := Eval vm_compute in get_nf "F32::invsqrt".
Definition n_inv : item := Eval vm_compute in get_nf "F32::inv".
Definition n_recip : item := Eval vm_compute in get_nf "F32::recip".
Definition n_hypot : item := Eval vm_compute in get_nf "F32::hypot".
Definition n_mul_add : item := Eval vm_compute in get_nf "F32::mul_add".
Definition n_cos : item := Eval vm_compute in get_nf "F32::cos".
Definition n_sin : item := Eval vm_compute in get_nf "F32::sin".
Definition n_sin_cos : item := Eval vm_compute in get_nf "F32::sin_cos".
Definition n_tan : item := Eval vm_compute in get_nf "F32::tan".
Definition n_atan_norm : item := Eval vm_compute in get_nf "F32::atan_norm".
Definition n_atan : item := Eval vm_compute in get_nf "F32::atan".
Definition n_atan2_norm : item := Eval vm_compute in get_nf "F32::atan2_norm".
Definition n_atan2 : item := Eval vm_compute in get_nf "F32::atan2".
Definition n_asin : item := Eval vm_compute in get_nf "F32::asin".
Definition n_acos : item := Eval vm_compute in get_nf "F32::acos".
Definition n_exp_smallx : item := Eval vm_compute in get_nf "F32::exp_smallx".
Definition n_exp_ln2_approx : item := Eval vm_compute in get_nf "F32::exp_ln2_approx".
Definition n_exp : item := Eval vm_compute in get_nf "F32::exp".
Definition n_cosh : item := Eval vm_compute in get_nf "F32::cosh".
Definition n_ln : item := Eval vm_compute in get_nf "F32::ln".
Definition n_log : item := Eval vm_compute in get_nf "F32::log".
Definition n_log2 : item := Eval vm_compute in get_nf "F32::log2".
Definition n_log10 : item := Eval vm_compute in get_nf "F32::log10".
Definition n_powf : item := Eval vm_compute in get_nf "F32::powf".
Definition n_powi : item := Eval vm_compute in get_nf "F32::powi".

Lemma linked_nf : linked =
  [n_powi; n_powf; n_log10; n_log2; n_log; n_ln;
   n_cosh; n_exp; n_exp_ln2_approx; n_exp_smallx; n_acos; n_asin;
   n_atan2; n_atan2_norm; n_atan; n_atan_norm; n_tan; n_sin_cos;
   n_sin; n_cos; n_mul_add; n_hypot; n_recip; n_inv;
   n_invsqrt; n_sqrt; n_div_euclid; n_rem_euclid; n_round; n_ceil;
   n_floor; n_fract; n_trunc; n_signum; n_copysign; n_abs;
   n_is_even; n_is_integer; n_set_exponent; n_without_sign; n_extract_exponent_value; n_extract_exponent_bits;
   n_from_bits; n_to_bits; n_is_sign_negative; n_is_sign_positive; n_is_finite; n_is_infinite;
   n_is_nan; n_NEG_INFINITY; n_INFINITY; n_NAN; n_EPSILON; n_ONE;
   n_ZERO; n_MANTISSA_BITS; n_EXPONENT_BIAS; n_MANTISSA_MASK; n_EXPONENT_MASK; n_SIGN_MASK].
Proof. unfold linked, get. rewrite program_nf. vm_compute. reflexivity. Qed.

Section Items.
Context {E : Env} (lf : nat).
Let tail (j : nat) := by_table (skipn j (model_sem lf)).

(** *** Loops *)

Definition exp_body : block :=
  Eval vm_compute in
  match i_body n_exp_smallx with
  | Some (Block (_ :: SExpr (EFor _ _ b) :: _) _) => b
  | _ => Block [] None
  end.
Definition exp_for : expr :=
  Eval vm_compute in
  match i_body n_exp_smallx with
  | Some (Block (_ :: SExpr e :: _) _) => e
  | _ => EInt 0 ""
  end.
Definition powi_body : block :=
  Eval vm_compute in
  match i_body n_powi with
  | Some (Block _ (Some (ELoop b))) => b
  | _ => Block [] None
  end.

Lemma exp_step : forall call x n ret t i kk,
  eval_block call (run_loop call lf 0) "F32" depth exp_body
    [("i"%string, VI U32 i); ("total"%string, VF t); ("self"%string, VW x); ("iter"%string, VI U32 n)]
    ret (fun _ g => kk g) =
  kk [("i"%string, VI U32 i); ("total"%string, VF (fadd F32_ONE (fmul (fdiv x (f32_of_Z i)) t)));
      ("self"%string, VW x); ("iter"%string, VI U32 n)].
Proof. intros. sim. closed. reflexivity. Qed.

Lemma exp_rounds : forall call x n ret k m t,
  for_loop (fun g k => eval_block call (run_loop call lf 0) "F32" depth exp_body g ret (fun _ g => k g))
    "i" (rev (map (fun i => VI U32 (1 + Z.of_nat i)) (seq 0 m)))
    [("total"%string, VF t); ("self"%string, VW x); ("iter"%string, VI U32 n)] k =
  k VU [("total"%string, VF (exp_smallx_loop x m t)); ("self"%string, VW x); ("iter"%string, VI U32 n)].
Proof.
  intros call x n ret k m. induction m as [|m IH]; intros t. reflexivity.
  rewrite seq_S, map_app, rev_app_distr. cbn [map rev app for_loop Nat.add].
  rewrite exp_step. cbn [leave List.length Nat.sub skipn]. rewrite IH. cbn [exp_smallx_loop].
  replace (Z.of_nat (S m)) with (1 + Z.of_nat m) by lia. reflexivity.
Qed.

Lemma exp_loop_run : forall call x n ret k t,
  run_loop call lf 1 "F32" exp_for
    [("total"%string, VF t); ("self"%string, VW x); ("iter"%string, VI U32 n)] ret k =
  k VU [("total"%string, VF (exp_smallx_loop x (Z.to_nat n) t)); ("self"%string, VW x); ("iter"%string, VI U32 n)].
Proof.
  intros. replace (Z.to_nat n) with (Z.to_nat (n + 1 - 1)) by (f_equal; lia).
  rewrite <- exp_rounds with (call := call) (ret := ret). reflexivity.
Qed.

Lemma exp_smallx_run : forall call x n k,
  run_item lf call n_exp_smallx [VW x; VI U32 n] k = k (VW (F32_exp_smallx x (Z.to_nat n))).
Proof.
  intros call x n k.
  change (run_item lf call n_exp_smallx [VW x; VI U32 n] k) with
    (run_loop call lf 1 "F32" exp_for
      [("total"%string, VF F32_ONE); ("self"%string, VW x); ("iter"%string, VI U32 n)]
      (fun v => match coerce "F32" "Self" v with Some v => k v | None => stuck end)
      (fun _ g => eval call (run_loop call lf 1) "F32" 98 (ECall ["Self"%string] [EPath ["total"%string]]) g
         (fun v => match coerce "F32" "Self" v with Some v => k v | None => stuck end)
         (fun v _ => match coerce "F32" "Self" v with Some v => k v | None => stuck end))).
  rewrite exp_loop_run. reflexivity.
Qed.

Lemma powi_step : forall call x n ret a b r kk,
  eval_block call (run_loop call lf 0) "F32" depth powi_body
    [("result"%string, VF r); ("abs_n"%string, VI I32 a); ("base"%string, VW b);
     ("self"%string, VW x); ("n"%string, VI I32 n)]
    ret (fun _ g => kk g) =
  let r := if Z.land a 1 =? 1 then fmul r b else r in
  if Z.shiftr a 1 =? 0 then ret (VW r)
  else kk [("result"%string, VF r); ("abs_n"%string, VI I32 (Z.shiftr a 1)); ("base"%string, VW (fmul b b));
           ("self"%string, VW x); ("n"%string, VI I32 n)].
Proof. intros. sim. closed. cases. Qed.

Lemma powi_rounds : forall call x n ret m a b r,
  inf_loop (fun g k => eval_block call (run_loop call lf 0) "F32" depth powi_body g ret (fun _ g => k g))
    m [("result"%string, VF r); ("abs_n"%string, VI I32 a); ("base"%string, VW b);
       ("self"%string, VW x); ("n"%string, VI I32 n)] =
  v <- powi_loop m a b r ;; ret (VW v).
Proof.
  intros call x n ret m. induction m as [|m IH]; intros a b r. reflexivity.
  cbn [inf_loop powi_loop]. rewrite powi_step. cbv zeta.
  destruct (Z.shiftr a 1 =? 0). destruct (Z.land a 1 =? 1); reflexivity.
  cbn [leave List.length Nat.sub skipn]. apply IH.
Qed.

Lemma powi_loop_run : forall call x n ret k a b r,
  run_loop call lf 1 "F32" (ELoop powi_body)
    [("result"%string, VF r); ("abs_n"%string, VI I32 a); ("base"%string, VW b);
     ("self"%string, VW x); ("n"%string, VI I32 n)] ret k =
  v <- powi_loop lf a b r ;; ret (VW v).
Proof. intros. rewrite <- powi_rounds with (call := call) (x := x) (n := n). reflexivity. Qed.

(** *** One by one *)

Definition powi_whole : block :=
  Eval vm_compute in match i_body n_powi with Some b => b | None => Block [] None end.

Lemma powi_run : forall x n k lp,
  (forall ret kk a b r,
    lp "F32"%string (ELoop powi_body)
      [("result"%string, VF r); ("abs_n"%string, VI I32 a); ("base"%string, VW b);
       ("self"%string, VW x); ("n"%string, VI I32 n)] ret kk = v <- powi_loop lf a b r ;; ret (VW v)) ->
  let ret v := match coerce "F32" "Self" v with Some v => k v | None => stuck end in
  eval_block (tail 1) lp "F32" depth powi_whole [("self"%string, VW x); ("n"%string, VI I32 n)]
    ret (fun v _ => ret v) = r <- F32_powi lf x n ;; k (VW r).
Proof.
  intros x n k lp H. unfold powi_body in H. unfold F32_powi, powi_early. sim. closed.
  destruct (arith _ (Z.abs n)) as [a| |]; [|reflexivity|reflexivity].
  destruct (n <? 0); (destruct (n =? 0); [reflexivity|]);
  (destruct (feq x (f32_zero false)); [destruct (0 <? n); [reflexivity|]|]);
  (destruct (fle _ _); [destruct (flt _ _); [rewrite H; reflexivity|]|]);
  (destruct (arith _ (extract_exponent_value x * n)) as [e| |]; [|reflexivity|reflexivity]);
  (destruct (127 <? e); [destruct (sign_bit x); [destruct (Z.land n 1 =? 0)|]; reflexivity|]);
  try (destruct (e <? 0); [destruct (sign_bit x); [destruct (Z.land n 1 =? 0)|]; reflexivity|]);
  (destruct (e <? -149); [reflexivity|rewrite H; reflexivity]).
Qed.

Lemma powi_enter : forall call x n k,
  run_item lf call n_powi [VW x; VI I32 n] k =
  let ret v := match coerce "F32" "Self" v with Some v => k v | None => stuck end in
  eval_block call (run_loop call lf 1) "F32" depth powi_whole [("self"%string, VW x); ("n"%string, VI I32 n)]
    ret (fun v _ => ret v).
Proof.
  intros call x n k. unfold run_item.
  change (i_body n_powi) with (Some powi_whole). change (i_self n_powi) with "F32"%string.
  change (i_ret n_powi) with "Self"%string.
  change (i_params n_powi) with [("self", "Self"); ("n", "i32")]%string.
  change (bind_params "F32" [("self", "Self"); ("n", "i32")]%string [VW x; VI I32 n]) with
    (Some [("self"%string, VW x); ("n"%string, VI I32 n)]).
  cbv beta iota zeta. change (extra n_powi [VW x; VI I32 n]) with (@nil (string * V)). cbn [app].
  change (String.eqb "Self" "&mutSelf") with false. cbv iota. reflexivity.
Qed.

Lemma powi_item : forall x n k, run_item lf (tail 1) n_powi [VW x; VI I32 n] k = r <- F32_powi lf x n ;; k (VW r).
Proof.
  intros x n k. rewrite powi_enter.
  apply (powi_run x n k (run_loop (tail 1) lf 1)). intros; apply powi_loop_run.
Qed.

Lemma powi_lit : forall call x n k,
  run_item lf call n_powi [VW x; VL n] k = run_item lf call n_powi [VW x; VI I32 n] k.
Proof.
  intros call x n k.
  assert (B : bind_params (i_self n_powi) (i_params n_powi) [VW x; VL n] =
    bind_params (i_self n_powi) (i_params n_powi) [VW x; VI I32 n]) by reflexivity.
  unfold run_item. rewrite B. reflexivity.
Qed.

Lemma powi_item_lit : forall x n k, run_item lf (tail 1) n_powi [VW x; VL n] k = r <- F32_powi lf x n ;; k (VW r).
Proof. intros x n k. rewrite powi_lit. apply powi_item. Qed.

Lemma s_SIGN_MASK : forall args k, run_item lf (tail 60) n_SIGN_MASK args k = (m0 (VI U32 SIGN_MASK)) args k.
Proof. ar0; sim; closed; cases. Qed.
Lemma s_EXPONENT_MASK : forall args k, run_item lf (tail 59) n_EXPONENT_MASK args k = (m0 (VI U32 EXPONENT_MASK)) args k.
Proof. ar0; sim; closed; cases. Qed.
Lemma s_MANTISSA_MASK : forall args k, run_item lf (tail 58) n_MANTISSA_MASK args k = (m0 (VI U32 MANTISSA_MASK)) args k.
Proof. ar0; sim; closed; cases. Qed.
Lemma s_EXPONENT_BIAS : forall args k, run_item lf (tail 57) n_EXPONENT_BIAS args k = (m0 (VI U32 EXPONENT_BIAS)) args k.
Proof. ar0; sim; closed; cases. Qed.
Lemma s_MANTISSA_BITS : forall args k, run_item lf (tail 56) n_MANTISSA_BITS args k = (m0 (VI U32 MANTISSA_BITS)) args k.
Proof. ar0; sim; closed; cases. Qed.
Lemma s_ZERO : forall args k, run_item lf (tail 55) n_ZERO args k = (m0 (VW F32_ZERO)) args k.
Proof. ar0; sim; closed; cases. Qed.
Lemma s_ONE : forall args k, run_item lf (tail 54) n_ONE args k = (m0 (VW F32_ONE)) args k.
Proof. ar0; sim; closed; cases. Qed.
Lemma s_EPSILON : forall args k, run_item lf (tail 53) n_EPSILON args k = (m0 (VW F32_EPSILON)) args k.
Proof. ar0; sim; closed; cases. Qed.
Lemma s_NAN : forall args k, run_item lf (tail 52) n_NAN args k = (m0 (VW f32_NAN)) args k.
Proof. ar0; sim; closed; cases. Qed.
Lemma s_INFINITY : forall args k, run_item lf (tail 51) n_INFINITY args k = (m0 (VW F32_INFINITY)) args k.
Proof. ar0; sim; closed; cases. Qed.
Lemma s_NEG_INFINITY : forall args k, run_item lf (tail 50) n_NEG_INFINITY args k = (m0 (VW F32_NEG_INFINITY)) args k.
Proof. ar0; sim; closed; cases. Qed.
Lemma s_is_nan : forall args k, run_item lf (tail 49) n_is_nan args k = (m1 (fun x => VB (is_nan x))) args k.
Proof. ar1; sim; closed; cases. Qed.
Lemma s_is_infinite : forall args k, run_item lf (tail 48) n_is_infinite args k = (m1 (fun x => VB (is_infinite x))) args k.
Proof. ar1; sim; closed; cases. Qed.
Lemma s_is_finite : forall args k, run_item lf (tail 47) n_is_finite args k = (m1 (fun x => VB (is_finite x))) args k.
Proof. ar1; sim; closed; cases. Qed.
Lemma s_is_sign_positive : forall args k, run_item lf (tail 46) n_is_sign_positive args k = (m1 (fun x => VB (negb (sign_bit x)))) args k.
Proof. ar1; sim; closed; cases. Qed.
Lemma s_is_sign_negative : forall args k, run_item lf (tail 45) n_is_sign_negative args k = (m1 (fun x => VB (sign_bit x))) args k.
Proof. ar1; sim; closed; cases. Qed.
Lemma s_to_bits : forall args k, run_item lf (tail 44) n_to_bits args k = (m1 (fun x => VI U32 (to_bits x))) args k.
Proof. ar1; sim; closed; cases. Qed.
Lemma s_from_bits : forall args k, run_item lf (tail 43) n_from_bits args k = (mu (fun b => VW (from_bits b))) args k.
Proof. aru; sim; closed; cases. Qed.
Lemma s_extract_exponent_bits : forall args k, run_item lf (tail 42) n_extract_exponent_bits args k = (m1 (fun x => VI U32 (extract_exponent_bits x))) args k.
Proof. ar1; unfold extract_exponent_bits; sim; closed; cases. Qed.
Lemma s_extract_exponent_value : forall args k, run_item lf (tail 41) n_extract_exponent_value args k = (m1 (fun x => VI I32 (extract_exponent_value x))) args k.
Proof. ar1; sim; closed; rewrite bits_wrap, exp_arith; reflexivity. Qed.
Lemma s_without_sign : forall args k, run_item lf (tail 40) n_without_sign args k = (m1 (fun x => VW (without_sign x))) args k.
Proof. ar1; unfold without_sign; sim; closed; cases. Qed.
Lemma s_set_exponent : forall args k, run_item lf (tail 39) n_set_exponent args k = (mz I32 set_exponent) args k.
Proof. arz I32; unfold set_exponent; sim; closed; cases. Qed.
Lemma s_is_integer : forall args k, run_item lf (tail 38) n_is_integer args k = (m1 (fun x => VB (is_integer x))) args k.
Proof. ar1; unfold is_integer; sim; closed; rewrite max_mod; cases. Qed.
Lemma s_is_even : forall args k, run_item lf (tail 37) n_is_even args k = (m1 (fun x => VB (is_even x))) args k.
Proof. ar1; unfold is_even; sim; closed; cases. Qed.
Lemma s_abs : forall args k, run_item lf (tail 36) n_abs args k = (m1 (fun x => VW (F32_abs x))) args k.
Proof. ar1; unfold F32_abs; sim; closed; cases. Qed.
Lemma s_copysign : forall args k, run_item lf (tail 35) n_copysign args k = (m2 (fun x y => VW (F32_copysign x y))) args k.
Proof. ar2; unfold F32_copysign; sim; closed; cases. Qed.
Lemma s_signum : forall args k, run_item lf (tail 34) n_signum args k = (m1 (fun x => VW (F32_signum x))) args k.
Proof. ar1; unfold F32_signum; sim; closed; cases. Qed.
Lemma s_trunc : forall args k, run_item lf (tail 33) n_trunc args k = (m1 (fun x => VW (F32_trunc x))) args k.
Proof. ar1; unfold F32_trunc; sim; closed; rewrite max_mod; cases. Qed.
Lemma s_fract : forall args k, run_item lf (tail 32) n_fract args k = (m1r F32_fract) args k.
Proof. ar1; unfold F32_fract; sim; closed; destruct (extract_exponent_value x <? 0) eqn:X; [reflexivity|rewrite (exp_mod x X)]; cases. Qed.
Lemma s_floor : forall args k, run_item lf (tail 31) n_floor args k = (m1 (fun x => VW (F32_floor x))) args k.
Proof. ar1; unfold F32_floor; sim; closed; cases. Qed.
Lemma s_ceil : forall args k, run_item lf (tail 30) n_ceil args k = (m1 (fun x => VW (F32_ceil x))) args k.
Proof. ar1; unfold F32_ceil; sim; closed; cases. Qed.
Lemma s_round : forall args k, run_item lf (tail 29) n_round args k = (m1 (fun x => VW (F32_round x))) args k.
Proof. ar1; unfold F32_round; sim; closed; cases. Qed.
Lemma s_rem_euclid : forall args k, run_item lf (tail 28) n_rem_euclid args k = (m2 (fun x y => VW (F32_rem_euclid x y))) args k.
Proof. ar2; unfold F32_rem_euclid; sim; closed; cases. Qed.
Lemma s_div_euclid : forall args k, run_item lf (tail 27) n_div_euclid args k = (m2 (fun x y => VW (F32_div_euclid x y))) args k.
Proof. ar2; unfold F32_div_euclid; sim; closed; cases. Qed.
Lemma s_sqrt : forall args k, run_item lf (tail 26) n_sqrt args k = (m1r F32_sqrt) args k.
Proof. ar1; unfold F32_sqrt; sim; closed; cases. Qed.
Lemma s_invsqrt : forall args k, run_item lf (tail 25) n_invsqrt args k = (m1r F32_invsqrt) args k.
Proof. ar1; unfold F32_invsqrt; sim; closed; cases. Qed.
Lemma s_inv : forall args k, run_item lf (tail 24) n_inv args k = (m1 (fun x => VW (F32_inv x))) args k.
Proof. ar1; unfold F32_inv; sim; closed; cases. Qed.
Lemma s_recip : forall args k, run_item lf (tail 23) n_recip args k = (m1 (fun x => VW (F32_recip x))) args k.
Proof. ar1; unfold F32_recip; sim; closed; cases. Qed.
Lemma s_hypot : forall args k, run_item lf (tail 22) n_hypot args k = (m2r F32_hypot) args k.
Proof. ar2; unfold F32_hypot; sim; closed; cases. Qed.
Lemma s_mul_add : forall args k, run_item lf (tail 21) n_mul_add args k = (m3 (fun x a b => VW (F32_mul_add x a b))) args k.
Proof. ar3; unfold F32_mul_add; sim; closed; cases. Qed.
Lemma s_cos : forall args k, run_item lf (tail 20) n_cos args k = (m1 (fun x => VW (F32_cos x))) args k.
Proof. ar1; unfold F32_cos; sim; closed; cases. Qed.
Lemma s_sin : forall args k, run_item lf (tail 19) n_sin args k = (m1 (fun x => VW (F32_sin x))) args k.
Proof. ar1; unfold F32_sin; sim; closed; cases. Qed.
Lemma s_sin_cos : forall args k, run_item lf (tail 18) n_sin_cos args k = (m1 (fun x => VT [VW (fst (F32_sin_cos x)); VW (snd (F32_sin_cos x))])) args k.
Proof. ar1; unfold F32_sin_cos; sim; closed; cases. Qed.
Lemma s_tan : forall args k, run_item lf (tail 17) n_tan args k = (m1 (fun x => VW (F32_tan x))) args k.
Proof. ar1; unfold F32_tan; sim; closed; cases. Qed.
Lemma s_atan_norm : forall args k, run_item lf (tail 16) n_atan_norm args k = (m1 (fun x => VW (F32_atan_norm x))) args k.
Proof. ar1; unfold F32_atan_norm; sim; closed; cases. Qed.
Lemma s_atan : forall args k, run_item lf (tail 15) n_atan args k = (m1 (fun x => VW (F32_atan x))) args k.
Proof. ar1; unfold F32_atan; sim; closed; cases. Qed.
Lemma s_atan2_norm : forall args k, run_item lf (tail 14) n_atan2_norm args k = (m2 (fun y x => VW (F32_atan2_norm y x))) args k.
Proof. ar2; unfold F32_atan2_norm; sim; closed; cases. Qed.
Lemma s_atan2 : forall args k, run_item lf (tail 13) n_atan2 args k = (m2 (fun y x => VW (F32_atan2 y x))) args k.
Proof. ar2; unfold F32_atan2; sim; closed; cases. Qed.
Lemma s_asin : forall args k, run_item lf (tail 12) n_asin args k = (m1r F32_asin) args k.
Proof. ar1; unfold F32_asin; sim; closed; cases. Qed.
Lemma s_acos : forall args k, run_item lf (tail 11) n_acos args k = (m1r F32_acos) args k.
Proof. ar1; unfold F32_acos; sim; closed; cases. Qed.
Lemma s_exp_smallx : forall args k, run_item lf (tail 10) n_exp_smallx args k = (mz U32 (fun x n => Ok (F32_exp_smallx x (Z.to_nat n)))) args k.
Proof. arz U32; apply exp_smallx_run. Qed.
Lemma s_exp_ln2_approx : forall args k, run_item lf (tail 9) n_exp_ln2_approx args k = (mz U32 (fun x n => F32_exp_ln2_approx x (Z.to_nat n))) args k.
Proof. arz U32; unfold F32_exp_ln2_approx; sim; closed; cases. Qed.
Lemma s_exp : forall args k, run_item lf (tail 8) n_exp args k = (m1r F32_exp) args k.
Proof. ar1; unfold F32_exp; sim; closed; cases. Qed.
Lemma s_cosh : forall args k, run_item lf (tail 7) n_cosh args k = (m1r F32_cosh) args k.
Proof. ar1; unfold F32_cosh; sim; closed; cases. Qed.
Lemma s_ln : forall args k, run_item lf (tail 6) n_ln args k = (m1 (fun x => VW (F32_ln x))) args k.
Proof. ar1; unfold F32_ln; sim; closed; cases. Qed.
Lemma s_log : forall args k, run_item lf (tail 5) n_log args k = (m2 (fun x y => VW (F32_log x y))) args k.
Proof. ar2; unfold F32_log; sim; closed; cases. Qed.
Lemma s_log2 : forall args k, run_item lf (tail 4) n_log2 args k = (m1 (fun x => VW (F32_log2 x))) args k.
Proof. ar1; unfold F32_log2; sim; closed; cases. Qed.
Lemma s_log10 : forall args k, run_item lf (tail 3) n_log10 args k = (m1 (fun x => VW (F32_log10 x))) args k.
Proof. ar1; unfold F32_log10; sim; closed; cases. Qed.
Lemma s_powf : forall args k, run_item lf (tail 2) n_powf args k = (m2r F32_powf) args k.
Proof. ar2; unfold F32_powf; sim; closed; cases. Qed.
Lemma s_powi : forall args k, run_item lf (tail 1) n_powi args k = (mz I32 (F32_powi lf)) args k.
Proof. arz I32; [apply powi_item|apply powi_item_lit]. Qed.

(** ** Linking *)

Lemma link_step : forall i l s m tl,
  link lf l = by_table tl -> key i = s ->
  (forall args k, run_item lf (by_table tl) i args k = m args k) ->
  link lf (i :: l) = by_table ((s, m) :: tl).
Proof.
  intros i l s m tl H K R.
  apply functional_extensionality. intros f. apply functional_extensionality. intros args.
  apply functional_extensionality. intros k. cbn [link by_table]. rewrite K, H.
  destruct (String.eqb f s). apply R. reflexivity.
Qed.

Lemma link_all : link lf linked = by_table (model_sem lf).
Proof.
  rewrite linked_nf. unfold model_sem.
  apply link_step; [|reflexivity|exact s_powi].
  apply link_step; [|reflexivity|exact s_powf].
  apply link_step; [|reflexivity|exact s_log10].
  apply link_step; [|reflexivity|exact s_log2].
  apply link_step; [|reflexivity|exact s_log].
  apply link_step; [|reflexivity|exact s_ln].
  apply link_step; [|reflexivity|exact s_cosh].
  apply link_step; [|reflexivity|exact s_exp].
  apply link_step; [|reflexivity|exact s_exp_ln2_approx].
  apply link_step; [|reflexivity|exact s_exp_smallx].
  apply link_step; [|reflexivity|exact s_acos].
  apply link_step; [|reflexivity|exact s_asin].
  apply link_step; [|reflexivity|exact s_atan2].
  apply link_step; [|reflexivity|exact s_atan2_norm].
  apply link_step; [|reflexivity|exact s_atan].
  apply link_step; [|reflexivity|exact s_atan_norm].
  apply link_step; [|reflexivity|exact s_tan].
  apply link_step; [|reflexivity|exact s_sin_cos].
  apply link_step; [|reflexivity|exact s_sin].
  apply link_step; [|reflexivity|exact s_cos].
  apply link_step; [|reflexivity|exact s_mul_add].
  apply link_step; [|reflexivity|exact s_hypot].
  apply link_step; [|reflexivity|exact s_recip].
  apply link_step; [|reflexivity|exact s_inv].
  apply link_step; [|reflexivity|exact s_invsqrt].
  apply link_step; [|reflexivity|exact s_sqrt].
  apply link_step; [|reflexivity|exact s_div_euclid].
  apply link_step; [|reflexivity|exact s_rem_euclid].
  apply link_step; [|reflexivity|exact s_round].
  apply link_step; [|reflexivity|exact s_ceil].
  apply link_step; [|reflexivity|exact s_floor].
  apply link_step; [|reflexivity|exact s_fract].
  apply link_step; [|reflexivity|exact s_trunc].
  apply link_step; [|reflexivity|exact s_signum].
  apply link_step; [|reflexivity|exact s_copysign].
  apply link_step; [|reflexivity|exact s_abs].
  apply link_step; [|reflexivity|exact s_is_even].
  apply link_step; [|reflexivity|exact s_is_integer].
  apply link_step; [|reflexivity|exact s_set_exponent].
  apply link_step; [|reflexivity|exact s_without_sign].
  apply link_step; [|reflexivity|exact s_extract_exponent_value].
  apply link_step; [|reflexivity|exact s_extract_exponent_bits].
  apply link_step; [|reflexivity|exact s_from_bits].
  apply link_step; [|reflexivity|exact s_to_bits].
  apply link_step; [|reflexivity|exact s_is_sign_negative].
  apply link_step; [|reflexivity|exact s_is_sign_positive].
  apply link_step; [|reflexivity|exact s_is_finite].
  apply link_step; [|reflexivity|exact s_is_infinite].
  apply link_step; [|reflexivity|exact s_is_nan].
  apply link_step; [|reflexivity|exact s_NEG_INFINITY].
  apply link_step; [|reflexivity|exact s_INFINITY].
  apply link_step; [|reflexivity|exact s_NAN].
  apply link_step; [|reflexivity|exact s_EPSILON].
  apply link_step; [|reflexivity|exact s_ONE].
  apply link_step; [|reflexivity|exact s_ZERO].
  apply link_step; [|reflexivity|exact s_MANTISSA_BITS].
  apply link_step; [|reflexivity|exact s_EXPONENT_BIAS].
  apply link_step; [|reflexivity|exact s_MANTISSA_MASK].
  apply link_step; [|reflexivity|exact s_EXPONENT_MASK].
  apply link_step; [|reflexivity|exact s_SIGN_MASK].
  reflexivity.
Qed.

End Items.
