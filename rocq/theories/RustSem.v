(** * Meaning of Rust text

    An interpreter for the syntax of RustSyntax.v.  It knows the primitive
    operations of f32 and of the machine integers (Base.v) and nothing about the
    crate.  Evaluation is in continuation-passing style: [k] is what is done with
    the value and the variables, [ret] what is done by [return].

    - A program the type checker of Rust would reject may get stuck, which is
      reported as [NoFuel], like a loop cut off after [lf] rounds.
    - Arithmetic, comparison and negation of [F32] are those of the f32 inside;
      that this is what the impls in float.rs say is proved in P_Source.v.
    - References are the values they refer to.  A method taking [&mut self]
      returns the new value of [self], after its result if it has one.
    - There are no static types.  Type parameters stand for whatever comes; only
      [C::default()] and [C::from(x)] ask what [C] is, and are answered from the
      type of the first component among the arguments.
    - Iterators are the lists of what they yield; adaptors run at once.  Closures
      change nothing outside.
    - An integer literal without a suffix takes the type of what it meets. *)

From Coq Require Import ZArith Bool List String Ascii.
From Flocq Require Import Core IEEE754.BinarySingleNaN IEEE754.Binary IEEE754.Bits.
From Verif Require Import Base RustSyntax.
Import ListNotations.
Open Scope Z_scope.

(** ** Values *)

Inductive it : Set := I8 | I16 | I32 | U8 | U16 | U32 | Usize.
(** usize has 64 bits here; nothing in the crate comes near the limit. *)
Definition ity_of (t : it) : ity :=
  match t with
  | I8 => i8 | I16 => i16 | I32 => i32 | U8 => u8 | U16 => u16 | U32 => u32
  | Usize => mkity false 64
  end.
Definition it_eqb (a b : it) : bool :=
  match a, b with
  | I8, I8 | I16, I16 | I32, I32 | U8, U8 | U16, U16 | U32, U32 | Usize, Usize => true
  | _, _ => false
  end.

Inductive V : Type :=
| VF (x : f32)                      (* an f32 *)
| VW (x : f32)                      (* an F32 *)
| VI (t : it) (z : Z)               (* an integer of known type *)
| VL (z : Z)                        (* an integer literal of open type *)
| VB (b : bool)
| VU                                (* () *)
| VT (l : list V)                   (* a tuple *)
| VO (o : option V)
| VC (o : option comparison)        (* an Option<Ordering> *)
| VR (inclusive : bool) (a b : V)   (* a range *)
| VS (l : list V)                   (* an iterator *)
| VA (w : V) (l : list V)           (* a slice, array or iterator; [w]: a value of the item type *)
| VD (n : string) (fs : list (string * V))             (* a struct *)
| VFn (ps : list (list string)) (e : expr) (g : list (string * V))    (* a closure *)
| VP.                               (* the function f32::from *)

Definition vars : Type := list (string * V).
Definition stuck {A : Type} : res A := NoFuel.

Fixpoint lookup (x : string) (g : vars) : option V :=
  match g with
  | [] => None
  | (y, v) :: r => if String.eqb x y then Some v else lookup x r
  end.
Fixpoint update (x : string) (v : V) (g : vars) : vars :=
  match g with
  | [] => []
  | (y, w) :: r => if String.eqb x y then (y, v) :: r else (y, w) :: update x v r
  end.
(** The variables of [g] after a block entered with the variables of [g0]. *)
Definition leave (g0 g : vars) : vars := skipn (List.length g - List.length g0) g.

(** ** Types *)

Definition strip_ref (t : ty) : ty :=
  match t with
  | String "&" (String "m" (String "u" (String "t" r))) => r
  | String "&" r => r
  | _ => t
  end%char.
Definition it_of (t : ty) : option it :=
  if String.eqb t "i32" then Some I32 else if String.eqb t "u32" then Some U32
  else if String.eqb t "i16" then Some I16 else if String.eqb t "u16" then Some U16
  else if String.eqb t "i8" then Some I8 else if String.eqb t "u8" then Some U8
  else if String.eqb t "usize" then Some Usize
  else None.
Definition is_tyvar (t : ty) : bool := (String.length t =? 1)%nat.

(** [v] as a value of type [t], if it is one; a literal becomes one. *)
Definition coerce (slf t : ty) (v : V) : option V :=
  let t := strip_ref t in
  let t := if String.eqb t "Self" then slf else t in
  match v with
  | VF _ => if String.eqb t "f32" || is_tyvar t then Some v else None
  | VW _ => if String.eqb t "F32" || is_tyvar t then Some v else None
  | VB _ => if String.eqb t "bool" then Some v else None
  | VU => if String.eqb t "()" then Some v else None
  | VI i _ => match it_of t with
              | Some j => if it_eqb i j then Some v else None
              | None => if is_tyvar t then Some v else None
              end
  | VL z => match it_of t with Some j => Some (VI j z) | None => None end
  | VC _ => if String.eqb t "Option<Ordering>" then Some v else None
  (* of the other values only the kind is looked at *)
  | _ => if mem t scalars then None else Some v
  end.

Definition ty_name (v : V) : ty :=
  match v with
  | VF _ => "f32" | VW _ => "F32" | VD n _ => n
  | VI t _ => match t with
              | I8 => "i8" | I16 => "i16" | I32 => "i32" | U8 => "u8" | U16 => "u16" | U32 => "u32"
              | Usize => "usize"
              end
  | _ => ""
  end%string.

(** The first component among some values. *)
Fixpoint witness (n : nat) (l : list V) : option V :=
  match n with
  | O => None
  | S n =>
      match l with
      | [] => None
      | v :: l =>
          match (match v with
                 | VF _ | VW _ | VI _ _ => Some v
                 | VD _ fs => witness n (map snd fs)
                 | VA w _ => witness n [w]
                 | VS l | VT l => witness n l
                 | _ => None
                 end) with
          | Some w => Some w
          | None => witness n l
          end
      end
  end.

(** [Iterator::map], [Iterator::fold] with a function. *)
Fixpoint map_list (f : V -> (V -> res V) -> res V) (l : list V) (k : list V -> res V) : res V :=
  match l with
  | [] => k []
  | v :: l => f v (fun w => map_list f l (fun ws => k (w :: ws)))
  end.
Fixpoint fold_list (f : V -> V -> (V -> res V) -> res V) (l : list V) (acc : V) (k : V -> res V) : res V :=
  match l with
  | [] => k acc
  | v :: l => f acc v (fun acc => fold_list f l acc k)
  end.
Fixpoint count (l : list V) : Z := match l with [] => 0 | _ :: l => 1 + count l end.
(** [Iterator::zip]. *)
Fixpoint zip_list (l m : list V) : list V :=
  match l, m with
  | a :: l, b :: m => VT [a; b] :: zip_list l m
  | _, _ => []
  end.

Section Sem.
Context {E : Env}.
(** What a call of a function or a use of a constant means. *)
Context (call : string -> list V -> (V -> res V) -> res V).
(** What a [loop] or [for] means. *)
Context (loops : ty -> expr -> vars -> (V -> res V) -> (V -> vars -> res V) -> res V).
(** The type called [Self]. *)
Context (slf : ty).

(** ** Operators *)

Definition fop (o : bop) (x y : f32) (w : f32 -> V) : option V :=
  match o with
  | OAdd => Some (w (fadd x y))
  | OSub => Some (w (fsub x y))
  | OMul => Some (w (fmul x y))
  | ODiv => Some (w (fdiv x y))
  | ORem => Some (w (frem x y))
  | OEq => Some (VB (feq x y))
  | ONe => Some (VB (negb (feq x y)))
  | OLt => Some (VB (flt x y))
  | OLe => Some (VB (fle x y))
  | OGt => Some (VB (fgt x y))
  | OGe => Some (VB (fge x y))
  | _ => None
  end.

(** Shift amounts outside the width panic in checked builds and are reduced
    otherwise. *)
Definition shift (t : it) (n : Z) (k : Z -> res V) : res V :=
  let b := ity_bits (ity_of t) in
  if (0 <=? n) && (n <? b) then k n else if overflow_checks then Panic else k (n mod b).

(** An overflow of usize is not modelled. *)
Definition int_arith (t : it) (z : Z) : res Z :=
  match t with
  | Usize => if (0 <=? z) && (z <? 0x10000000000000000) then Ok z else stuck
  | _ => arith (ity_of t) z
  end.

Definition iop (t : it) (o : bop) (x y : Z) (k : V -> res V) : res V :=
  match o with
  | OAdd => r <- int_arith t (x + y) ;; k (VI t r)
  | OSub => r <- int_arith t (x - y) ;; k (VI t r)
  | OMul => r <- int_arith t (x * y) ;; k (VI t r)
  | ODiv => r <- int_div (ity_of t) x y ;; k (VI t r)
  | ORem => if y =? 0 then Panic
            else if (y =? -1) && (x =? ity_min (ity_of t)) then Panic
            else k (VI t (Z.rem x y))
  | OAnd => k (VI t (Z.land x y))
  | OOr => k (VI t (Z.lor x y))
  | OXor => k (VI t (Z.lxor x y))
  | OShl => shift t y (fun n => k (VI t (wrap (ity_of t) (Z.shiftl x n))))
  | OShr => shift t y (fun n => k (VI t (Z.shiftr x n)))
  | OEq => k (VB (x =? y))
  | ONe => k (VB (negb (x =? y)))
  | OLt => k (VB (x <? y))
  | OLe => k (VB (x <=? y))
  | OGt => k (VB (y <? x))
  | OGe => k (VB (y <=? x))
  | _ => stuck
  end.

Definition is_shift (o : bop) : bool := match o with OShl | OShr => true | _ => false end.

Definition opt (o : option V) (k : V -> res V) : res V :=
  match o with Some v => k v | None => stuck end.

Definition binop (o : bop) (a b : V) (k : V -> res V) : res V :=
  match a, b with
  | VF x, VF y => opt (fop o x y VF) k
  | VF x, VW y => opt (fop o x y VW) k
  | VW x, VF y => opt (fop o x y VW) k
  | VW x, VW y => opt (fop o x y VW) k
  | VI t x, VI u y => if is_shift o || it_eqb t u then iop t o x y k else stuck
  | VI t x, VL y => iop t o x y k
  | VL x, VI t y => if is_shift o then iop I32 o x y k else iop t o x y k
  | VL x, VL y => iop I32 o x y k
  | VD n _, VD m _ =>
      match o with
      | OAdd => call ("Add<" ++ m ++ ">for" ++ n ++ "::add")%string [a; b] k
      | OSub => call ("Sub<" ++ m ++ ">for" ++ n ++ "::sub")%string [a; b] k
      | OMul => call ("Mul<" ++ m ++ ">for" ++ n ++ "::mul")%string [a; b] k
      | OEq => call ("PartialEq<" ++ m ++ ">for" ++ n ++ "::eq")%string [a; b] k
      | _ => stuck
      end
  | VD n _, (VF _ | VW _ | VI _ _) =>
      match o with
      | OMul => call ("Mul<#>for" ++ n ++ "::mul")%string [a; b] k
      | ODiv => call ("Div<#>for" ++ n ++ "::div")%string [a; b] k
      | _ => stuck
      end
  | _, VD n _ =>
      match o with
      | OMul => call ("Mul<" ++ n ++ ">for" ++ ty_name a ++ "::mul")%string [a; b] k
      | _ => stuck
      end
  | _, _ => stuck
  end.

(** [a op= b]: the result has the type of [a]. *)
Definition assignop (o : bop) (a b : V) (k : V -> res V) : res V :=
  match a, b with
  | VF x, VF y | VF x, VW y => opt (fop o x y VF) k
  | VW x, VF y | VW x, VW y => opt (fop o x y VW) k
  | VI _ _, VI _ _ | VI _ _, VL _ | VL _, VL _ => binop o a b k
  | _, _ => stuck
  end.

Definition unop (o : uop) (a : V) (k : V -> res V) : res V :=
  match o, a with
  | UNeg, VF x => k (VF (fneg x))
  | UNeg, VW x => k (VW (fneg x))
  | UNeg, VL z => k (VL (- z))
  | UNeg, VI t z => r <- arith (ity_of t) (- z) ;; k (VI t r)
  | UNot, VB b => k (VB (negb b))
  | UNot, VI U32 z => k (VI U32 (not32 z))
  | URef, _ => k a
  | UDeref, _ => k a
  | _, _ => stuck
  end.

(** [as] between integer types keeps the low bits. *)
Definition cast_int (t : it) (z : Z) : Z :=
  if ity_signed (ity_of t) then wrap (ity_of t) z else z mod 2 ^ ity_bits (ity_of t).

Definition cast (a : V) (t : ty) (k : V -> res V) : res V :=
  match a with
  | VI _ z | VL z =>
      match it_of t with
      | Some i => k (VI i (cast_int i z))
      | None => if String.eqb t "f32" then k (VF (f32_of_Z z)) else stuck
      end
  | VF x => if String.eqb t "i32" then k (VI I32 (to_i32 x)) else stuck
  | _ => stuck
  end.

(** ** Constants and functions of the standard library *)

Definition const_f32 (c : string) : option V :=
  if String.eqb c "PI" then Some (VF (from_bits 0x40490FDB))
  else if String.eqb c "FRAC_PI_2" then Some (VF (from_bits 0x3FC90FDB))
  else if String.eqb c "FRAC_1_PI" then Some (VF (from_bits 0x3EA2F983))
  else if String.eqb c "LOG2_E" then Some (VF (from_bits 0x3FB8AA3B))
  else if String.eqb c "LOG10_E" then Some (VF (from_bits 0x3EDE5BD9))
  else if String.eqb c "LN_2" then Some (VF (from_bits 0x3F317218))
  else if String.eqb c "E" then Some (VF (from_bits 0x402DF854))
  else None.

Definition assoc_f32 (c : string) : option V :=
  if String.eqb c "EPSILON" then Some (VF (from_bits 0x34000000))
  else if String.eqb c "NAN" then Some (VF f32_NAN)
  else if String.eqb c "INFINITY" then Some (VF (f32_inf false))
  else if String.eqb c "NEG_INFINITY" then Some (VF (f32_inf true))
  else None.

Definition path (p : list string) (g : vars) (k : V -> res V) : res V :=
  match p with
  | [x] =>
      match lookup x g with
      | Some v => k v
      | None =>
          if String.eqb x "true" then k (VB true)
          else if String.eqb x "false" then k (VB false)
          else if String.eqb x "None" then k (VO None)
          else if String.eqb x "PhantomData" then k VU
          else match const_f32 x with Some v => k v | None => call x [] k end
      end
  | [a; x] =>
      if String.eqb a "Self" then call (slf ++ "::" ++ x)%string [] k
      else if String.eqb a "F32" then call (a ++ "::" ++ x)%string [] k
      else if String.eqb a "f32" then
        if String.eqb x "from" then k VP else opt (assoc_f32 x) k
      else if String.eqb a "consts" then opt (const_f32 x) k
      else stuck
  | _ => stuck
  end.

Definition int_arg (t : it) (v : V) : option Z :=
  match v with VI u z => if it_eqb t u then Some z else None | VL z => Some z | _ => None end.

(** [From] for f32. *)
Definition to_f32 (v : V) (k : V -> res V) : res V :=
  match v with
  | VF x | VW x => k (VF x)
  | VI (I8 | I16 | U8 | U16) z => k (VF (f32_of_Z z))
  | _ => stuck
  end.

(** [Sum] and [Product].  [w]: a value of the item type. *)
Definition sum_of (w : V) (l : list V) (k : V -> res V) : res V :=
  match w with
  | VF _ => fold_list (binop OAdd) l (VF (f32_zero sum_start)) k
  | VI t _ => fold_list (binop OAdd) l (VI t 0) k
  | VW _ => call "SumforF32::sum"%string [VA w l] k
  | VD n _ => call ("Sum<" ++ n ++ ">for" ++ n ++ "::sum")%string [VA w l] k
  | _ => stuck
  end.
Definition items (v : V) : option (V * list V) :=
  match v with
  | VA w l => Some (w, l)
  | VS (w :: l) => Some (w, w :: l)
  | _ => None
  end.

(** The constructors [F32(_)], [Some(_)] and those of structs, and functions given
    by a path. *)
Definition path_call (p : list string) (args : list V) (g : vars) (k : V -> res V) : res V :=
  match p with
  | [c] =>
      if String.eqb c "F32" || (String.eqb c "Self" && String.eqb slf "F32") then
        match args with [VF x] => k (VW x) | _ => stuck end
      else if String.eqb c "Some" then
        match args with [v] => k (VO (Some v)) | _ => stuck end
      else k (VD (if String.eqb c "Self" then slf else c) (combine digit_names args))
  | [a; f] =>
      if String.eqb a "Self" then call (slf ++ "::" ++ f)%string args k
      else if String.eqb a "F32" then call (a ++ "::" ++ f)%string args k
      else if String.eqb a "f32" && String.eqb f "from_bits" then
        match args with
        | [v] => match int_arg U32 v with Some z => k (VF (from_bits z)) | None => stuck end
        | _ => stuck
        end
      else if String.eqb a "i32" && String.eqb f "abs" then
        match args with
        | [v] => match int_arg I32 v with
                 | Some z => r <- arith i32 (Z.abs z) ;; k (VI I32 r)
                 | None => stuck
                 end
        | _ => stuck
        end
      else if String.eqb a "i32" && String.eqb f "max" then
        match args with
        | [v; w] => match int_arg I32 v, int_arg I32 w with
                    | Some y, Some z => k (VI I32 (Z.max y z))
                    | _, _ => stuck
                    end
        | _ => stuck
        end
      else if String.eqb a "i32" then stuck
      else if String.eqb a "f32" then
        match args with
        | [v] =>
            if String.eqb f "from" then to_f32 v k
            else match items v with
                 | Some (VF _, l) =>
                     if String.eqb f "sum" then sum_of (VF (f32_zero false)) l k
                     else if String.eqb f "product" then fold_list (binop OMul) l (VF (from_bits 0x3F800000)) k
                     else stuck
                 | _ => stuck
                 end
        | _ => stuck
        end
      else if String.eqb a "C" then
        match lookup "C"%string g with
        | Some w =>
            if String.eqb f "default" then
              match w with
              | VF _ => k (VF (f32_zero false))
              | VW _ => k (VW (f32_zero false))
              | VI t _ => k (VI t 0)
              | _ => stuck
              end
            else if String.eqb f "from" then
              match w, args with
              | VF _, [VF x] => k (VF x)
              | VW _, [VF x] => k (VW x)
              | _, _ => stuck
              end
            else stuck
        | None => stuck
        end
      else if String.eqb f "from" then
        match args with
        | [v] => call ("From<" ++ ty_name v ++ ">for" ++ a ++ "::from")%string args k
        | _ => stuck
        end
      else if String.eqb f "default" then
        match lookup "C"%string g with
        | Some w => call (a ++ "::default")%string [w] k
        | None => call (a ++ "::default")%string args k
        end
      else call (a ++ "::" ++ f)%string args k
  | _ => stuck
  end.

Definition method_f32 (x : f32) (m : string) (args : list V) (k : V -> res V) : res V :=
  match args with
  | [] =>
      if String.eqb m "to_bits" then k (VI U32 (to_bits x))
      else if String.eqb m "is_nan" then k (VB (is_nan x))
      else if String.eqb m "is_infinite" then k (VB (is_infinite x))
      else if String.eqb m "is_finite" then k (VB (is_finite x))
      else if String.eqb m "is_sign_positive" then k (VB (negb (sign_bit x)))
      else if String.eqb m "is_sign_negative" then k (VB (sign_bit x))
      else if String.eqb m "into" then k (VW x)
      else if String.eqb m "into_f32" then k (VF x)
      else call ("f32::" ++ m)%string [VF x] k
  | [VF y] =>
      if String.eqb m "eq" then k (VB (feq x y))
      else if String.eqb m "partial_cmp" then k (VC (Bcompare 24 128 x y))
      else stuck
  | _ => stuck
  end.

Definition method_u32 (z : Z) (m : string) (args : list V) (k : V -> res V) : res V :=
  match args with
  | [] => if String.eqb m "leading_zeros" then k (VI U32 (lz32 z))
          else stuck
  | [v] =>
      match int_arg U32 v with
      | Some n =>
          if String.eqb m "overflowing_shl" then k (VT [VI U32 (shl32 z n); VB (32 <=? n)])
          else if String.eqb m "overflowing_shr" then k (VT [VI U32 (shr32 z n); VB (32 <=? n)])
          else if String.eqb m "wrapping_sub" then k (VI U32 (wrap u32 (z - n)))
          else if String.eqb m "checked_sub" then
            if 0 <=? z - n then k (VO (Some (VI U32 (z - n)))) else k (VO None)
          else stuck
      | None => stuck
      end
  | _ => stuck
  end.

(** The integers of a range. *)
Definition ints (t : it) (lo hi : Z) : list V :=
  map (fun i => VI t (lo + Z.of_nat i)) (seq 0 (Z.to_nat (hi - lo))).
Definition range_list (v : V) : option (list V) :=
  match v with
  | VR inc (VI t lo) (VI u hi) =>
      if it_eqb t u then Some (ints t lo (if inc then hi + 1 else hi)) else None
  | VR inc (VL lo) (VI t hi) | VR inc (VI t lo) (VL hi) =>
      Some (ints t lo (if inc then hi + 1 else hi))
  | VS l | VA _ l => Some l
  | _ => None
  end.

(** What an [Iter] yields, by calls of [next]. *)
Fixpoint drain (n : nat) (v : V) (k : list V -> res V) : res V :=
  match n with
  | O => stuck
  | S n =>
      call "Iter::next"%string [v] (fun r =>
        match r with
        | VD _ [(_, VO (Some x)); (_, v)] => drain n v (fun l => k (x :: l))
        | VD _ [(_, VO None); _] => k []
        | _ => stuck
        end)
  end.
Definition drain_fuel : nat := 10.

(** Methods of slices and iterators; [apply] applies a closure. *)
Definition method_iter (apply : V -> list V -> (V -> res V) -> res V)
    (a : V) (l : list V) (m : string) (args : list V) (k : V -> res V) : res V :=
  match args with
  | [] =>
      if mem m ["iter"; "into_iter"; "cloned"; "copied"; "clone"]%string then k a
      else if String.eqb m "len" then k (VI Usize (count l))
      else if String.eqb m "rev" then k (VS (rev l))
      else if String.eqb m "sum::<f32>" then sum_of (VF (f32_zero false)) l k
      else if String.eqb m "sum" then
        match items a with Some (w, l) => sum_of w l k | None => stuck end
      else if String.eqb m "mean" then call "I::mean"%string [a] k
      else call ("&[]::" ++ m)%string [a] k
  | [f] =>
      if String.eqb m "map" then
        map_list (fun v k => apply f [v] k) l (fun l =>
          k (match f with VP => VA (VF (f32_zero false)) l | _ => VS l end))
      else if String.eqb m "zip" then
        match f with
        | VS l' | VA _ l' => k (VS (zip_list l l'))
        | VD _ _ => drain drain_fuel f (fun l' => k (VS (zip_list l l')))
        | _ => stuck
        end
      else call ("&[]::" ++ m)%string [a; f] k
  | [z; f] =>
      if String.eqb m "fold" then fold_list (fun x y k => apply f [x; y] k) l z k
      else stuck
  | _ => stuck
  end.

Definition method (apply : V -> list V -> (V -> res V) -> res V)
    (a : V) (m : string) (args : list V) (k : V -> res V) : res V :=
  match a with
  | VF x => method_f32 x m args k
  | VW x =>
      if String.eqb m "into" || String.eqb m "into_f32" then
        match args with [] => k (VF x) | _ => stuck end
      else call ("F32::" ++ m)%string (a :: args) k
  | VD n _ =>
      if String.eqb m "mul" then
        match args with [b] => binop OMul a b k | _ => stuck end
      else if String.eqb n "Iter" then
        (* the one struct that implements Iterator *)
        drain drain_fuel a (fun l => method_iter apply (VS l) l m args k)
      else call (n ++ "::" ++ m)%string (a :: args) k
  | VS l | VA _ l => method_iter apply a l m args k
  | VO o =>
      if String.eqb m "expect" then
        match o with Some v => k v | None => Panic end
      else if String.eqb m "is_some" then k (VB (match o with Some _ => true | None => false end))
      else if String.eqb m "is_none" then k (VB (match o with Some _ => false | None => true end))
      else stuck
  | VI U32 z => method_u32 z m args k
  | VI I32 z =>
      match args with
      | [v] =>
          match int_arg I32 v with
          | Some n => if String.eqb m "saturating_add" then k (VI I32 (clamp i32 (z + n))) else stuck
          | None => stuck
          end
      | _ => stuck
      end
  (* the only conversion of small integers in the crate is to f32 *)
  | VI _ z => match args with
              | [] => if String.eqb m "into" || String.eqb m "into_f32" then to_f32 a k else stuck
              | _ => stuck
              end
  | VR false (VF lo) (VF hi) =>
      match args with
      | [VF x] => if String.eqb m "contains" then k (VB (fle lo x && flt x hi)) else stuck
      | _ => stuck
      end
  | VR _ _ _ =>
      match args with
      | [] => if String.eqb m "rev" then
                match range_list a with Some l => k (VS (rev l)) | None => stuck end
              else stuck
      | _ => stuck
      end
  | _ => stuck
  end.

Definition field (a : V) (i : Z) (k : V -> res V) : res V :=
  match a with
  | VW x => if i =? 0 then k (VF x) else stuck
  | VT l => match nth_error l (Z.to_nat i) with Some v => k v | None => stuck end
  | VD _ l => match nth_error l (Z.to_nat i) with Some (_, v) => k v | None => stuck end
  | _ => stuck
  end.

Definition field_n (a : V) (x : string) (k : V -> res V) : res V :=
  match a with
  | VD _ l => match lookup x l with Some v => k v | None => stuck end
  | _ => stuck
  end.

Definition index (a i : V) (k : V -> res V) : res V :=
  match a, i with
  | VA _ l, (VL z | VI Usize z) =>
      match nth_error l (Z.to_nat z) with Some v => k v | None => Panic end
  | _, _ => stuck
  end.

(** A literal as a field is taken as a usize: the only one is [position] of the
    iterator of vectors, which is declared so. *)
Definition field_value (v : V) : V := match v with VL z => VI Usize z | _ => v end.

(** The variables of a closure. *)
Fixpoint bind_closure (ps : list (list string)) (args : list V) : option vars :=
  match ps, args with
  | [], [] => Some []
  | [x] :: ps, v :: args =>
      match bind_closure ps args with Some g => Some ((x, v) :: g) | None => None end
  | xs :: ps, VT vs :: args =>
      match bind_closure ps args with Some g => Some (combine xs vs ++ g) | None => None end
  | _, _ => None
  end.

(** The result and the new [self] of a method taking [&mut self]. *)
Definition pack (v s : V) : V := VD "&mut" [("result", v); ("self", s)]%string.

(** ** Expressions and statements *)

(** Writing to a place: a variable, the f32 inside one, or what it refers to. *)
Definition write (l : expr) (v : V) (g : vars) (k : V -> vars -> res V) : res V :=
  match l with
  | EPath [x] | EUn UDeref (EPath [x]) =>
      match lookup x g with Some _ => k VU (update x v g) | None => stuck end
  | EField (EPath [x]) _ =>
      match lookup x g, v with
      | Some (VW _), VF f => k VU (update x (VW f) g)
      | _, _ => stuck
      end
  | EFieldN (EPath [x]) f =>
      match lookup x g with
      | Some (VD n fs) => k VU (update x (VD n (update f v fs)) g)
      | _ => stuck
      end
  | _ => stuck
  end.

Definition unpack (l : expr) (r : V) (g : vars) (k : V -> vars -> res V) : res V :=
  match r with
  | VD n [(_, v); (_, s)] => if String.eqb n "&mut" then write l s g (fun _ g => k v g) else k r g
  | _ => k r g
  end.

Fixpoint eval (n : nat) (e : expr) (g : vars)
    (ret : V -> res V) (k : V -> vars -> res V) {struct n} : res V :=
  match n with
  | O => stuck
  | S n =>
      let evals :=
        fix evals (l : list expr) (g : vars) (k : list V -> vars -> res V) : res V :=
          match l with
          | [] => k [] g
          | a :: l => eval n a g ret (fun v g => evals l g (fun vs g => k (v :: vs) g))
          end in
      let apply (f : V) (args : list V) (k : V -> res V) : res V :=
        match f with
        | VFn ps e g =>
            match bind_closure ps args with
            | Some g' => eval n e (g' ++ g) (fun _ => stuck) (fun v _ => k v)
            | None => stuck
            end
        | VP => match args with [v] => to_f32 v k | _ => stuck end
        | _ => stuck
        end in
      match e with
      | EInt z s =>
          if String.eqb s "" then k (VL z) g
          else match it_of s with Some t => k (VI t z) g | None => stuck end
      | EFlt b => k (VF (from_bits b)) g
      | EPath p => path p g (fun v => k v g)
      | EUn o a => eval n a g ret (fun v g => unop o v (fun v => k v g))
      | EBin OLand a b =>
          eval n a g ret (fun v g =>
            match v with VB x => if x then eval n b g ret k else k (VB false) g | _ => stuck end)
      | EBin OLor a b =>
          eval n a g ret (fun v g =>
            match v with VB x => if x then k (VB true) g else eval n b g ret k | _ => stuck end)
      | EBin o a b =>
          eval n a g ret (fun v g =>
          eval n b g ret (fun w g => binop o v w (fun v => k v g)))
      | EAssign None l r => eval n r g ret (fun v g => write l v g k)
      | EAssign (Some o) l r =>
          eval n r g ret (fun w g =>
          eval n l g ret (fun v g => assignop o v w (fun v => write l v g k)))
      | ECast a t => eval n a g ret (fun v g => cast v t (fun v => k v g))
      | EField a i => eval n a g ret (fun v g => field v i (fun v => k v g))
      | ECall p l => evals l g (fun vs g => path_call p vs g (fun v => k v g))
      | EFieldN a x => eval n a g ret (fun v g => field_n v x (fun v => k v g))
      | EIndex a i =>
          eval n a g ret (fun v g => eval n i g ret (fun w g => index v w (fun v => k v g)))
      | EArray l => evals l g (fun vs g => match vs with v :: _ => k (VA v vs) g | [] => stuck end)
      | EStruct p fs =>
          evals (map snd fs) g (fun vs g =>
            k (VD (if String.eqb p "Self" then slf else p) (combine (map fst fs) (map field_value vs))) g)
      | EClosure ps e => k (VFn ps e g) g
      | EStr => k VU g
      | EMethod a m l =>
          if String.eqb m "next" then
            eval n a g ret (fun v g =>
              match v with
              | VS (x :: l) => write a (VS l) g (fun _ g => k (VO (Some x)) g)
              | VA w (x :: l) => write a (VA w l) g (fun _ g => k (VO (Some x)) g)
              | VS [] | VA _ [] => k (VO None) g
              | _ => stuck
              end)
          else
          eval n a g ret (fun v g => evals l g (fun vs g => method apply v m vs (fun v => unpack a v g k)))
      | EMacro m l =>
          if String.eqb m "debug_assert" then
            match l with
            | [a] => if debug_assertions then
                       eval n a g ret (fun v g =>
                         match v with VB b => if b then k VU g else Panic | _ => stuck end)
                     else k VU g
            | _ => stuck
            end
          else if String.eqb m "assert" then
            match l with
            | a :: _ => eval n a g ret (fun v g =>
                          match v with VB b => if b then k VU g else Panic | _ => stuck end)
            | _ => stuck
            end
          else if String.eqb m "assert_ne" then
            match l with
            | a :: b :: _ =>
                eval n a g ret (fun v g => eval n b g ret (fun w g =>
                  binop OEq v w (fun v => match v with VB b => if b then Panic else k VU g | _ => stuck end)))
            | _ => stuck
            end
          else if String.eqb m "panic" then Panic
          else stuck
      | ETuple [] => k VU g
      | ETuple l => evals l g (fun vs g => k (VT vs) g)
      | ERange i a b =>
          eval n a g ret (fun v g => eval n b g ret (fun w g => k (VR i v w) g))
      | EIf c t e =>
          eval n c g ret (fun v g =>
            match v with
            | VB b =>
                if b then eval_block n t g ret k
                else match e with Some e => eval_block n e g ret k | None => k VU g end
            | _ => stuck
            end)
      | EMatch a arms =>
          eval n a g ret (fun v g =>
            (fix go (l : list (pat * expr)) : res V :=
               match l with
               | [] => stuck
               | (p, e) :: l =>
                   match p, v with
                   | PSome x, VO (Some w) =>
                       eval n e ((x, w) :: g) ret (fun v g' => k v (leave g g'))
                   | PNone, VO None => eval n e g ret k
                   | PInt i, (VI _ z | VL z) => if z =? i then eval n e g ret k else go l
                   | PWild, _ => eval n e g ret k
                   | _, VO _ => go l
                   | _, _ => stuck
                   end
               end) arms)
      | EBlock b => eval_block n b g ret k
      | EReturn a =>
          eval n a g ret (fun v g =>
            match lookup "&mut"%string g, lookup "self"%string g with
            | Some _, Some s => ret (pack v s)
            | _, _ => ret v
            end)
      | EFor _ _ _ | ELoop _ | EWhile _ _ _ => loops slf e g ret k
      end
  end
with eval_block (n : nat) (b : block) (g : vars)
    (ret : V -> res V) (k : V -> vars -> res V) {struct n} : res V :=
  match n with
  | O => stuck
  | S n =>
      match b with
      | Block l last =>
          (fix go (l : list stmt) (g' : vars) : res V :=
             match l with
             | [] =>
                 match last with
                 | Some e => eval n e g' ret (fun v g' => k v (leave g g'))
                 | None => k VU (leave g g')
                 end
             | SLet x t e :: l | SConst x t e :: l =>
                 eval n e g' ret (fun v g' =>
                   if String.eqb t "" then go l ((x, v) :: g')
                   else match coerce slf t v with
                        | Some v => go l ((x, v) :: g')
                        | None => stuck
                        end)
             | SLetS c xs e :: l =>
                 eval n e g' ret (fun v g' =>
                   match v with
                   | VD m fs => if String.eqb c m then go l (combine xs (map snd fs) ++ g') else stuck
                   | _ => stuck
                   end)
             | SExpr e :: l => eval n e g' ret (fun _ g' => go l g')
             end) l g
      end
  end.

End Sem.

(** Nesting of expressions the interpreter follows. *)
Definition depth : nat := 100.

(** ** Loops *)

Section Loops.
Context {E : Env}.
Context (call : string -> list V -> (V -> res V) -> res V).

(** [for x in l], for a list of values. *)
Fixpoint for_loop (body : vars -> (vars -> res V) -> res V) (x : string) (l : list V) (g : vars)
    (k : V -> vars -> res V) : res V :=
  match l with
  | [] => k VU g
  | v :: l => body ((x, v) :: g) (fun g' => for_loop body x l (leave g g') k)
  end.

(** [loop], for at most [n] rounds; it is left by [return] only. *)
Fixpoint inf_loop (body : vars -> (vars -> res V) -> res V) (n : nat) (g : vars) : res V :=
  match n with
  | O => stuck
  | S n => body g (fun g' => inf_loop body n (leave g g'))
  end.

(** [while let Some(x) = ...], for at most [n] rounds. *)
Fixpoint while_loop (cond : vars -> (V -> vars -> res V) -> res V)
    (body : vars -> (vars -> res V) -> res V) (x : string) (n : nat) (g : vars)
    (k : V -> vars -> res V) : res V :=
  match n with
  | O => stuck
  | S n =>
      cond g (fun v g =>
        match v with
        | VO (Some w) => body ((x, w) :: g) (fun g' => while_loop cond body x n (leave g g') k)
        | VO None => k VU g
        | _ => stuck
        end)
  end.

(** [lf]: how often a [loop] goes round; [d]: how deep loops are nested. *)
Fixpoint run_loop (lf d : nat) (slf : ty) (e : expr) (g : vars)
    (ret : V -> res V) (k : V -> vars -> res V) {struct d} : res V :=
  match d with
  | O => stuck
  | S d =>
      match e with
      | EFor x a b =>
          eval call (run_loop lf d) slf depth a g ret (fun v g =>
            match range_list v with
            | Some l =>
                for_loop (fun g k => eval_block call (run_loop lf d) slf depth b g ret (fun _ g => k g))
                  x l g k
            | None => stuck
            end)
      | ELoop b =>
          inf_loop (fun g k => eval_block call (run_loop lf d) slf depth b g ret (fun _ g => k g)) lf g
      | EWhile x a b =>
          while_loop (fun g k => eval call (run_loop lf d) slf depth a g ret k)
            (fun g k => eval_block call (run_loop lf d) slf depth b g ret (fun _ g => k g)) x lf g k
      | _ => stuck
      end
  end.

End Loops.

(** ** Functions *)

(** Arguments as values of the types of the parameters. *)
Fixpoint bind_params (slf : ty) (ps : list (string * ty)) (args : list V) : option vars :=
  match ps, args with
  | [], [] => Some []
  | (x, t) :: ps, v :: args =>
      match coerce slf t v, bind_params slf ps args with
      | Some v, Some g => Some ((x, v) :: g)
      | _, _ => None
      end
  | _, _ => None
  end.

(** Besides the parameters: a value of type [C], and a mark that [return] gives
    [self] back as well. *)
Definition extra (i : item) (args : list V) : vars :=
  (if i_gen i then match witness 10 args with Some w => [("C"%string, w)] | None => [] end else []) ++
  (match i_params i with
   | (_, t) :: _ => if String.eqb t "&mutSelf"%string && negb (String.eqb (i_ret i) "()"%string) then [("&mut"%string, VU)] else []
   | [] => []
   end).

(** Calling a function or using a constant. *)
Definition run_item {E : Env} (lf : nat) (call : string -> list V -> (V -> res V) -> res V)
    (i : item) (args : list V) (k : V -> res V) : res V :=
  match bind_params (i_self i) (i_params i) args, i_body i with
  | Some g, Some b =>
      let ret v := match coerce (i_self i) (i_ret i) v with Some v => k v | None => stuck end in
      eval_block call (run_loop call lf 1) (i_self i) depth b (g ++ extra i args) ret
        (fun v g =>
           match i_params i with
           | (x, t) :: _ =>
               if String.eqb t "&mutSelf" then
                 match lookup x g with
                 | Some s => if String.eqb (i_ret i) "()" then k s else k (pack v s)
                 | None => stuck
                 end
               else ret v
           | [] => ret v
           end)
  | _, _ => stuck
  end.

(** A list of items in which each refers only to those that follow. *)
Fixpoint link {E : Env} (lf : nat) (l : list item)
    (f : string) (args : list V) (k : V -> res V) : res V :=
  match l with
  | [] => stuck
  | i :: l => if String.eqb f (key i) then run_item lf (link lf l) i args k
              else link lf l f args k
  end.
