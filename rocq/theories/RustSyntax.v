(** * Reading Rust text

    Abstract syntax, a lexer and a parser for the part of Rust in which the crate
    is written.  Everything is a total function on strings; a text outside this
    part is read as [None]. *)

From Coq Require Import ZArith Bool List String Ascii.
From Flocq Require Import IEEE754.BinarySingleNaN IEEE754.Binary.
From Verif Require Import Base.
Import ListNotations.
Open Scope Z_scope.

(** ** Abstract syntax *)

Inductive bop : Set :=
| OAdd | OSub | OMul | ODiv | ORem
| OAnd | OOr | OXor | OShl | OShr
| OEq | ONe | OLt | OLe | OGt | OGe
| OLand | OLor.

Inductive uop : Set := UNeg | UNot | URef | UDeref.

(** A type is kept as the concatenation of its tokens. *)
Definition ty := string.

Inductive expr : Type :=
| EInt (n : Z) (suffix : ty)
| EFlt (bits : Z)
| EPath (p : list string)
| EUn (o : uop) (a : expr)
| EBin (o : bop) (a b : expr)
| EAssign (o : option bop) (l r : expr)
| ECast (a : expr) (t : ty)
| EField (a : expr) (i : Z)
| EFieldN (a : expr) (x : string)
| ECall (p : list string) (args : list expr)
| EMethod (a : expr) (m : string) (args : list expr)
| EMacro (m : string) (args : list expr)
| ETuple (l : list expr)
| ERange (inclusive : bool) (a b : expr)
| EIf (c : expr) (t : block) (e : option block)
| EMatch (a : expr) (arms : list (pat * expr))
| EBlock (b : block)
| EReturn (a : expr)
| EFor (x : string) (a : expr) (b : block)
| ELoop (b : block)
| EWhile (x : string) (a : expr) (b : block)        (* while let Some(x) = a b *)
| EStr
| EStruct (p : string) (fs : list (string * expr))
| EArray (l : list expr)
| EIndex (a i : expr)
| EClosure (ps : list (list string)) (e : expr)     (* |a, (b, c)| e *)
with pat : Set :=
| PSome (x : string)
| PNone
| PInt (n : Z)
| PWild
with stmt : Type :=
| SLet (x : string) (t : ty) (e : expr)
| SConst (x : string) (t : ty) (e : expr)
| SLetS (c : string) (xs : list string) (e : expr)  (* let C(x, ...) = e *)
| SExpr (e : expr)
with block : Type :=
| Block (l : list stmt) (last : option expr).

(** A function or constant.  [i_impl] is the header of the enclosing [impl]
    ([""] outside one), [i_self] the type implemented, [i_params] names and types
    of the parameters; [i_gen] says that there is a type parameter [C].  The body
    of an item the parser cannot read is [None]. *)
Record item : Type := mkitem {
  i_impl : string;
  i_self : ty;
  i_name : string;
  i_params : list (string * ty);
  i_ret : ty;
  i_gen : bool;
  i_body : option block
}.

(** ** Decimal literals *)

(** Bits of the f32 nearest to m * 10^k: the quotient is cut 151 bits behind the
    binary point and a last bit records whether anything was cut off. *)
Definition dec_bits (m k : Z) : Z :=
  let num := m * 10 ^ (Z.max k 0) * 2 ^ 151 in
  let den := 10 ^ (Z.max (- k) 0) in
  let q := 2 * (num / den) + (if num mod den =? 0 then 0 else 1) in
  to_bits (binary_normalize 24 128 eq_refl eq_refl mode_NE q (- 152) false).

(** ** Lexer *)

Inductive tok : Type :=
| TId (s : string)
| TInt (n : Z) (suffix : ty)
| TFlt (bits : Z)
| TStr
| TP (s : string).

Definition chars (s : string) : list Z := map (fun c => Z.of_N (N_of_ascii c)) (list_ascii_of_string s).
Definition chr (c : Z) : string := String (ascii_of_N (Z.to_N c)) "".
Definition is_digit (c : Z) : bool := (48 <=? c) && (c <=? 57).
Definition is_alpha (c : Z) : bool :=
  ((97 <=? c) && (c <=? 122)) || ((65 <=? c) && (c <=? 90)) || (c =? 95).
Definition is_space (c : Z) : bool := (c =? 32) || (c =? 10) || (c =? 13) || (c =? 9).
Definition hex (c : Z) : option Z :=
  if is_digit c then Some (c - 48)
  else if (97 <=? c) && (c <=? 102) then Some (c - 87)
  else if (65 <=? c) && (c <=? 70) then Some (c - 55)
  else None.

Fixpoint take_ident (l : list Z) : string * list Z :=
  match l with
  | c :: r => if is_alpha c || is_digit c
              then let (s, q) := take_ident r in (append (chr c) s, q) else ("", l)
  | [] => ("", l)
  end%string.

(** Digits of a base with underscores: value, number of digits, rest. *)
Fixpoint digits (base : Z) (l : list Z) (v n : Z) : Z * Z * list Z :=
  match l with
  | c :: r =>
      if c =? 95 then digits base r v n
      else match hex c with
           | Some d => if d <? base then digits base r (v * base + d) (n + 1) else (v, n, l)
           | None => (v, n, l)
           end
  | [] => (v, n, l)
  end.

Definition lex_int (base : Z) (l : list Z) : tok * list Z :=
  let '(v, _, r) := digits base l 0 0 in
  let (s, r) := take_ident r in (TInt v s, r).

Definition lex_number (l : list Z) : tok * list Z :=
  match l with
  | 48 :: 120 :: r => lex_int 16 r
  | 48 :: 98 :: r => lex_int 2 r
  | _ =>
      let '(v, _, r) := digits 10 l 0 0 in
      match r with
      | 46 :: d :: r' =>
          if is_digit d then
            let '(v, n, r) := digits 10 (d :: r') v 0 in
            let (_, r) := take_ident r in (TFlt (dec_bits v (- n)), r)
          else if (d =? 46) || is_alpha d then lex_int 10 l
          else (TFlt (dec_bits v 0), d :: r')
      | 101 :: 45 :: r' =>
          let '(e, _, r) := digits 10 r' 0 0 in (TFlt (dec_bits v (- e)), r)
      | _ => lex_int 10 l
      end
  end.

(** What follows a lifetime; a comma after it goes with it. *)
Definition skip_lifetime (l : list Z) : list Z :=
  let (_, r) := take_ident l in
  match r with 44 :: r => r | _ => r end.

Fixpoint skip_line (l : list Z) : list Z :=
  match l with c :: r => if c =? 10 then r else skip_line r | [] => [] end.
Fixpoint skip_string (l : list Z) : list Z :=
  match l with c :: r => if c =? 34 then r else skip_string r | [] => [] end.

(** Operators of three, two and one character. *)
Definition puncts3 : list string := ["..="; ">>="; "<<="]%string.
Definition puncts2 : list string :=
  [".."; "::"; "->"; "=>"; "=="; "!="; "<="; ">="; "&&"; "||"; "<<"; ">>";
   "+="; "-="; "*="; "/="; "%="]%string.
Definition mem (s : string) (l : list string) : bool := existsb (String.eqb s) l.

Definition lex_punct (l : list Z) : tok * list Z :=
  match l with
  | a :: b :: c :: r =>
      let s3 := (chr a ++ chr b ++ chr c)%string in
      let s2 := (chr a ++ chr b)%string in
      if mem s3 puncts3 then (TP s3, r)
      else if mem s2 puncts2 then (TP s2, c :: r)
      else (TP (chr a), b :: c :: r)
  | a :: r => (TP (chr a), r)
  | [] => (TP "", [])
  end.

Fixpoint lex (fuel : nat) (l : list Z) : list tok :=
  match fuel with
  | O => []
  | S fuel =>
      match l with
      | [] => []
      | c :: r =>
          if is_space c then lex fuel r
          else if c =? 39 then lex fuel (skip_lifetime r)
          else if c =? 34 then TStr :: lex fuel (skip_string r)
          else if is_digit c then let (t, r) := lex_number l in t :: lex fuel r
          else if is_alpha c then let (s, r) := take_ident l in TId s :: lex fuel r
          else match c, r with
               | 47, 47 :: _ => lex fuel (skip_line r)
               | _, _ => let (t, r) := lex_punct l in t :: lex fuel r
               end
      end
  end.

Definition lex_string (s : string) : list tok :=
  let l := chars s in lex (S (List.length l)) l.

(** ** Parser *)

Definition P (A : Type) : Type := list tok -> option (A * list tok).

Definition isP (s : string) (t : list tok) : bool :=
  match t with TP p :: _ => String.eqb p s | _ => false end.
Definition isK (s : string) (t : list tok) : bool :=
  match t with TId p :: _ => String.eqb p s | _ => false end.
Definition expP (s : string) (t : list tok) : option (list tok) :=
  if isP s t then Some (tl t) else None.

Notation "'let*' p ':=' e 'in' f" :=
  (match e with Some p => f | None => None end)
  (at level 200, p pattern, e at level 100, f at level 200).

Definition tok_text (t : tok) : string :=
  match t with TId s | TP s => s | TInt _ s => s | _ => "" end.

(** Tokens of a type: up to one of the given delimiters outside brackets. *)
Fixpoint ty_upto (stop : list string) (depth : Z) (l : list tok) : string * list tok :=
  match l with
  | [] => ("", [])
  | t :: r =>
      let s := tok_text t in
      if (depth =? 0)%Z && mem s stop then ("", l)
      else
        let d := (if mem s ["("; "<"; "["]%string then depth + 1
                  else if mem s [">>"]%string then depth - 2 else if mem s [")"; ">"; "]"]%string then depth - 1 else depth)%Z in
        let (u, q) := ty_upto stop d r in (append s u, q)
  end%string.

(** What follows the bracket that closes the one already open. *)
Fixpoint skip_close (o c : string) (depth : Z) (l : list tok) : list tok :=
  match l with
  | [] => []
  | t :: r =>
      let s := match t with TP s => s | _ => ""%string end in
      if String.eqb s o then skip_close o c (depth + 1) r
      else if String.eqb c ">" && String.eqb s ">>" then
        (if depth =? 1 then r else skip_close o c (depth - 2) r)
      else if String.eqb s c then
        (if depth =? 0 then r else skip_close o c (depth - 1) r)
      else skip_close o c depth r
  end.

(** Binary operators and their levels of binding. *)
Definition binop_of (t : list tok) : option (bop * Z) :=
  match t with
  | TP s :: _ =>
      if mem s ["*"] then Some (OMul, 10) else if mem s ["/"] then Some (ODiv, 10)
      else if mem s ["%"] then Some (ORem, 10)
      else if mem s ["+"] then Some (OAdd, 9) else if mem s ["-"] then Some (OSub, 9)
      else if mem s ["<<"] then Some (OShl, 8) else if mem s [">>"] then Some (OShr, 8)
      else if mem s ["&"] then Some (OAnd, 7) else if mem s ["^"] then Some (OXor, 6)
      else if mem s ["|"] then Some (OOr, 5)
      else if mem s ["=="] then Some (OEq, 4) else if mem s ["!="] then Some (ONe, 4)
      else if mem s ["<"] then Some (OLt, 4) else if mem s ["<="] then Some (OLe, 4)
      else if mem s [">"] then Some (OGt, 4) else if mem s [">="] then Some (OGe, 4)
      else if mem s ["&&"] then Some (OLand, 3) else if mem s ["||"] then Some (OLor, 2)
      else None
  | _ => None
  end%string.

Definition assign_of (t : list tok) : option (option bop) :=
  match t with
  | TP s :: _ =>
      if mem s ["="] then Some None
      else if mem s ["+="] then Some (Some OAdd) else if mem s ["-="] then Some (Some OSub)
      else if mem s ["*="] then Some (Some OMul) else if mem s ["/="] then Some (Some ODiv)
      else if mem s ["%="] then Some (Some ORem)
      else if mem s [">>="] then Some (Some OShr) else if mem s ["<<="] then Some (Some OShl)
      else None
  | _ => None
  end%string.

(** The segments of a path after the first. *)
Fixpoint path_rest (l : list tok) : list string * list tok :=
  match l with
  | TP c :: TId s :: r =>
      if String.eqb c "::" then let (p, q) := path_rest r in (s :: p, q) else ([], l)
  | _ => ([], l)
  end.

Definition block_like (e : expr) : bool :=
  match e with
  | EIf _ _ _ | EMatch _ _ | EBlock _ | EFor _ _ _ | ELoop _ | EWhile _ _ _ => true
  | _ => false
  end.

Definition stops_ty : list string :=
  [";"; ","; ")"; "}"; "{"; "="; "+"; "-"; "*"; "/"; "%"; "|"; "&"; "^"; "<<"; ">>";
   "=="; "!="; "<"; "<="; ">"; ">="; "&&"; "||"; ".."; "."]%string.

(** A path followed by a brace begins a struct if a field does. *)
Definition fields_follow (t : list tok) : bool :=
  match t with
  | TP b :: TId _ :: TP c :: _ => String.eqb b "{" && (String.eqb c ":" || String.eqb c ",")
  | _ => false
  end.

(** Names separated by commas, up to and including the closing token. *)
Fixpoint names (close : string) (t : list tok) : option (list string * list tok) :=
  match t with
  | TId x :: TP c :: r =>
      if String.eqb c close then Some ([x], r)
      else if String.eqb c "," then let* (l, r) := names close r in Some (x :: l, r)
      else None
  | _ => None
  end.

(** The parameters of a closure, up to and including the bar. *)
Fixpoint closure_params (n : nat) (t : list tok) : option (list (list string) * list tok) :=
  match n with
  | O => None
  | S n =>
      let* (p, t) :=
        match t with
        | TId x :: r => Some ([x], r)
        | TP _ :: r => if isP "(" t then names ")" r else None
        | _ => None
        end in
      if isP "|" t then Some ([p], tl t)
      else let* t := expP "," t in
           let* (l, t) := closure_params n t in Some (p :: l, t)
  end.

(** [parse_bin n lvl]: operators binding at least as tightly as [lvl]; level 1 is
    the range, level 0 assignment. *)
Fixpoint parse_expr (n : nat) : P expr :=
  fun t =>
  match n with
  | O => None
  | S n =>
      let* (a, t) := parse_range n t in
      match assign_of t with
      | Some o => let* (b, t) := parse_expr n (tl t) in Some (EAssign o a b, t)
      | None => Some (a, t)
      end
  end
with parse_range (n : nat) : P expr :=
  fun t =>
  match n with
  | O => None
  | S n =>
      let* (a, t) := parse_bin n 2 t in
      if isP ".." t then let* (b, t) := parse_bin n 2 (tl t) in Some (ERange false a b, t)
      else if isP "..=" t then let* (b, t) := parse_bin n 2 (tl t) in Some (ERange true a b, t)
      else Some (a, t)
  end
with parse_bin (n : nat) (lvl : Z) : P expr :=
  fun t =>
  match n with
  | O => None
  | S n => let* (a, t) := parse_un n t in parse_more n lvl a t
  end
with parse_more (n : nat) (lvl : Z) (a : expr) : P expr :=
  fun t =>
  match n with
  | O => None
  | S n =>
      if isK "as" t then
        let (s, t) := ty_upto stops_ty 0 (tl t) in parse_more n lvl (ECast a s) t
      else
        match binop_of t with
        | Some (o, l) =>
            if lvl <=? l then
              let* (b, t) := parse_bin n (l + 1) (tl t) in parse_more n lvl (EBin o a b) t
            else Some (a, t)
        | None => Some (a, t)
        end
  end
with parse_un (n : nat) : P expr :=
  fun t =>
  match n with
  | O => None
  | S n =>
      if isP "-" t then let* (a, t) := parse_un n (tl t) in Some (EUn UNeg a, t)
      else if isP "!" t then let* (a, t) := parse_un n (tl t) in Some (EUn UNot a, t)
      else if isP "&" t then let* (a, t) := parse_un n (tl t) in Some (EUn URef a, t)
      else if isP "*" t then let* (a, t) := parse_un n (tl t) in Some (EUn UDeref a, t)
      else let* (a, t) := parse_prim n t in parse_post n a t
  end
with parse_post (n : nat) (a : expr) : P expr :=
  fun t =>
  match n with
  | O => None
  | S n =>
      match t with
      | TP d :: TInt i _ :: r =>
          if String.eqb d "." then parse_post n (EField a i) r
          else if String.eqb d "[" then
            let* r := expP "]" r in parse_post n (EIndex a (EInt i ""%string)) r
          else Some (a, t)
      | TP d :: TId m :: r =>
          if String.eqb d "." then
            if isP "(" r then
              let* (l, r) := parse_args n ")" (tl r) in
              parse_post n (EMethod a m l) r
            else if isP "::" r then
              (* the type of a result: [sum::<f32>()] *)
              let (s, r) := ty_upto ["("%string] 0 r in
              let* r := expP "(" r in
              let* (l, r) := parse_args n ")" r in
              parse_post n (EMethod a (m ++ s)%string l) r
            else parse_post n (EFieldN a m) r
          else if String.eqb d "[" then
            let* (i, r) := parse_expr n (TId m :: r) in
            let* r := expP "]" r in parse_post n (EIndex a i) r
          else Some (a, t)
      | _ => Some (a, t)
      end
  end
(** Expressions separated by commas, up to and including the closing bracket. *)
with parse_args (n : nat) (close : string) : P (list expr) :=
  fun t =>
  match n with
  | O => None
  | S n =>
      if isP close t then Some ([], tl t)
      else
        let* (a, t) := parse_expr n t in
        if isP "," t then let* (l, t) := parse_args n close (tl t) in Some (a :: l, t)
        else let* t := expP close t in Some ([a], t)
  end
(** Fields of a struct, up to and including the closing brace. *)
with parse_fields (n : nat) : P (list (string * expr)) :=
  fun t =>
  match n with
  | O => None
  | S n =>
      match t with
      | TId x :: r =>
          let* (e, r) :=
            if isP ":" r then parse_expr n (tl r) else Some (EPath [x], r) in
          let r := if isP "," r then tl r else r in
          let* (l, r) := parse_fields n r in Some ((x, e) :: l, r)
      | _ => let* t := expP "}" t in Some ([], t)
      end
  end
with parse_prim (n : nat) : P expr :=
  fun t =>
  match n with
  | O => None
  | S n =>
      match t with
      | TInt i s :: r => Some (EInt i s, r)
      | TFlt b :: r => Some (EFlt b, r)
      | TStr :: r => Some (EStr, r)
      | TId k :: r =>
          if String.eqb k "if" then parse_if n r
          else if String.eqb k "match" then
            let* (a, r) := parse_expr n r in
            let* r := expP "{" r in
            let* (l, r) := parse_arms n r in
            Some (EMatch a l, r)
          else if String.eqb k "loop" then
            let* (b, r) := parse_block n r in Some (ELoop b, r)
          else if String.eqb k "for" then
            match r with
            | TId x :: r =>
                if isK "in" r then
                  let* (a, r) := parse_expr n (tl r) in
                  let* (b, r) := parse_block n r in
                  Some (EFor x a b, r)
                else None
            | _ => None
            end
          else if String.eqb k "while" then
            match r with
            | TId l :: TId s :: TP o :: TId x :: TP c :: TP e :: r =>
                if String.eqb l "let" && String.eqb s "Some" && String.eqb o "(" &&
                   String.eqb c ")" && String.eqb e "=" then
                  let* (a, r) := parse_expr n r in
                  let* (b, r) := parse_block n r in
                  Some (EWhile x a b, r)
                else None
            | _ => None
            end
          else if String.eqb k "return" then
            let* (a, r) := parse_expr n r in Some (EReturn a, r)
          else
            let (p, r) := path_rest r in
            let p := k :: p in
            if isP "(" r then let* (l, r) := parse_args n ")" (tl r) in Some (ECall p l, r)
            else if isP "!" r && isP "(" (tl r) then
              let* (l, r) := parse_args n ")" (tl (tl r)) in Some (EMacro k l, r)
            else if fields_follow r then
              let* (l, r) := parse_fields n (tl r) in Some (EStruct k l, r)
            else Some (EPath p, r)
      | TP s :: r =>
          if String.eqb s "(" then
            let* (l, r) := parse_args n ")" r in
            match l with [a] => Some (a, r) | _ => Some (ETuple l, r) end
          else if String.eqb s "{" then
            let* (b, r) := parse_block n t in Some (EBlock b, r)
          else if String.eqb s "[" then
            let* (l, r) := parse_args n "]" r in Some (EArray l, r)
          else if String.eqb s "|" then
            let* (ps, r) := closure_params n r in
            let* (e, r) := parse_expr n r in Some (EClosure ps e, r)
          else None
      | _ => None
      end
  end
with parse_if (n : nat) : P expr :=
  fun t =>
  match n with
  | O => None
  | S n =>
      let* (c, t) := parse_expr n t in
      let* (b, t) := parse_block n t in
      if isK "else" t then
        if isK "if" (tl t) then
          let* (e, t) := parse_if n (tl (tl t)) in Some (EIf c b (Some (Block [] (Some e))), t)
        else let* (e, t) := parse_block n (tl t) in Some (EIf c b (Some e), t)
      else Some (EIf c b None, t)
  end
with parse_arms (n : nat) : P (list (pat * expr)) :=
  fun t =>
  match n with
  | O => None
  | S n =>
      if isP "}" t then Some ([], tl t)
      else
        let* (p, t) :=
          match t with
          | TId s :: TP o :: TId x :: TP c :: r =>
              if String.eqb s "Some" && String.eqb o "(" && String.eqb c ")"
              then Some (PSome x, r)
              else if String.eqb s "None" then Some (PNone, tl t)
              else if String.eqb s "_" then Some (PWild, tl t) else None
          | TId s :: r =>
              if String.eqb s "None" then Some (PNone, r)
              else if String.eqb s "_" then Some (PWild, r) else None
          | TInt i _ :: r => Some (PInt i, r)
          | _ => None
          end in
        let* t := expP "=>" t in
        let* (e, t) := parse_expr n t in
        let t := if isP "," t then tl t else t in
        let* (l, t) := parse_arms n t in
        Some ((p, e) :: l, t)
  end
with parse_block (n : nat) : P block :=
  fun t =>
  match n with
  | O => None
  | S n =>
      let* t := expP "{" t in
      let* (b, t) := parse_stmts n t in Some (b, t)
  end
with parse_stmts (n : nat) : P block :=
  fun t =>
  match n with
  | O => None
  | S n =>
      let add s b := match b with Block l e => Block (s :: l) e end in
      if isP "}" t then Some (Block [] None, tl t)
      else if isK "let" t then
        let t := if isK "mut" (tl t) then tl (tl t) else tl t in
        match t with
        | TId c :: TP o :: r =>
            if String.eqb o "(" then
              let* (xs, t) := names ")" r in
              let* t := expP "=" t in
              let* (e, t) := parse_expr n t in
              let* t := expP ";" t in
              let* (b, t) := parse_stmts n t in
              Some (add (SLetS c xs e) b, t)
            else
            let x := c in
            let t := tl t in
            let (s, t) := if isP ":" t then ty_upto ["="%string] 0 (tl t) else (""%string, t) in
            let* t := expP "=" t in
            let* (e, t) := parse_expr n t in
            let* t := expP ";" t in
            let* (b, t) := parse_stmts n t in
            Some (add (SLet x s e) b, t)
        | _ => None
        end
      else if isK "const" t then
        match tl t with
        | TId x :: t =>
            let* t := expP ":" t in
            let (s, t) := ty_upto ["="%string] 0 t in
            let* t := expP "=" t in
            let* (e, t) := parse_expr n t in
            let* t := expP ";" t in
            let* (b, t) := parse_stmts n t in
            Some (add (SConst x s e) b, t)
        | _ => None
        end
      else
        (* an [if], [match], [for], [loop], [while] or block that begins a statement ends it *)
        let* (e, t) :=
          if isK "if" t || isK "match" t || isK "for" t || isK "loop" t || isK "while" t || isP "{" t
          then parse_prim n t else parse_expr n t in
        if isP "}" t then
          Some (Block [] (Some e), tl t)
        else if isP ";" t then
          let* (b, t) := parse_stmts n (tl t) in Some (add (SExpr e) b, t)
        else if block_like e then
          let* (b, t) := parse_stmts n t in Some (add (SExpr e) b, t)
        else None
  end.

(** *** Items *)

Definition parse_fuel : nat := 2000.

(** Attributes. *)
Fixpoint skip_attrs (n : nat) (t : list tok) : list tok :=
  match n with
  | O => t
  | S n =>
      match t with
      | TP h :: TP o :: r =>
          if String.eqb h "#" && String.eqb o "[" then skip_attrs n (skip_close "[" "]" 0 r) else t
      | _ => t
      end
  end.

Definition skip_vis (t : list tok) : list tok :=
  if isK "pub" t then
    let t := tl t in if isP "(" t then skip_close "(" ")" 0 (tl t) else t
  else t.

(** Everything up to and including the semicolon. *)
Fixpoint skip_semi (t : list tok) : list tok :=
  match t with
  | [] => []
  | TP s :: r => if String.eqb s ";" then r else skip_semi r
  | _ :: r => skip_semi r
  end.

Fixpoint parse_params (n : nat) (t : list tok) : list (string * ty) * list tok :=
  match n with
  | O => ([], t)
  | S n =>
      if isP ")" t then ([], tl t)
      else if isP "," t then parse_params n (tl t)
      else
        let t := if isK "mut" t then tl t else t in
        let (s, t) := ty_upto [":"; ","; ")"]%string 0 t in
        if isP ":" t then
          let (u, t) := ty_upto [","; ")"]%string 0 (tl t) in
          let (l, t) := parse_params n t in ((s, u) :: l, t)
        else (* self, &self, &mut self *)
          let u := if String.eqb s "&mutself" then "&mutSelf"%string else "Self"%string in
          let (l, t) := parse_params n t in (("self"%string, u) :: l, t)
  end.

(** Does a name occur? *)
Definition occurs (x : string) (l : list tok) : bool :=
  existsb (fun t => match t with TId s => String.eqb s x | _ => false end) l.

Fixpoint upto_brace (l : list tok) : list tok :=
  match l with
  | [] => []
  | t :: r => if isP "{" l || isP ";" l then [] else t :: upto_brace r
  end.

(** Is there a bound [Into<f32>]? *)
Fixpoint into_f32 (l : list tok) : bool :=
  match l with
  | t :: r =>
      (isK "Into" l && match r with TP _ :: TId b :: _ => String.eqb b "f32" | _ => false end)
      || into_f32 r
  | [] => false
  end.

(** Under such a bound [.into()] is the conversion to f32. *)
Definition name_into (t : tok) : tok :=
  match t with TId s => if String.eqb s "into" then TId "into_f32" else t | _ => t end.

(** [ctx]: the header of the enclosing [impl] or [trait]. *)
Definition parse_fn (hd slf : string) (ctx t : list tok) : option (item * list tok) :=
  match t with
  | TId f :: t =>
      let own := upto_brace t in
      let t := if isP "<" t then skip_close "<" ">" 0 (tl t) else t in
      let* t := expP "(" t in
      let (ps, t) := parse_params 20 t in
      let (rt, t) :=
        if isP "->" t then ty_upto ["{"; "where"; ";"]%string 0 (tl t) else ("()"%string, t) in
      let (_, t) := ty_upto ["{"; ";"]%string 0 t in
      let gen := occurs "C" (ctx ++ own) in
      if isP ";" t then Some (mkitem hd slf f ps rt gen None, tl t)
      else
      let* t' := expP "{" t in
      let inside := if into_f32 (ctx ++ own) then map name_into t else t in
      let body := match parse_block parse_fuel inside with
                  | Some (b, _) => Some b
                  | None => None
                  end in
      Some (mkitem hd slf f ps rt gen body, skip_close "{" "}" 0 t')
  | _ => None
  end.

Definition parse_const (hd slf : string) (t : list tok) : option (item * list tok) :=
  match t with
  | TId f :: t =>
      let* t := expP ":" t in
      let (s, t) := ty_upto ["="; ";"]%string 0 t in
      if isP ";" t then Some (mkitem hd slf f [] s false None, tl t)
      else
      let* t := expP "=" t in
      let body := match parse_expr parse_fuel t with
                  | Some (e, _) => Some (Block [] (Some e))
                  | None => None
                  end in
      Some (mkitem hd slf f [] s false body, skip_semi t)
  | _ => None
  end.

(** The members of an [impl] or [trait], up to and including the closing brace. *)
Fixpoint parse_members (n : nat) (hd slf : string) (ctx t : list tok) :
    option (list item * list tok) :=
  match n with
  | O => None
  | S n =>
      let t := skip_vis (skip_attrs 20 t) in
      if isP "}" t then Some ([], tl t)
      else
        let t := if isK "const" t && isK "fn" (tl t) then tl t else t in
        if isK "fn" t then
          let* (i, t) := parse_fn hd slf ctx (tl t) in
          let* (l, t) := parse_members n hd slf ctx t in Some (i :: l, t)
        else if isK "const" t then
          let* (i, t) := parse_const hd slf (tl t) in
          let* (l, t) := parse_members n hd slf ctx t in Some (i :: l, t)
        else if isK "type" t then parse_members n hd slf ctx (skip_semi t)
        else None
  end.

(** *** Headers *)

(** The tokens before and after the first occurrence of a name. *)
Fixpoint split_at (x : string) (l : list tok) : list tok * option (list tok) :=
  match l with
  | [] => ([], None)
  | t :: r => if isK x l then ([], Some r)
              else let (a, b) := split_at x r in (t :: a, b)
  end.
Fixpoint header (l : list tok) : list tok * list tok :=
  match l with
  | [] => ([], [])
  | t :: r => if isP "{" l then ([], r) else let (h, q) := header r in (t :: h, q)
  end.
Definition text (l : list tok) : string :=
  fold_right (fun t s => append (tok_text t) s) ""%string l.

(** A type without generic arguments: [Vector2d<C>] is [Vector2d]; a slice of
    anything is [&[]]. *)
Definition base_ty (l : list tok) : string :=
  match l with
  | TId x :: TP b :: _ => if String.eqb b "<" then x else text l
  | TP r :: TId x :: TP b :: _ => if String.eqb r "&" && String.eqb b "<" then append "&" x else text l
  | TP r :: TP b :: _ => if String.eqb r "&" && String.eqb b "[" then "&[]"%string else text l
  | _ => text l
  end.

Definition scalars : list string :=
  ["f32"; "F32"; "i8"; "i16"; "i32"; "u8"; "u16"; "u32"; "usize"; "bool"; "()"]%string.
Definition op_traits : list string := ["Add"; "Sub"; "Mul"; "Div"; "PartialEq"]%string.
(** Traits whose methods are called by name alone. *)
Definition plain_traits : list string :=
  ["Vector"; "Iterator"; "FromIterator"; "Mean"; "Variance"; "StdDev"; "Trim"; "F32Ext"]%string.

(** An argument of a trait for a struct: any scalar type or type parameter is [#]. *)
Definition arg_ty (l : list tok) : string :=
  let s := base_ty l in
  if mem s scalars || (String.length s =? 1)%nat then "#"%string else s.

(** The name of an [impl] (generic parameters and bounds taken off) and the type
    it is for.  For the scalar types and outside traits the header is kept as it
    stands.  An operator without an argument is one with the type itself. *)
Definition impl_name (h : list tok) : string * ty :=
  match split_at "for" h with
  | (tr, Some r) =>
      let slf := base_ty r in
      let name := match tr with TId x :: _ => x | _ => ""%string end in
      if mem name plain_traits then (slf, slf)
      else if mem slf scalars && negb (existsb (fun t => match t with TId x => negb (mem x (name :: scalars)) | _ => false end) tr)
      then (text h, slf)
      else
        match tr with
        | [TId x] =>
            if mem x op_traits then ((x ++ "<" ++ slf ++ ">for" ++ slf)%string, slf)
            else ((x ++ "for" ++ slf)%string, slf)
        | TId x :: TP b :: a =>
            if String.eqb b "<" then
              ((x ++ "<" ++ arg_ty (removelast a) ++ ">for" ++ slf)%string, slf)
            else (text h, slf)
        | _ => (text h, slf)
        end
  | (_, None) => (base_ty h, base_ty h)
  end.

(** *** Structs *)

(** The fields of a struct. *)
Fixpoint field_names (n : nat) (t : list tok) : list string :=
  match n with
  | O => []
  | S n =>
      match skip_vis (skip_attrs 20 t) with
      | TId x :: r =>
          let (_, r) := ty_upto [","; "}"]%string 0 r in
          x :: field_names n (if isP "," r then tl r else r)
      | _ => []
      end
  end.
Definition digit_names : list string := ["0"; "1"; "2"; "3"; "4"; "5"; "6"; "7"]%string.
Fixpoint count_fields (n : nat) (t : list tok) : nat :=
  match n with
  | O => O
  | S n =>
      if isP ")" t then O
      else let (_, r) := ty_upto [","; ")"]%string 0 t in
           S (count_fields n (if isP "," r then tl r else r))
  end.

(** [a.f], by name or by number. *)
Definition access (x f : string) : expr :=
  match lex_string f with
  | [TInt i _] => EField (EPath [x]) i
  | _ => EFieldN (EPath [x]) f
  end.

Open Scope string_scope.

(** What [derive(Default)] and [derive(PartialEq)] write.  The first is given a
    value of the type [C]. *)
Definition derived (attrs : list tok) (x : string) (fs : list string) : list item :=
  (if occurs "Default" attrs then
     [mkitem x x "default" [("C", "C")] "Self" false
        (Some (Block [] (Some (EStruct "Self"
           (map (fun f => (f, ECall ["C"; "default"] [])) fs)))))]
   else []) ++
  (if occurs "PartialEq" attrs then
     [mkitem ("PartialEq<" ++ x ++ ">for" ++ x) x "eq" [("self", "Self"); ("other", "Self")] "bool" false
        (Some (Block [] (match map (fun f => EBin OEq (access "self" f) (access "other" f)) fs with
                         | [] => Some (EPath ["true"])
                         | e :: l => Some (fold_left (EBin OLand) l e)
                         end)))]
   else []).

Close Scope string_scope.

(** Derived impls are read for structs called in [ds]. *)
Definition parse_struct (ds : list string) (attrs t : list tok) : list item * list tok :=
  match t with
  | TId x :: r =>
      let r := if isP "<" r then skip_close "<" ">" 0 (tl r) else r in
      if isP "(" r then
        ((if mem x ds then derived attrs x (firstn (count_fields 8 (tl r)) digit_names) else []), skip_semi r)
      else
        let (_, r) := header r in
        ((if mem x ds then derived attrs x (field_names 8 r) else []), skip_close "{" "}" 0 r)
  | _ => ([], skip_semi t)
  end.

(** [attrs]: the attributes taken off. *)
Fixpoint parse_items (n : nat) (ds : list string) (t : list tok) : option (list item) :=
  match n with
  | O => None
  | S n =>
      let attrs := t in
      let t := skip_vis (skip_attrs 20 t) in
      let attrs := firstn (List.length attrs - List.length t) attrs in
      match t with
      | [] => Some []
      | _ =>
          if isK "use" t || isK "mod" t || isK "type" t || isP "!" (tl t) && isP "(" (tl (tl t))
          then parse_items n ds (skip_semi t)
          else if isK "macro_rules" t then parse_items n ds (skip_close "{" "}" 0 (snd (header t)))
          else if isK "struct" t then
            let (l, t) := parse_struct ds attrs (tl t) in
            let* l' := parse_items n ds t in Some (l ++ l')
          else if isK "const" t then
            let* (i, t) := parse_const "" "" (tl t) in
            let* l := parse_items n ds t in Some (i :: l)
          else if isK "trait" t then
            match tl t with
            | TId x :: _ =>
                let (h, t) := header (tl t) in
                let* (l, t) := parse_members 100 x x h t in
                let* l' := parse_items n ds t in Some (l ++ l')
            | _ => None
            end
          else if isK "impl" t then
            let (ctx, t) := header (tl t) in
            let h := if isP "<" ctx then skip_close "<" ">" 0 (tl ctx) else ctx in
            let h := fst (split_at "where" h) in
            let (name, slf) := impl_name h in
            let* (l, t) := parse_members 100 name slf ctx t in
            let* l' := parse_items n ds t in Some (l ++ l')
          else None
      end
  end.

Definition parse_file (s : string) : option (list item) := parse_items 200 [] (lex_string s).

(** All items of a list of files. *)
Fixpoint parse_files (l : list string) : option (list item) :=
  match l with
  | [] => Some []
  | s :: r =>
      let* a := parse_file s in
      let* b := parse_files r in Some (a ++ b)
  end.

(** The name under which an item is referred to: [F32::sqrt], [SIGN_MASK],
    [Add<f32>forF32::add]. *)
Definition key (i : item) : string :=
  if String.eqb (i_impl i) "" then i_name i else (i_impl i ++ "::" ++ i_name i)%string.

Definition find_item (k : string) (l : list item) : option item :=
  find (fun i => String.eqb (key i) k) l.
