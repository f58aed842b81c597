(** * Types, expressions and items of the crate, read from its source *)
From Coq Require Import String Ascii NArith Arith Bool List.
From Verif Require Import Source Rust.
Import ListNotations.
Open Scope string_scope.
Open Scope list_scope.

(** ** Types and expressions *)
Inductive rty : Set :=
| Ty (name : string) (args : list rty)
| TyTuple (l : list rty).
(** Patterns of [match], [let] and closures. *)
Inductive pat : Set :=
| PVar (x : string)
| PWild
| PTuple (l : list pat)
| PCon (c : string) (l : list pat).
(** Expressions, statements and match arms.  A call of a macro of nom is an expression of its own, with its input first. *)
Inductive expr : Set :=
| EVar (x : string)                                (* a variable *)
| EStr (s : string) | EChar (c : ascii) | EBool (b : bool)
| ETuple (l : exprs)                               (* [()], [(a, b)] *)
| ECon (c : string) (l : exprs)                    (* constructors of the standard library and of nom: [Ok(e)], [Box::new(e)] ... *)
| ENew (t v : string) (l : exprs)                  (* [Struct(e)]; [Enum::Variant(e)]; [UnitStruct] *)
| ESelf (l : list string)                          (* [Self { a, b }] *)
| ERecord (l : list (string * rty))                (* the same with the declared fields and their types *)
| EDefault                                         (* [Default::default()] *)
| EParse (t : rty) (e : expr)                      (* [<t as Parse>::parse(e)] *)
| ECall (f : string) (l : exprs)                   (* [f(a)] *)
| ENom (f : string) (a e : expr)                   (* [nom::...::f(a)(e)] *)
| EMethod (e : expr) (m : string) (l : exprs)      (* [e.m(a)] *)
| EBin (op : string) (a b : expr)
| EMatch (e : expr) (l : arms)
| EClo (x : pat) (e : expr)                        (* [|x| e] *)
| EPath (s : string)                               (* a function as a value: [From::from] *)
| EBlock (l : stmts) (e : expr)
(* The macros of nom.  [i] is the input; in [p], [q] and [k] the input is the variable [$in]. *)
| EStep (i p : expr) (x : string) (k : expr)       (* do_parse!(i, x: p >> k) *)
| EDone (i e : expr)                               (* do_parse!(i, (e)) *)
| EAlt (i p q : expr)                              (* alt!(i, p | q) *)
| EAltEnd (i : expr)
| EOpt (i p : expr) | EMany0 (i p : expr) | ERecognize (i p : expr)
| EMap (i p f : expr) | ECond (i c p : expr)
| ESepList (i p q : expr) | ESepList1 (i p q : expr) | ETerminated (i p q : expr)
with exprs : Set := Nil | Cons (e : expr) (l : exprs)
with arms : Set := NoArm | Arm (p : pat) (e : expr) (l : arms)
with stmts : Set :=
| SEnd
| SLet (p : pat) (e : expr) (k : stmts)
| SSet (x : string) (e : expr) (k : stmts)
| SIf (c : expr) (b : stmts) (k : stmts)
| SIfLet (p : pat) (e : expr) (b : stmts) (k : stmts)
| SAssert (c : expr) (k : stmts).

(** ** Reading types *)
Section Read.
Context (ms : macros) (module : string).
(** The last two segments of a path. *)
Definition last2 (l : list string) : string :=
  match rev l with
  | x :: y :: _ => if String.eqb y "term" then ("term::" ++ x)%string else x
  | [x] => if String.eqb module "term" then ("term::" ++ x)%string else x
  | [] => ""
  end.
(** The segments of a path, and what follows. *)
Fixpoint segments (l : list tt) : list string * list tt :=
  match l with
  | I x :: l' =>
      match l' with
      | P a :: P b :: l'' =>
          if Ascii.eqb a ":" && Ascii.eqb b ":" then
            match l'' with
            | I _ :: _ => let '(s, r) := segments l'' in (x :: s, r)
            | _ => ([x], l'')
            end
          else ([x], l')
      | _ => ([x], l')
      end
  | _ => ([], l)
  end.
(** A lifetime, which is dropped from lists of type arguments. *)
Definition is_lifetime (l : list tt) : bool := match l with [L _] => true | _ => false end.
(** The type that all of [l] is. *)
Fixpoint read_type (n : nat) (l : list tt) : option rty :=
  match n with
  | 0 => None
  | S n =>
      match l with
      | [G NoDelim g] => read_type n g
      | [G Paren g] =>
          match fold_right (fun x acc => match read_type n x, acc with Some t, Some a => Some (t :: a) | _, _ => None end) (Some [])
                  (angle_commas 0 [] g) with
          | Some ts => Some (TyTuple ts)
          | None => None
          end
      | P a :: L _ :: l' => if Ascii.eqb a "&" then read_type n l' else None
      | [I m; P a; G _ g] => if Ascii.eqb a "!" then match expand ms m g with Some e => read_type n e | None => None end else None
      | P a :: P b :: l' => if Ascii.eqb a ":" && Ascii.eqb b ":" then read_type n l' else None
      | I x :: _ =>
          match segments l with
          | (s, []) => Some (Ty (last2 s) [])
          | (s, P a :: r) =>
              if Ascii.eqb a "<" then
                let '(g, r') := angle 0 r in
                match r' with
                | [] =>
                    match fold_right (fun x acc => match read_type n x, acc with Some t, Some a => Some (t :: a) | _, _ => None end) (Some [])
                            (filter (fun x => negb (is_lifetime x)) (angle_commas 0 [] g)) with
                    | Some ts => Some (Ty (last2 s) ts)
                    | None => None
                    end
                | _ => None
                end
              else None
          | _ => None
          end
      | _ => None
      end
  end.

(** ** Reading patterns *)
Fixpoint read_pattern (n : nat) (l : list tt) : option pat :=
  match n with
  | 0 => None
  | S n =>
      let many l := fold_right (fun x acc => match read_pattern n x, acc with Some t, Some a => Some (t :: a) | _, _ => None end) (Some []) (commas l) in
      match l with
      | [I x] => if String.eqb x "_" then Some PWild else Some (PVar x)
      | [I x; P _; I _] => Some (PVar x)                    (* [c: char] *)
      | [P _; I x] => Some (PVar x)                         (* [&c] *)
      | [I _; I x] => Some (PVar x)                         (* [mut x] *)
      | [G Paren g] => match many g with Some ps => Some (PTuple ps) | None => None end
      | [I c; G Paren g] => match many g with Some ps => Some (PCon c ps) | None => None end
      | _ => None
      end
  end.

(** ** Reading expressions *)
Definition upper (s : string) : bool := match s with String c _ => between "A" "Z" c | EmptyString => false end.
(** The macros of nom that the crate uses. *)
Definition nom_macros : list string :=
  ["alt"; "cond"; "do_parse"; "map"; "many0"; "opt"; "recognize"; "separated_list"; "separated_nonempty_list"; "terminated"].
(** Constructors and functions that are not of the crate. *)
Definition std_con (s : list string) : option string :=
  match s with
  | [x] => if existsb (String.eqb x) ["Ok"; "Err"; "Some"; "None"] then Some x else None
  | [x; y] => if existsb (String.eqb x) ["Box"; "NomErr"; "ErrorKind"] then Some (x ++ "::" ++ y)%string else None
  | _ => None
  end.
(** The input of a parser inside a macro of nom. *)
Definition input : expr := EVar "$in".
(** The input as the first argument of a macro. *)
Definition mac_input : list tt := [G NoDelim [I "$in"]; P ","].
(** A list of expressions. *)
Fixpoint exprs_of (l : list expr) : exprs := match l with [] => Nil | e :: l' => Cons e (exprs_of l') end.
(** All or nothing. *)
Definition all_some {A} (l : list (option A)) : option (list A) :=
  fold_right (fun x acc => match x, acc with Some a, Some l => Some (a :: l) | _, _ => None end) (Some []) l.

(** Splitting at a binary operator of two characters. *)
Definition op2 (a b : ascii) (l : list tt) : option (list tt * list tt) :=
  let fix go acc l := match l with
    | P c :: P d :: l' => if Ascii.eqb a c && Ascii.eqb b d then Some (rev acc, l') else match l with t :: l'' => go (t :: acc) l'' | [] => None end
    | t :: l' => go (t :: acc) l'
    | [] => None
    end in go [] l.
(** The end of type arguments. *)
Definition is_close (c : ascii) : bool := Ascii.eqb c ">".
(** The arms of [alt!], separated by [|]. *)
Definition bars (l : list tt) : list (list tt) := split (is_p "|") [] l.

(** Read an expression.  Macros of the crate are expanded before; nom macros are read by their syntax in nom 5. *)
Fixpoint read_expr (n : nat) (l : list tt) : option expr :=
  match n with
  | 0 => None
  | S n =>
      match l with
      | [G NoDelim g] => read_expr n g
      | [I x] => Some (if String.eqb x "true" then EBool true else if String.eqb x "false" then EBool false
                       else match std_con [x] with Some c => ECon c Nil | None => if upper x then ENew (last2 [x]) "" Nil else EVar x end)
      | [S_ s] => Some (EStr s)
      | [C c] => Some (EChar c)
      | [G Brace g] => read_block n g
      | [G Paren g] =>
          match commas g with
          | [x] => if existsb (is_p ",") g then match read_expr n x with Some e => Some (ETuple (Cons e Nil)) | None => None end else read_expr n x
          | xs => match all_some (map (read_expr n) xs) with Some es => Some (ETuple (exprs_of es)) | None => None end
          end
      | P a :: l' =>
          if Ascii.eqb a "|" then                                            (* a closure *)
            match upto (is_p "|") l' with
            | (p, _ :: b) => match read_pattern (size p) p, read_expr n b with Some p', Some e => Some (EClo p' e) | _, _ => None end
            | _ => None
            end
          else if Ascii.eqb a "<" then                                       (* [<T as Trait>::parse(e)] *)
            match angle 0 l' with
            | (t, [P _; P _; I _; G Paren g]) =>
                match upto (is_i "as") t with
                | (t', _) => match read_type (size t') t', read_expr n g with Some ty, Some e => Some (EParse ty e) | _, _ => None end
                end
            | _ => None
            end
          else match segments (tl l') with                                   (* [::std::default::Default::default()] *)
               | (s, [G Paren []]) => if String.eqb (last s "") "default" then Some EDefault else None
               | _ => None
               end
      | I x :: l' =>
          if String.eqb x "match" then
            match rev l' with
            | G Brace g :: r =>
                match read_expr n (rev r), read_arms n g with Some e, Some a => Some (EMatch e a) | _, _ => None end
            | _ => None
            end
          else if String.eqb x "Self" then
            match l' with
            | [G Brace g] => match all_some (map (fun y => match y with [I f] => Some f | _ => None end) (commas g)) with
                             | Some fs => Some (ESelf fs)
                             | None => None
                             end
            | _ => None
            end
          else read_ops n l
      | _ => read_ops n l
      end
  end
(** Binary operators by precedence, then calls. *)
with read_ops (n : nat) (l : list tt) : option expr :=
  match n with
  | 0 => None
  | S n =>
      let bin op a b := match read_expr n a, read_expr n b with Some x, Some y => Some (EBin op x y) | _, _ => None end in
      match op2 "|" "|" l with Some (a, b) => bin "||" a b | None =>
      match op2 "&" "&" l with Some (a, b) => bin "&&" a b | None =>
      match op2 "=" "=" l with Some (a, b) => bin "==" a b | None =>
      match op2 "!" "=" l with Some (a, b) => bin "!=" a b | None =>
      match op2 "<" "=" l with Some (a, b) => bin "<=" a b | None =>
      match rev l with
      | G Paren g :: I m :: P d :: r =>
          if Ascii.eqb d "." then                                            (* a method call *)
            match read_expr n (rev r), all_some (map (read_expr n) (commas g)) with
            | Some e, Some es => Some (EMethod e m (exprs_of es))
            | _, _ => None
            end
          else read_call n l
      | _ => read_call n l
      end end end end end end
  end
with read_call (n : nat) (l : list tt) : option expr :=
  match n with
  | 0 => None
  | S n =>
      match l with
      | [I m; P a; G _ g] =>
          if Ascii.eqb a "!" then
            if existsb (String.eqb m) nom_macros then
              match upto (is_p ",") g with
              | (i, _ :: args) => match read_expr n i with Some e => read_nom n m e args | None => None end
              | _ => None
              end
            else match expand ms m g with Some e => read_expr n e | None => None end
          else None
      | _ =>
          match segments l with
          | (s, [G Paren g]) =>
              match all_some (map (read_expr n) (commas g)) with
              | Some es =>
                  match std_con s with
                  | Some c => Some (ECon c (exprs_of es))
                  | None =>
                      match s with
                      | [x; y] => if String.eqb y "parse" then match es with [e] => Some (EParse (Ty (last2 [x]) []) e) | _ => None end
                                  else if upper x then Some (ENew (last2 [x]) y (exprs_of es)) else Some (ECall y (exprs_of es))
                      | [x] => if upper x then Some (ENew (last2 [x]) "" (exprs_of es)) else Some (ECall x (exprs_of es))
                      | _ => None
                      end
                  end
              | None => None
              end
          | (s, [G Paren g; G Paren h]) =>
              match s, read_expr n g, read_expr n h with
              | x :: _, Some a, Some i => if String.eqb x "nom" then Some (ENom (last s "") a i) else None
              | _, _, _ => None
              end
          | (s, [I m; P a; G _ g]) => None
          | (s, P a :: G _ g :: []) =>                                       (* [$crate::macros::m!(..)] *)
              if Ascii.eqb a "!" then match expand ms (last s "") g with Some e => read_expr n e | None => None end else None
          | (s, []) => match std_con s with
                       | Some c => Some (ECon c Nil)
                       | None => Some (EPath (String.concat "::" s))
                       end
          | _ => None
          end
      end
  end
(** A macro of nom with input [i]. *)
with read_nom (n : nat) (m : string) (i : expr) (args : list tt) : option expr :=
  match n with
  | 0 => None
  | S n =>
      let sub2 f := match commas args with
                    | [p; q] => match read_sub n p, read_sub n q with Some a, Some b => Some (f i a b) | _, _ => None end
                    | _ => None
                    end in
      if String.eqb m "do_parse" then read_steps n i (split2 (is_p ">") [] args)
      else if String.eqb m "alt" then read_alts n i (bars args)
      else if String.eqb m "opt" then match read_sub n args with Some p => Some (EOpt i p) | None => None end
      else if String.eqb m "many0" then match read_sub n args with Some p => Some (EMany0 i p) | None => None end
      else if String.eqb m "recognize" then match read_sub n args with Some p => Some (ERecognize i p) | None => None end
      else if String.eqb m "map" then
        match upto (is_p ",") args with
        | (p, _ :: f) => match read_sub n p, read_expr n f with Some a, Some b => Some (EMap i a b) | _, _ => None end
        | _ => None
        end
      else if String.eqb m "cond" then
        match upto (is_p ",") args with
        | (c, _ :: p) => match read_expr n c, read_sub n p with Some a, Some b => Some (ECond i a b) | _, _ => None end
        | _ => None
        end
      else if String.eqb m "separated_list" then sub2 ESepList
      else if String.eqb m "separated_nonempty_list" then sub2 ESepList1
      else if String.eqb m "terminated" then sub2 ETerminated
      else None
  end
(** A parser as an argument of a macro of nom: [m!(args)] or a function; its input is the variable [$in]. *)
with read_sub (n : nat) (l : list tt) : option expr :=
  match n with
  | 0 => None
  | S n =>
      match l with
      | [I m; P _; G _ g] =>
          if existsb (String.eqb m) nom_macros then read_nom n m input g
          else match expand ms m (mac_input ++ g) with Some e => read_expr n e | None => None end
      | [I f] => Some (ECall f (Cons input Nil))
      | _ => None
      end
  end
with read_steps (n : nat) (i : expr) (l : list (list tt)) : option expr :=
  match n with
  | 0 => None
  | S n =>
      match l with
      | [[G Paren g]] => match read_expr n [G Paren g] with Some e => Some (EDone i e) | None => None end
      | (I x :: P c :: p) :: l' =>
          if Ascii.eqb c ":" then
            match read_sub n p, read_steps n input l' with Some a, Some k => Some (EStep i a x k) | _, _ => None end
          else match read_sub n (I x :: P c :: p), read_steps n input l' with Some a, Some k => Some (EStep i a "_" k) | _, _ => None end
      | p :: l' => match read_sub n p, read_steps n input l' with Some a, Some k => Some (EStep i a "_" k) | _, _ => None end
      | [] => None
      end
  end
with read_alts (n : nat) (i : expr) (l : list (list tt)) : option expr :=
  match n with
  | 0 => None
  | S n =>
      match l with
      | [] => Some (EAltEnd i)
      | p :: l' =>
          match upto (is_p "=") p with
          | (a, P _ :: P _ :: [G Brace f]) =>
              match read_sub n a, read_expr n f, read_alts n input l' with
              | Some x, Some y, Some z => Some (EAlt i (EMap input x y) z)
              | _, _, _ => None
              end
          | (a, []) => match read_sub n a, read_alts n input l' with Some x, Some z => Some (EAlt i x z) | _, _ => None end
          | _ => None
          end
      end
  end
with read_arms (n : nat) (l : list tt) : option arms :=
  match n with
  | 0 => None
  | S n =>
      match l with
      | [] => Some NoArm
      | P _ :: l' => read_arms n l'                                          (* a comma *)
      | _ =>
          match upto (is_p "=") l with
          | (p, P _ :: P _ :: G Brace g :: l') =>
              match read_pattern (size p) p, read_expr n [G Brace g], read_arms n l' with
              | Some a, Some e, Some k => Some (Arm a e k)
              | _, _, _ => None
              end
          | (p, P _ :: P _ :: l') =>
              let '(e, r) := upto (is_p ",") l' in
              match read_pattern (size p) p, read_expr n e, read_arms n r with
              | Some a, Some e, Some k => Some (Arm a e k)
              | _, _, _ => None
              end
          | _ => None
          end
      end
  end
(** Statements and the value at the end. *)
with read_block (n : nat) (l : list tt) : option expr :=
  match n with
  | 0 => None
  | S n =>
      match l with
      | I x :: l' =>
          if String.eqb x "use" then read_block n (tl (snd (upto (is_p ";") l')))
          else match upto (is_p ";") l with
               | (s, _ :: r) =>
                   match rev s with
                   | P q :: s' =>
                       if String.eqb x "let" && Ascii.eqb q "?" then          (* [let p = e?; r] *)
                         match upto (is_p "=") (tl s) with
                         | (p, _ :: e) =>
                             match read_pattern (size p) p, read_expr n (removelast e), read_block n r with
                             | Some p', Some e', Some r' =>
                                 Some (EMatch e' (Arm (PCon "Ok" [p']) r' (Arm (PCon "Err" [PVar "e"]) (ECon "Err" (Cons (EVar "e") Nil)) NoArm)))
                             | _, _, _ => None
                             end
                         | _ => None
                         end
                       else None
                   | _ => match read_stmts n l with Some (ss, e) => Some (EBlock ss e) | None => None end
                   end
               | (_, []) => match read_stmts n l with Some (SEnd, e) => Some e | Some (ss, e) => Some (EBlock ss e) | None => None end
               end
      | _ => read_expr n l
      end
  end
with read_stmts (n : nat) (l : list tt) : option (stmts * expr) :=
  match n with
  | 0 => None
  | S n =>
      match l with
      | I x :: l' =>
          if String.eqb x "let" then
            match upto (is_p "=") l' with
            | (p, _ :: r) =>
                match upto (is_p ";") r with
                | (e, _ :: r') =>
                    match read_pattern (size p) p, read_expr n e, read_stmts n r' with
                    | Some a, Some b, Some (k, v) => Some (SLet a b k, v)
                    | _, _, _ => None
                    end
                | _ => None
                end
            | _ => None
            end
          else if String.eqb x "if" then
            match upto (fun t => match t with G Brace _ => true | _ => false end) l' with
            | (c, G Brace b :: r) =>
                match read_body n b, read_stmts n r with
                | Some b', Some (k, v) =>
                    match c with
                    | I y :: c' =>
                        if String.eqb y "let" then
                          match upto (is_p "=") c' with
                          | (p, _ :: e) => match read_pattern (size p) p, read_expr n e with Some a, Some b => Some (SIfLet a b b' k, v) | _, _ => None end
                          | _ => None
                          end
                        else match read_expr n c with Some a => Some (SIf a b' k, v) | None => None end
                    | _ => match read_expr n c with Some a => Some (SIf a b' k, v) | None => None end
                    end
                | _, _ => None
                end
            | _ => None
            end
          else if String.eqb x "assert" then
            match l' with
            | _ :: G _ g :: _ :: r =>
                match commas g, read_stmts n r with
                | c :: _, Some (k, v) => match read_expr n c with Some a => Some (SAssert a k, v) | None => None end
                | _, _ => None
                end
            | _ => None
            end
          else match read_expr n l with Some e => Some (SEnd, e) | None => None end
      | _ => match read_expr n l with Some e => Some (SEnd, e) | None => None end
      end
  end
(** Statements without a value: the body of [if]. *)
with read_body (n : nat) (l : list tt) : option stmts :=
  match n with
  | 0 => None
  | S n =>
      match l with
      | [] => Some SEnd
      | I x :: l' =>
          if String.eqb x "if" then match read_stmts n (l ++ [G Paren []]) with Some (k, _) => Some k | None => None end
          else match l' with
               | P _ :: r =>                                                 (* an assignment *)
                   match upto (is_p ";") r with
                   | (e, _ :: r') => match read_expr n e, read_body n r' with Some a, Some k => Some (SSet x a k) | _, _ => None end
                   | _ => None
                   end
               | _ => None
               end
      | _ => None
      end
  end.
End Read.

(** ** Items *)
Inductive item : Set :=
| IStruct (derives : list string) (name : string) (vars : list string) (fields : list (string * rty))
| IEnum (derives : list string) (name : string) (variants : list (string * rty))
| IAlias (name : string) (t : rty)
| IFn (name : string) (params : list string) (body : expr)
| IParse (vars : list string) (self : rty) (param : string) (body : expr)     (* impl Parse for self *)
| IFrom (src self : rty) (param : string) (body : expr)                        (* impl From<src> for self *)
| IBad (l : list tt).                                                          (* not understood *)

(** Type parameters in [<'a, T: B, U>]. *)
Definition type_vars (l : list tt) : list string :=
  flat_map (fun x => match x with I v :: _ => [v] | _ => [] end) (angle_commas 0 [] l).
(** The fields of a struct in [ast_types!]. *)
Definition fields_of (ms : macros) (m : string) (l : list tt) : option (list (string * rty)) :=
  all_some (map (fun x => match x with
    | I p :: I f :: P _ :: t => match read_type ms m (size t) t with Some t => Some (f, t) | None => None end
    | _ => None end) (angle_commas 0 [] l)).
(** The variants of an enum in [ast_types!]. *)
Definition variants_of (ms : macros) (m : string) (l : list tt) : option (list (string * rty)) :=
  all_some (map (fun x => match x with
    | [I v; G Paren t] => match read_type ms m (size t) t with Some t => Some (v, t) | None => None end
    | _ => None end) (angle_commas 0 [] l)).
(** The traits in [#[derive(...)]]. *)
Definition derive_of (a : list tt) : list string :=
  match a with
  | [I d; G Paren l] => if String.eqb d "derive" then flat_map (fun x => match x with I y => [y] | _ => [] end) l else []
  | _ => []
  end.
(** [#[cfg(test)]]. *)
Definition is_cfg (a : list tt) : bool := match a with I d :: _ => String.eqb d "cfg" | _ => false end.
(** The depth of expressions. *)
Definition depth : nat := 200.
(** The end of an item that is not looked at: a semicolon or a block. *)
Fixpoint skip_item (l : list tt) : list tt :=
  match l with
  | [] => []
  | P c :: l' => if Ascii.eqb c ";" then l' else skip_item l'
  | G Brace _ :: l' => l'
  | _ :: l' => skip_item l'
  end.
(** The type parameters of an item. *)
Definition drop_generics (l : list tt) : list string * list tt :=
  match l with
  | P c :: l' => if Ascii.eqb c "<" then let '(a, b) := angle 0 l' in (type_vars a, b) else ([], l)
  | _ => ([], l)
  end.
(** The items of a list of tokens: [m] is the module, [attrs] the attributes in front.  Returns the macros that are defined, too. *)
Fixpoint read_items (n : nat) (ms : macros) (m : string) (attrs : list (list tt)) (l : list tt) : macros * list item :=
  match n with
  | 0 => (ms, [IBad l])
  | S n =>
      let bad := (ms, [IBad l]) in
      let next l' := read_items n ms m [] l' in
      let add it l' := let '(ms', its) := read_items n ms m [] l' in (ms', it :: its) in
      let skip := existsb is_cfg attrs in
      match l with
      | [] => (ms, [])
      | P h :: G Bracket a :: l' => read_items n ms m (a :: attrs) l'                          (* an attribute *)
      | P h :: P b :: G Bracket a :: l' => read_items n ms m attrs l'                          (* an attribute of the crate *)
      | P c :: l' => next l'                                                                   (* a semicolon *)
      | I p :: l' =>
          if String.eqb p "pub" then
            match l' with
            | G Paren _ :: l'' => read_items n ms m attrs l''
            | _ => read_items n ms m attrs l'
            end
          else if existsb (String.eqb p) ["use"; "extern"; "trait"] then
            next (if String.eqb p "use" then tl (snd (upto (is_p ";") l')) else skip_item l')
          else if String.eqb p "mod" then
            match l' with
            | I x :: P _ :: l'' =>                                                            (* another file *)
                match get x sources with
                | Some src =>
                    let '(ms1, its1) := read_items n ms x [] (tokens src) in
                    let '(ms2, its2) := read_items n ms1 m [] l'' in (ms2, its1 ++ its2)
                | None => bad
                end
            | I x :: G Brace _ :: l'' => if skip then next l'' else bad
            | _ => bad
            end
          else if String.eqb p "macro_rules" then
            match l' with
            | P _ :: I x :: G _ g :: l'' => if skip then next l'' else read_items n ((x, read_rules g) :: ms) m [] l''
            | _ => bad
            end
          else if String.eqb p "type" then
            match l' with
            | I x :: r =>
                let '(_, r1) := drop_generics r in
                let '(t, r2) := upto (is_p ";") (tl r1) in
                match read_type ms m (size t) t with Some ty => add (IAlias x ty) (tl r2) | None => bad end
            | _ => bad
            end
          else if String.eqb p "fn" then
            match l' with
            | I f :: G Paren ps :: r =>
                match upto (fun t => match t with G Brace _ => true | _ => false end) r with
                | (_, G Brace b :: r') =>
                    match read_block ms m depth b with
                    | Some e => add (IFn f (flat_map (fun x => match x with I y :: _ => [y] | _ => [] end) (angle_commas 0 [] ps)) e) r'
                    | None => bad
                    end
                | _ => bad
                end
            | _ => bad
            end
          else if String.eqb p "struct" then
            match l' with
            | I x :: r =>
                let '(vs, r1) := drop_generics r in
                let ds := flat_map derive_of attrs in
                match r1 with
                | G Brace g :: r2 => match fields_of ms m g with Some fs => add (IStruct ds (last2 m [x]) vs fs) r2 | None => bad end
                | G Paren (I _ :: g) :: r2 => match read_type ms m (size g) g with Some t => add (IStruct ds (last2 m [x]) vs [("0", t)]) (tl r2) | None => bad end
                | P _ :: r2 => add (IStruct ds (last2 m [x]) vs []) r2
                | _ => bad
                end
            | _ => bad
            end
          else if String.eqb p "enum" then
            match l' with
            | I x :: r =>
                match drop_generics r with
                | (_, G Brace g :: r2) => match variants_of ms m g with Some vs => add (IEnum (flat_map derive_of attrs) (last2 m [x]) vs) r2 | None => bad end
                | _ => bad
                end
            | _ => bad
            end
          else if String.eqb p "impl" then
            let '(vs, r) := drop_generics l' in
            match upto (is_i "for") r with
            | (tr, _ :: r1) =>
                match upto (fun t => is_i "where" t || match t with G Brace _ => true | _ => false end) r1 with
                | (ty, r2) =>
                    match upto (fun t => match t with G Brace _ => true | _ => false end) r2 with
                    | (_, G Brace b :: r3) =>
                        match read_type ms m (size tr) tr, read_type ms m (size ty) ty, read_items n ms m [] b with
                        | Some (Ty _ targs), Some self, (_, [IFn f [x] e]) =>
                            if String.eqb f "parse" then add (IParse vs self x e) r3
                            else match targs with [src] => add (IFrom src self x e) r3 | _ => bad end
                        | _, _, _ => bad
                        end
                    | _ => bad
                    end
                end
            | _ => bad
            end
          else match l' with
               | P _ :: G _ g :: r =>                                                         (* a macro *)
                   match expand ms p g with
                   | Some e =>
                       let '(ms1, its1) := read_items n ms m [] e in
                       let '(ms2, its2) := read_items n ms1 m [] r in (ms2, its1 ++ its2)
                   | None => bad
                   end
               | _ => bad
               end
      | _ => bad
      end
  end.
(** ** What the compiler resolves *)
Section Resolve.
Context (its : list item).
(** The type aliases of the crate. *)
Definition aliases : list (string * rty) := flat_map (fun i => match i with IAlias x t => [(x, t)] | _ => [] end) its.
(** Type aliases are replaced by what they stand for. *)
Fixpoint resolve (n : nat) (t : rty) : rty :=
  match n with
  | 0 => t
  | S n =>
      match t with
      | Ty x l => match get x aliases with Some u => resolve n u | None => Ty x (map (resolve n) l) end
      | TyTuple l => TyTuple (map (resolve n) l)
      end
  end.
(** A type with aliases replaced (src/lib.rs:112, 245; src/attribute.rs:6, 9; src/types.rs:7; src/argument.rs:6; src/dictionary.rs:6; src/interface.rs:8; src/mixin.rs:8; src/namespace.rs:8). *)
Definition norm (t : rty) : rty := resolve 20 t.
(** Equality of types. *)
Fixpoint rty_eqb (a b : rty) : bool :=
  let fix eqs l m := match l, m with [], [] => true | x :: l', y :: m' => rty_eqb x y && eqs l' m' | _, _ => false end in
  match a, b with
  | Ty x l, Ty y m => String.eqb x y && eqs l m
  | TyTuple l, TyTuple m => eqs l m
  | _, _ => false
  end.
(** The declared fields of a struct, in their order. *)
Definition struct_fields (t : rty) : option (list (string * rty)) :=
  match t with
  | Ty x _ => match find (fun i => match i with IStruct _ y _ _ => String.eqb x y | _ => false end) its with
              | Some (IStruct _ _ _ fs) => Some fs
              | _ => None
              end
  | _ => None
  end.
(** [impl From<t> for self]: parameter and body. *)
Definition find_from (t self : rty) : option (string * expr) :=
  match find (fun i => match i with IFrom a b _ _ => rty_eqb (norm a) (norm t) && rty_eqb (norm b) (norm self) | _ => false end) its with
  | Some (IFrom _ _ x e) => Some (x, e)
  | _ => None
  end.
(** Equality of lists of names. *)
Definition same_names (l m : list string) : bool :=
  forallb (fun x => existsb (String.eqb x) m) l && forallb (fun x => existsb (String.eqb x) l) m.
(** In an [impl] for [self]: aliases are gone, [Self { .. }] has the declared fields with their types, and [From::from] is the
    function for the type that is parsed. *)
Fixpoint res_e (self : rty) (e : expr) : expr :=
  let r := res_e self in
  match e with
  | EVar _ | EStr _ | EChar _ | EBool _ | EDefault | EPath _ | ERecord _ => e
  | ETuple l => ETuple (res_l self l)
  | ECon c l => ECon c (res_l self l)
  | ENew t v l => ENew t v (res_l self l)
  | ESelf l => match struct_fields self with
               | Some fs => if same_names l (map fst fs) then ERecord (map (fun f => (fst f, norm (snd f))) fs) else e
               | None => e
               end
  | EParse t a => EParse (norm t) (r a)
  | ECall f l => ECall f (res_l self l)
  | ENom f a i => ENom f (r a) (r i)
  | EMethod a m l => EMethod (r a) m (res_l self l)
  | EBin o a b => EBin o (r a) (r b)
  | EMatch a l => EMatch (r a) (res_a self l)
  | EClo x a => EClo x (r a)
  | EBlock l a => EBlock (res_s self l) (r a)
  | EStep i p x k => EStep (r i) (r p) x (r k)
  | EDone i a => EDone (r i) (r a)
  | EAlt i p q => EAlt (r i) (r p) (r q)
  | EAltEnd i => EAltEnd (r i)
  | EOpt i p => EOpt (r i) (r p)
  | EMany0 i p => EMany0 (r i) (r p)
  | ERecognize i p => ERecognize (r i) (r p)
  | EMap i p f =>
      EMap (r i) (r p)
        match p, f with
        | EParse t _, EPath s => if String.eqb s "From::from" then match find_from t self with Some (x, b) => EClo (PVar x) b | None => f end else f
        | _, _ => r f
        end
  | ECond i c p => ECond (r i) (r c) (r p)
  | ESepList i p q => ESepList (r i) (r p) (r q)
  | ESepList1 i p q => ESepList1 (r i) (r p) (r q)
  | ETerminated i p q => ETerminated (r i) (r p) (r q)
  end
with res_l (self : rty) (l : exprs) : exprs :=
  match l with Nil => Nil | Cons e l' => Cons (res_e self e) (res_l self l') end
with res_a (self : rty) (l : arms) : arms :=
  match l with NoArm => NoArm | Arm p e l' => Arm p (res_e self e) (res_a self l') end
with res_s (self : rty) (l : stmts) : stmts :=
  match l with
  | SEnd => SEnd
  | SLet p e k => SLet p (res_e self e) (res_s self k)
  | SSet x e k => SSet x (res_e self e) (res_s self k)
  | SIf c b k => SIf (res_e self c) (res_s self b) (res_s self k)
  | SIfLet p e b k => SIfLet p (res_e self e) (res_s self b) (res_s self k)
  | SAssert c k => SAssert (res_e self c) (res_s self k)
  end.
(** An item with aliases, [Self] and [From::from] resolved. *)
Definition res_item (i : item) : item :=
  match i with
  | IStruct ds x vs fs => IStruct ds x vs (map (fun f => (fst f, norm (snd f))) fs)
  | IEnum ds x vs => IEnum ds x (map (fun f => (fst f, norm (snd f))) vs)
  | IFn f ps e => IFn f ps (res_e (TyTuple []) e)
  | IParse vs t x e => IParse vs t x (res_e t e)
  | IFrom a b x e => IFrom (norm a) b x e
  | IAlias _ _ | IBad _ => i
  end.
End Resolve.
(** The items of src/lib.rs and of the modules it declares, in order. *)
Definition read_crate : list item :=
  let its := snd (read_items 3000 [] "lib" [] (tokens src_lib)) in map (res_item its) its.
(** The items of the crate, computed from its source. *)
Definition crate_items : list item := Eval vm_compute in read_crate.
