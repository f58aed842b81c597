(** * The unit tests of the crate, read from its source and run

    The modules [#[cfg(test)]] of the source have several hundred unit tests, most of them written with the macros [test!] and
    [test_variants!] (src/macros.rs:554-614) and [generate_tests!] (src/term.rs:575-619).  Here they are read from the same text
    that Crate.v reads, the macros are expanded by Rust.v, and the tests are run: [T::parse(..)] is what Interp.v gives it.
    Nothing is transcribed by hand.  The integration tests (tests/webidl.rs) are read and run in the same way, with the files
    they read (SourceDefs.v).

    Simplifications:
    - a name without a path is a type of the crate if there is one outside of the module [term], and one of the module [term]
      otherwise ([use] declarations are not looked at; src/literal.rs:147-148 imports both);
    - [pop] gives the last element and leaves the vector as it is (no test looks at the vector again);
    - panic messages are dropped. *)
From Coq Require Import String Ascii NArith Arith Bool List.
From Verif Require Import Nom Lex Bytes Source SourceDefs.
From Verif Require Import Rust Crate Interp.
Import ListNotations.
Open Scope string_scope.
Open Scope list_scope.

(** ** Expressions and statements of the tests *)
Inductive texpr : Set :=
| TVar (x : string)
| TStr (s : string)
| TNum (n : nat)
| TBool (b : bool)
| TDefault                                             (* [Default::default()] *)
| TTuple (l : list texpr)
| TCon (c : string) (l : list texpr)                   (* [Some(e)], [None] *)
| TNew (t v : string) (l : list texpr)                 (* [Struct(e)], [Enum::Variant(e)], [UnitStruct] *)
| TRecord (t : string) (l : list (string * texpr))     (* [Struct { f: e }] *)
| TField (e : texpr) (f : string)
| TIndex (e : texpr) (n : nat)
| TMethod (e : texpr) (m : string)                     (* without arguments *)
| TParse (t : rty) (e : texpr)                         (* [T::parse(e)] *)
| TCall (f : string) (e : texpr).
Inductive tpat : Set :=
| XWild
| XVar (x : string)
| XTuple (l : list tpat)
| XNew (t v : string) (l : list tpat)
| XRecord (t : string) (l : list (string * tpat)).     (* with [..] or without *)
Inductive tstmt : Set :=
| TLet (p : tpat) (e : texpr)
| TEq (a b : texpr)                                    (* [assert_eq!] *)
| TAssert (e : texpr)
| TPanic                                               (* [panic!], [unreachable!] *)
| TDo (e : texpr)
| TMatch (e : texpr) (l : list (tpat * list tstmt)).

(** ** Reading them *)
Section ReadTests.
Context (ms : macros) (module : string).
(** Names that are declared in the crate. *)
Definition known_name (x : string) : bool :=
  existsb (fun i => match i with IStruct _ y _ _ | IEnum _ y _ | IAlias y _ => String.eqb x y | _ => false end) crate_items.
(** A name of a type. *)
Definition name_of (x : string) : string :=
  if known_name x then x else if known_name ("term::" ++ x) then ("term::" ++ x)%string else x.
(** A type with the names of types in it. *)
Fixpoint names_of (t : rty) : rty :=
  match t with
  | Ty x l => Ty (name_of x) (map names_of l)
  | TyTuple l => TyTuple (map names_of l)
  end.
(** The type that all of [l] is. *)
Definition type_of (l : list tt) : option rty :=
  match read_type ms module (size l) l with Some t => Some (norm crate_items (names_of t)) | None => None end.
(** A number. *)
Fixpoint digits (acc : nat) (s : string) : nat :=
  match s with String c s' => digits (10 * acc + (code c - 48)) s' | EmptyString => acc end.
(** The type and the variant that a path names. *)
Definition type_variant (s : list string) : option (string * string) :=
  match rev s with
  | [x] => Some (name_of (last2 module [x]), "")
  | v :: t :: _ => if upper t then Some (name_of (last2 module [t]), v) else Some (name_of (last2 module (rev [v; t])), "")
  | [] => None
  end.
(** The strings in [concat!]. *)
Definition concat_of (l : list tt) : option string :=
  fold_right (fun x acc => match x, acc with
    | [S_ s], Some a | [G NoDelim [S_ s]], Some a => Some (s ++ a)%string
    | _, _ => None end) (Some "") (commas l).

(** Expressions. *)
Fixpoint texpr_of (n : nat) (l : list tt) : option texpr :=
  match n with
  | 0 => None
  | S n =>
      let list_of l := all_some (map (texpr_of n) (commas l)) in
      let path s r :=
        match std_con s, type_variant s, r with
        | Some c, _, [] => Some (TCon c [])
        | Some c, _, [G Paren g] => match list_of g with Some es => Some (TCon c es) | None => None end
        | None, _, [G Paren g] =>
            if String.eqb (last s "") "default" then Some TDefault
            else if String.eqb (last s "") "parse" then
              match rev (removelast s), texpr_of n g with
              | t :: _, Some e =>
                  if upper t then match type_of [I t] with Some ty => Some (TParse ty e) | None => None end
                  else Some (TCall "parse" e)
              | _, _ => None
              end
            else match type_variant s, list_of g with
                 | Some (t, v), Some es => match s, es with
                                           | [f], [e] => if upper f then Some (TNew t v es) else Some (TCall f e)
                                           | _, _ => Some (TNew t v es)
                                           end
                 | _, _ => None
                 end
        | None, Some (t, _), [G Brace g] =>
            match all_some (map (fun x => match x with
                    | I f :: P c :: e => match texpr_of n e with Some a => Some (f, a) | None => None end
                    | _ => None end) (commas g)) with
            | Some fs => Some (TRecord t fs)
            | None => None
            end
        | None, Some (t, v), [] =>
            match s with
            | [x] => if upper x then Some (TNew t v []) else Some (TVar x)
            | _ => Some (TNew t v [])
            end
        | _, _, _ => None
        end in
      match l with
      | [G NoDelim g] => texpr_of n g
      | [S_ s] => Some (TStr s)
      | [Num s] => Some (TNum (digits 0 s))
      | [G Paren g] =>
          match commas g with
          | [x] => texpr_of n x
          | _ => match list_of g with Some es => Some (TTuple es) | None => None end
          end
      | [I m; P a; G _ g] =>
          if String.eqb m "concat" then match concat_of g with Some s => Some (TStr s) | None => None end
          else if Ascii.eqb a "!" then match expand ms m g with Some e => texpr_of n e | None => None end
          else None
      | P a :: l' =>
          if Ascii.eqb a "&" then texpr_of n l'
          else if Ascii.eqb a "<" then                                       (* [<T>::parse(e)] and what follows *)
            match angle 0 l' with
            | (t, P _ :: P _ :: I _ :: G Paren g :: r) =>
                match type_of t, texpr_of n g, r with
                | Some ty, Some e, [] => Some (TParse ty e)
                | Some ty, Some e, [P _; I m; G Paren []] => Some (TMethod (TParse ty e) m)
                | _, _, _ => None
                end
            | _ => None
            end
          else None
      | _ =>
          match rev l with
          | G Paren [] :: I m :: P d :: r =>
              if Ascii.eqb d "." then match texpr_of n (rev r) with Some e => Some (TMethod e m) | None => None end
              else let '(s, q) := segments l in path s q
          | I f :: P d :: r | Num f :: P d :: r =>
              if Ascii.eqb d "." then match texpr_of n (rev r) with Some e => Some (TField e f) | None => None end
              else let '(s, q) := segments l in path s q
          | G Bracket [Num k] :: r => match texpr_of n (rev r) with Some e => Some (TIndex e (digits 0 k)) | None => None end
          | _ =>
              match l with
              | [I x] => if String.eqb x "true" then Some (TBool true) else if String.eqb x "false" then Some (TBool false) else path [x] []
              | _ => let '(s, q) := segments l in path s q
              end
          end
      end
  end.

(** Patterns. *)
Fixpoint tpat_of (n : nat) (l : list tt) : option tpat :=
  match n with
  | 0 => None
  | S n =>
      let list_of l := all_some (map (tpat_of n) (commas l)) in
      match l with
      | [I x] => Some (if String.eqb x "_" then XWild else XVar x)
      | [I _; I x] => Some (XVar x)                                          (* [ref x], [mut x] *)
      | [G Paren g] => match list_of g with Some ps => Some (XTuple ps) | None => None end
      | _ =>
          let '(s, r) := segments l in
          match type_variant s, r with
          | Some (t, v), [G Paren g] => match list_of g with Some ps => Some (XNew t v ps) | None => None end
          | Some (t, _), [G Brace g] =>
              match all_some (map (fun x => match x with
                      | [I f] => Some (f, XVar f)
                      | [I _; I f] => Some (f, XVar f)
                      | I f :: P _ :: p => match tpat_of n p with Some q => Some (f, q) | None => None end
                      | _ => None end)
                    (filter (fun x => match x with [P _; P _] => false | _ => true end) (commas g))) with
              | Some fs => Some (XRecord t fs)
              | None => None
              end
          | _, _ => None
          end
      end
  end.

(** A token that ends a statement. *)
Definition is_brace (t : tt) : bool := match t with G Brace _ => true | _ => false end.
(** Statements. *)
Fixpoint tstmts_of (n : nat) (l : list tt) : option (list tstmt) :=
  match n with
  | 0 => None
  | S n =>
      let more s r := match s, tstmts_of n r with Some a, Some k => Some (a :: k) | _, _ => None end in
      match l with
      | [] => Some []
      | P c :: r =>
          if Ascii.eqb c ";" then tstmts_of n r
          else let '(e, r') := upto (is_p ";") l in more (match texpr_of n e with Some a => Some (TDo a) | None => None end) r'
      | I x :: l' =>
          if String.eqb x "use" then tstmts_of n (snd (upto (is_p ";") l'))
          else if String.eqb x "let" then
            match upto (is_p "=") l' with
            | (p, _ :: r) =>
                let '(e, r') := upto (is_p ";") r in
                more (match tpat_of n p, texpr_of n e with Some a, Some b => Some (TLet a b) | _, _ => None end) r'
            | _ => None
            end
          else if String.eqb x "match" then
            match upto is_brace l' with
            | (e, G _ g :: r) => more (match texpr_of n e, tarms_of n g with Some a, Some b => Some (TMatch a b) | _, _ => None end) r
            | _ => None
            end
          else
            match l' with
            | P c :: G _ g :: r =>
                if Ascii.eqb c "!" then
                  if String.eqb x "assert_eq" then
                    more (match map (texpr_of n) (commas g) with [Some a; Some b] => Some (TEq a b) | _ => None end) r
                  else if String.eqb x "assert" then more (match texpr_of n g with Some a => Some (TAssert a) | None => None end) r
                  else if existsb (String.eqb x) ["panic"; "unreachable"] then more (Some TPanic) r
                  else match expand ms x g with Some e => tstmts_of n (e ++ r) | None => None end
                else let '(e, r') := upto (is_p ";") l in more (match texpr_of n e with Some a => Some (TDo a) | None => None end) r'
            | _ => let '(e, r') := upto (is_p ";") l in more (match texpr_of n e with Some a => Some (TDo a) | None => None end) r'
            end
      | _ => None
      end
  end
with tarms_of (n : nat) (l : list tt) : option (list (tpat * list tstmt)) :=
  match n with
  | 0 => None
  | S n =>
      match l with
      | [] => Some []
      | P _ :: r => tarms_of n r                                             (* a comma *)
      | _ =>
          match upto (is_p "=") l with
          | (p, P _ :: P _ :: G Brace g :: r) =>
              match tpat_of n p, tstmts_of n g, tarms_of n r with Some a, Some b, Some k => Some ((a, b) :: k) | _, _, _ => None end
          | (p, P _ :: P _ :: r) =>
              let '(e, r') := upto (is_p ",") r in
              match tpat_of n p, tstmts_of n e, tarms_of n r' with Some a, Some b, Some k => Some ((a, b) :: k) | _, _, _ => None end
          | _ => None
          end
      end
  end.
End ReadTests.

(** *** Test modules *)
(** A test: its path and its statements, or [None] if it was not understood. *)
Definition unit_test : Set := string * option (list tstmt).
(** The path of an item. *)
Definition under (m x : string) : string := (m ++ "::" ++ x)%string.
(** The depth of statements. *)
Definition tdepth : nat := 100.
(** The tests in the body of a module; [f] is the file (a module of the crate), [m] the path of the module. *)
Fixpoint read_tests (n : nat) (ms : macros) (f m : string) (attrs : list (list tt)) (l : list tt) : list unit_test :=
  match n with
  | 0 => [(m, None)]
  | S n =>
      match l with
      | [] => []
      | P _ :: G Bracket a :: l' => read_tests n ms f m (a :: attrs) l'
      | P _ :: l' => read_tests n ms f m [] l'
      | I p :: l' =>
          if String.eqb p "pub" then read_tests n ms f m attrs l'
          else if existsb (String.eqb p) ["use"; "extern"] then read_tests n ms f m [] (snd (upto (is_p ";") l'))
          else
            match l' with
            | P _ :: I x :: G _ g :: r =>                                                      (* [macro_rules!] *)
                if String.eqb p "macro_rules" then read_tests n ((x, read_rules g) :: ms) f m [] r else [(m, None)]
            | I x :: G Brace g :: r =>
                if String.eqb p "mod" then read_tests n ms f (under m x) [] g ++ read_tests n ms f m [] r else [(m, None)]
            | I x :: G Paren ps :: r =>
                match upto is_brace r with
                | (_, G _ b :: r') =>
                    let rest := read_tests n ms f m [] r' in
                    if existsb (fun a => match a with [I y] => String.eqb y "test" | _ => false end) attrs
                    then (under m x, tstmts_of ms f tdepth b) :: rest
                    else rest                                                                  (* a function that is not a test *)
                | _ => [(m, None)]
                end
            | P _ :: G _ g :: r =>                                                             (* a macro *)
                match expand ms p g with
                | Some e => read_tests n ms f m [] e ++ read_tests n ms f m [] r
                | None => [(m, None)]
                end
            | _ => [(m, None)]
            end
      | _ => [(m, None)]
      end
  end.
(** [#[cfg(test)]] in front of an item. *)
Definition cfg_test (a : list tt) : bool :=
  match a with [I c; G Paren [I t]] => String.eqb c "cfg" && String.eqb t "test" | _ => false end.
(** The macros for tests in a file. *)
Fixpoint test_macros (l : list tt) : macros :=
  match l with
  | P _ :: ((G Bracket a :: I p :: P _ :: I x :: G _ g :: _) as l') =>
      if cfg_test a && String.eqb p "macro_rules" then (x, read_rules g) :: test_macros l' else test_macros l'
  | _ :: l' => test_macros l'
  | [] => []
  end.
(** The test modules of a file. *)
Fixpoint test_mods (l : list tt) : list (string * list tt) :=
  match l with
  | P _ :: ((G Bracket a :: I p :: I x :: G Brace g :: _) as l') =>
      if cfg_test a && String.eqb p "mod" then (x, g) :: test_mods l' else test_mods l'
  | _ :: l' => test_mods l'
  | [] => []
  end.
(** The macros of the crate, and those for tests. *)
Definition all_macros : macros :=
  Eval vm_compute in
  flat_map (fun s => test_macros (tokens (snd s))) sources ++ fst (read_items 3000 [] "lib" [] (tokens src_lib)).
(** The unit tests of a file. *)
Definition file_tests (s : string * string) : list unit_test :=
  flat_map (fun g => read_tests 3000 all_macros (fst s) (under (fst s) (fst g)) [] (snd g)) (test_mods (tokens (snd s))).
(** All unit tests of the crate. *)
Definition unit_tests : list unit_test := Eval vm_compute in flat_map file_tests sources.
(** The integration tests. *)
Definition integration_tests : list unit_test := Eval vm_compute in read_tests 3000 all_macros "webidl" "webidl" [] (tokens src_webidl).

(** ** Running them *)
(** A value of the crate, or a number ([len()]). *)
Inductive tval : Type := TV (v : value) | TN (n : nat).
(** The result of an expression. *)
Inductive tans : Type := TVal (v : tval) | TPanics | TStuck.
(** The result of a test: a test that is not understood does not pass. *)
Inductive verdict : Set := Pass | Fail | Unknown.

(** Equality of values, as [#[derive(PartialEq)]] has it. *)
Fixpoint veqb (v w : value) : bool :=
  let fix eqs l m := match l, m with [], [] => true | a :: l', b :: m' => veqb a b && eqs l' m' | _, _ => false end in
  let fix feqs l m := match l, m with
    | [], [] => true
    | (x, a) :: l', (y, b) :: m' => String.eqb x y && veqb a b && feqs l' m'
    | _, _ => false
    end in
  match v, w with
  | VStr s, VStr t | VBytes s, VBytes t => text_eqb s t
  | VChr c, VChr d => N.eqb c d
  | VBool b, VBool c => Bool.eqb b c
  | VTup l, VTup m | VVec l, VVec m => eqs l m
  | VCon c l, VCon d m => String.eqb c d && eqs l m
  | VData t x l, VData u y m => String.eqb t u && String.eqb x y && feqs l m
  | _, _ => false
  end.
(** [Box] is transparent for fields, methods and [==]. *)
Fixpoint unbox (v : value) : value :=
  match v with VCon c [w] => if String.eqb c "Box::new" then unbox w else v | _ => v end.
(** [Default::default()] of a struct all of whose fields have one. *)
Fixpoint default_of (n : nat) (t : rty) : option value :=
  match n with
  | 0 => None
  | S n =>
      match t with
      | Ty x _ =>
          match find (fun i => match i with IStruct _ y _ _ => String.eqb x y | _ => false end) crate_items with
          | Some (IStruct ds _ _ fs) =>
              if existsb (String.eqb "Default") ds then
                match all_some (map (fun f => match default_of n (snd f) with Some v => Some (fst f, v) | None => None end) fs) with
                | Some vs => Some (VData x "" vs)
                | None => None
                end
              else None
          | _ => None
          end
      | TyTuple _ => None
      end
  end.
(** Methods without arguments. *)
Definition tmethod (v : value) (m : string) : tans :=
  match v with
  | VVec l =>
      if String.eqb m "len" then TVal (TN (List.length l))
      else if String.eqb m "pop" then TVal (TV (match rev l with x :: _ => VCon "Some" [x] | [] => VCon "None" [] end))
      else TStuck
  | VCon c l =>
      if String.eqb m "is_some" then TVal (TV (VBool (String.eqb c "Some")))
      else if String.eqb m "is_none" then TVal (TV (VBool (String.eqb c "None")))
      else if String.eqb m "unwrap" then
        match l with
        | [x] => if String.eqb c "Some" || String.eqb c "Ok" then TVal (TV x) else TPanics
        | _ => TPanics
        end
      else if String.eqb m "unwrap_err" then
        match l with [x] => if String.eqb c "Err" then TVal (TV x) else TPanics | _ => TPanics end
      else TStuck
  | _ => TStuck
  end.
(** Match a pattern. *)
Fixpoint tbind (p : tpat) (v : value) : option (list (string * tval)) :=
  let fix binds ps vs :=
    match ps, vs with
    | [], [] => Some []
    | q :: ps', w :: vs' => match tbind q w, binds ps' vs' with Some a, Some b => Some (a ++ b) | _, _ => None end
    | _, _ => None
    end in
  let fix fields ps fs :=
    match ps with
    | [] => Some []
    | (f, q) :: ps' =>
        match lookup f fs with
        | Some w => match tbind q w, fields ps' fs with Some a, Some b => Some (a ++ b) | _, _ => None end
        | None => None
        end
    end in
  match p, v with
  | XWild, _ => Some []
  | XVar x, _ => Some [(x, TV v)]
  | XTuple ps, VTup vs => binds ps vs
  | XNew t c ps, VData u d fs => if String.eqb t u && String.eqb c d then binds ps (map snd fs) else None
  | XRecord t ps, VData u d fs => if String.eqb t u && String.eqb d "" then fields ps fs else None
  | _, _ => None
  end.

Section Run.
(** The crate that is tested. *)
Context (cr : callee -> list value -> ans).
(** Expressions. *)
Fixpoint teval (e : list (string * tval)) (x : texpr) : tans :=
  let fix evs l : option (list value) :=
    match l with
    | [] => Some []
    | a :: l' => match teval e a, evs l' with TVal (TV v), Some vs => Some (v :: vs) | _, _ => None end
    end in
  let fix fields l : option (list (string * value)) :=
    match l with
    | [] => Some []
    | (f, a) :: l' => match teval e a, fields l' with TVal (TV v), Some vs => Some ((f, v) :: vs) | _, _ => None end
    end in
  let vals l (k : list value -> tans) := match evs l with Some vs => k vs | None => TStuck end in
  let from_ans a := match a with Val v => TVal (TV v) | Panic => TPanics | Stuck => TStuck end in
  match x with
  | TVar y => match lookup y e with Some v => TVal v | None => TStuck end
  | TStr s => TVal (TV (VStr (str s)))
  | TNum n => TVal (TN n)
  | TBool b => TVal (TV (VBool b))
  | TDefault => TStuck
  | TTuple l => vals l (fun vs => TVal (TV (VTup vs)))
  | TCon c l => vals l (fun vs => TVal (TV (VCon c vs)))
  | TNew t v l => vals l (fun vs => match vs with
                                    | [] => TVal (TV (VData t v []))
                                    | [a] => TVal (TV (VData t v [("0", a)]))
                                    | _ => TStuck
                                    end)
  | TRecord t l =>
      match fields l, struct_fields crate_items (Ty t []) with
      | Some vs, Some fs =>
          if same_names (map fst vs) (map fst fs) then
            match all_some (map (fun f => match lookup (fst f) vs with Some v => Some (fst f, v) | None => None end) fs) with
            | Some ws => TVal (TV (VData t "" ws))
            | None => TStuck
            end
          else TStuck
      | _, _ => TStuck
      end
  | TField a f =>
      match teval e a with
      | TVal (TV v) => match unbox v with
                       | VData _ _ fs => match lookup f fs with Some w => TVal (TV w) | None => TStuck end
                       | VTup l => match nth_error l (digits 0 f) with Some w => TVal (TV w) | None => TStuck end
                       | _ => TStuck
                       end
      | TVal _ => TStuck
      | r => r
      end
  | TIndex a k =>
      match teval e a with
      | TVal (TV v) => match unbox v with
                       | VVec l => match nth_error l k with Some w => TVal (TV w) | None => TPanics end
                       | _ => TStuck
                       end
      | TVal _ => TStuck
      | r => r
      end
  | TMethod a m => match teval e a with TVal (TV v) => tmethod (unbox v) m | TVal _ => TStuck | r => r end
  | TParse t a => match teval e a with TVal (TV v) => from_ans (cr (CParse t) [v]) | TVal _ => TStuck | r => r end
  | TCall f a => match teval e a with TVal (TV v) => from_ans (cr (CFn f) [v]) | TVal _ => TStuck | r => r end
  end.
(** [assert_eq!]; the type of [Default::default()] is that of the other side. *)
Definition teq (e : list (string * tval)) (a b : texpr) : tans :=
  match teval e a, b with
  | TVal (TV (VData t v fs)), TDefault =>
      match default_of 20 (Ty t []) with Some w => TVal (TV (VBool (veqb (VData t v fs) w))) | None => TStuck end
  | TVal x, _ =>
      match x, teval e b with
      | TV v, TVal (TV w) => TVal (TV (VBool (veqb (unbox v) (unbox w))))
      | TN n, TVal (TN k) => TVal (TV (VBool (Nat.eqb n k)))
      | _, TPanics => TPanics
      | _, _ => TStuck
      end
  | r, _ => r
  end.
(** Statements; [n] bounds how deep [match] is nested. *)
Fixpoint texec (n : nat) (e : list (string * tval)) (l : list tstmt) : verdict :=
  match n with
  | 0 => Unknown
  | S n =>
      let check a k := match a with
                       | TVal (TV (VBool true)) => k
                       | TVal (TV (VBool false)) | TPanics => Fail
                       | _ => Unknown
                       end in
      match l with
      | [] => Pass
      | TLet p a :: k =>
          match teval e a with
          | TVal (TV v) => match tbind p v with Some e' => texec n (e' ++ e) k | None => Unknown end
          | TPanics => Fail
          | _ => Unknown
          end
      | TEq a b :: k => check (teq e a b) (texec n e k)
      | TAssert a :: k => check (teval e a) (texec n e k)
      | TPanic :: _ => Fail
      | TDo a :: k => match teval e a with TVal _ => texec n e k | TPanics => Fail | TStuck => Unknown end
      | TMatch a arms :: k =>
          match teval e a with
          | TVal (TV v) =>
              match (fix go l := match l with
                                 | [] => Unknown
                                 | (p, b) :: l' => match tbind p v with Some e' => texec n (e' ++ e) b | None => go l' end
                                 end) arms with
              | Pass => texec n e k
              | r => r
              end
          | TPanics => Fail
          | _ => Unknown
          end
      end
  end.
(** A test. *)
Definition run_test (t : unit_test) : verdict :=
  match snd t with Some l => texec tdepth [] l | None => Unknown end.
End Run.
(** [read_file] of tests/webidl.rs:8-13 gives the text of a file, which is UTF-8. *)
Definition with_files (cr : callee -> list value -> ans) (f : callee) (l : list value) : ans :=
  match f, l with
  | CFn g, [VStr p] =>
      if String.eqb g "read_file" then
        match find (fun d => text_eqb (str (fst d)) p) defs with
        | Some d => Val (VStr (chars (flat_map str (snd d))))
        | None => Panic
        end
      else cr f l
  | _, _ => cr f l
  end.

(** ** All tests pass *)
(** The tests above are what is read from the source. *)
Theorem tests_read :
  all_macros = flat_map (fun s => test_macros (tokens (snd s))) sources ++ fst (read_items 3000 [] "lib" [] (tokens src_lib))
  /\ unit_tests = flat_map file_tests sources
  /\ integration_tests = read_tests 3000 all_macros "webidl" "webidl" [] (tokens src_webidl)
  /\ NoDup (map fst (unit_tests ++ integration_tests)).
Proof.
  split; [vm_cast_no_check (eq_refl all_macros)|].
  split; [vm_cast_no_check (eq_refl unit_tests)|split; [vm_cast_no_check (eq_refl integration_tests)|]].
  assert (H : forall l, (fix ok (l : list string) : bool := match l with [] => true | x :: l' => negb (existsb (String.eqb x) l') && ok l' end) l = true -> NoDup l).
  { induction l as [|x l IH]; intros H; constructor.
    - apply andb_prop in H. destruct H as [H _]. intros Hx. apply negb_true_iff in H.
      assert (existsb (String.eqb x) l = true) by (apply existsb_exists; exists x; split; [exact Hx|apply String.eqb_refl]). congruence.
    - apply IH. apply andb_prop in H. apply H. }
  apply H. vm_cast_no_check (eq_refl true).
Qed.
(** The unit tests pass. *)
Definition passes (v : verdict) : bool := match v with Pass => true | _ => false end.
Lemma passes_Pass v : passes v = true -> v = Pass. Proof. destruct v; [reflexivity|discriminate..]. Qed.
Theorem unit_tests_pass : length unit_tests = 561 /\ forall t, In t unit_tests -> run_test (call 100) t = Pass.
Proof.
  split; [reflexivity|].
  assert (H : forallb (fun t => passes (run_test (call 100) t)) unit_tests = true) by (vm_cast_no_check (eq_refl true)).
  intros t Ht. apply passes_Pass. exact (proj1 (forallb_forall _ _) H t Ht).
Qed.
(** (The integration tests are in SourceFiles.v.) *)
(** A crate that rejects everything passes one of the unit tests, a crate that accepts everything as it is none. *)
Example tests_reject : map fst (filter (fun t => passes (run_test (fun _ _ => Val (verr (Error [] KTag))) t)) unit_tests)
  = ["common::test::should_not_parse_comma_separated_values_empty"].
Proof. vm_compute. reflexivity. Qed.
Example tests_accept : filter (fun t => passes (run_test (fun _ l => match l with [v] => Val (VCon "Ok" [VTup [v; v]]) | _ => Stuck end) t)) unit_tests = [].
Proof. vm_compute. reflexivity. Qed.
