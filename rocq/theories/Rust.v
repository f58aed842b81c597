(** * The Rust that the crate is written in: tokens, [macro_rules!], types and expressions

    This file reads Rust source text.  It covers what the files of the crate (Source.v) use, outside of [#[cfg(test)]]:
    - the tokens of Rust, and token trees;
    - [macro_rules!]: matching with the fragments [ident], [ty], [expr], [tt], [meta], repetitions, and transcription;
    - items: modules, type aliases, structs, enums, implementations of [Parse] and [From], functions, macros;
    - types: paths with arguments, tuples, [&str], macros that expand to types;
    - expressions: see [expr].
    The macros of nom 5 that the crate imports (src/lib.rs:27-38) are not part of the crate; they are kept as expressions of
    their own and get the meaning of Nom.v in Interp.v.

    Simplifications:
    - a type is named by the last segment of its path, and by the last two if it is in the module [term];
    - lifetimes in types are dropped;
    - [use] declarations, visibility and the trait bounds are skipped;
    - macros are not hygienic: names that a macro introduces are seen by its arguments (SourceHygiene.v: this makes no difference);
    - repetitions in macro patterns take as much as they can (rustc refuses macros where there is a choice). *)
From Coq Require Import String Ascii NArith Arith Bool List.
Import ListNotations.
Open Scope string_scope.
Open Scope list_scope.

(** ** Tokens *)
Inductive delim : Set := Paren | Bracket | Brace | NoDelim.    (* [NoDelim]: what a fragment [ty] or [expr] has matched *)
Inductive tt : Set :=
| I (s : string)                (* identifier or keyword *)
| L (s : string)                (* lifetime *)
| S_ (s : string)               (* string literal *)
| C (c : ascii)                 (* character literal, or byte literal *)
| Num (s : string)
| P (c : ascii)                 (* one character of punctuation *)
| G (d : delim) (l : list tt).
(** A flat token: a tree without children, or a bracket. *)
Inductive ftok : Set := FT (t : tt) | FOpen (d : delim) | FClose (d : delim).

(** ASCII code. *)
Definition code (c : ascii) : nat := nat_of_ascii c.
(** A range of characters, as in 'a'..='z'. *)
Definition between (a b c : ascii) : bool := Nat.leb (code a) (code c) && Nat.leb (code c) (code b).
(** A character an identifier can begin with. *)
Definition id_start (c : ascii) : bool := between "a" "z" c || between "A" "Z" c || Ascii.eqb c "_".
(** A decimal digit. *)
Definition digit (c : ascii) : bool := between "0" "9" c.
(** A character inside an identifier. *)
Definition id_char (c : ascii) : bool := id_start c || digit c.
(** White space (and control characters). *)
Definition space (c : ascii) : bool := Nat.leb (code c) 32.
(** Line feed. *)
Definition c_newline : ascii := "010".
(** The double quote. *)
Definition c_quote : ascii := """".
(** The backslash. *)
Definition c_back : ascii := "\".
(** The single quote. *)
Definition c_apos : ascii := "'".

(** The longest prefix of characters in [f], and the rest. *)
Fixpoint take (f : ascii -> bool) (s : string) : string * string :=
  match s with
  | String c s' => if f c then let '(a, b) := take f s' in (String c a, b) else ("", s)
  | EmptyString => ("", "")
  end.
(** The character behind a backslash. *)
Definition escape (c : ascii) : ascii :=
  if Ascii.eqb c "n" then "010" else if Ascii.eqb c "t" then "009" else if Ascii.eqb c "r" then "013" else c.
(** The rest of a string literal, behind the opening quote. *)
Fixpoint str_lit (s : string) : string * string :=
  match s with
  | EmptyString => ("", "")
  | String c s' =>
      if Ascii.eqb c c_quote then ("", s')
      else if Ascii.eqb c c_back then
        match s' with
        | String d s'' => let '(a, b) := str_lit s'' in (String (escape d) a, b)
        | EmptyString => ("", "")
        end
      else let '(a, b) := str_lit s' in (String c a, b)
  end.
(** The rest of a block comment. *)
Fixpoint block_end (s : string) : string :=
  match s with
  | String a ((String b s'') as s') => if Ascii.eqb a "*" && Ascii.eqb b "/" then s'' else block_end s'
  | _ => ""
  end.
(** The rest of a raw string [r#"..."#]. *)
Fixpoint raw_lit (s : string) : string * string :=
  match s with
  | String a ((String b s'') as s') =>
      if Ascii.eqb a c_quote && Ascii.eqb b "#" then ("", s'') else let '(x, y) := raw_lit s' in (String a x, y)
  | _ => ("", "")
  end.
(** Not the end of a line. *)
Definition eol (c : ascii) : bool := negb (Ascii.eqb c c_newline).
(** The flat tokens of a source text: comments are dropped, doc comments too (they are attributes to Rust, but no item of the crate looks at them). *)
Fixpoint lex_rust (n : nat) (s : string) : list ftok :=
  match n with
  | 0 => []
  | S n =>
      match s with
      | EmptyString => []
      | String c s' =>
          if space c then lex_rust n s'
          else if prefix "//!" s then lex_rust n (snd (take eol s))
          else if prefix "////" s then lex_rust n (snd (take eol s))
          else if prefix "///" s then                     (* a documentation comment is an attribute *)
            let '(a, b) := take eol s in FT (P "#") :: FOpen Bracket :: FT (I "doc") :: FT (P "=") :: FT (S_ a) :: FClose Bracket :: lex_rust n b
          else if prefix "//" s then lex_rust n (snd (take eol s))
          else if prefix "/*" s then lex_rust n (block_end s')
          else if prefix "r#""" s then
            let '(a, b) := raw_lit (substring 3 (String.length s) s) in FT (S_ a) :: lex_rust n b
          else if prefix "b'" s then
            match s' with
            | String _ (String d (String _ s'')) => FT (C d) :: lex_rust n s''
            | _ => []
            end
          else if Ascii.eqb c c_quote then let '(a, b) := str_lit s' in FT (S_ a) :: lex_rust n b
          else if Ascii.eqb c c_apos then
            match s' with
            | String d (String e s'') =>
                if Ascii.eqb d c_back then FT (C (escape e)) :: lex_rust n (substring 1 (String.length s'') s'')
                else if Ascii.eqb e c_apos then FT (C d) :: lex_rust n s''
                else let '(a, b) := take id_char s' in FT (L a) :: lex_rust n b
            | _ => []
            end
          else if id_start c then let '(a, b) := take id_char s in FT (I a) :: lex_rust n b
          else if digit c then let '(a, b) := take id_char s in FT (Num a) :: lex_rust n b
          else if Ascii.eqb c "(" then FOpen Paren :: lex_rust n s'
          else if Ascii.eqb c "[" then FOpen Bracket :: lex_rust n s'
          else if Ascii.eqb c "{" then FOpen Brace :: lex_rust n s'
          else if Ascii.eqb c ")" then FClose Paren :: lex_rust n s'
          else if Ascii.eqb c "]" then FClose Bracket :: lex_rust n s'
          else if Ascii.eqb c "}" then FClose Brace :: lex_rust n s'
          else FT (P c) :: lex_rust n s'
      end
  end.
(** Token trees; [st] has the groups that are open. *)
Fixpoint trees (st : list (list tt)) (acc : list tt) (l : list ftok) : list tt :=
  match l with
  | [] => rev acc
  | FT t :: l' => trees st (t :: acc) l'
  | FOpen _ :: l' => trees (acc :: st) [] l'
  | FClose d :: l' => match st with a :: st' => trees st' (G d (rev acc) :: a) l' | [] => rev acc end
  end.
(** The token trees of a source text. *)
Definition tokens (s : string) : list tt := trees [] [] (lex_rust (String.length s) s).

(** Equality of brackets. *)
Definition delim_eqb (a b : delim) : bool :=
  match a, b with Paren, Paren | Bracket, Bracket | Brace, Brace | NoDelim, NoDelim => true | _, _ => false end.
(** A given punctuation character. *)
Definition is_p (c : ascii) (t : tt) : bool := match t with P d => Ascii.eqb c d | _ => false end.
(** A given identifier. *)
Definition is_i (s : string) (t : tt) : bool := match t with I x => String.eqb s x | _ => false end.
(** Equality of tokens (not of groups). *)
Definition tt_eqb (a b : tt) : bool :=
  match a, b with
  | I x, I y | L x, L y | S_ x, S_ y | Num x, Num y => String.eqb x y
  | C x, C y | P x, P y => Ascii.eqb x y
  | _, _ => false
  end.

(** ** Splitting *)
(** At the tokens [f]. *)
Fixpoint split (f : tt -> bool) (acc : list tt) (l : list tt) : list (list tt) :=
  match l with
  | [] => [rev acc]
  | t :: l' => if f t then rev acc :: split f [] l' else split f (t :: acc) l'
  end.
(** At two tokens in a row, for [>>]. *)
Fixpoint split2 (f : tt -> bool) (acc : list tt) (l : list tt) : list (list tt) :=
  match l with
  | [] => [rev acc]
  | t :: ((u :: l'') as l') => if f t && f u then rev acc :: split2 f [] l'' else split2 f (t :: acc) l'
  | [t] => [rev (t :: acc)]
  end.
(** The parts between commas; a comma at the end is allowed. *)
Definition commas (l : list tt) : list (list tt) :=
  filter (fun x => match x with [] => false | _ => true end) (split (is_p ",") [] l).
(** Up to the first token [f]. *)
Fixpoint upto (f : tt -> bool) (l : list tt) : list tt * list tt :=
  match l with
  | [] => ([], [])
  | t :: l' => if f t then ([], l) else let '(a, b) := upto f l' in (t :: a, b)
  end.
(** Up to the [>] that closes a [<] already read, which is dropped. *)
Fixpoint angle (d : nat) (l : list tt) : list tt * list tt :=
  match l with
  | [] => ([], [])
  | t :: l' =>
      if is_p ">" t then match d with 0 => ([], l') | S d' => let '(a, b) := angle d' l' in (t :: a, b) end
      else let '(a, b) := angle (if is_p "<" t then S d else d) l' in (t :: a, b)
  end.
(** At the commas outside of [<...>]. *)
Fixpoint angle_commas (d : nat) (acc : list tt) (l : list tt) : list (list tt) :=
  match l with
  | [] => match acc with [] => [] | _ => [rev acc] end
  | t :: l' =>
      if is_p "," t && Nat.eqb d 0 then rev acc :: angle_commas 0 [] l'
      else angle_commas (if is_p "<" t then S d else if is_p ">" t then pred d else d) (t :: acc) l'
  end.

(** ** [macro_rules!] *)
Inductive mpat : Set :=
| MTok (t : tt)
| MVar (x frag : string)
| MGroup (d : delim) (l : list mpat)
| MRep (l : list mpat) (sep : option tt) (op : ascii).
(** A character that repeats a group in a macro: asterisk, plus, question mark. *)
Definition is_op (t : tt) : option ascii :=
  match t with P c => if Ascii.eqb c "*" || Ascii.eqb c "+" then Some c else None | _ => None end.
(** A pattern or a template; variables of a template have no fragment. *)
Fixpoint read_pat (n : nat) (frags : bool) (l : list tt) : list mpat :=
  match n with
  | 0 => []
  | S n =>
      match l with
      | [] => []
      | G d l1 :: l' => MGroup d (read_pat n frags l1) :: read_pat n frags l'
      | P c :: l' =>
          if Ascii.eqb c "$" then
            match l' with
            | I x :: l'' =>
                if String.eqb x "crate" then MTok (I "$crate") :: read_pat n frags l''
                else if frags then
                  match l'' with
                  | P _ :: I f :: l3 => MVar x f :: read_pat n frags l3
                  | _ => []
                  end
                else MVar x "" :: read_pat n frags l''
            | G _ l1 :: t :: l'' =>
                match is_op t with
                | Some o => MRep (read_pat n frags l1) None o :: read_pat n frags l''
                | None =>
                    match l'' with
                    | u :: l3 => match is_op u with
                                 | Some o => MRep (read_pat n frags l1) (Some t) o :: read_pat n frags l3
                                 | None => []
                                 end
                    | [] => []
                    end
                end
            | _ => []
            end
          else MTok (P c) :: read_pat n frags l'
      | t :: l' => MTok t :: read_pat n frags l'
      end
  end.
(** The number of tokens of a tree. *)
Fixpoint tts_size (t : tt) : nat := match t with G _ l => S (fold_right (fun t n => tts_size t + n) 0 l) | _ => 1 end.
(** The number of tokens. *)
Definition size (l : list tt) : nat := S (fold_right (fun t n => tts_size t + n) 0 l).
(** A rule of [macro_rules!]: pattern and body. *)
Definition rule : Set := list mpat * list mpat.
(** [(pattern) => (template);] ... *)
Fixpoint read_rules (l : list tt) : list rule :=
  match l with
  | G _ p :: P _ :: P _ :: G _ t :: l' =>
      (read_pat (size p) true p, read_pat (size t) false t) ::
      match l' with
      | P _ :: l'' => read_rules l''
      | _ => []
      end
  | _ => []
  end.

(** *** Fragments *)
(** Words that cannot begin a type. *)
Definition keyword (s : string) : bool := existsb (String.eqb s) ["struct"; "enum"; "fn"; "let"; "match"; "if"; "where"; "for"; "use"].
(** The tokens of a path, [A::B<..>] or [name!(..)]. *)
Fixpoint scan_path (n : nat) (l : list tt) : option (list tt * list tt) :=
  match n with
  | 0 => None
  | S n =>
      match l with
      | I x :: l' =>
          if keyword x then None else
          match l' with
          | P a :: G d g :: l'' =>
              if Ascii.eqb a "!" then Some ([I x; P a; G d g], l'')
              else if Ascii.eqb a "<" then let '(p, r) := angle 0 (G d g :: l'') in Some (I x :: P a :: p ++ [P ">"], r)
              else Some ([I x], l')
          | P a :: P b :: l'' =>
              if Ascii.eqb a ":" && Ascii.eqb b ":" then
                match scan_path n l'' with Some (p, r) => Some (I x :: P a :: P b :: p, r) | None => None end
              else if Ascii.eqb a "<" then let '(p, r) := angle 0 (P b :: l'') in Some (I x :: P a :: p ++ [P ">"], r)
              else Some ([I x], l')
          | P a :: l'' =>
              if Ascii.eqb a "<" then let '(p, r) := angle 0 l'' in Some (I x :: P a :: p ++ [P ">"], r)
              else Some ([I x], l')
          | _ => Some ([I x], l')
          end
      | _ => None
      end
  end.
(** The tokens of a type at the front ([$x:ty]). *)
Definition scan_type (l : list tt) : option (list tt * list tt) :=
  match l with
  | G NoDelim g :: l' => Some ([G NoDelim g], l')
  | G Paren g :: l' => Some ([G Paren g], l')
  | P a :: L x :: l' =>
      if Ascii.eqb a "&" then match scan_path (S (List.length l')) l' with Some (p, r) => Some (P a :: L x :: p, r) | None => None end else None
  | _ => scan_path (S (List.length l)) l
  end.
(** An expression goes up to the next comma, semicolon or [=>]. *)
Definition scan_expr (l : list tt) : option (list tt * list tt) :=
  match upto (fun t => is_p "," t || is_p ";" t) l with
  | ([], _) => None
  | (a, b) => match upto (is_p "=") a with
              | (a1, P _ :: P c :: a2) => if Ascii.eqb c ">" then Some (a1, P "=" :: P c :: a2 ++ b) else Some (a, b)
              | _ => Some (a, b)
              end
  end.
(** The tokens that a fragment specifier takes. *)
Definition fragment (f : string) (l : list tt) : option (list tt * list tt) :=
  if String.eqb f "ident" then match l with I x :: l' => Some ([I x], l') | _ => None end
  else if String.eqb f "tt" then match l with t :: l' => Some ([t], l') | [] => None end
  else if String.eqb f "meta" then match l with [] => None | _ => Some (l, []) end
  else if String.eqb f "ty" then match scan_type l with Some ([G NoDelim g], r) => Some ([G NoDelim g], r) | Some (a, r) => Some ([G NoDelim a], r) | None => None end
  else if String.eqb f "expr" then match scan_expr l with Some ([G NoDelim g], r) => Some ([G NoDelim g], r) | Some (a, r) => Some ([G NoDelim a], r) | None => None end
  else None.

(** *** Matching *)
Inductive binding : Set := One (l : list tt) | Many (l : list binding).
(** What the variables of a pattern stand for. *)
Definition bindings := list (string * binding).
(** Look a name up. *)
Definition get {A} (x : string) (l : list (string * A)) : option A :=
  match find (fun y => String.eqb x (fst y)) l with Some y => Some (snd y) | None => None end.
(** The variables of a pattern. *)
Fixpoint pat_vars (p : mpat) : list string :=
  match p with
  | MTok _ => []
  | MVar x _ => [x]
  | MGroup _ l | MRep l _ _ => flat_map pat_vars l
  end.
(** The bindings of a repetition, one list per variable. *)
Definition collect (xs : list string) (l : list bindings) : bindings :=
  map (fun x => (x, Many (flat_map (fun b => match get x b with Some y => [y] | None => [] end) l))) xs.
(** Match the pattern of a rule; repetitions take as much as they can. *)
Fixpoint mmatch (n : nat) (ps : list mpat) (ts : list tt) : option (bindings * list tt) :=
  match n with
  | 0 => None
  | S n =>
      match ps with
      | [] => Some ([], ts)
      | MTok t :: ps' => match ts with
                         | u :: ts' => if tt_eqb t u then mmatch n ps' ts' else None
                         | [] => None
                         end
      | MVar x f :: ps' => match fragment f ts with
                           | Some (a, r) => match mmatch n ps' r with Some (b, q) => Some ((x, One a) :: b, q) | None => None end
                           | None => None
                           end
      | MGroup d l :: ps' =>
          match ts with
          | G d' l' :: ts' =>
              if delim_eqb d d' then
                match mmatch n l l' with
                | Some (b, []) => match mmatch n ps' ts' with Some (b', q) => Some (b ++ b', q) | None => None end
                | _ => None
                end
              else None
          | _ => None
          end
      | MRep l sep op :: ps' =>
          let '(bs, r) := mrep n l sep ts in
          if Ascii.eqb op "+" && match bs with [] => true | _ => false end then None else
          match mmatch n ps' r with
          | Some (b', q) => Some (collect (flat_map pat_vars l) bs ++ b', q)
          | None => None
          end
      end
  end
with mrep (n : nat) (l : list mpat) (sep : option tt) (ts : list tt) : list bindings * list tt :=
  match n with
  | 0 => ([], ts)
  | S n =>
      match ts with
      | [] => ([], ts)
      | _ =>
          match mmatch n l ts with
          | Some (b, r) =>
              match sep with
              | None => let '(bs, q) := mrep n l sep r in (b :: bs, q)
              | Some s => match r with
                          | u :: r' => if tt_eqb s u then let '(bs, q) := mrep n l sep r' in (b :: bs, q) else ([b], r)
                          | [] => ([b], r)
                          end
              end
          | None => ([], ts)
          end
      end
  end.
(** *** Transcription *)
Definition nth_binding (k : nat) (b : string * binding) : string * binding :=
  match snd b with
  | Many l => (fst b, nth k l (One []))
  | One _ => b
  end.
(** How often a repetition in a body is repeated. *)
Definition rep_length (xs : list string) (b : bindings) : nat :=
  fold_right max 0 (map (fun x => match get x b with Some (Many l) => List.length l | _ => 0 end) xs).
(** The body of a rule with its variables replaced. *)
Fixpoint transcribe (n : nat) (b : bindings) (ts : list mpat) : list tt :=
  match n with
  | 0 => []
  | S n =>
      match ts with
      | [] => []
      | MTok t :: ts' => t :: transcribe n b ts'
      | MVar x _ :: ts' => match get x b with Some (One l) => l | _ => [] end ++ transcribe n b ts'
      | MGroup d l :: ts' => G d (transcribe n b l) :: transcribe n b ts'
      | MRep l sep _ :: ts' =>
          let xs := flat_map pat_vars l in
          let one k := transcribe n (map (fun y => if existsb (String.eqb (fst y)) xs then nth_binding k y else y) b) l in
          let parts := map one (seq 0 (rep_length xs b)) in
          match parts with
          | [] => []
          | p :: ps => p ++ flat_map (fun q => match sep with Some s => [s] | None => [] end ++ q) ps
          end ++ transcribe n b ts'
      end
  end.
(** The number of parts of a pattern. *)
Fixpoint mpat_size (p : mpat) : nat :=
  match p with MGroup _ l | MRep l _ _ => S (fold_right (fun p n => mpat_size p + n) 1 l) | _ => 1 end.
(** The number of parts of patterns. *)
Definition pats_size (l : list mpat) : nat := S (fold_right (fun p n => mpat_size p + n) 1 l).
(** The macros defined so far. *)
Definition macros := list (string * list rule).
(** Rules are tried in order. *)
Fixpoint first_rule (rs : list rule) (ts : list tt) : option (list tt) :=
  match rs with
  | [] => None
  | (p, t) :: rs' =>
      match mmatch (pats_size p + size ts) p ts with
      | Some (b, []) => Some (transcribe (pats_size t) b t)
      | _ => first_rule rs' ts
      end
  end.
(** One expansion of a macro of the crate. *)
Definition expand (ms : macros) (m : string) (ts : list tt) : option (list tt) :=
  match get m ms with Some rs => first_rule rs ts | None => None end.
