(** * The nom 5 combinators used by weedle.

    weedle depends on nom 5 (Cargo.toml:13-14) and reaches it through the macros listed in src/lib.rs:27-38
    and src/macros.rs:1-41.  nom itself is not part of /repo; the definitions below follow its documented
    behaviour (version 5.x, "complete" parsers). *)
From Coq Require Import String Ascii NArith Arith Bool List.
Import ListNotations.

(** ** Results: [nom::IResult] and [nom::Err] (re-exported in src/lib.rs:50). *)

(** The part of [nom::error::ErrorKind] that the parsers used here can report. *)
Inductive ekind : Type :=
| KTag | KChar | KOneOf | KTakeWhile1 | KTakeUntil | KAlt | KMany0 | KSeparatedList.

(** [nom::Err<(I, ErrorKind)>]: a recoverable error, an unrecoverable failure, or a request for more input. *)
Inductive nom_err (I : Type) : Type :=
| Error (pos : I) (k : ekind)
| Failure (pos : I) (k : ekind)
| Incomplete.
Arguments Error {I}. Arguments Failure {I}. Arguments Incomplete {I}.

(** [IResult<I, A>], plus [Diverge]: the model ran out of fuel, standing for a run that does not return. *)
Inductive res (I A : Type) : Type :=
| Ok (rest : I) (v : A)
| Err (e : nom_err I)
| Diverge.
Arguments Ok {I A}. Arguments Err {I A}. Arguments Diverge {I A}.

Definition parser (I A : Type) := I -> res I A.

(** ** Combinators, for any type of input [I]. *)
Section Combinators.
  Context {I : Type}.

  (** The final [( expr )] of [do_parse!]. *)
  Definition ret {A} (a : A) : parser I A := fun i => Ok i a.

  (** One step [x: p >> rest] of [do_parse!]; also the [match .. { Err(e) => Err(e), Ok((i, x)) => .. }] that
      [__ast_struct! @build_parser] generates (src/macros.rs:275-291). *)
  Definition bind {A B} (p : parser I A) (f : A -> parser I B) : parser I B := fun i =>
    match p i with
    | Ok r a => f a r
    | Err e => Err e
    | Diverge => Diverge
    end.

  (** [map!]. *)
  Definition pmap {A B} (f : A -> B) (p : parser I A) : parser I B := bind p (fun a => ret (f a)).

  (** [alt!(p | rest)]: on [Err::Error] of [p] the rest is tried on the same input, everything else is final. *)
  Definition alt_or {A} (p q : parser I A) : parser I A := fun i =>
    match p i with
    | Err (Error _ _) => q i
    | x => x
    end.

  (** The end of an [alt!]: all alternatives failed. *)
  Definition alt_end {A} : parser I A := fun i => Err (Error i KAlt).

  (** [opt!]. *)
  Definition opt {A} (p : parser I A) : parser I (option A) := fun i =>
    match p i with
    | Ok r a => Ok r (Some a)
    | Err (Error _ _) => Ok i None
    | Err e => Err e
    | Diverge => Diverge
    end.

  (** [==] on inputs, used by the repetition combinators to detect that an item consumed nothing. *)
  Variable same : I -> I -> bool.

  (** The loop of [many0!] ([nom::multi::many0]).  [fuel] bounds the number of iterations. *)
  Fixpoint many0_loop {A} (fuel : nat) (p : parser I A) (i : I) (acc : list A) : res I (list A) :=
    match fuel with
    | O => Diverge
    | S fuel' =>
        match p i with
        | Ok i1 o => if same i1 i then Err (Error i KMany0)
                     else many0_loop fuel' p i1 (acc ++ [o])
        | Err (Error _ _) => Ok i acc
        | Err e => Err e
        | Diverge => Diverge
        end
    end.
  Definition many0 {A} (fuel : nat) (p : parser I A) : parser I (list A) :=
    fun i => many0_loop fuel p i [].

  (** The loop of [separated_list!] and [separated_nonempty_list!] after the first item: a separator is kept only
      if an item follows it. *)
  Fixpoint sep_loop {A S} (fuel : nat) (sep : parser I S) (p : parser I A) (i : I) (acc : list A)
    : res I (list A) :=
    match fuel with
    | O => Diverge
    | Datatypes.S fuel' =>
        match sep i with
        | Ok i1 _ =>
            if same i1 i then Err (Error i1 KSeparatedList)
            else match p i1 with
                 | Ok i2 o => if same i2 i then Err (Error i2 KSeparatedList)
                              else sep_loop fuel' sep p i2 (acc ++ [o])
                 | Err (Error _ _) => Ok i acc
                 | Err e => Err e
                 | Diverge => Diverge
                 end
        | Err (Error _ _) => Ok i acc
        | Err e => Err e
        | Diverge => Diverge
        end
    end.

  (** [separated_list!(sep, p)]. *)
  Definition separated_list {A S} (fuel : nat) (sep : parser I S) (p : parser I A) : parser I (list A) := fun i =>
    match p i with
    | Ok i1 o => if same i1 i then Err (Error i1 KSeparatedList)
                 else sep_loop fuel sep p i1 [o]
    | Err (Error _ _) => Ok i []
    | Err e => Err e
    | Diverge => Diverge
    end.

  (** [separated_nonempty_list!(sep, p)]. *)
  Definition separated_nonempty_list {A S} (fuel : nat) (sep : parser I S) (p : parser I A)
    : parser I (list A) := fun i =>
    match p i with
    | Ok i1 o => if same i1 i then Err (Error i1 KSeparatedList)
                 else sep_loop fuel sep p i1 [o]
    | Err e => Err e
    | Diverge => Diverge
    end.
End Combinators.

Notation "x <- p ;; q" := (bind p (fun x => q)) (at level 61, p at next level, right associativity).
Notation "' pat <- p ;; q" := (bind p (fun x => match x with pat => q end))
  (at level 61, pat pattern, p at next level, right associativity).
Notation "p ;;; q" := (bind p (fun _ => q)) (at level 61, right associativity).

(** ** Text: [&str] as a list of Unicode code points ([char]). *)
Definition char := N.
Definition text := list N.

(** A Rust string literal as a list of code points (all literals in the crate are ASCII). *)
Fixpoint str (s : string) : text :=
  match s with
  | EmptyString => []
  | String c s' => N_of_ascii c :: str s'
  end.

(** [char as u32] of an ASCII character literal. *)
Definition chr (c : ascii) : char := N_of_ascii c.

(** [&str == &str]. *)
Fixpoint text_eqb (a b : text) : bool :=
  match a, b with
  | [], [] => true
  | x :: a', y :: b' => N.eqb x y && text_eqb a' b'
  | _, _ => false
  end.

(** ** Primitive parsers on text. *)

(** If [t] is a prefix of [i], what follows it. *)
Fixpoint strip_prefix (t i : text) : option text :=
  match t, i with
  | [], _ => Some i
  | x :: t', y :: i' => if N.eqb x y then strip_prefix t' i' else None
  | _ :: _, [] => None
  end.

(** [nom::bytes::complete::tag] (src/macros.rs:1-5). *)
Definition tag (t : text) : parser text text := fun i =>
  match strip_prefix t i with
  | Some r => Ok r t
  | None => Err (Error i KTag)
  end.

(** Longest prefix of characters satisfying [f], and the rest. *)
Fixpoint span (f : char -> bool) (i : text) : text * text :=
  match i with
  | [] => ([], [])
  | c :: i' => if f c then let '(a, b) := span f i' in (c :: a, b) else ([], i)
  end.

(** [nom::bytes::complete::take_while] (src/macros.rs:7-14). *)
Definition take_while (f : char -> bool) : parser text text := fun i =>
  let '(a, b) := span f i in Ok b a.

(** [nom::bytes::complete::take_while1] (src/macros.rs:16-23). *)
Definition take_while1 (f : char -> bool) : parser text text := fun i =>
  match span f i with
  | ([], _) => Err (Error i KTakeWhile1)
  | (a, b) => Ok b a
  end.

(** Text before the first occurrence of [t], and the text from there on ([find_substring] + [take_split]). *)
Fixpoint find_sub (t i : text) : option (text * text) :=
  match strip_prefix t i with
  | Some _ => Some ([], i)
  | None => match i with
            | [] => None
            | c :: i' => match find_sub t i' with
                         | Some (a, b) => Some (c :: a, b)
                         | None => None
                         end
            end
  end.

(** [nom::bytes::complete::take_until] (src/macros.rs:25-29). *)
Definition take_until (t : text) : parser text text := fun i =>
  match find_sub t i with
  | Some (a, b) => Ok b a
  | None => Err (Error i KTakeUntil)
  end.

(** [nom::character::complete::one_of] (src/macros.rs:31-35). *)
Definition one_of (cs : text) : parser text char := fun i =>
  match i with
  | c :: r => if existsb (N.eqb c) cs then Ok r c else Err (Error i KOneOf)
  | [] => Err (Error i KOneOf)
  end.

(** [nom::character::complete::char] (src/macros.rs:37-41). *)
Definition pchar (c : char) : parser text char := fun i =>
  match i with
  | d :: r => if N.eqb d c then Ok r c else Err (Error i KChar)
  | [] => Err (Error i KChar)
  end.

(** [recognize!]: the slice of the input from its start to where the inner parser stopped
    ([i.slice(..i.offset(&rest))]). *)
Definition recognize {A} (p : parser text A) : parser text text := fun i =>
  match p i with
  | Ok r _ => Ok r (firstn (length i - length r) i)
  | Err e => Err e
  | Diverge => Diverge
  end.

(** [many0!] on text.  The number of iterations is bounded by the length of the text plus one; that this bound is
    never the reason to stop is part of theorem C01. *)
Definition many0t {A} (p : parser text A) : parser text (list A) := fun i =>
  many0 text_eqb (S (length i)) p i.
