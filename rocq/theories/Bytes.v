(** * The same parsers on bytes

    A [&str] is a sequence of bytes in UTF-8, and nom cuts it at byte offsets; a cut inside of a character panics.  The
    text of Nom.v hides that.  Here the primitive parsers of nom 5 for [&str] and the lexical layer of weedle are written
    once more on bytes, with the cuts at byte offsets; theorems C43 relate both.  A panic is represented by [Diverge], the
    result of a run that does not return. *)
From Coq Require Import String Ascii NArith Arith Bool List.
From Verif Require Import Nom Lex.
Import ListNotations.
Open Scope bool_scope.

Definition bytes := list N.

(** ** Rust: [str] *)

(** [char::encode_utf8]. *)
Definition utf8 (c : char) : bytes :=
  if N.ltb c 128 then [c]
  else if N.ltb c 2048 then [192 + c / 64; 128 + c mod 64]%N
  else if N.ltb c 65536 then [224 + c / 4096; 128 + (c / 64) mod 64; 128 + c mod 64]%N
  else [240 + c / 262144; 128 + (c / 4096) mod 64; 128 + (c / 64) mod 64; 128 + c mod 64]%N.
Definition encode (s : text) : bytes := flat_map utf8 s.
(** [char::len_utf8]. *)
Definition len_utf8 (c : char) : nat :=
  if N.ltb c 128 then 1 else if N.ltb c 2048 then 2 else if N.ltb c 65536 then 3 else 4.

(** The first character of a string and the bytes behind it, as [core::str::next_code_point] computes them: the length
    follows from the first byte, the bits of the following bytes are not checked. *)
Definition next_char (b : bytes) : option (char * bytes) :=
  match b with
  | [] => None
  | x :: r =>
      if N.ltb x 128 then Some (x, r)
      else match r with
           | [] => None
           | y :: r =>
               if N.ltb x 224 then Some ((x mod 32) * 64 + y mod 64, r)%N
               else match r with
                    | [] => None
                    | z :: r =>
                        if N.ltb x 240 then Some ((x mod 32) * 4096 + (y mod 64) * 64 + z mod 64, r)%N
                        else match r with
                             | [] => None
                             | w :: r => Some ((x mod 8) * 262144 + (y mod 64) * 4096 + (z mod 64) * 64 + w mod 64, r)%N
                             end
                    end
           end
  end.
Fixpoint chars_fuel (n : nat) (b : bytes) : text :=
  match n with
  | O => []
  | S n' => match next_char b with Some (c, r) => c :: chars_fuel n' r | None => [] end
  end.
(** [str::chars]. *)
Definition chars (b : bytes) : text := chars_fuel (length b) b.

(** [str::is_char_boundary]: at the ends, or in front of a byte that is not a continuation byte (0x80 to 0xBF). *)
Definition is_char_boundary (b : bytes) (n : nat) : bool :=
  Nat.eqb n 0 || Nat.eqb n (length b) ||
  match nth_error b n with
  | Some x => negb (N.leb 128 x && N.ltb x 192)
  | None => false
  end.
(** [&b[n..]] and [&b[..n]]; [None] is a panic. *)
Definition slice_from (n : nat) (b : bytes) : option bytes := if is_char_boundary b n then Some (skipn n b) else None.
Definition slice_to (n : nat) (b : bytes) : option bytes := if is_char_boundary b n then Some (firstn n b) else None.

(** The byte offset of the first character with [f] ([str::find] with a closure). *)
Fixpoint find_fuel (k : nat) (f : char -> bool) (b : bytes) (off : nat) : option nat :=
  match k with
  | O => None
  | S k' => match next_char b with
            | Some (c, r) => if f c then Some off else find_fuel k' f r (off + (length b - length r))
            | None => None
            end
  end.
Definition find_char (f : char -> bool) (b : bytes) : option nat := find_fuel (length b) f b 0.

(** The byte offset of the first occurrence of the bytes [t] ([str::find] with a [&str]). *)
Fixpoint find_bytes (t b : bytes) (off : nat) : option nat :=
  match strip_prefix t b with
  | Some _ => Some off
  | None => match b with
            | [] => None
            | _ :: r => find_bytes t r (S off)
            end
  end.

(** ** nom 5: the traits of [&str] *)

(** [InputTake::take_split]: [(&self[count..], &self[..count])]. *)
Definition take_split (n : nat) (b : bytes) : res bytes bytes :=
  match slice_from n b, slice_to n b with
  | Some r, Some a => Ok r a
  | _, _ => Diverge
  end.
(** [Compare]: the characters agree as far as both strings go, and [self] has at least as many bytes. *)
Fixpoint agree (a b : text) : bool :=
  match a, b with
  | x :: a', y :: b' => N.eqb x y && agree a' b'
  | _, _ => true
  end.
Definition compare_ok (t b : bytes) : bool := agree (chars b) (chars t) && Nat.leb (length t) (length b).

(** [nom::bytes::complete::tag]. *)
Definition b_tag (t : bytes) : parser bytes bytes := fun i =>
  if compare_ok t i then take_split (length t) i else Err (Error i KTag).
(** [take_while] by [InputTakeAtPosition::split_at_position_complete]. *)
Definition b_take_while (f : char -> bool) : parser bytes bytes := fun i =>
  match find_char (fun c => negb (f c)) i with
  | Some n => take_split n i
  | None => take_split (length i) i
  end.
(** [take_while1] by [InputTakeAtPosition::split_at_position1_complete]. *)
Definition b_take_while1 (f : char -> bool) : parser bytes bytes := fun i =>
  match find_char (fun c => negb (f c)) i with
  | Some O => Err (Error i KTakeWhile1)
  | Some n => take_split n i
  | None => match i with
            | [] => Err (Error i KTakeWhile1)
            | _ => take_split (length i) i
            end
  end.
(** [take_until] by [FindSubstring::find_substring]. *)
Definition b_take_until (t : bytes) : parser bytes bytes := fun i =>
  match find_bytes t i 0 with
  | Some n => take_split n i
  | None => Err (Error i KTakeUntil)
  end.
(** [one_of] and [char]: the first character is looked at, and [i.slice(c.len()..)] is what is left. *)
Definition b_one_of (cs : text) : parser bytes char := fun i =>
  match next_char i with
  | Some (c, _) => if existsb (N.eqb c) cs
                   then match slice_from (len_utf8 c) i with Some r => Ok r c | None => Diverge end
                   else Err (Error i KOneOf)
  | None => Err (Error i KOneOf)
  end.
Definition b_char (c : char) : parser bytes char := fun i =>
  match next_char i with
  | Some (d, _) => if N.eqb d c
                   then match slice_from (len_utf8 c) i with Some r => Ok r c | None => Diverge end
                   else Err (Error i KChar)
  | None => Err (Error i KChar)
  end.
(** [recognize!]: [Offset::offset] is a difference of addresses. *)
Definition b_recognize {A} (p : parser bytes A) : parser bytes bytes := fun i =>
  match p i with
  | Ok r _ => match slice_to (length i - length r) i with Some a => Ok r a | None => Diverge end
  | Err e => Err e
  | Diverge => Diverge
  end.
(** [many0!]. *)
Definition b_many0 {A} (p : parser bytes A) : parser bytes (list A) := fun i => many0 text_eqb (S (length i)) p i.

(** ** src/whitespace.rs *)
Definition b_line_comment : parser bytes unit :=
  b_tag (str "//") ;;; b_take_until [newline] ;;; b_char newline ;;; ret tt.
Definition b_ws_run : parser bytes unit := pmap (fun _ => tt) (b_take_while1 is_ws).
Definition b_block_comment : parser bytes unit :=
  b_tag (str "/*") ;;; b_take_until (str "*/") ;;; b_tag (str "*/") ;;; ret tt.
Definition b_sp_item : parser bytes unit :=
  alt_or b_line_comment (alt_or b_ws_run (alt_or b_block_comment alt_end)).
(** src/whitespace.rs:3-17. *)
Definition b_sp : parser bytes bytes := b_recognize (b_many0 b_sp_item).
(** src/whitespace.rs:20-31. *)
Definition b_ws {A} (p : parser bytes A) : parser bytes A := b_sp ;;; s <- p ;; b_sp ;;; ret s.

(** ** src/term.rs *)
(** src/term.rs:18-36: [i.as_bytes().first()] is the first byte. *)
Definition b_ident_tag (tok : bytes) : parser bytes bytes := fun i =>
  match b_tag tok i with
  | Err e => Err e
  | Diverge => Diverge
  | Ok i' o =>
      match i' with
      | [] => Ok i' o
      | b :: _ => if is_alphanumeric b || N.eqb b (chr "_") || N.eqb b (chr "-")
                  then Err (Error i KTag) else Ok i' o
      end
  end.
(** src/term.rs:8-13 and 45-50. *)
Definition b_term (t : term) : parser bytes unit :=
  if term_is_name t
  then b_ws (b_ident_tag (str (term_text t))) ;;; ret tt
  else b_ws (b_tag (str (term_text t))) ;;; ret tt.

(** ** src/common.rs:80-92 *)
Definition b_Identifier : parser bytes bytes :=
  b_ws (opt (b_char (chr "_")) ;;;
        id <- b_recognize (b_take_while1 is_ascii_alphabetic ;;; b_take_while is_ident_char ;;; ret tt) ;;
        ret id).

(** ** src/literal.rs; a tree holds the characters of its slices *)
(** src/literal.rs:7-14. *)
Definition b_DecLit : parser bytes bytes :=
  b_ws (b_recognize (opt (b_char (chr "-")) ;;; b_one_of (str "123456789") ;;;
                     b_take_while is_ascii_digit ;;; ret tt)).
(** src/literal.rs:17-25. *)
Definition b_HexLit : parser bytes bytes :=
  b_ws (b_recognize (opt (b_char (chr "-")) ;;; b_char (chr "0") ;;;
                     alt_or (b_char (chr "x")) (alt_or (b_char (chr "X")) alt_end) ;;;
                     b_take_while is_ascii_hexdigit ;;; ret tt)).
(** src/literal.rs:28-35. *)
Definition b_OctLit : parser bytes bytes :=
  b_ws (b_recognize (opt (b_char (chr "-")) ;;; b_char (chr "0") ;;;
                     b_take_while (in_range "0" "7") ;;; ret tt)).
(** src/literal.rs:4-36. *)
Definition b_IntegerLit : parser bytes IntegerLit :=
  alt_or (pmap (fun s => IntegerLit_Dec (chars s)) b_DecLit)
 (alt_or (pmap (fun s => IntegerLit_Hex (chars s)) b_HexLit)
 (alt_or (pmap (fun s => IntegerLit_Oct (chars s)) b_OctLit) alt_end)).
(** src/literal.rs:38-49. *)
Definition b_StringLit : parser bytes bytes :=
  b_ws (b_char (chr """") ;;;
        s <- b_take_while (fun c => negb (N.eqb c (chr """"))) ;;
        b_char (chr """") ;;;
        ret s).
(** src/literal.rs:82-89. *)
Definition b_BooleanLit : parser bytes bool :=
  alt_or (pmap (fun _ => true) (b_term True_))
 (alt_or (pmap (fun _ => false) (b_term False_)) alt_end).
(** src/literal.rs:118-123 and 130-133. *)
Definition b_exponent : parser bytes unit :=
  alt_or (b_char (chr "e")) (alt_or (b_char (chr "E")) alt_end) ;;;
  opt (alt_or (b_char (chr "+")) (alt_or (b_char (chr "-")) alt_end)) ;;;
  b_take_while1 is_ascii_digit ;;; ret tt.
(** src/literal.rs:96-138. *)
Definition b_FloatValueLit : parser bytes bytes :=
  b_ws (b_recognize (
    opt (b_char (chr "-")) ;;;
    alt_or
      (alt_or (b_take_while1 is_ascii_digit ;;; b_char (chr ".") ;;; b_take_while is_ascii_digit ;;; ret tt)
      (alt_or (b_take_while is_ascii_digit ;;; b_char (chr ".") ;;; b_take_while1 is_ascii_digit ;;; ret tt)
       alt_end) ;;;
       opt b_exponent ;;; ret tt)
   (alt_or
      (b_take_while1 is_ascii_digit ;;; b_exponent)
    alt_end) ;;;
    ret tt)).
(** src/literal.rs:91-142. *)
Definition b_FloatLit : parser bytes FloatLit :=
  alt_or (pmap (fun s => FloatLit_Value (chars s)) b_FloatValueLit)
 (alt_or (pmap (fun _ => FloatLit_NegInfinity) (b_term NegInfinity))
 (alt_or (pmap (fun _ => FloatLit_Infinity) (b_term Infinity))
 (alt_or (pmap (fun _ => FloatLit_NaN) (b_term NaN)) alt_end))).
(** src/literal.rs:57-66. *)
Definition b_EmptyArrayLit : parser bytes unit := b_term OpenBracket ;;; b_term CloseBracket ;;; ret tt.
Definition b_EmptyDictionaryLit : parser bytes unit := b_term OpenBrace ;;; b_term CloseBrace ;;; ret tt.
(** src/literal.rs:53-71. *)
Definition b_DefaultValue : parser bytes DefaultValue :=
  alt_or (pmap DefaultValue_Boolean b_BooleanLit)
 (alt_or (pmap (fun _ => DefaultValue_EmptyArray) b_EmptyArrayLit)
 (alt_or (pmap (fun _ => DefaultValue_EmptyDictionary) b_EmptyDictionaryLit)
 (alt_or (pmap DefaultValue_Float b_FloatLit)
 (alt_or (pmap DefaultValue_Integer b_IntegerLit)
 (alt_or (pmap (fun _ => DefaultValue_Null) (b_term Null))
 (alt_or (pmap (fun s => DefaultValue_String (chars s)) b_StringLit) alt_end)))))).
(** src/literal.rs:73-80. *)
Definition b_ConstValue : parser bytes ConstValue :=
  alt_or (pmap ConstValue_Boolean b_BooleanLit)
 (alt_or (pmap ConstValue_Float b_FloatLit)
 (alt_or (pmap ConstValue_Integer b_IntegerLit)
 (alt_or (pmap (fun _ => ConstValue_Null) (b_term Null)) alt_end))).

(** ** The grammar layer on bytes *)
From Verif Require Import Ast Grammar.
Definition byte_sem (A : Type) (t : terminal A) : parser bytes A :=
  match t with
  | TmTerm t => b_term t
  | TmIdentifier => pmap chars b_Identifier
  | TmStringLit => pmap chars b_StringLit
  | TmDefaultValue => b_DefaultValue
  | TmConstValue => b_ConstValue
  end.
(** [<T as Parse>::parse] on bytes. *)
Definition bytes_as {A} (p : pexp A) : parser bytes A := fun i => run text_eqb byte_sem (S (length i)) A p i.
(** [weedle::parse] (src/lib.rs:83-90) on bytes. *)
Definition parse_bytes (raw : bytes) : outcome :=
  match bytes_as e_Definitions raw with
  | Ok [] defs => Parsed defs
  | Ok (_ :: _) _ => Panicked
  | Err e => Failed e
  | Diverge => NoReturn
  end.
