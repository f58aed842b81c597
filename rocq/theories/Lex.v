(** * The lexical layer: whitespace.rs, term.rs, literal.rs and [Identifier] of common.rs. *)
From Coq Require Import String Ascii NArith Arith Bool List.
From Verif Require Import Nom.
Import ListNotations.
Open Scope bool_scope.

(** ** Character classes *)

(** [c >= lo && c <= hi]. *)
Definition in_range (lo hi : ascii) (c : char) : bool := N.leb (chr lo) c && N.leb c (chr hi).

(** [char::is_ascii_digit]. *)
Definition is_ascii_digit (c : char) : bool := in_range "0" "9" c.
(** [char::is_ascii_alphabetic]. *)
Definition is_ascii_alphabetic (c : char) : bool := in_range "A" "Z" c || in_range "a" "z" c.
(** [char::is_ascii_alphanumeric]. *)
Definition is_ascii_alphanumeric (c : char) : bool := is_ascii_alphabetic c || is_ascii_digit c.
(** [char::is_ascii_hexdigit]. *)
Definition is_ascii_hexdigit (c : char) : bool :=
  is_ascii_digit c || in_range "A" "F" c || in_range "a" "f" c.

(** First byte of the UTF-8 encoding of a code point: what [str::as_bytes().first()] gives. *)
Definition first_byte (c : char) : N :=
  if N.ltb c 128 then c
  else if N.ltb c 2048 then (192 + c / 64)%N
  else if N.ltb c 65536 then (224 + c / 4096)%N
  else (240 + c / 262144)%N.

(** [nom::character::is_alphanumeric], on a byte. *)
Definition is_alphanumeric (b : N) : bool :=
  in_range "0" "9" b || in_range "A" "Z" b || in_range "a" "z" b.

(** ** Blanks: src/whitespace.rs *)

Definition newline : char := 10%N.
(** The closure in src/whitespace.rs:11. *)
Definition is_ws (c : char) : bool :=
  N.eqb c 9 || N.eqb c 10 || N.eqb c 13 || N.eqb c (chr " ").

(** src/whitespace.rs:8: a line comment, up to and including the newline. *)
Definition line_comment : parser text unit :=
  tag (str "//") ;;; take_until [newline] ;;; pchar newline ;;; ret tt.
(** src/whitespace.rs:11: whitespace. *)
Definition ws_run : parser text unit := pmap (fun _ => tt) (take_while1 is_ws).
(** src/whitespace.rs:14: a block comment. *)
Definition block_comment : parser text unit :=
  tag (str "/*") ;;; take_until (str "*/") ;;; tag (str "*/") ;;; ret tt.

(** src/whitespace.rs:6-15: one item of [sp]. *)
Definition sp_item : parser text unit :=
  alt_or line_comment (alt_or ws_run (alt_or block_comment alt_end)).

(** src/whitespace.rs:3-17: [sp]. *)
Definition sp : parser text text := recognize (many0t sp_item).

(** src/whitespace.rs:20-31: the [ws!] macro. *)
Definition ws {A} (p : parser text A) : parser text A :=
  sp ;;; s <- p ;; sp ;;; ret s.

(** ** Terminals: src/term.rs *)

(** The unit structs generated in src/term.rs:55-106 (punctuation) and src/term.rs:108-312 (names). *)
Inductive term : Set :=
| OpenParen | CloseParen | OpenBracket | CloseBracket | OpenBrace | CloseBrace | Comma | Minus | Dot | Ellipsis
| Colon | SemiColon | LessThan | Assign | GreaterThan | QMark | Asterisk
| Or | Optional | Async | Attribute | Callback | Const | Deleter | Dictionary | Enum | Getter | Includes | Inherit
| Interface | Iterable | Maplike | Namespace | Partial | Required | Setlike | Setter | Static | Stringifier
| Typedef | Unrestricted | Symbol | NegInfinity | ByteString | DOMString | FrozenArray | Infinity | NaN
| USVString | Any | Boolean | Byte | Double | False_ | Float | Long | Null | Object | Octet | Sequence | Short
| True_ | Unsigned | Undefined | Record_ | ArrayBuffer | DataView | Int8Array | Int16Array | Int32Array
| Uint8Array | Uint16Array | Uint32Array | Uint8ClampedArray | Float32Array | Float64Array | ArrayBufferView
| BufferSource | Promise | Error_ | ReadOnly | Mixin | Implements | LegacyCaller | Constructor.

(** The strings to the right of [=>] in src/term.rs:55-312. *)
Definition term_text (t : term) : string :=
  match t with
  | OpenParen => "(" | CloseParen => ")" | OpenBracket => "[" | CloseBracket => "]"
  | OpenBrace => "{" | CloseBrace => "}" | Comma => "," | Minus => "-" | Dot => "." | Ellipsis => "..."
  | Colon => ":" | SemiColon => ";" | LessThan => "<" | Assign => "=" | GreaterThan => ">"
  | QMark => "?" | Asterisk => "*"
  | Or => "or" | Optional => "optional" | Async => "async" | Attribute => "attribute"
  | Callback => "callback" | Const => "const" | Deleter => "deleter" | Dictionary => "dictionary"
  | Enum => "enum" | Getter => "getter" | Includes => "includes" | Inherit => "inherit"
  | Interface => "interface" | Iterable => "iterable" | Maplike => "maplike" | Namespace => "namespace"
  | Partial => "partial" | Required => "required" | Setlike => "setlike" | Setter => "setter"
  | Static => "static" | Stringifier => "stringifier" | Typedef => "typedef"
  | Unrestricted => "unrestricted" | Symbol => "symbol" | NegInfinity => "-Infinity"
  | ByteString => "ByteString" | DOMString => "DOMString" | FrozenArray => "FrozenArray"
  | Infinity => "Infinity" | NaN => "NaN" | USVString => "USVString" | Any => "any"
  | Boolean => "boolean" | Byte => "byte" | Double => "double" | False_ => "false" | Float => "float"
  | Long => "long" | Null => "null" | Object => "object" | Octet => "octet" | Sequence => "sequence"
  | Short => "short" | True_ => "true" | Unsigned => "unsigned" | Undefined => "undefined"
  | Record_ => "record" | ArrayBuffer => "ArrayBuffer" | DataView => "DataView"
  | Int8Array => "Int8Array" | Int16Array => "Int16Array" | Int32Array => "Int32Array"
  | Uint8Array => "Uint8Array" | Uint16Array => "Uint16Array" | Uint32Array => "Uint32Array"
  | Uint8ClampedArray => "Uint8ClampedArray" | Float32Array => "Float32Array"
  | Float64Array => "Float64Array" | ArrayBufferView => "ArrayBufferView"
  | BufferSource => "BufferSource" | Promise => "Promise" | Error_ => "Error" | ReadOnly => "readonly"
  | Mixin => "mixin" | Implements => "implements" | LegacyCaller => "legacycaller"
  | Constructor => "constructor"
  end.

(** Whether the term is generated by [generate_terms!] (src/term.rs:55-106) or by
    [generate_terms_for_names!] (src/term.rs:108-312). *)
Definition term_is_name (t : term) : bool :=
  match t with
  | OpenParen | CloseParen | OpenBracket | CloseBracket | OpenBrace | CloseBrace | Comma | Minus | Dot
  | Ellipsis | Colon | SemiColon | LessThan | Assign | GreaterThan | QMark | Asterisk => false
  | _ => true
  end.

(** src/term.rs:18-36: [ident_tag!]. *)
Definition ident_tag (tok : text) : parser text text := fun i =>
  match tag tok i with
  | Err e => Err e
  | Diverge => Diverge
  | Ok i' o =>
      match i' with
      | [] => Ok i' o
      | c :: _ =>
          let b := first_byte c in
          if is_alphanumeric b || N.eqb b (chr "_") || N.eqb b (chr "-")
          then Err (Error i KTag) else Ok i' o
      end
  end.

(** src/term.rs:8-13 and 45-50: [Parse] for a terminal. *)
Definition p_term (t : term) : parser text unit :=
  if term_is_name t
  then ws (ident_tag (str (term_text t))) ;;; ret tt
  else ws (tag (str (term_text t))) ;;; ret tt.

(** ** Identifiers: src/common.rs:76-92 *)
Definition Identifier := text.

(** The closure in src/common.rs:87. *)
Definition is_ident_char (c : char) : bool :=
  is_ascii_alphanumeric c || N.eqb c (chr "_") || N.eqb c (chr "-").

Definition p_Identifier : parser text Identifier :=
  ws (opt (pchar (chr "_")) ;;;
      id <- recognize (take_while1 is_ascii_alphabetic ;;; take_while is_ident_char ;;; ret tt) ;;
      ret id).

(** ** Literals: src/literal.rs *)

(** [IntegerLit], [DecLit], [HexLit], [OctLit] (src/literal.rs:4-36). *)
Inductive IntegerLit : Set :=
| IntegerLit_Dec (s : text)
| IntegerLit_Hex (s : text)
| IntegerLit_Oct (s : text).

(** src/literal.rs:7-14. *)
Definition p_DecLit : parser text text :=
  ws (recognize (opt (pchar (chr "-")) ;;; one_of (str "123456789") ;;;
                 take_while is_ascii_digit ;;; ret tt)).
(** src/literal.rs:17-25. *)
Definition p_HexLit : parser text text :=
  ws (recognize (opt (pchar (chr "-")) ;;; pchar (chr "0") ;;;
                 alt_or (pchar (chr "x")) (alt_or (pchar (chr "X")) alt_end) ;;;
                 take_while is_ascii_hexdigit ;;; ret tt)).
(** src/literal.rs:28-35; the closure is ['0' <= c && c <= '7']. *)
Definition p_OctLit : parser text text :=
  ws (recognize (opt (pchar (chr "-")) ;;; pchar (chr "0") ;;;
                 take_while (in_range "0" "7") ;;; ret tt)).
(** src/literal.rs:4-36, through [__ast_enum! @build_parse] (src/macros.rs:491-500). *)
Definition p_IntegerLit : parser text IntegerLit :=
  alt_or (pmap IntegerLit_Dec p_DecLit)
 (alt_or (pmap IntegerLit_Hex p_HexLit)
 (alt_or (pmap IntegerLit_Oct p_OctLit) alt_end)).

(** [StringLit] (src/literal.rs:38-49). *)
Definition StringLit := text.
Definition p_StringLit : parser text StringLit :=
  ws (pchar (chr """") ;;;
      s <- take_while (fun c => negb (N.eqb c (chr """"))) ;;
      pchar (chr """") ;;;
      ret s).

(** [BooleanLit] (src/literal.rs:82-89). *)
Definition p_BooleanLit : parser text bool :=
  alt_or (pmap (fun _ => true) (p_term True_))
 (alt_or (pmap (fun _ => false) (p_term False_)) alt_end).

(** [FloatLit] (src/literal.rs:91-142). *)
Inductive FloatLit : Set :=
| FloatLit_Value (s : text)
| FloatLit_NegInfinity
| FloatLit_Infinity
| FloatLit_NaN.

(** [alt!(char!('e') | char!('E')) >> opt!(alt!(char!('+') | char!('-'))) >> take_while1!(digit) >> (())],
    used at src/literal.rs:118-123 and 130-133. *)
Definition exponent : parser text unit :=
  alt_or (pchar (chr "e")) (alt_or (pchar (chr "E")) alt_end) ;;;
  opt (alt_or (pchar (chr "+")) (alt_or (pchar (chr "-")) alt_end)) ;;;
  take_while1 is_ascii_digit ;;; ret tt.

(** src/literal.rs:96-138. *)
Definition p_FloatValueLit : parser text text :=
  ws (recognize (
    opt (pchar (chr "-")) ;;;
    alt_or
      (alt_or (take_while1 is_ascii_digit ;;; pchar (chr ".") ;;; take_while is_ascii_digit ;;; ret tt)
      (alt_or (take_while is_ascii_digit ;;; pchar (chr ".") ;;; take_while1 is_ascii_digit ;;; ret tt)
       alt_end) ;;;
       opt exponent ;;; ret tt)
   (alt_or
      (take_while1 is_ascii_digit ;;; exponent)
    alt_end) ;;;
    ret tt)).

Definition p_FloatLit : parser text FloatLit :=
  alt_or (pmap FloatLit_Value p_FloatValueLit)
 (alt_or (pmap (fun _ => FloatLit_NegInfinity) (p_term NegInfinity))
 (alt_or (pmap (fun _ => FloatLit_Infinity) (p_term Infinity))
 (alt_or (pmap (fun _ => FloatLit_NaN) (p_term NaN)) alt_end))).

(** [DefaultValue] (src/literal.rs:51-71). *)
Inductive DefaultValue : Set :=
| DefaultValue_Boolean (b : bool)
| DefaultValue_EmptyArray
| DefaultValue_EmptyDictionary
| DefaultValue_Float (f : FloatLit)
| DefaultValue_Integer (n : IntegerLit)
| DefaultValue_Null
| DefaultValue_String (s : StringLit).

(** src/literal.rs:57-60. *)
Definition p_EmptyArrayLit : parser text unit := p_term OpenBracket ;;; p_term CloseBracket ;;; ret tt.
(** src/literal.rs:63-66. *)
Definition p_EmptyDictionaryLit : parser text unit := p_term OpenBrace ;;; p_term CloseBrace ;;; ret tt.

(** src/literal.rs:53-71. *)
Definition p_DefaultValue : parser text DefaultValue :=
  alt_or (pmap DefaultValue_Boolean p_BooleanLit)
 (alt_or (pmap (fun _ => DefaultValue_EmptyArray) p_EmptyArrayLit)
 (alt_or (pmap (fun _ => DefaultValue_EmptyDictionary) p_EmptyDictionaryLit)
 (alt_or (pmap DefaultValue_Float p_FloatLit)
 (alt_or (pmap DefaultValue_Integer p_IntegerLit)
 (alt_or (pmap (fun _ => DefaultValue_Null) (p_term Null))
 (alt_or (pmap DefaultValue_String p_StringLit) alt_end)))))).

(** [ConstValue] (src/literal.rs:73-80). *)
Inductive ConstValue : Set :=
| ConstValue_Boolean (b : bool)
| ConstValue_Float (f : FloatLit)
| ConstValue_Integer (n : IntegerLit)
| ConstValue_Null.

Definition p_ConstValue : parser text ConstValue :=
  alt_or (pmap ConstValue_Boolean p_BooleanLit)
 (alt_or (pmap ConstValue_Float p_FloatLit)
 (alt_or (pmap ConstValue_Integer p_IntegerLit)
 (alt_or (pmap (fun _ => ConstValue_Null) (p_term Null)) alt_end))).
