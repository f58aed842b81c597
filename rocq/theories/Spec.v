(** * An independent specification of weedle's input language.

    Nothing here refers to the parsers.  The file says what blanks are, what the tokens are and how they are spelled,
    what it means to lay a sequence of tokens out as text, and which token sequences are the concrete syntax of a
    given tree (the grammar in the doc comments of src/*.rs, written as a printer). *)
From Coq Require Import String Ascii NArith Arith Bool List.
From Verif Require Import Nom Lex Ast.
Import ListNotations.
Open Scope list_scope.

(** ** Characters *)
Definition letter (c : char) : Prop := (65 <= c <= 90 \/ 97 <= c <= 122)%N.
Definition digit (c : char) : Prop := (48 <= c <= 57)%N.
Definition octdigit (c : char) : Prop := (48 <= c <= 55)%N.
Definition hexdigit (c : char) : Prop := (48 <= c <= 57 \/ 65 <= c <= 70 \/ 97 <= c <= 102)%N.
(** letters, digits, underscore, hyphen *)
Definition name_char (c : char) : Prop := letter c \/ digit c \/ c = 95%N \/ c = 45%N.
(** tab, line feed, carriage return, space *)
Definition blank_char (c : char) : Prop := c = 9%N \/ c = 10%N \/ c = 13%N \/ c = 32%N.

(** ** Blanks: white space, line comments with their newline, block comments *)
Inductive BlankItem : text -> Prop :=
| BI_char c : blank_char c -> BlankItem [c]
| BI_line b : ~ In 10%N b -> BlankItem (47%N :: 47%N :: b ++ [10%N])
| BI_block b : (forall x y, b <> x ++ 42%N :: 47%N :: y) -> BlankItem (47%N :: 42%N :: b ++ [42%N; 47%N]).

Inductive Blank : text -> Prop :=
| Blank_nil : Blank []
| Blank_cons a b : BlankItem a -> Blank b -> Blank (a ++ b).

(** No blank at the beginning of the text. *)
Definition NoBlank (i : text) : Prop := forall a r, BlankItem a -> i <> a ++ r.

(** ** Lexemes *)

(** [A-Za-z][0-9A-Z_a-z-]* *)
Definition NameLex (s : text) : Prop := exists c w, s = c :: w /\ letter c /\ Forall name_char w.

Definition Sign (s : text) : Prop := s = [] \/ s = [45%N].          (* -? *)
(** -?[1-9][0-9]* *)
Definition DecLex (s : text) : Prop := exists m d w,
  s = m ++ d :: w /\ Sign m /\ (49 <= d <= 57)%N /\ Forall digit w.
(** -?0[Xx][0-9A-Fa-f]*  (src/literal.rs:15 documents + instead of *; see theorem C16) *)
Definition HexLex (s : text) : Prop := exists m x w,
  s = m ++ 48%N :: x :: w /\ Sign m /\ (x = 88%N \/ x = 120%N) /\ Forall hexdigit w.
(** -?0[0-7]* *)
Definition OctLex (s : text) : Prop := exists m w,
  s = m ++ 48%N :: w /\ Sign m /\ Forall octdigit w.
(** [Ee][+-]?[0-9]+ *)
Definition ExpLex (s : text) : Prop := exists e g w,
  s = e :: g ++ w /\ (e = 69%N \/ e = 101%N) /\ (g = [] \/ g = [43%N] \/ g = [45%N]) /\ w <> [] /\ Forall digit w.
(** ([0-9]+\.[0-9]*|[0-9]*\.[0-9]+)([Ee][+-]?[0-9]+)?|[0-9]+[Ee][+-]?[0-9]+ *)
Definition FloatBody (s : text) : Prop :=
  (exists w1 w2 x, s = w1 ++ 46%N :: w2 ++ x /\ Forall digit w1 /\ Forall digit w2 /\ (w1 <> [] \/ w2 <> []) /\
                   (x = [] \/ ExpLex x)) \/
  (exists w x, s = w ++ x /\ w <> [] /\ Forall digit w /\ ExpLex x).
(** -?(...) *)
Definition FloatLex (s : text) : Prop := exists m b, s = m ++ b /\ Sign m /\ FloatBody b.

Definition IntLex (l : IntegerLit) : Prop :=
  match l with
  | IntegerLit_Dec s => DecLex s
  | IntegerLit_Hex s => HexLex s
  | IntegerLit_Oct s => OctLex s
  end.
Definition int_text (l : IntegerLit) : text :=
  match l with IntegerLit_Dec s | IntegerLit_Hex s | IntegerLit_Oct s => s end.

(** Any number. *)
Definition NumLex (s : text) : Prop := FloatLex s \/ DecLex s \/ HexLex s \/ OctLex s.

(** [s] is the longest prefix of [i] with [P], and [r] the rest of [i]. *)
Definition Longest (P : text -> Prop) (i s r : text) : Prop :=
  i = s ++ r /\ P s /\ forall s' r', i = s' ++ r' -> P s' -> length s' <= length s.

(** ** Tokens *)
Inductive tok : Set :=
| TName (escaped : bool) (n : text)     (* a keyword or an identifier, possibly written with a leading underscore *)
| TPunct (s : string)
| TNegInf
| TInt (l : IntegerLit)
| TFloat (s : text)
| TStr (s : text).

Definition puncts : list string :=
  ["("; ")"; "["; "]"; "{"; "}"; ","; "..."; ":"; ";"; "<"; "="; ">"; "?"; "*"]%string.

Definition valid_tok (t : tok) : Prop :=
  match t with
  | TName _ n => NameLex n
  | TPunct s => In s puncts
  | TNegInf => True
  | TInt l => IntLex l
  | TFloat s => FloatLex s
  | TStr s => ~ In 34%N s
  end.

Definition spell (t : tok) : text :=
  match t with
  | TName true n => 95%N :: n
  | TName false n => n
  | TPunct s => str s
  | TNegInf => str "-Infinity"
  | TInt l => int_text l
  | TFloat s => s
  | TStr s => 34%N :: s ++ [34%N]
  end.

(** A name ends where no name character follows. *)
Definition name_ends (rest : text) : Prop := forall c r, rest = c :: r -> ~ name_char c.
(** A number ends where it cannot be extended to a longer number. *)
Definition num_ends (s rest : text) : Prop := forall x y, rest = x ++ y -> x <> [] -> ~ NumLex (s ++ x).

Definition ends_ok (t : tok) (rest : text) : Prop :=
  match t with
  | TName _ _ | TNegInf => name_ends rest
  | TInt l => num_ends (int_text l) rest
  | TFloat s => num_ends s rest
  | TPunct _ | TStr _ => True
  end.

(** [Lay i ts r]: the text [i] starts with the tokens [ts], each followed by any blank, and then comes [r]. *)
Inductive Lay : text -> list tok -> text -> Prop :=
| Lay_nil r : Lay r [] r
| Lay_cons t w i ts r :
    valid_tok t -> ends_ok t (w ++ i) -> Blank w -> Lay i ts r -> Lay (spell t ++ w ++ i) (t :: ts) r.

(** [Toks i ts]: the whole text [i] is a layout of the tokens [ts].  A text without any token must be empty: weedle
    rejects nonempty texts of blanks only (see theorem C21). *)
Definition Toks (i : text) (ts : list tok) : Prop :=
  exists w body, i = w ++ body /\ Blank w /\ (ts = [] -> w = []) /\ Lay body ts [].

(** [At t i r]: after blanks, [i] starts with the token [t], and [r] is what is left after the blanks behind it. *)
Definition At (t : tok) (i r : text) : Prop := exists w w',
  i = w ++ spell t ++ w' ++ r /\ Blank w /\ valid_tok t /\ ends_ok t (w' ++ r) /\ Blank w' /\ NoBlank r.
(** [Ats ts i r]: the tokens [ts] one after the other. *)
Fixpoint Ats (ts : list tok) (i r : text) : Prop :=
  match ts with
  | [] => i = r
  | t :: ts' => exists j, At t i j /\ Ats ts' j r
  end.

(** ** Concrete syntax *)

(** Elements of concrete syntax. *)
Inductive gtok : Set :=
| GKw (s : string)                          (* a keyword *)
| GP (s : string)                           (* punctuation *)
| GId (bad : list string) (n : text)        (* an identifier; spelled like a word in [bad] it must be escaped *)
| GTy (bad : list string) (n : text)        (* an identifier used as a type *)
| GOptComma                                 (* a comma that may be left out *)
| GNegInf
| GInt (l : IntegerLit)
| GFloat (s : text)
| GStr (s : text).

(** An unescaped type identifier [unsigned] or [unrestricted] directly followed by the words below would be read as a
    built-in type. *)
Definition fuses (n : text) (next : list tok) : Prop :=
  (n = str "unsigned" /\ exists r, next = TName false (str "long") :: r \/ next = TName false (str "short") :: r) \/
  (n = str "unrestricted" /\ exists r, next = TName false (str "float") :: r \/ next = TName false (str "double") :: r).

(** [Conc g ts r]: the tokens [ts] are a way to write [g], followed by the tokens [r]. *)
Inductive Conc : list gtok -> list tok -> list tok -> Prop :=
| Conc_nil r : Conc [] r r
| Conc_kw s g i r : Conc g i r -> Conc (GKw s :: g) (TName false (str s) :: i) r
| Conc_p s g i r : Conc g i r -> Conc (GP s :: g) (TPunct s :: i) r
| Conc_id_esc bad n g i r : Conc g i r -> Conc (GId bad n :: g) (TName true n :: i) r
| Conc_id_raw bad n g i r : ~ In n (map str bad) -> Conc g i r -> Conc (GId bad n :: g) (TName false n :: i) r
| Conc_ty_esc bad n g i r : Conc g i r -> Conc (GTy bad n :: g) (TName true n :: i) r
| Conc_ty_raw bad n g i r : ~ In n (map str bad) -> ~ fuses n i -> Conc g i r ->
    Conc (GTy bad n :: g) (TName false n :: i) r
| Conc_comma g i r : Conc g i r -> Conc (GOptComma :: g) (TPunct "," :: i) r
| Conc_nocomma g i r : Conc g i r -> Conc (GOptComma :: g) i r
| Conc_neginf g i r : Conc g i r -> Conc (GNegInf :: g) (TNegInf :: i) r
| Conc_int l g i r : Conc g i r -> Conc (GInt l :: g) (TInt l :: i) r
| Conc_float s g i r : Conc g i r -> Conc (GFloat s :: g) (TFloat s :: i) r
| Conc_str s g i r : Conc g i r -> Conc (GStr s :: g) (TStr s :: i) r.

(** *** Printers.  Each follows the doc comment of the type. *)

Section Lists.
  Context {A : Type}.
  (** [a1 sep a2 sep ... an] *)
  Fixpoint join (sep : gtok) (l : list (list gtok)) : list gtok :=
    match l with
    | [] => []
    | [x] => x
    | x :: l' => x ++ sep :: join sep l'
    end.
  Variable P : A -> Prop.
  (** [P] holds for all elements. *)
  Fixpoint All (l : list A) : Prop :=
    match l with
    | [] => True
    | x :: l' => P x /\ All l'
    end.
End Lists.

Definition opt_kw (o : option unit) (s : string) : list gtok :=
  match o with Some _ => [GKw s] | None => [] end.
Definition opt_q (o : option unit) : list gtok :=
  match o with Some _ => [GP "?"] | None => [] end.
(** Words not available for an unescaped identifier when an optional keyword [s] is absent before it. *)
Definition unless (o : option unit) (s : list string) : list string :=
  match o with Some _ => [] | None => s end.

Definition show_FloatLit (f : FloatLit) : list gtok :=
  match f with
  | FloatLit_Value s => [GFloat s]
  | FloatLit_NegInfinity => [GNegInf]
  | FloatLit_Infinity => [GKw "Infinity"]
  | FloatLit_NaN => [GKw "NaN"]
  end.
Definition show_bool (b : bool) : list gtok := [GKw (if b then "true" else "false")%string].
Definition show_DefaultValue (v : DefaultValue) : list gtok :=
  match v with
  | DefaultValue_Boolean b => show_bool b
  | DefaultValue_EmptyArray => [GP "["; GP "]"]
  | DefaultValue_EmptyDictionary => [GP "{"; GP "}"]
  | DefaultValue_Float f => show_FloatLit f
  | DefaultValue_Integer l => [GInt l]
  | DefaultValue_Null => [GKw "null"]
  | DefaultValue_String s => [GStr s]
  end.
Definition show_ConstValue (v : ConstValue) : list gtok :=
  match v with
  | ConstValue_Boolean b => show_bool b
  | ConstValue_Float f => show_FloatLit f
  | ConstValue_Integer l => [GInt l]
  | ConstValue_Null => [GKw "null"]
  end.
Definition show_default (d : option Default) : list gtok :=
  match d with Some v => GP "=" :: show_DefaultValue v | None => [] end.

Definition show_IntegerType (t : IntegerType) : list gtok :=
  match t with
  | IntegerType_LongLong (mkLongLongType u) => opt_kw u "unsigned" ++ [GKw "long"; GKw "long"]
  | IntegerType_Long (mkLongType u) => opt_kw u "unsigned" ++ [GKw "long"]
  | IntegerType_Short (mkShortType u) => opt_kw u "unsigned" ++ [GKw "short"]
  end.
Definition show_FloatingPointType (t : FloatingPointType) : list gtok :=
  match t with
  | FloatingPointType_Float (mkFloatType u) => opt_kw u "unrestricted" ++ [GKw "float"]
  | FloatingPointType_Double (mkDoubleType u) => opt_kw u "unrestricted" ++ [GKw "double"]
  end.
(** [T?] where [T] is printed by [f]. *)
Definition show_null {T : Set} (f : T -> list gtok) (m : MayBeNull T) : list gtok :=
  match m with mkMayBeNull t q => f t ++ opt_q q end.
Definition show_kw_null (s : string) (m : MayBeNull unit) : list gtok := show_null (fun _ => [GKw s]) m.

(** Words that are built-in types of constants. *)
Definition const_words : list string := ["long"; "short"; "float"; "double"; "boolean"; "byte"; "octet"]%string.
(** Words that are built-in types. *)
Definition type_words : list string :=
  const_words ++
  ["ByteString"; "DOMString"; "USVString"; "object"; "symbol"; "Error"; "ArrayBuffer"; "DataView"; "Int8Array";
   "Int16Array"; "Int32Array"; "Uint8Array"; "Uint16Array"; "Uint32Array"; "Uint8ClampedArray"; "Float32Array";
   "Float64Array"; "ArrayBufferView"; "BufferSource"]%string.

Definition show_ConstType (t : ConstType) : list gtok :=
  match t with
  | ConstType_Integer m => show_null show_IntegerType m
  | ConstType_FloatingPoint m => show_null show_FloatingPointType m
  | ConstType_Boolean m => show_kw_null "boolean" m
  | ConstType_Byte m => show_kw_null "byte" m
  | ConstType_Octet m => show_kw_null "octet" m
  | ConstType_Identifier m => show_null (fun n => [GTy const_words n]) m
  end.

(** Does the type end with the keyword [long] where a second [long] would be taken as part of the type? *)
Definition int_ends_long (m : MayBeNull IntegerType) : bool :=
  match m with mkMayBeNull (IntegerType_Long _) None => true | _ => false end.
Definition nonany_ends_long (t : NonAnyType) : bool :=
  match t with NonAnyType_Integer m => int_ends_long m | _ => false end.
Definition type_ends_long (t : Type_) : bool :=
  match t with Type_Single (SingleType_NonAny x) => nonany_ends_long x | _ => false end.
Definition return_ends_long (t : ReturnType) : bool :=
  match t with ReturnType_Type x => type_ends_long x | _ => false end.
Definition attributed_ends_long (t : AttributedType) : bool :=
  match t with mkAttributedType _ x => type_ends_long x end.
Definition const_ends_long (t : ConstType) : bool :=
  match t with ConstType_Integer m => int_ends_long m | _ => false end.
(** The name that follows a type. *)
Definition name_after (ends_long : bool) (n : Identifier) : gtok :=
  GId (if ends_long then ["long"%string] else []) n.

Definition show_IdentifierOrString (x : IdentifierOrString) : list gtok :=
  match x with
  | IdentifierOrString_Identifier n => [GId [] n]
  | IdentifierOrString_String s => [GStr s]
  end.

(** [bad] collects the words that, because of what comes before, cannot be the first token of the type. *)
Fixpoint show_Type (bad : list string) (t : Type_) {struct t} : list gtok :=
  match t with
  | Type_Single s => show_SingleType bad s
  | Type_Union (mkMayBeNull l q) => GP "(" :: join (GKw "or") (map show_UnionMemberType l) ++ GP ")" :: opt_q q
  end
with show_SingleType (bad : list string) (t : SingleType) {struct t} : list gtok :=
  match t with
  | SingleType_Any => [GKw "any"]
  | SingleType_NonAny x => show_NonAnyType ("any"%string :: bad) x
  end
with show_NonAnyType (bad : list string) (t : NonAnyType) {struct t} : list gtok :=
  match t with
  | NonAnyType_Promise x => show_PromiseType x
  | NonAnyType_Integer m => show_null show_IntegerType m
  | NonAnyType_FloatingPoint m => show_null show_FloatingPointType m
  | NonAnyType_Boolean m => show_kw_null "boolean" m
  | NonAnyType_Byte m => show_kw_null "byte" m
  | NonAnyType_Octet m => show_kw_null "octet" m
  | NonAnyType_ByteString m => show_kw_null "ByteString" m
  | NonAnyType_DOMString m => show_kw_null "DOMString" m
  | NonAnyType_USVString m => show_kw_null "USVString" m
  | NonAnyType_Sequence (mkMayBeNull x q) => show_SequenceType x ++ opt_q q
  | NonAnyType_Object m => show_kw_null "object" m
  | NonAnyType_Symbol m => show_kw_null "symbol" m
  | NonAnyType_Error m => show_kw_null "Error" m
  | NonAnyType_ArrayBuffer m => show_kw_null "ArrayBuffer" m
  | NonAnyType_DataView m => show_kw_null "DataView" m
  | NonAnyType_Int8Array m => show_kw_null "Int8Array" m
  | NonAnyType_Int16Array m => show_kw_null "Int16Array" m
  | NonAnyType_Int32Array m => show_kw_null "Int32Array" m
  | NonAnyType_Uint8Array m => show_kw_null "Uint8Array" m
  | NonAnyType_Uint16Array m => show_kw_null "Uint16Array" m
  | NonAnyType_Uint32Array m => show_kw_null "Uint32Array" m
  | NonAnyType_Uint8ClampedArray m => show_kw_null "Uint8ClampedArray" m
  | NonAnyType_Float32Array m => show_kw_null "Float32Array" m
  | NonAnyType_Float64Array m => show_kw_null "Float64Array" m
  | NonAnyType_ArrayBufferView m => show_kw_null "ArrayBufferView" m
  | NonAnyType_BufferSource m => show_kw_null "BufferSource" m
  | NonAnyType_FrozenArrayType (mkMayBeNull x q) => show_FrozenArrayType x ++ opt_q q
  | NonAnyType_RecordType (mkMayBeNull x q) => show_RecordType x ++ opt_q q
  | NonAnyType_Identifier m => show_null (fun n => [GTy (type_words ++ bad) n]) m
  end
with show_SequenceType (t : SequenceType) {struct t} : list gtok :=
  match t with mkSequenceType x => GKw "sequence" :: GP "<" :: show_Type [] x ++ [GP ">"] end
with show_FrozenArrayType (t : FrozenArrayType) {struct t} : list gtok :=
  match t with mkFrozenArrayType x => GKw "FrozenArray" :: GP "<" :: show_Type [] x ++ [GP ">"] end
with show_PromiseType (t : PromiseType) {struct t} : list gtok :=
  match t with mkPromiseType x => GKw "Promise" :: GP "<" :: show_ReturnType [] x ++ [GP ">"] end
with show_RecordType (t : RecordType) {struct t} : list gtok :=
  match t with mkRecordType k v =>
    GKw "record" :: GP "<" :: show_RecordKeyType k ++ GP "," :: show_Type [] v ++ [GP ">"] end
with show_RecordKeyType (t : RecordKeyType) {struct t} : list gtok :=
  match t with
  | RecordKeyType_Byte => [GKw "ByteString"]
  | RecordKeyType_DOM => [GKw "DOMString"]
  | RecordKeyType_USV => [GKw "USVString"]
  | RecordKeyType_NonAny x => show_NonAnyType [] x
  end
with show_UnionMemberType (t : UnionMemberType) {struct t} : list gtok :=
  match t with
  | UnionMemberType_Single (mkAttributedNonAnyType a x) =>
      match a with
      | Some l => GP "[" :: join (GP ",") (map show_ExtendedAttribute l) ++ [GP "]"]
      | None => []
      end ++ show_NonAnyType [] x
  | UnionMemberType_Union (mkMayBeNull l q) =>
      GP "(" :: join (GKw "or") (map show_UnionMemberType l) ++ GP ")" :: opt_q q
  end
with show_ReturnType (bad : list string) (t : ReturnType) {struct t} : list gtok :=
  match t with
  | ReturnType_Undefined => [GKw "undefined"]
  | ReturnType_Type x => show_Type ("undefined"%string :: bad) x
  end
with show_AttributedType (bad : list string) (t : AttributedType) {struct t} : list gtok :=
  match t with mkAttributedType a x =>
    match a with
    | Some l => GP "[" :: join (GP ",") (map show_ExtendedAttribute l) ++ GP "]" :: show_Type [] x
    | None => show_Type bad x
    end
  end
with show_ExtendedAttribute (a : ExtendedAttribute) {struct a} : list gtok :=
  match a with
  | ExtendedAttribute_ArgList (mkExtendedAttributeArgList i args) =>
      GId [] i :: GP "(" :: join (GP ",") (map show_Argument args) ++ [GP ")"]
  | ExtendedAttribute_NamedArgList (mkExtendedAttributeNamedArgList l r args) =>
      GId [] l :: GP "=" :: GId [] r :: GP "(" :: join (GP ",") (map show_Argument args) ++ [GP ")"]
  | ExtendedAttribute_IdentList (mkExtendedAttributeIdentList i l) =>
      GId [] i :: GP "=" :: GP "(" :: join (GP ",") (map (fun n => [GId [] n]) l) ++ [GP ")"]
  | ExtendedAttribute_Ident (mkExtendedAttributeIdent l r) => GId [] l :: GP "=" :: show_IdentifierOrString r
  | ExtendedAttribute_Wildcard (mkExtendedAttributeWildCard l) => [GId [] l; GP "="; GP "*"]
  | ExtendedAttribute_NoArgs i => [GId [] i]
  end
with show_Argument (a : Argument) {struct a} : list gtok :=
  match a with
  | Argument_Single (mkSingleArgument at_ o t i d) =>
      match at_ with
      | Some l => GP "[" :: join (GP ",") (map show_ExtendedAttribute l) ++ [GP "]"]
      | None => []
      end ++ opt_kw o "optional" ++ show_AttributedType (unless o ["optional"%string]) t ++
      name_after (attributed_ends_long t) i :: show_default d
  | Argument_Variadic (mkVariadicArgument at_ t i) =>
      match at_ with
      | Some l => GP "[" :: join (GP ",") (map show_ExtendedAttribute l) ++ [GP "]"]
      | None => []
      end ++ show_Type [] t ++ [GP "..."; GId [] i]
  end.

(** [[ attribute, ... ]], if any *)
Definition show_attributes (a : option ExtendedAttributeList) : list gtok :=
  match a with
  | Some l => GP "[" :: join (GP ",") (map show_ExtendedAttribute l) ++ [GP "]"]
  | None => []
  end.
(** [( argument, ... )] *)
Definition show_args (l : ArgumentList) : list gtok :=
  GP "(" :: join (GP ",") (map show_Argument l) ++ [GP ")"].
(** [{ member ... }] *)
Definition show_body {A} (f : A -> list gtok) (l : list A) : list gtok :=
  GP "{" :: flat_map f l ++ [GP "}"].
Definition show_inheritance (h : option Inheritance) : list gtok :=
  match h with Some (mkInheritance i) => [GP ":"; GId [] i] | None => [] end.
Definition show_opt_name (ends_long : bool) (n : option Identifier) : list gtok :=
  match n with Some n => [name_after ends_long n] | None => [] end.

Definition show_ConstMember (m : ConstMember) : list gtok :=
  match m with mkConstMember a t i v =>
    show_attributes a ++ GKw "const" :: show_ConstType t ++ name_after (const_ends_long t) i :: GP "=" ::
    show_ConstValue v ++ [GP ";"] end.
Definition show_SIS (m : option StringifierOrInheritOrStatic) : list gtok :=
  match m with
  | Some SIS_Stringifier => [GKw "stringifier"]
  | Some SIS_Inherit => [GKw "inherit"]
  | Some SIS_Static => [GKw "static"]
  | None => []
  end.
Definition show_SS (m : option StringifierOrStatic) : list gtok :=
  match m with
  | Some SS_Stringifier => [GKw "stringifier"]
  | Some SS_Static => [GKw "static"]
  | None => []
  end.
Definition show_Special (s : option Special) : list gtok :=
  match s with
  | Some Special_Getter => [GKw "getter"]
  | Some Special_Setter => [GKw "setter"]
  | Some Special_Deleter => [GKw "deleter"]
  | Some Special_LegacyCaller => [GKw "legacycaller"]
  | None => []
  end.
Definition show_AttributeInterfaceMember (m : AttributeInterfaceMember) : list gtok :=
  match m with mkAttributeInterfaceMember a s r t i =>
    show_attributes a ++ show_SIS s ++ opt_kw r "readonly" ++ GKw "attribute" :: show_AttributedType [] t ++
    [name_after (attributed_ends_long t) i; GP ";"] end.
Definition show_ConstructorInterfaceMember (m : ConstructorInterfaceMember) : list gtok :=
  match m with mkConstructorInterfaceMember a args =>
    show_attributes a ++ GKw "constructor" :: show_args args ++ [GP ";"] end.

(** Is the return type a plain (not nullable) identifier? *)
Definition plain_identifier (t : ReturnType) : bool :=
  match t with
  | ReturnType_Type (Type_Single (SingleType_NonAny (NonAnyType_Identifier (mkMayBeNull _ None)))) => true
  | _ => false
  end.
(** An unescaped return type cannot be a word that would be read as a modifier or special keyword, and
    [constructor(...);] is a constructor. *)
Definition operation_bad (m : option StringifierOrStatic) (s : option Special) (t : ReturnType)
    (i : option Identifier) : list string :=
  match s with
  | Some _ => []
  | None =>
      ["getter"; "setter"; "deleter"; "legacycaller"]%string ++
      match m with
      | Some _ => []
      | None => ["stringifier"; "static"]%string ++
                match i with
                | None => if plain_identifier t then ["constructor"%string] else []
                | Some _ => []
                end
      end
  end.
Definition show_OperationInterfaceMember (m : OperationInterfaceMember) : list gtok :=
  match m with mkOperationInterfaceMember a md sp r i args =>
    show_attributes a ++ show_SS md ++ show_Special sp ++ show_ReturnType (operation_bad md sp r i) r ++
    show_opt_name (return_ends_long r) i ++ show_args args ++ [GP ";"] end.
Definition show_pair (g : AttributedType * AttributedType) : list gtok :=
  GP "<" :: show_AttributedType [] (fst g) ++ GP "," :: show_AttributedType [] (snd g) ++ [GP ">"].
Definition show_one (g : AttributedType) : list gtok := GP "<" :: show_AttributedType [] g ++ [GP ">"].
Definition show_IterableInterfaceMember (m : IterableInterfaceMember) : list gtok :=
  match m with
  | IterableInterfaceMember_Single (mkSingleTypedIterable a g) =>
      show_attributes a ++ GKw "iterable" :: show_one g ++ [GP ";"]
  | IterableInterfaceMember_Double (mkDoubleTypedIterable a g) =>
      show_attributes a ++ GKw "iterable" :: show_pair g ++ [GP ";"]
  end.
Definition show_opt_args (l : option ArgumentList) : list gtok :=
  match l with Some l => show_args l | None => [] end.
Definition show_AsyncIterableInterfaceMember (m : AsyncIterableInterfaceMember) : list gtok :=
  match m with
  | AsyncIterableInterfaceMember_Single (mkSingleTypedAsyncIterable a g args) =>
      show_attributes a ++ GKw "async" :: GKw "iterable" :: show_one g ++ show_opt_args args ++ [GP ";"]
  | AsyncIterableInterfaceMember_Double (mkDoubleTypedAsyncIterable a g args) =>
      show_attributes a ++ GKw "async" :: GKw "iterable" :: show_pair g ++ show_opt_args args ++ [GP ";"]
  end.
Definition show_MaplikeInterfaceMember (m : MaplikeInterfaceMember) : list gtok :=
  match m with mkMaplikeInterfaceMember a r g =>
    show_attributes a ++ opt_kw r "readonly" ++ GKw "maplike" :: show_pair g ++ [GP ";"] end.
Definition show_SetlikeInterfaceMember (m : SetlikeInterfaceMember) : list gtok :=
  match m with mkSetlikeInterfaceMember a r g =>
    show_attributes a ++ opt_kw r "readonly" ++ GKw "setlike" :: show_one g ++ [GP ";"] end.
Definition show_StringifierMember (m : StringifierMember) : list gtok :=
  match m with mkStringifierMember a => show_attributes a ++ [GKw "stringifier"; GP ";"] end.
Definition show_InterfaceMember (m : InterfaceMember) : list gtok :=
  match m with
  | InterfaceMember_Const x => show_ConstMember x
  | InterfaceMember_Attribute x => show_AttributeInterfaceMember x
  | InterfaceMember_Constructor x => show_ConstructorInterfaceMember x
  | InterfaceMember_Operation x => show_OperationInterfaceMember x
  | InterfaceMember_Iterable x => show_IterableInterfaceMember x
  | InterfaceMember_AsyncIterable x => show_AsyncIterableInterfaceMember x
  | InterfaceMember_Maplike x => show_MaplikeInterfaceMember x
  | InterfaceMember_Setlike x => show_SetlikeInterfaceMember x
  | InterfaceMember_Stringifier x => show_StringifierMember x
  end.

Definition show_MixinMember (m : MixinMember) : list gtok :=
  match m with
  | MixinMember_Const x => show_ConstMember x
  | MixinMember_Operation (mkOperationMixinMember a s r i args) =>
      show_attributes a ++ opt_kw s "stringifier" ++ show_ReturnType (unless s ["stringifier"%string]) r ++
      show_opt_name (return_ends_long r) i ++ show_args args ++ [GP ";"]
  | MixinMember_Attribute (mkAttributeMixinMember a s r t i) =>
      show_attributes a ++ opt_kw s "stringifier" ++ opt_kw r "readonly" ++ GKw "attribute" ::
      show_AttributedType [] t ++ [name_after (attributed_ends_long t) i; GP ";"]
  | MixinMember_Stringifier x => show_StringifierMember x
  end.

Definition show_NamespaceMember (m : NamespaceMember) : list gtok :=
  match m with
  | NamespaceMember_Const (mkConstNamespaceMember a t i v) =>
      show_attributes a ++ GKw "const" :: show_ConstType t ++ name_after (const_ends_long t) i :: GP "=" ::
      show_ConstValue v ++ [GP ";"]
  | NamespaceMember_Operation (mkOperationNamespaceMember a r i args) =>
      show_attributes a ++ show_ReturnType [] r ++ show_opt_name (return_ends_long r) i ++ show_args args ++ [GP ";"]
  | NamespaceMember_Attribute (mkAttributeNamespaceMember a t i) =>
      show_attributes a ++ GKw "readonly" :: GKw "attribute" :: show_AttributedType [] t ++
      [name_after (attributed_ends_long t) i; GP ";"]
  end.

Definition show_DictionaryMember (m : DictionaryMember) : list gtok :=
  match m with mkDictionaryMember a r t i d =>
    show_attributes a ++ opt_kw r "required" ++ show_Type (unless r ["required"%string]) t ++
    name_after (type_ends_long t) i :: show_default d ++ [GP ";"] end.

Definition show_Definition (d : Definition_) : list gtok :=
  match d with
  | Definition_Callback (mkCallbackDefinition a i r args) =>
      show_attributes a ++ GKw "callback" :: GId [] i :: GP "=" :: show_ReturnType [] r ++ show_args args ++ [GP ";"]
  | Definition_CallbackInterface (mkCallbackInterfaceDefinition a i h m) =>
      show_attributes a ++ GKw "callback" :: GKw "interface" :: GId [] i :: show_inheritance h ++
      show_body show_InterfaceMember m ++ [GP ";"]
  | Definition_Interface (mkInterfaceDefinition a i h m) =>
      show_attributes a ++ GKw "interface" :: GId [] i :: show_inheritance h ++
      show_body show_InterfaceMember m ++ [GP ";"]
  | Definition_InterfaceMixin (mkInterfaceMixinDefinition a i m) =>
      show_attributes a ++ GKw "interface" :: GKw "mixin" :: GId [] i :: show_body show_MixinMember m ++ [GP ";"]
  | Definition_Namespace (mkNamespaceDefinition a i m) =>
      show_attributes a ++ GKw "namespace" :: GId [] i :: show_body show_NamespaceMember m ++ [GP ";"]
  | Definition_Dictionary (mkDictionaryDefinition a i h m) =>
      show_attributes a ++ GKw "dictionary" :: GId [] i :: show_inheritance h ++
      show_body show_DictionaryMember m ++ [GP ";"]
  | Definition_PartialInterface (mkPartialInterfaceDefinition a i m) =>
      show_attributes a ++ GKw "partial" :: GKw "interface" :: GId [] i ::
      show_body show_InterfaceMember m ++ [GP ";"]
  | Definition_PartialInterfaceMixin (mkPartialInterfaceMixinDefinition a i m) =>
      show_attributes a ++ GKw "partial" :: GKw "interface" :: GKw "mixin" :: GId [] i ::
      show_body show_MixinMember m ++ [GP ";"]
  | Definition_PartialDictionary (mkPartialDictionaryDefinition a i m) =>
      show_attributes a ++ GKw "partial" :: GKw "dictionary" :: GId [] i ::
      show_body show_DictionaryMember m ++ [GP ";"]
  | Definition_PartialNamespace (mkPartialNamespaceDefinition a i m) =>
      show_attributes a ++ GKw "partial" :: GKw "namespace" :: GId [] i ::
      show_body show_NamespaceMember m ++ [GP ";"]
  | Definition_Enum (mkEnumDefinition a i v) =>
      show_attributes a ++ GKw "enum" :: GId [] i :: GP "{" :: join (GP ",") (map (fun s => [GStr s]) v) ++
      [GOptComma; GP "}"; GP ";"]
  | Definition_Typedef (mkTypedefDefinition a t i) =>
      show_attributes a ++ GKw "typedef" :: show_AttributedType [] t ++
      [name_after (attributed_ends_long t) i; GP ";"]
  | Definition_IncludesStatement (mkIncludesStatementDefinition a l r) =>
      show_attributes a ++ [GId ["typedef"%string] l; GKw "includes"; GId [] r; GP ";"]
  | Definition_Implements (mkImplementsDefinition a l r) =>
      show_attributes a ++ [GId ["typedef"%string] l; GKw "implements"; GId [] r; GP ";"]
  end.

Definition show_Definitions (d : Definitions) : list gtok := flat_map show_Definition d.

(** ** Well-formed trees

    Trees that some text stands for.  Three conditions, at every depth:
    - a default value only on an argument marked [optional];
    - attributes written before an argument belong to the argument, not to its type;
    - record keys that are string types use the dedicated variants;
    and every enumeration has a value. *)
Definition is_some {A} (o : option A) : Prop := o <> None.

Fixpoint wf_Type (t : Type_) : Prop :=
  match t with
  | Type_Single s => wf_SingleType s
  | Type_Union (mkMayBeNull l _) => All wf_UnionMemberType l
  end
with wf_SingleType (t : SingleType) : Prop :=
  match t with
  | SingleType_Any => True
  | SingleType_NonAny x => wf_NonAnyType x
  end
with wf_NonAnyType (t : NonAnyType) : Prop :=
  match t with
  | NonAnyType_Promise (mkPromiseType x) => wf_ReturnType x
  | NonAnyType_Sequence (mkMayBeNull (mkSequenceType x) _) => wf_Type x
  | NonAnyType_FrozenArrayType (mkMayBeNull (mkFrozenArrayType x) _) => wf_Type x
  | NonAnyType_RecordType (mkMayBeNull (mkRecordType k v) _) => wf_RecordKeyType k /\ wf_Type v
  | _ => True
  end
with wf_RecordKeyType (t : RecordKeyType) : Prop :=
  match t with
  | RecordKeyType_NonAny x =>
      match x with
      | NonAnyType_ByteString _ | NonAnyType_DOMString _ | NonAnyType_USVString _ => False
      | _ => wf_NonAnyType x
      end
  | _ => True
  end
with wf_UnionMemberType (t : UnionMemberType) : Prop :=
  match t with
  | UnionMemberType_Single (mkAttributedNonAnyType a x) =>
      match a with Some l => All wf_ExtendedAttribute l | None => True end /\ wf_NonAnyType x
  | UnionMemberType_Union (mkMayBeNull l _) => All wf_UnionMemberType l
  end
with wf_ReturnType (t : ReturnType) : Prop :=
  match t with
  | ReturnType_Undefined => True
  | ReturnType_Type x => wf_Type x
  end
with wf_AttributedType (t : AttributedType) : Prop :=
  match t with
  | mkAttributedType a x => match a with Some l => All wf_ExtendedAttribute l | None => True end /\ wf_Type x
  end
with wf_ExtendedAttribute (a : ExtendedAttribute) : Prop :=
  match a with
  | ExtendedAttribute_ArgList (mkExtendedAttributeArgList _ args) => All wf_Argument args
  | ExtendedAttribute_NamedArgList (mkExtendedAttributeNamedArgList _ _ args) => All wf_Argument args
  | _ => True
  end
with wf_Argument (a : Argument) : Prop :=
  match a with
  | Argument_Single (mkSingleArgument at_ o t i d) =>
      match at_ with Some l => All wf_ExtendedAttribute l | None => True end /\
      wf_AttributedType t /\
      (is_some d -> is_some o) /\
      (at_ = None -> o = None -> match t with mkAttributedType ta _ => ta = None end)
  | Argument_Variadic (mkVariadicArgument at_ t i) =>
      match at_ with Some l => All wf_ExtendedAttribute l | None => True end /\ wf_Type t
  end.

Definition wf_attributes (a : option ExtendedAttributeList) : Prop :=
  match a with Some l => All wf_ExtendedAttribute l | None => True end.
Definition wf_args (l : ArgumentList) : Prop := All wf_Argument l.
Definition wf_pair (g : AttributedType * AttributedType) : Prop :=
  wf_AttributedType (fst g) /\ wf_AttributedType (snd g).
Definition wf_opt_args (l : option ArgumentList) : Prop := match l with Some l => wf_args l | None => True end.

Definition wf_InterfaceMember (m : InterfaceMember) : Prop :=
  match m with
  | InterfaceMember_Const (mkConstMember a _ _ _) => wf_attributes a
  | InterfaceMember_Attribute (mkAttributeInterfaceMember a _ _ t _) => wf_attributes a /\ wf_AttributedType t
  | InterfaceMember_Constructor (mkConstructorInterfaceMember a args) => wf_attributes a /\ wf_args args
  | InterfaceMember_Operation (mkOperationInterfaceMember a _ _ r _ args) =>
      wf_attributes a /\ wf_ReturnType r /\ wf_args args
  | InterfaceMember_Iterable (IterableInterfaceMember_Single (mkSingleTypedIterable a g)) =>
      wf_attributes a /\ wf_AttributedType g
  | InterfaceMember_Iterable (IterableInterfaceMember_Double (mkDoubleTypedIterable a g)) =>
      wf_attributes a /\ wf_pair g
  | InterfaceMember_AsyncIterable (AsyncIterableInterfaceMember_Single (mkSingleTypedAsyncIterable a g args)) =>
      wf_attributes a /\ wf_AttributedType g /\ wf_opt_args args
  | InterfaceMember_AsyncIterable (AsyncIterableInterfaceMember_Double (mkDoubleTypedAsyncIterable a g args)) =>
      wf_attributes a /\ wf_pair g /\ wf_opt_args args
  | InterfaceMember_Maplike (mkMaplikeInterfaceMember a _ g) => wf_attributes a /\ wf_pair g
  | InterfaceMember_Setlike (mkSetlikeInterfaceMember a _ g) => wf_attributes a /\ wf_AttributedType g
  | InterfaceMember_Stringifier (mkStringifierMember a) => wf_attributes a
  end.
Definition wf_MixinMember (m : MixinMember) : Prop :=
  match m with
  | MixinMember_Const (mkConstMember a _ _ _) => wf_attributes a
  | MixinMember_Operation (mkOperationMixinMember a _ r _ args) => wf_attributes a /\ wf_ReturnType r /\ wf_args args
  | MixinMember_Attribute (mkAttributeMixinMember a _ _ t _) => wf_attributes a /\ wf_AttributedType t
  | MixinMember_Stringifier (mkStringifierMember a) => wf_attributes a
  end.
Definition wf_NamespaceMember (m : NamespaceMember) : Prop :=
  match m with
  | NamespaceMember_Const (mkConstNamespaceMember a _ _ _) => wf_attributes a
  | NamespaceMember_Operation (mkOperationNamespaceMember a r _ args) =>
      wf_attributes a /\ wf_ReturnType r /\ wf_args args
  | NamespaceMember_Attribute (mkAttributeNamespaceMember a t _) => wf_attributes a /\ wf_AttributedType t
  end.
Definition wf_DictionaryMember (m : DictionaryMember) : Prop :=
  match m with mkDictionaryMember a _ t _ _ => wf_attributes a /\ wf_Type t end.

Definition wf_Definition (d : Definition_) : Prop :=
  match d with
  | Definition_Callback (mkCallbackDefinition a _ r args) => wf_attributes a /\ wf_ReturnType r /\ wf_args args
  | Definition_CallbackInterface (mkCallbackInterfaceDefinition a _ _ m) => wf_attributes a /\ All wf_InterfaceMember m
  | Definition_Interface (mkInterfaceDefinition a _ _ m) => wf_attributes a /\ All wf_InterfaceMember m
  | Definition_InterfaceMixin (mkInterfaceMixinDefinition a _ m) => wf_attributes a /\ All wf_MixinMember m
  | Definition_Namespace (mkNamespaceDefinition a _ m) => wf_attributes a /\ All wf_NamespaceMember m
  | Definition_Dictionary (mkDictionaryDefinition a _ _ m) => wf_attributes a /\ All wf_DictionaryMember m
  | Definition_PartialInterface (mkPartialInterfaceDefinition a _ m) => wf_attributes a /\ All wf_InterfaceMember m
  | Definition_PartialInterfaceMixin (mkPartialInterfaceMixinDefinition a _ m) =>
      wf_attributes a /\ All wf_MixinMember m
  | Definition_PartialDictionary (mkPartialDictionaryDefinition a _ m) => wf_attributes a /\ All wf_DictionaryMember m
  | Definition_PartialNamespace (mkPartialNamespaceDefinition a _ m) => wf_attributes a /\ All wf_NamespaceMember m
  | Definition_Enum (mkEnumDefinition a _ v) => wf_attributes a /\ v <> []
  | Definition_Typedef (mkTypedefDefinition a t _) => wf_attributes a /\ wf_AttributedType t
  | Definition_IncludesStatement (mkIncludesStatementDefinition a _ _) => wf_attributes a
  | Definition_Implements (mkImplementsDefinition a _ _) => wf_attributes a
  end.
Definition wf_Definitions (d : Definitions) : Prop := All wf_Definition d.

(** [Sentence defs ts]: the tokens [ts] are the concrete syntax of [defs]. *)
Definition Sentence (defs : Definitions) (ts : list tok) : Prop := Conc (show_Definitions defs) ts [].
