(** * Model values as values of the running source

    [enc_T x] is the Rust value that [x] of Ast.v or Lex.v stands for, with everything that Ast.v leaves out: terminals, brackets,
    boxes, one-field structs, and the names of the fields. *)
From Coq Require Import String Ascii NArith Arith Bool List.
From Verif Require Import Nom Lex Ast Interp.
Import ListNotations.
Open Scope string_scope.
Open Scope list_scope.

(** A unit struct. *)
Definition vt (s : string) : value := VData s "" [].
Definition vu (s : string) (_ : unit) : value := vt s.
(** [Option], [Vec], [Box], the structs of src/common.rs:28-74, tuples, [MayBeNull] (src/types.rs:69-72). *)
Definition enc_Option {A} (f : A -> value) (o : option A) : value :=
  match o with Some x => VCon "Some" [f x] | None => VCon "None" [] end.
Definition enc_Vec {A} (f : A -> value) (l : list A) : value := VVec (map f l).
Definition enc_Box {A} (f : A -> value) (x : A) : value := VCon "Box::new" [f x].
Definition enc_Parenthesized {A} (f : A -> value) (x : A) : value :=
  VData "Parenthesized" "" [("open_paren", vt "term::OpenParen"); ("body", f x); ("close_paren", vt "term::CloseParen")].
Definition enc_Bracketed {A} (f : A -> value) (x : A) : value :=
  VData "Bracketed" "" [("open_bracket", vt "term::OpenBracket"); ("body", f x); ("close_bracket", vt "term::CloseBracket")].
Definition enc_Braced {A} (f : A -> value) (x : A) : value :=
  VData "Braced" "" [("open_brace", vt "term::OpenBrace"); ("body", f x); ("close_brace", vt "term::CloseBrace")].
Definition enc_Generics {A} (f : A -> value) (x : A) : value :=
  VData "Generics" "" [("open_angle", vt "term::LessThan"); ("body", f x); ("close_angle", vt "term::GreaterThan")].
Definition enc_Punctuated {A} (sep : value) (f : A -> value) (l : list A) : value :=
  VData "Punctuated" "" [("list", VVec (map f l)); ("separator", sep)].
Definition enc_PunctuatedNonEmpty {A} (sep : value) (f : A -> value) (l : list A) : value :=
  VData "PunctuatedNonEmpty" "" [("list", VVec (map f l)); ("separator", sep)].
Definition enc_triple {A B} (f : A -> value) (sep : value) (g : B -> value) (x : A * B) : value :=
  match x with (a, b) => VTup [f a; sep; g b] end.
Definition enc_MayBeNull {T : Set} (f : T -> value) (x : MayBeNull T) : value :=
  match x with mkMayBeNull t q => VData "MayBeNull" "" [("type_", f t); ("q_mark", enc_Option (vu "term::QMark") q)] end.
(** src/literal.rs:54-64: no fields but terminals. *)
Definition enc_EmptyArrayLit : value := VData "EmptyArrayLit" "" [("open_bracket", vt "term::OpenBracket"); ("close_bracket", vt "term::CloseBracket")].
Definition enc_EmptyDictionaryLit : value := VData "EmptyDictionaryLit" "" [("open_brace", vt "term::OpenBrace"); ("close_brace", vt "term::CloseBrace")].

(** src/types.rs:85 *)
Definition enc_LongLongType (x : LongLongType) : value :=
  match x with
  | mkLongLongType x_unsigned =>
      VData "LongLongType" "" [("unsigned", (enc_Option (vu "term::Unsigned")) x_unsigned);
        ("long_long", VTup [vt "term::Long"; vt "term::Long"])]
  end.
(** src/types.rs:91 *)
Definition enc_LongType (x : LongType) : value :=
  match x with
  | mkLongType x_unsigned =>
      VData "LongType" "" [("unsigned", (enc_Option (vu "term::Unsigned")) x_unsigned);
        ("long", vt "term::Long")]
  end.
(** src/types.rs:97 *)
Definition enc_ShortType (x : ShortType) : value :=
  match x with
  | mkShortType x_unsigned =>
      VData "ShortType" "" [("unsigned", (enc_Option (vu "term::Unsigned")) x_unsigned);
        ("short", vt "term::Short")]
  end.
(** src/types.rs:82 *)
Definition enc_IntegerType (x : IntegerType) : value :=
  match x with
  | IntegerType_LongLong y => VData "IntegerType" "LongLong" [("0", enc_LongLongType y)]
  | IntegerType_Long y => VData "IntegerType" "Long" [("0", enc_LongType y)]
  | IntegerType_Short y => VData "IntegerType" "Short" [("0", enc_ShortType y)]
  end.
(** src/types.rs:108 *)
Definition enc_FloatType (x : FloatType) : value :=
  match x with
  | mkFloatType x_unrestricted =>
      VData "FloatType" "" [("unrestricted", (enc_Option (vu "term::Unrestricted")) x_unrestricted);
        ("float", vt "term::Float")]
  end.
(** src/types.rs:114 *)
Definition enc_DoubleType (x : DoubleType) : value :=
  match x with
  | mkDoubleType x_unrestricted =>
      VData "DoubleType" "" [("unrestricted", (enc_Option (vu "term::Unrestricted")) x_unrestricted);
        ("double", vt "term::Double")]
  end.
(** src/types.rs:105 *)
Definition enc_FloatingPointType (x : FloatingPointType) : value :=
  match x with
  | FloatingPointType_Float y => VData "FloatingPointType" "Float" [("0", enc_FloatType y)]
  | FloatingPointType_Double y => VData "FloatingPointType" "Double" [("0", enc_DoubleType y)]
  end.
(** src/common.rs:80 *)
Definition enc_Identifier (x : Identifier) : value := VData "Identifier" "" [("0", VStr x)].
(** src/attribute.rs:34 *)
Definition enc_ExtendedAttributeIdentList (x : ExtendedAttributeIdentList) : value :=
  match x with
  | mkExtendedAttributeIdentList x_identifier x_list =>
      VData "ExtendedAttributeIdentList" "" [("identifier", enc_Identifier x_identifier);
        ("assign", vt "term::Assign");
        ("list", (enc_Parenthesized (enc_Punctuated (vt "term::Comma") enc_Identifier)) x_list)]
  end.
(** src/literal.rs:42 *)
Definition enc_StringLit (x : StringLit) : value := VData "StringLit" "" [("0", VStr x)].
(** src/attribute.rs:62 *)
Definition enc_IdentifierOrString (x : IdentifierOrString) : value :=
  match x with
  | IdentifierOrString_Identifier y => VData "IdentifierOrString" "Identifier" [("0", enc_Identifier y)]
  | IdentifierOrString_String y => VData "IdentifierOrString" "String" [("0", enc_StringLit y)]
  end.
(** src/attribute.rs:41 *)
Definition enc_ExtendedAttributeIdent (x : ExtendedAttributeIdent) : value :=
  match x with
  | mkExtendedAttributeIdent x_lhs_identifier x_rhs =>
      VData "ExtendedAttributeIdent" "" [("lhs_identifier", enc_Identifier x_lhs_identifier);
        ("assign", vt "term::Assign");
        ("rhs", enc_IdentifierOrString x_rhs)]
  end.
(** src/attribute.rs:48 *)
Definition enc_ExtendedAttributeWildCard (x : ExtendedAttributeWildCard) : value :=
  match x with
  | mkExtendedAttributeWildCard x_lhs_identifier =>
      VData "ExtendedAttributeWildCard" "" [("lhs_identifier", enc_Identifier x_lhs_identifier);
        ("assign", vt "term::Assign");
        ("rhs", vt "term::Asterisk")]
  end.
(** src/attribute.rs:55 *)
Definition enc_ExtendedAttributeNoArgs (x : Identifier) : value := VData "ExtendedAttributeNoArgs" "" [("0", enc_Identifier x)].
(** src/literal.rs:84 *)
Definition enc_BooleanLit (x : bool) : value := VData "BooleanLit" "" [("0", VBool x)].
(** src/literal.rs:96 *)
Definition enc_FloatValueLit (x : text) : value := VData "FloatValueLit" "" [("0", VStr x)].
(** src/literal.rs:93 *)
Definition enc_FloatLit (x : FloatLit) : value :=
  match x with
  | FloatLit_Value y => VData "FloatLit" "Value" [("0", enc_FloatValueLit y)]
  | FloatLit_NegInfinity => VData "FloatLit" "NegInfinity" [("0", vt "term::NegInfinity")]
  | FloatLit_Infinity => VData "FloatLit" "Infinity" [("0", vt "term::Infinity")]
  | FloatLit_NaN => VData "FloatLit" "NaN" [("0", vt "term::NaN")]
  end.
(** src/literal.rs:7 *)
Definition enc_DecLit (x : text) : value := VData "DecLit" "" [("0", VStr x)].
(** src/literal.rs:17 *)
Definition enc_HexLit (x : text) : value := VData "HexLit" "" [("0", VStr x)].
(** src/literal.rs:28 *)
Definition enc_OctLit (x : text) : value := VData "OctLit" "" [("0", VStr x)].
(** src/literal.rs:4 *)
Definition enc_IntegerLit (x : IntegerLit) : value :=
  match x with
  | IntegerLit_Dec y => VData "IntegerLit" "Dec" [("0", enc_DecLit y)]
  | IntegerLit_Hex y => VData "IntegerLit" "Hex" [("0", enc_HexLit y)]
  | IntegerLit_Oct y => VData "IntegerLit" "Oct" [("0", enc_OctLit y)]
  end.
(** src/literal.rs:53 *)
Definition enc_DefaultValue (x : DefaultValue) : value :=
  match x with
  | DefaultValue_Boolean y => VData "DefaultValue" "Boolean" [("0", enc_BooleanLit y)]
  | DefaultValue_EmptyArray => VData "DefaultValue" "EmptyArray" [("0", enc_EmptyArrayLit)]
  | DefaultValue_EmptyDictionary => VData "DefaultValue" "EmptyDictionary" [("0", enc_EmptyDictionaryLit)]
  | DefaultValue_Float y => VData "DefaultValue" "Float" [("0", enc_FloatLit y)]
  | DefaultValue_Integer y => VData "DefaultValue" "Integer" [("0", enc_IntegerLit y)]
  | DefaultValue_Null => VData "DefaultValue" "Null" [("0", vt "term::Null")]
  | DefaultValue_String y => VData "DefaultValue" "String" [("0", enc_StringLit y)]
  end.
(** src/common.rs:96 *)
Definition enc_Default (x : Default) : value := VData "Default" "" [("assign", vt "term::Assign"); ("value", enc_DefaultValue x)].
(* src/types.rs:11 *) Fixpoint enc_Type (x : Type_) : value :=
  match x with
  | Type_Single y => VData "Type" "Single" [("0", enc_SingleType y)]
  | Type_Union y => VData "Type" "Union" [("0", (enc_MayBeNull (enc_Parenthesized (enc_Punctuated (vt "term::Or") enc_UnionMemberType))) y)]
  end
(* src/types.rs:13 *) with enc_SingleType (x : SingleType) : value :=
  match x with
  | SingleType_Any => VData "SingleType" "Any" [("0", vt "term::Any")]
  | SingleType_NonAny y => VData "SingleType" "NonAny" [("0", enc_NonAnyType y)]
  end
(* src/types.rs:21 *) with enc_NonAnyType (x : NonAnyType) : value :=
  match x with
  | NonAnyType_Promise y => VData "NonAnyType" "Promise" [("0", enc_PromiseType y)]
  | NonAnyType_Integer y => VData "NonAnyType" "Integer" [("0", (enc_MayBeNull enc_IntegerType) y)]
  | NonAnyType_FloatingPoint y => VData "NonAnyType" "FloatingPoint" [("0", (enc_MayBeNull enc_FloatingPointType) y)]
  | NonAnyType_Boolean y => VData "NonAnyType" "Boolean" [("0", (enc_MayBeNull (vu "term::Boolean")) y)]
  | NonAnyType_Byte y => VData "NonAnyType" "Byte" [("0", (enc_MayBeNull (vu "term::Byte")) y)]
  | NonAnyType_Octet y => VData "NonAnyType" "Octet" [("0", (enc_MayBeNull (vu "term::Octet")) y)]
  | NonAnyType_ByteString y => VData "NonAnyType" "ByteString" [("0", (enc_MayBeNull (vu "term::ByteString")) y)]
  | NonAnyType_DOMString y => VData "NonAnyType" "DOMString" [("0", (enc_MayBeNull (vu "term::DOMString")) y)]
  | NonAnyType_USVString y => VData "NonAnyType" "USVString" [("0", (enc_MayBeNull (vu "term::USVString")) y)]
  | NonAnyType_Sequence y => VData "NonAnyType" "Sequence" [("0", (enc_MayBeNull enc_SequenceType) y)]
  | NonAnyType_Object y => VData "NonAnyType" "Object" [("0", (enc_MayBeNull (vu "term::Object")) y)]
  | NonAnyType_Symbol y => VData "NonAnyType" "Symbol" [("0", (enc_MayBeNull (vu "term::Symbol")) y)]
  | NonAnyType_Error y => VData "NonAnyType" "Error" [("0", (enc_MayBeNull (vu "term::Error")) y)]
  | NonAnyType_ArrayBuffer y => VData "NonAnyType" "ArrayBuffer" [("0", (enc_MayBeNull (vu "term::ArrayBuffer")) y)]
  | NonAnyType_DataView y => VData "NonAnyType" "DataView" [("0", (enc_MayBeNull (vu "term::DataView")) y)]
  | NonAnyType_Int8Array y => VData "NonAnyType" "Int8Array" [("0", (enc_MayBeNull (vu "term::Int8Array")) y)]
  | NonAnyType_Int16Array y => VData "NonAnyType" "Int16Array" [("0", (enc_MayBeNull (vu "term::Int16Array")) y)]
  | NonAnyType_Int32Array y => VData "NonAnyType" "Int32Array" [("0", (enc_MayBeNull (vu "term::Int32Array")) y)]
  | NonAnyType_Uint8Array y => VData "NonAnyType" "Uint8Array" [("0", (enc_MayBeNull (vu "term::Uint8Array")) y)]
  | NonAnyType_Uint16Array y => VData "NonAnyType" "Uint16Array" [("0", (enc_MayBeNull (vu "term::Uint16Array")) y)]
  | NonAnyType_Uint32Array y => VData "NonAnyType" "Uint32Array" [("0", (enc_MayBeNull (vu "term::Uint32Array")) y)]
  | NonAnyType_Uint8ClampedArray y => VData "NonAnyType" "Uint8ClampedArray" [("0", (enc_MayBeNull (vu "term::Uint8ClampedArray")) y)]
  | NonAnyType_Float32Array y => VData "NonAnyType" "Float32Array" [("0", (enc_MayBeNull (vu "term::Float32Array")) y)]
  | NonAnyType_Float64Array y => VData "NonAnyType" "Float64Array" [("0", (enc_MayBeNull (vu "term::Float64Array")) y)]
  | NonAnyType_ArrayBufferView y => VData "NonAnyType" "ArrayBufferView" [("0", (enc_MayBeNull (vu "term::ArrayBufferView")) y)]
  | NonAnyType_BufferSource y => VData "NonAnyType" "BufferSource" [("0", (enc_MayBeNull (vu "term::BufferSource")) y)]
  | NonAnyType_FrozenArrayType y => VData "NonAnyType" "FrozenArrayType" [("0", (enc_MayBeNull enc_FrozenArrayType) y)]
  | NonAnyType_RecordType y => VData "NonAnyType" "RecordType" [("0", (enc_MayBeNull enc_RecordType) y)]
  | NonAnyType_Identifier y => VData "NonAnyType" "Identifier" [("0", (enc_MayBeNull enc_Identifier) y)]
  end
(* src/types.rs:54 *) with enc_SequenceType (x : SequenceType) : value :=
  match x with
  | mkSequenceType x_generics =>
      VData "SequenceType" "" [("sequence", vt "term::Sequence");
        ("generics", (enc_Generics (enc_Box enc_Type)) x_generics)]
  end
(* src/types.rs:60 *) with enc_FrozenArrayType (x : FrozenArrayType) : value :=
  match x with
  | mkFrozenArrayType x_generics =>
      VData "FrozenArrayType" "" [("frozen_array", vt "term::FrozenArray");
        ("generics", (enc_Generics (enc_Box enc_Type)) x_generics)]
  end
(* src/types.rs:75 *) with enc_PromiseType (x : PromiseType) : value :=
  match x with
  | mkPromiseType x_generics =>
      VData "PromiseType" "" [("promise", vt "term::Promise");
        ("generics", (enc_Generics (enc_Box enc_ReturnType)) x_generics)]
  end
(* src/types.rs:121 *) with enc_RecordType (x : RecordType) : value :=
  match x with
  | mkRecordType key value =>
      VData "RecordType" "" [("record", vt "term::Record");
        ("generics", (enc_Generics (enc_triple (enc_Box enc_RecordKeyType) (vt "term::Comma") (enc_Box enc_Type))) (key, value))]
  end
(* src/types.rs:127 *) with enc_RecordKeyType (x : RecordKeyType) : value :=
  match x with
  | RecordKeyType_Byte => VData "RecordKeyType" "Byte" [("0", vt "term::ByteString")]
  | RecordKeyType_DOM => VData "RecordKeyType" "DOM" [("0", vt "term::DOMString")]
  | RecordKeyType_USV => VData "RecordKeyType" "USV" [("0", vt "term::USVString")]
  | RecordKeyType_NonAny y => VData "RecordKeyType" "NonAny" [("0", enc_NonAnyType y)]
  end
(* src/types.rs:135 *) with enc_UnionMemberType (x : UnionMemberType) : value :=
  match x with
  | UnionMemberType_Single y => VData "UnionMemberType" "Single" [("0", enc_AttributedNonAnyType y)]
  | UnionMemberType_Union y => VData "UnionMemberType" "Union" [("0", (enc_MayBeNull (enc_Parenthesized (enc_Punctuated (vt "term::Or") enc_UnionMemberType))) y)]
  end
(* src/types.rs:151 *) with enc_ReturnType (x : ReturnType) : value :=
  match x with
  | ReturnType_Undefined => VData "ReturnType" "Undefined" [("0", vt "term::Undefined")]
  | ReturnType_Type y => VData "ReturnType" "Type" [("0", enc_Type y)]
  end
(* src/types.rs:157 *) with enc_AttributedType (x : AttributedType) : value :=
  match x with
  | mkAttributedType x_attributes x_type_ =>
      VData "AttributedType" "" [("attributes", (enc_Option (enc_Bracketed (enc_Punctuated (vt "term::Comma") enc_ExtendedAttribute))) x_attributes);
        ("type_", enc_Type x_type_)]
  end
(* src/types.rs:163 *) with enc_AttributedNonAnyType (x : AttributedNonAnyType) : value :=
  match x with
  | mkAttributedNonAnyType x_attributes x_type_ =>
      VData "AttributedNonAnyType" "" [("attributes", (enc_Option (enc_Bracketed (enc_Punctuated (vt "term::Comma") enc_ExtendedAttribute))) x_attributes);
        ("type_", enc_NonAnyType x_type_)]
  end
(* src/attribute.rs:13 *) with enc_ExtendedAttribute (x : ExtendedAttribute) : value :=
  match x with
  | ExtendedAttribute_ArgList y => VData "ExtendedAttribute" "ArgList" [("0", enc_ExtendedAttributeArgList y)]
  | ExtendedAttribute_NamedArgList y => VData "ExtendedAttribute" "NamedArgList" [("0", enc_ExtendedAttributeNamedArgList y)]
  | ExtendedAttribute_IdentList y => VData "ExtendedAttribute" "IdentList" [("0", enc_ExtendedAttributeIdentList y)]
  | ExtendedAttribute_Ident y => VData "ExtendedAttribute" "Ident" [("0", enc_ExtendedAttributeIdent y)]
  | ExtendedAttribute_Wildcard y => VData "ExtendedAttribute" "Wildcard" [("0", enc_ExtendedAttributeWildCard y)]
  | ExtendedAttribute_NoArgs y => VData "ExtendedAttribute" "NoArgs" [("0", enc_ExtendedAttributeNoArgs y)]
  end
(* src/attribute.rs:17 *) with enc_ExtendedAttributeArgList (x : ExtendedAttributeArgList) : value :=
  match x with
  | mkExtendedAttributeArgList x_identifier x_args =>
      VData "ExtendedAttributeArgList" "" [("identifier", enc_Identifier x_identifier);
        ("args", (enc_Parenthesized (enc_Punctuated (vt "term::Comma") enc_Argument)) x_args)]
  end
(* src/attribute.rs:24 *) with enc_ExtendedAttributeNamedArgList (x : ExtendedAttributeNamedArgList) : value :=
  match x with
  | mkExtendedAttributeNamedArgList x_lhs_identifier x_rhs_identifier x_args =>
      VData "ExtendedAttributeNamedArgList" "" [("lhs_identifier", enc_Identifier x_lhs_identifier);
        ("assign", vt "term::Assign");
        ("rhs_identifier", enc_Identifier x_rhs_identifier);
        ("args", (enc_Parenthesized (enc_Punctuated (vt "term::Comma") enc_Argument)) x_args)]
  end
(* src/argument.rs:10 *) with enc_Argument (x : Argument) : value :=
  match x with
  | Argument_Single y => VData "Argument" "Single" [("0", enc_SingleArgument y)]
  | Argument_Variadic y => VData "Argument" "Variadic" [("0", enc_VariadicArgument y)]
  end
(* src/argument.rs:14 *) with enc_SingleArgument (x : SingleArgument) : value :=
  match x with
  | mkSingleArgument x_attributes x_optional x_type_ x_identifier x_default =>
      VData "SingleArgument" "" [("attributes", (enc_Option (enc_Bracketed (enc_Punctuated (vt "term::Comma") enc_ExtendedAttribute))) x_attributes);
        ("optional", (enc_Option (vu "term::Optional")) x_optional);
        ("type_", enc_AttributedType x_type_);
        ("identifier", enc_Identifier x_identifier);
        ("default", (enc_Option enc_Default) x_default)]
  end
(* src/argument.rs:25 *) with enc_VariadicArgument (x : VariadicArgument) : value :=
  match x with
  | mkVariadicArgument x_attributes x_type_ x_identifier =>
      VData "VariadicArgument" "" [("attributes", (enc_Option (enc_Bracketed (enc_Punctuated (vt "term::Comma") enc_ExtendedAttribute))) x_attributes);
        ("type_", enc_Type x_type_);
        ("ellipsis", vt "term::Ellipsis");
        ("identifier", enc_Identifier x_identifier)]
  end.
(** src/dictionary.rs:10 *)
Definition enc_DictionaryMember (x : DictionaryMember) : value :=
  match x with
  | mkDictionaryMember x_attributes x_required x_type_ x_identifier x_default =>
      VData "DictionaryMember" "" [("attributes", (enc_Option (enc_Bracketed (enc_Punctuated (vt "term::Comma") enc_ExtendedAttribute))) x_attributes);
        ("required", (enc_Option (vu "term::Required")) x_required);
        ("type_", enc_Type x_type_);
        ("identifier", enc_Identifier x_identifier);
        ("default", (enc_Option enc_Default) x_default);
        ("semi_colon", vt "term::SemiColon")]
  end.
(** src/interface.rs:13 *)
Definition enc_Inheritance (x : Inheritance) : value :=
  match x with
  | mkInheritance x_identifier =>
      VData "Inheritance" "" [("colon", vt "term::Colon");
        ("identifier", enc_Identifier x_identifier)]
  end.
(** src/types.rs:141 *)
Definition enc_ConstType (x : ConstType) : value :=
  match x with
  | ConstType_Integer y => VData "ConstType" "Integer" [("0", (enc_MayBeNull enc_IntegerType) y)]
  | ConstType_FloatingPoint y => VData "ConstType" "FloatingPoint" [("0", (enc_MayBeNull enc_FloatingPointType) y)]
  | ConstType_Boolean y => VData "ConstType" "Boolean" [("0", (enc_MayBeNull (vu "term::Boolean")) y)]
  | ConstType_Byte y => VData "ConstType" "Byte" [("0", (enc_MayBeNull (vu "term::Byte")) y)]
  | ConstType_Octet y => VData "ConstType" "Octet" [("0", (enc_MayBeNull (vu "term::Octet")) y)]
  | ConstType_Identifier y => VData "ConstType" "Identifier" [("0", (enc_MayBeNull enc_Identifier) y)]
  end.
(** src/literal.rs:75 *)
Definition enc_ConstValue (x : ConstValue) : value :=
  match x with
  | ConstValue_Boolean y => VData "ConstValue" "Boolean" [("0", enc_BooleanLit y)]
  | ConstValue_Float y => VData "ConstValue" "Float" [("0", enc_FloatLit y)]
  | ConstValue_Integer y => VData "ConstValue" "Integer" [("0", enc_IntegerLit y)]
  | ConstValue_Null => VData "ConstValue" "Null" [("0", vt "term::Null")]
  end.
(** src/interface.rs:21 *)
Definition enc_ConstMember (x : ConstMember) : value :=
  match x with
  | mkConstMember x_attributes x_const_type x_identifier x_const_value =>
      VData "ConstMember" "" [("attributes", (enc_Option (enc_Bracketed (enc_Punctuated (vt "term::Comma") enc_ExtendedAttribute))) x_attributes);
        ("const_", vt "term::Const");
        ("const_type", enc_ConstType x_const_type);
        ("identifier", enc_Identifier x_identifier);
        ("assign", vt "term::Assign");
        ("const_value", enc_ConstValue x_const_value);
        ("semi_colon", vt "term::SemiColon")]
  end.
(** src/interface.rs:132 *)
Definition enc_StringifierOrInheritOrStatic (x : StringifierOrInheritOrStatic) : value :=
  match x with
  | SIS_Stringifier => VData "StringifierOrInheritOrStatic" "Stringifier" [("0", vt "term::Stringifier")]
  | SIS_Inherit => VData "StringifierOrInheritOrStatic" "Inherit" [("0", vt "term::Inherit")]
  | SIS_Static => VData "StringifierOrInheritOrStatic" "Static" [("0", vt "term::Static")]
  end.
(** src/interface.rs:31 *)
Definition enc_AttributeInterfaceMember (x : AttributeInterfaceMember) : value :=
  match x with
  | mkAttributeInterfaceMember x_attributes x_modifier x_readonly x_type_ x_identifier =>
      VData "AttributeInterfaceMember" "" [("attributes", (enc_Option (enc_Bracketed (enc_Punctuated (vt "term::Comma") enc_ExtendedAttribute))) x_attributes);
        ("modifier", (enc_Option enc_StringifierOrInheritOrStatic) x_modifier);
        ("readonly", (enc_Option (vu "term::ReadOnly")) x_readonly);
        ("attribute", vt "term::Attribute");
        ("type_", enc_AttributedType x_type_);
        ("identifier", enc_Identifier x_identifier);
        ("semi_colon", vt "term::SemiColon")]
  end.
(** src/interface.rs:43 *)
Definition enc_ConstructorInterfaceMember (x : ConstructorInterfaceMember) : value :=
  match x with
  | mkConstructorInterfaceMember x_attributes x_args =>
      VData "ConstructorInterfaceMember" "" [("attributes", (enc_Option (enc_Bracketed (enc_Punctuated (vt "term::Comma") enc_ExtendedAttribute))) x_attributes);
        ("constructor", vt "term::Constructor");
        ("args", (enc_Parenthesized (enc_Punctuated (vt "term::Comma") enc_Argument)) x_args);
        ("semi_colon", vt "term::SemiColon")]
  end.
(** src/interface.rs:140 *)
Definition enc_StringifierOrStatic (x : StringifierOrStatic) : value :=
  match x with
  | SS_Stringifier => VData "StringifierOrStatic" "Stringifier" [("0", vt "term::Stringifier")]
  | SS_Static => VData "StringifierOrStatic" "Static" [("0", vt "term::Static")]
  end.
(** src/interface.rs:123 *)
Definition enc_Special (x : Special) : value :=
  match x with
  | Special_Getter => VData "Special" "Getter" [("0", vt "term::Getter")]
  | Special_Setter => VData "Special" "Setter" [("0", vt "term::Setter")]
  | Special_Deleter => VData "Special" "Deleter" [("0", vt "term::Deleter")]
  | Special_LegacyCaller => VData "Special" "LegacyCaller" [("0", vt "term::LegacyCaller")]
  end.
(** src/interface.rs:52 *)
Definition enc_OperationInterfaceMember (x : OperationInterfaceMember) : value :=
  match x with
  | mkOperationInterfaceMember x_attributes x_modifier x_special x_return_type x_identifier x_args =>
      VData "OperationInterfaceMember" "" [("attributes", (enc_Option (enc_Bracketed (enc_Punctuated (vt "term::Comma") enc_ExtendedAttribute))) x_attributes);
        ("modifier", (enc_Option enc_StringifierOrStatic) x_modifier);
        ("special", (enc_Option enc_Special) x_special);
        ("return_type", enc_ReturnType x_return_type);
        ("identifier", (enc_Option enc_Identifier) x_identifier);
        ("args", (enc_Parenthesized (enc_Punctuated (vt "term::Comma") enc_Argument)) x_args);
        ("semi_colon", vt "term::SemiColon")]
  end.
(** src/interface.rs:64 *)
Definition enc_SingleTypedIterable (x : SingleTypedIterable) : value :=
  match x with
  | mkSingleTypedIterable x_attributes x_generics =>
      VData "SingleTypedIterable" "" [("attributes", (enc_Option (enc_Bracketed (enc_Punctuated (vt "term::Comma") enc_ExtendedAttribute))) x_attributes);
        ("iterable", vt "term::Iterable");
        ("generics", (enc_Generics enc_AttributedType) x_generics);
        ("semi_colon", vt "term::SemiColon")]
  end.
(** src/interface.rs:71 *)
Definition enc_DoubleTypedIterable (x : DoubleTypedIterable) : value :=
  match x with
  | mkDoubleTypedIterable x_attributes x_generics =>
      VData "DoubleTypedIterable" "" [("attributes", (enc_Option (enc_Bracketed (enc_Punctuated (vt "term::Comma") enc_ExtendedAttribute))) x_attributes);
        ("iterable", vt "term::Iterable");
        ("generics", (enc_Generics (enc_triple enc_AttributedType (vt "term::Comma") enc_AttributedType)) x_generics);
        ("semi_colon", vt "term::SemiColon")]
  end.
(** src/interface.rs:62 *)
Definition enc_IterableInterfaceMember (x : IterableInterfaceMember) : value :=
  match x with
  | IterableInterfaceMember_Single y => VData "IterableInterfaceMember" "Single" [("0", enc_SingleTypedIterable y)]
  | IterableInterfaceMember_Double y => VData "IterableInterfaceMember" "Double" [("0", enc_DoubleTypedIterable y)]
  end.
(** src/interface.rs:81 *)
Definition enc_SingleTypedAsyncIterable (x : SingleTypedAsyncIterable) : value :=
  match x with
  | mkSingleTypedAsyncIterable x_attributes x_generics x_args =>
      VData "SingleTypedAsyncIterable" "" [("attributes", (enc_Option (enc_Bracketed (enc_Punctuated (vt "term::Comma") enc_ExtendedAttribute))) x_attributes);
        ("async_iterable", VTup [vt "term::Async"; vt "term::Iterable"]);
        ("generics", (enc_Generics enc_AttributedType) x_generics);
        ("args", (enc_Option (enc_Parenthesized (enc_Punctuated (vt "term::Comma") enc_Argument))) x_args);
        ("semi_colon", vt "term::SemiColon")]
  end.
(** src/interface.rs:89 *)
Definition enc_DoubleTypedAsyncIterable (x : DoubleTypedAsyncIterable) : value :=
  match x with
  | mkDoubleTypedAsyncIterable x_attributes x_generics x_args =>
      VData "DoubleTypedAsyncIterable" "" [("attributes", (enc_Option (enc_Bracketed (enc_Punctuated (vt "term::Comma") enc_ExtendedAttribute))) x_attributes);
        ("async_iterable", VTup [vt "term::Async"; vt "term::Iterable"]);
        ("generics", (enc_Generics (enc_triple enc_AttributedType (vt "term::Comma") enc_AttributedType)) x_generics);
        ("args", (enc_Option (enc_Parenthesized (enc_Punctuated (vt "term::Comma") enc_Argument))) x_args);
        ("semi_colon", vt "term::SemiColon")]
  end.
(** src/interface.rs:79 *)
Definition enc_AsyncIterableInterfaceMember (x : AsyncIterableInterfaceMember) : value :=
  match x with
  | AsyncIterableInterfaceMember_Single y => VData "AsyncIterableInterfaceMember" "Single" [("0", enc_SingleTypedAsyncIterable y)]
  | AsyncIterableInterfaceMember_Double y => VData "AsyncIterableInterfaceMember" "Double" [("0", enc_DoubleTypedAsyncIterable y)]
  end.
(** src/interface.rs:98 *)
Definition enc_MaplikeInterfaceMember (x : MaplikeInterfaceMember) : value :=
  match x with
  | mkMaplikeInterfaceMember x_attributes x_readonly x_generics =>
      VData "MaplikeInterfaceMember" "" [("attributes", (enc_Option (enc_Bracketed (enc_Punctuated (vt "term::Comma") enc_ExtendedAttribute))) x_attributes);
        ("readonly", (enc_Option (vu "term::ReadOnly")) x_readonly);
        ("maplike", vt "term::Maplike");
        ("generics", (enc_Generics (enc_triple enc_AttributedType (vt "term::Comma") enc_AttributedType)) x_generics);
        ("semi_colon", vt "term::SemiColon")]
  end.
(** src/interface.rs:105 *)
Definition enc_SetlikeInterfaceMember (x : SetlikeInterfaceMember) : value :=
  match x with
  | mkSetlikeInterfaceMember x_attributes x_readonly x_generics =>
      VData "SetlikeInterfaceMember" "" [("attributes", (enc_Option (enc_Bracketed (enc_Punctuated (vt "term::Comma") enc_ExtendedAttribute))) x_attributes);
        ("readonly", (enc_Option (vu "term::ReadOnly")) x_readonly);
        ("setlike", vt "term::Setlike");
        ("generics", (enc_Generics enc_AttributedType) x_generics);
        ("semi_colon", vt "term::SemiColon")]
  end.
(** src/interface.rs:114 *)
Definition enc_StringifierMember (x : StringifierMember) : value :=
  match x with
  | mkStringifierMember x_attributes =>
      VData "StringifierMember" "" [("attributes", (enc_Option (enc_Bracketed (enc_Punctuated (vt "term::Comma") enc_ExtendedAttribute))) x_attributes);
        ("stringifier", vt "term::Stringifier");
        ("semi_colon", vt "term::SemiColon")]
  end.
(** src/interface.rs:19 *)
Definition enc_InterfaceMember (x : InterfaceMember) : value :=
  match x with
  | InterfaceMember_Const y => VData "InterfaceMember" "Const" [("0", enc_ConstMember y)]
  | InterfaceMember_Attribute y => VData "InterfaceMember" "Attribute" [("0", enc_AttributeInterfaceMember y)]
  | InterfaceMember_Constructor y => VData "InterfaceMember" "Constructor" [("0", enc_ConstructorInterfaceMember y)]
  | InterfaceMember_Operation y => VData "InterfaceMember" "Operation" [("0", enc_OperationInterfaceMember y)]
  | InterfaceMember_Iterable y => VData "InterfaceMember" "Iterable" [("0", enc_IterableInterfaceMember y)]
  | InterfaceMember_AsyncIterable y => VData "InterfaceMember" "AsyncIterable" [("0", enc_AsyncIterableInterfaceMember y)]
  | InterfaceMember_Maplike y => VData "InterfaceMember" "Maplike" [("0", enc_MaplikeInterfaceMember y)]
  | InterfaceMember_Setlike y => VData "InterfaceMember" "Setlike" [("0", enc_SetlikeInterfaceMember y)]
  | InterfaceMember_Stringifier y => VData "InterfaceMember" "Stringifier" [("0", enc_StringifierMember y)]
  end.
(** src/mixin.rs:17 *)
Definition enc_OperationMixinMember (x : OperationMixinMember) : value :=
  match x with
  | mkOperationMixinMember x_attributes x_stringifier x_return_type x_identifier x_args =>
      VData "OperationMixinMember" "" [("attributes", (enc_Option (enc_Bracketed (enc_Punctuated (vt "term::Comma") enc_ExtendedAttribute))) x_attributes);
        ("stringifier", (enc_Option (vu "term::Stringifier")) x_stringifier);
        ("return_type", enc_ReturnType x_return_type);
        ("identifier", (enc_Option enc_Identifier) x_identifier);
        ("args", (enc_Parenthesized (enc_Punctuated (vt "term::Comma") enc_Argument)) x_args);
        ("semi_colon", vt "term::SemiColon")]
  end.
(** src/mixin.rs:26 *)
Definition enc_AttributeMixinMember (x : AttributeMixinMember) : value :=
  match x with
  | mkAttributeMixinMember x_attributes x_stringifier x_readonly x_type_ x_identifier =>
      VData "AttributeMixinMember" "" [("attributes", (enc_Option (enc_Bracketed (enc_Punctuated (vt "term::Comma") enc_ExtendedAttribute))) x_attributes);
        ("stringifier", (enc_Option (vu "term::Stringifier")) x_stringifier);
        ("readonly", (enc_Option (vu "term::ReadOnly")) x_readonly);
        ("attribute", vt "term::Attribute");
        ("type_", enc_AttributedType x_type_);
        ("identifier", enc_Identifier x_identifier);
        ("semi_colon", vt "term::SemiColon")]
  end.
(** src/mixin.rs:12 *)
Definition enc_MixinMember (x : MixinMember) : value :=
  match x with
  | MixinMember_Const y => VData "MixinMember" "Const" [("0", enc_ConstMember y)]
  | MixinMember_Operation y => VData "MixinMember" "Operation" [("0", enc_OperationMixinMember y)]
  | MixinMember_Attribute y => VData "MixinMember" "Attribute" [("0", enc_AttributeMixinMember y)]
  | MixinMember_Stringifier y => VData "MixinMember" "Stringifier" [("0", enc_StringifierMember y)]
  end.
(** src/namespace.rs:14 *)
Definition enc_ConstNamespaceMember (x : ConstNamespaceMember) : value :=
  match x with
  | mkConstNamespaceMember x_attributes x_const_type x_identifier x_const_value =>
      VData "ConstNamespaceMember" "" [("attributes", (enc_Option (enc_Bracketed (enc_Punctuated (vt "term::Comma") enc_ExtendedAttribute))) x_attributes);
        ("const_", vt "term::Const");
        ("const_type", enc_ConstType x_const_type);
        ("identifier", enc_Identifier x_identifier);
        ("assign", vt "term::Assign");
        ("const_value", enc_ConstValue x_const_value);
        ("semi_colon", vt "term::SemiColon")]
  end.
(** src/namespace.rs:26 *)
Definition enc_OperationNamespaceMember (x : OperationNamespaceMember) : value :=
  match x with
  | mkOperationNamespaceMember x_attributes x_return_type x_identifier x_args =>
      VData "OperationNamespaceMember" "" [("attributes", (enc_Option (enc_Bracketed (enc_Punctuated (vt "term::Comma") enc_ExtendedAttribute))) x_attributes);
        ("return_type", enc_ReturnType x_return_type);
        ("identifier", (enc_Option enc_Identifier) x_identifier);
        ("args", (enc_Parenthesized (enc_Punctuated (vt "term::Comma") enc_Argument)) x_args);
        ("semi_colon", vt "term::SemiColon")]
  end.
(** src/namespace.rs:34 *)
Definition enc_AttributeNamespaceMember (x : AttributeNamespaceMember) : value :=
  match x with
  | mkAttributeNamespaceMember x_attributes x_type_ x_identifier =>
      VData "AttributeNamespaceMember" "" [("attributes", (enc_Option (enc_Bracketed (enc_Punctuated (vt "term::Comma") enc_ExtendedAttribute))) x_attributes);
        ("readonly", vt "term::ReadOnly");
        ("attribute", vt "term::Attribute");
        ("type_", enc_AttributedType x_type_);
        ("identifier", enc_Identifier x_identifier);
        ("semi_colon", vt "term::SemiColon")]
  end.
(** src/namespace.rs:12 *)
Definition enc_NamespaceMember (x : NamespaceMember) : value :=
  match x with
  | NamespaceMember_Const y => VData "NamespaceMember" "Const" [("0", enc_ConstNamespaceMember y)]
  | NamespaceMember_Operation y => VData "NamespaceMember" "Operation" [("0", enc_OperationNamespaceMember y)]
  | NamespaceMember_Attribute y => VData "NamespaceMember" "Attribute" [("0", enc_AttributeNamespaceMember y)]
  end.
(** src/lib.rs:118 *)
Definition enc_CallbackDefinition (x : CallbackDefinition) : value :=
  match x with
  | mkCallbackDefinition x_attributes x_identifier x_return_type x_arguments =>
      VData "CallbackDefinition" "" [("attributes", (enc_Option (enc_Bracketed (enc_Punctuated (vt "term::Comma") enc_ExtendedAttribute))) x_attributes);
        ("callback", vt "term::Callback");
        ("identifier", enc_Identifier x_identifier);
        ("assign", vt "term::Assign");
        ("return_type", enc_ReturnType x_return_type);
        ("arguments", (enc_Parenthesized (enc_Punctuated (vt "term::Comma") enc_Argument)) x_arguments);
        ("semi_colon", vt "term::SemiColon")]
  end.
(** src/lib.rs:128 *)
Definition enc_CallbackInterfaceDefinition (x : CallbackInterfaceDefinition) : value :=
  match x with
  | mkCallbackInterfaceDefinition x_attributes x_identifier x_inheritance x_members =>
      VData "CallbackInterfaceDefinition" "" [("attributes", (enc_Option (enc_Bracketed (enc_Punctuated (vt "term::Comma") enc_ExtendedAttribute))) x_attributes);
        ("callback", vt "term::Callback");
        ("interface", vt "term::Interface");
        ("identifier", enc_Identifier x_identifier);
        ("inheritance", (enc_Option enc_Inheritance) x_inheritance);
        ("members", (enc_Braced (enc_Vec enc_InterfaceMember)) x_members);
        ("semi_colon", vt "term::SemiColon")]
  end.
(** src/lib.rs:138 *)
Definition enc_InterfaceDefinition (x : InterfaceDefinition) : value :=
  match x with
  | mkInterfaceDefinition x_attributes x_identifier x_inheritance x_members =>
      VData "InterfaceDefinition" "" [("attributes", (enc_Option (enc_Bracketed (enc_Punctuated (vt "term::Comma") enc_ExtendedAttribute))) x_attributes);
        ("interface", vt "term::Interface");
        ("identifier", enc_Identifier x_identifier);
        ("inheritance", (enc_Option enc_Inheritance) x_inheritance);
        ("members", (enc_Braced (enc_Vec enc_InterfaceMember)) x_members);
        ("semi_colon", vt "term::SemiColon")]
  end.
(** src/lib.rs:147 *)
Definition enc_InterfaceMixinDefinition (x : InterfaceMixinDefinition) : value :=
  match x with
  | mkInterfaceMixinDefinition x_attributes x_identifier x_members =>
      VData "InterfaceMixinDefinition" "" [("attributes", (enc_Option (enc_Bracketed (enc_Punctuated (vt "term::Comma") enc_ExtendedAttribute))) x_attributes);
        ("interface", vt "term::Interface");
        ("mixin", vt "term::Mixin");
        ("identifier", enc_Identifier x_identifier);
        ("members", (enc_Braced (enc_Vec enc_MixinMember)) x_members);
        ("semi_colon", vt "term::SemiColon")]
  end.
(** src/lib.rs:156 *)
Definition enc_NamespaceDefinition (x : NamespaceDefinition) : value :=
  match x with
  | mkNamespaceDefinition x_attributes x_identifier x_members =>
      VData "NamespaceDefinition" "" [("attributes", (enc_Option (enc_Bracketed (enc_Punctuated (vt "term::Comma") enc_ExtendedAttribute))) x_attributes);
        ("namespace", vt "term::Namespace");
        ("identifier", enc_Identifier x_identifier);
        ("members", (enc_Braced (enc_Vec enc_NamespaceMember)) x_members);
        ("semi_colon", vt "term::SemiColon")]
  end.
(** src/lib.rs:164 *)
Definition enc_DictionaryDefinition (x : DictionaryDefinition) : value :=
  match x with
  | mkDictionaryDefinition x_attributes x_identifier x_inheritance x_members =>
      VData "DictionaryDefinition" "" [("attributes", (enc_Option (enc_Bracketed (enc_Punctuated (vt "term::Comma") enc_ExtendedAttribute))) x_attributes);
        ("dictionary", vt "term::Dictionary");
        ("identifier", enc_Identifier x_identifier);
        ("inheritance", (enc_Option enc_Inheritance) x_inheritance);
        ("members", (enc_Braced (enc_Vec enc_DictionaryMember)) x_members);
        ("semi_colon", vt "term::SemiColon")]
  end.
(** src/lib.rs:173 *)
Definition enc_PartialInterfaceDefinition (x : PartialInterfaceDefinition) : value :=
  match x with
  | mkPartialInterfaceDefinition x_attributes x_identifier x_members =>
      VData "PartialInterfaceDefinition" "" [("attributes", (enc_Option (enc_Bracketed (enc_Punctuated (vt "term::Comma") enc_ExtendedAttribute))) x_attributes);
        ("partial", vt "term::Partial");
        ("interface", vt "term::Interface");
        ("identifier", enc_Identifier x_identifier);
        ("members", (enc_Braced (enc_Vec enc_InterfaceMember)) x_members);
        ("semi_colon", vt "term::SemiColon")]
  end.
(** src/lib.rs:182 *)
Definition enc_PartialInterfaceMixinDefinition (x : PartialInterfaceMixinDefinition) : value :=
  match x with
  | mkPartialInterfaceMixinDefinition x_attributes x_identifier x_members =>
      VData "PartialInterfaceMixinDefinition" "" [("attributes", (enc_Option (enc_Bracketed (enc_Punctuated (vt "term::Comma") enc_ExtendedAttribute))) x_attributes);
        ("partial", vt "term::Partial");
        ("interface", vt "term::Interface");
        ("mixin", vt "term::Mixin");
        ("identifier", enc_Identifier x_identifier);
        ("members", (enc_Braced (enc_Vec enc_MixinMember)) x_members);
        ("semi_colon", vt "term::SemiColon")]
  end.
(** src/lib.rs:192 *)
Definition enc_PartialDictionaryDefinition (x : PartialDictionaryDefinition) : value :=
  match x with
  | mkPartialDictionaryDefinition x_attributes x_identifier x_members =>
      VData "PartialDictionaryDefinition" "" [("attributes", (enc_Option (enc_Bracketed (enc_Punctuated (vt "term::Comma") enc_ExtendedAttribute))) x_attributes);
        ("partial", vt "term::Partial");
        ("dictionary", vt "term::Dictionary");
        ("identifier", enc_Identifier x_identifier);
        ("members", (enc_Braced (enc_Vec enc_DictionaryMember)) x_members);
        ("semi_colon", vt "term::SemiColon")]
  end.
(** src/lib.rs:201 *)
Definition enc_PartialNamespaceDefinition (x : PartialNamespaceDefinition) : value :=
  match x with
  | mkPartialNamespaceDefinition x_attributes x_identifier x_members =>
      VData "PartialNamespaceDefinition" "" [("attributes", (enc_Option (enc_Bracketed (enc_Punctuated (vt "term::Comma") enc_ExtendedAttribute))) x_attributes);
        ("partial", vt "term::Partial");
        ("namespace", vt "term::Namespace");
        ("identifier", enc_Identifier x_identifier);
        ("members", (enc_Braced (enc_Vec enc_NamespaceMember)) x_members);
        ("semi_colon", vt "term::SemiColon")]
  end.
(** src/lib.rs:210 *)
Definition enc_EnumDefinition (x : EnumDefinition) : value :=
  match x with
  | mkEnumDefinition x_attributes x_identifier x_values =>
      VData "EnumDefinition" "" [("attributes", (enc_Option (enc_Bracketed (enc_Punctuated (vt "term::Comma") enc_ExtendedAttribute))) x_attributes);
        ("enum_", vt "term::Enum");
        ("identifier", enc_Identifier x_identifier);
        ("values", (enc_Braced (enc_PunctuatedNonEmpty (vt "term::Comma") enc_StringLit)) x_values);
        ("semi_colon", vt "term::SemiColon")]
  end.
(** src/lib.rs:218 *)
Definition enc_TypedefDefinition (x : TypedefDefinition) : value :=
  match x with
  | mkTypedefDefinition x_attributes x_type_ x_identifier =>
      VData "TypedefDefinition" "" [("attributes", (enc_Option (enc_Bracketed (enc_Punctuated (vt "term::Comma") enc_ExtendedAttribute))) x_attributes);
        ("typedef", vt "term::Typedef");
        ("type_", enc_AttributedType x_type_);
        ("identifier", enc_Identifier x_identifier);
        ("semi_colon", vt "term::SemiColon")]
  end.
(** src/lib.rs:226 *)
Definition enc_IncludesStatementDefinition (x : IncludesStatementDefinition) : value :=
  match x with
  | mkIncludesStatementDefinition x_attributes x_lhs_identifier x_rhs_identifier =>
      VData "IncludesStatementDefinition" "" [("attributes", (enc_Option (enc_Bracketed (enc_Punctuated (vt "term::Comma") enc_ExtendedAttribute))) x_attributes);
        ("lhs_identifier", enc_Identifier x_lhs_identifier);
        ("includes", vt "term::Includes");
        ("rhs_identifier", enc_Identifier x_rhs_identifier);
        ("semi_colon", vt "term::SemiColon")]
  end.
(** src/lib.rs:234 *)
Definition enc_ImplementsDefinition (x : ImplementsDefinition) : value :=
  match x with
  | mkImplementsDefinition x_attributes x_lhs_identifier x_rhs_identifier =>
      VData "ImplementsDefinition" "" [("attributes", (enc_Option (enc_Bracketed (enc_Punctuated (vt "term::Comma") enc_ExtendedAttribute))) x_attributes);
        ("lhs_identifier", enc_Identifier x_lhs_identifier);
        ("includes", vt "term::Implements");
        ("rhs_identifier", enc_Identifier x_rhs_identifier);
        ("semi_colon", vt "term::SemiColon")]
  end.
(** src/lib.rs:116 *)
Definition enc_Definition (x : Definition_) : value :=
  match x with
  | Definition_Callback y => VData "Definition" "Callback" [("0", enc_CallbackDefinition y)]
  | Definition_CallbackInterface y => VData "Definition" "CallbackInterface" [("0", enc_CallbackInterfaceDefinition y)]
  | Definition_Interface y => VData "Definition" "Interface" [("0", enc_InterfaceDefinition y)]
  | Definition_InterfaceMixin y => VData "Definition" "InterfaceMixin" [("0", enc_InterfaceMixinDefinition y)]
  | Definition_Namespace y => VData "Definition" "Namespace" [("0", enc_NamespaceDefinition y)]
  | Definition_Dictionary y => VData "Definition" "Dictionary" [("0", enc_DictionaryDefinition y)]
  | Definition_PartialInterface y => VData "Definition" "PartialInterface" [("0", enc_PartialInterfaceDefinition y)]
  | Definition_PartialInterfaceMixin y => VData "Definition" "PartialInterfaceMixin" [("0", enc_PartialInterfaceMixinDefinition y)]
  | Definition_PartialDictionary y => VData "Definition" "PartialDictionary" [("0", enc_PartialDictionaryDefinition y)]
  | Definition_PartialNamespace y => VData "Definition" "PartialNamespace" [("0", enc_PartialNamespaceDefinition y)]
  | Definition_Enum y => VData "Definition" "Enum" [("0", enc_EnumDefinition y)]
  | Definition_Typedef y => VData "Definition" "Typedef" [("0", enc_TypedefDefinition y)]
  | Definition_IncludesStatement y => VData "Definition" "IncludesStatement" [("0", enc_IncludesStatementDefinition y)]
  | Definition_Implements y => VData "Definition" "Implements" [("0", enc_ImplementsDefinition y)]
  end.
