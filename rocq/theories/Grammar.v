(** * The grammar layer: the parsers that [ast_types!] generates, and their meaning.

    The [ast_types!] macro (src/macros.rs:57-552) turns a declaration into a parser: the fields of a struct are
    parsed one after the other ([__ast_struct! @build_parser], src/macros.rs:268-312), the variants of an enum are the
    alternatives of one [alt!] ([__ast_enum! @build_parse], src/macros.rs:491-520).  Here the result of that expansion
    is a value of type [pexp A] (a parser expression), and [run] gives it the meaning of the nom combinators of
    Nom.v.  Expressions are interpreted over any kind of input, so that the same parser can be run on text (the real
    thing) and, as a proof device, on a list of tokens. *)
From Coq Require Import String Ascii NArith Arith Bool List.
From Verif Require Import Nom Lex Ast.
Import ListNotations.

(** The parsers of the lexical layer. *)
Inductive terminal : Type -> Type :=
| TmTerm (t : term) : terminal unit
| TmIdentifier : terminal Identifier
| TmStringLit : terminal StringLit
| TmDefaultValue : terminal DefaultValue
| TmConstValue : terminal ConstValue.

(** The types whose parser is called recursively: exactly the places where a [Box] (src/types.rs:56, 62, 77, 123) or
    a list element (src/types.rs:7, src/attribute.rs:6) closes a cycle between type declarations. *)
Inductive nt : Type -> Type :=
| NT_Type : nt Type_
| NT_ReturnType : nt ReturnType
| NT_RecordKeyType : nt RecordKeyType
| NT_UnionMemberType : nt UnionMemberType
| NT_ExtendedAttribute : nt ExtendedAttribute.

(** Parser expressions. *)
Inductive pexp : Type -> Type :=
| PTerm : forall A, terminal A -> pexp A
| PRet : forall A, A -> pexp A
| PBind : forall A B, pexp A -> (A -> pexp B) -> pexp B            (* do_parse!, struct fields *)
| POr : forall A, pexp A -> pexp A -> pexp A                       (* alt! *)
| PEnd : forall A, pexp A                                          (* the end of an alt! *)
| POpt : forall A, pexp A -> pexp (option A)                       (* opt! *)
| PMany0 : forall A, pexp A -> pexp (list A)                       (* many0! *)
| PSepList : forall S A, pexp S -> pexp A -> pexp (list A)         (* separated_list! *)
| PSepNonEmpty : forall S A, pexp S -> pexp A -> pexp (list A)     (* separated_nonempty_list! *)
| PNT : forall A, nt A -> pexp A.                                  (* a recursive call of <T as Parse>::parse *)
Arguments PTerm {A}. Arguments PRet {A}. Arguments PBind {A B}. Arguments POr {A}. Arguments PEnd {A}.
Arguments POpt {A}. Arguments PMany0 {A}. Arguments PSepList {S A}. Arguments PSepNonEmpty {S A}. Arguments PNT {A}.

(** [map!], and the [=> {From::from}] of the generated [alt!] (src/macros.rs:497). *)
Definition PMap {A B} (f : A -> B) (p : pexp A) : pexp B := PBind p (fun a => PRet (f a)).

(** [alt!] over a list of alternatives. *)
Fixpoint PAlt {A} (l : list (pexp A)) : pexp A :=
  match l with
  | [] => PEnd
  | p :: l' => POr p (PAlt l')
  end.

(** [cond!]. *)
Definition PCond {A} (b : bool) (p : pexp A) : pexp (option A) :=
  if b then PMap Some p else PRet None.

Declare Scope pexp_scope.
Delimit Scope pexp_scope with pexp.
Notation "x <- p ;; q" := (PBind p (fun x => q)) (at level 61, p at next level, right associativity) : pexp_scope.
Notation "p ;;; q" := (PBind p (fun _ => q)) (at level 61, right associativity) : pexp_scope.
Open Scope pexp_scope.

(** ** src/common.rs *)

(** [<term as Parse>::parse]. *)
Definition T_ (t : term) : pexp unit := PTerm (TmTerm t).
(** [Identifier::parse] (src/common.rs:80-92). *)
Definition e_Identifier : pexp Identifier := PTerm TmIdentifier.
(** [Option<T>::parse] (src/common.rs:5-7). *)
Definition e_Option {A} (p : pexp A) : pexp (option A) := POpt p.
(** [Vec<T>::parse] (src/common.rs:13-16). *)
Definition e_Vec {A} (p : pexp A) : pexp (list A) := PMany0 p.
(** [Parenthesized<T>::parse] (src/common.rs:31-35). *)
Definition e_Parenthesized {A} (p : pexp A) : pexp A :=
  T_ OpenParen ;;; body <- p ;; T_ CloseParen ;;; PRet body.
(** [Bracketed<T>::parse] (src/common.rs:39-43). *)
Definition e_Bracketed {A} (p : pexp A) : pexp A :=
  T_ OpenBracket ;;; body <- p ;; T_ CloseBracket ;;; PRet body.
(** [Braced<T>::parse] (src/common.rs:47-51). *)
Definition e_Braced {A} (p : pexp A) : pexp A :=
  T_ OpenBrace ;;; body <- p ;; T_ CloseBrace ;;; PRet body.
(** [Generics<T>::parse] (src/common.rs:55-59). *)
Definition e_Generics {A} (p : pexp A) : pexp A :=
  T_ LessThan ;;; body <- p ;; T_ GreaterThan ;;; PRet body.
(** [Punctuated<T, S>::parse] (src/common.rs:62-65). *)
Definition e_Punctuated {A} (p : pexp A) (sep : term) : pexp (list A) :=
  l <- PSepList (T_ sep) p ;; PRet l.
(** [PunctuatedNonEmpty<T, S>::parse] (src/common.rs:68-74); [terminated!] keeps the first result. *)
Definition e_PunctuatedNonEmpty {A} (p : pexp A) (sep : term) : pexp (list A) :=
  l <- (l <- PSepNonEmpty (T_ sep) p ;; POpt (T_ sep) ;;; PRet l) ;; PRet l.
(** [(T, U, V)::parse] with a terminal in the middle (src/common.rs:22-26). *)
Definition e_triple {A B} (p : pexp A) (sep : term) (q : pexp B) : pexp (A * B) :=
  a <- p ;; T_ sep ;;; b <- q ;; PRet (a, b).
(** [Default::parse] (src/common.rs:96-99). *)
Definition e_Default : pexp Default :=
  T_ Assign ;;; v <- PTerm TmDefaultValue ;; PRet v.

(** ** src/types.rs, without the recursive calls *)

(** src/types.rs:69-72. *)
Definition e_MayBeNull {T : Set} (p : pexp T) : pexp (MayBeNull T) :=
  t <- p ;; q <- e_Option (T_ QMark) ;; PRet (mkMayBeNull t q).
(** src/types.rs:85-88; [(term!(long), term!(long))::parse] is src/common.rs:18-20. *)
Definition e_LongLongType : pexp LongLongType :=
  u <- e_Option (T_ Unsigned) ;; T_ Long ;;; T_ Long ;;; PRet (mkLongLongType u).
(** src/types.rs:91-94. *)
Definition e_LongType : pexp LongType :=
  u <- e_Option (T_ Unsigned) ;; T_ Long ;;; PRet (mkLongType u).
(** src/types.rs:97-100. *)
Definition e_ShortType : pexp ShortType :=
  u <- e_Option (T_ Unsigned) ;; T_ Short ;;; PRet (mkShortType u).
(** src/types.rs:82-101. *)
Definition e_IntegerType : pexp IntegerType :=
  PAlt [PMap IntegerType_LongLong e_LongLongType; PMap IntegerType_Long e_LongType;
        PMap IntegerType_Short e_ShortType].
(** src/types.rs:108-111. *)
Definition e_FloatType : pexp FloatType :=
  u <- e_Option (T_ Unrestricted) ;; T_ Float ;;; PRet (mkFloatType u).
(** src/types.rs:114-117. *)
Definition e_DoubleType : pexp DoubleType :=
  u <- e_Option (T_ Unrestricted) ;; T_ Double ;;; PRet (mkDoubleType u).
(** src/types.rs:105-118. *)
Definition e_FloatingPointType : pexp FloatingPointType :=
  PAlt [PMap FloatingPointType_Float e_FloatType; PMap FloatingPointType_Double e_DoubleType].
(** src/types.rs:141-148. *)
Definition e_ConstType : pexp ConstType :=
  PAlt [PMap ConstType_Integer (e_MayBeNull e_IntegerType);
        PMap ConstType_FloatingPoint (e_MayBeNull e_FloatingPointType);
        PMap ConstType_Boolean (e_MayBeNull (T_ Boolean));
        PMap ConstType_Byte (e_MayBeNull (T_ Byte));
        PMap ConstType_Octet (e_MayBeNull (T_ Octet));
        PMap ConstType_Identifier (e_MayBeNull e_Identifier)].

(** ** The mutually recursive parsers; recursive calls go through [PNT] *)

(** src/types.rs:54-57. *)
Definition e_SequenceType : pexp SequenceType :=
  T_ Sequence ;;; g <- e_Generics (PNT NT_Type) ;; PRet (mkSequenceType g).
(** src/types.rs:60-63. *)
Definition e_FrozenArrayType : pexp FrozenArrayType :=
  T_ FrozenArray ;;; g <- e_Generics (PNT NT_Type) ;; PRet (mkFrozenArrayType g).
(** src/types.rs:75-78. *)
Definition e_PromiseType : pexp PromiseType :=
  T_ Promise ;;; g <- e_Generics (PNT NT_ReturnType) ;; PRet (mkPromiseType g).
(** src/types.rs:121-124. *)
Definition e_RecordType : pexp RecordType :=
  T_ Record_ ;;; g <- e_Generics (e_triple (PNT NT_RecordKeyType) Comma (PNT NT_Type)) ;;
  PRet (mkRecordType (fst g) (snd g)).
(** src/types.rs:7. *)
Definition e_UnionType : pexp UnionType :=
  e_Parenthesized (e_Punctuated (PNT NT_UnionMemberType) Or).
(** src/types.rs:21-51. *)
Definition e_NonAnyType : pexp NonAnyType :=
  PAlt [PMap NonAnyType_Promise e_PromiseType;
        PMap NonAnyType_Integer (e_MayBeNull e_IntegerType);
        PMap NonAnyType_FloatingPoint (e_MayBeNull e_FloatingPointType);
        PMap NonAnyType_Boolean (e_MayBeNull (T_ Boolean));
        PMap NonAnyType_Byte (e_MayBeNull (T_ Byte));
        PMap NonAnyType_Octet (e_MayBeNull (T_ Octet));
        PMap NonAnyType_ByteString (e_MayBeNull (T_ ByteString));
        PMap NonAnyType_DOMString (e_MayBeNull (T_ DOMString));
        PMap NonAnyType_USVString (e_MayBeNull (T_ USVString));
        PMap NonAnyType_Sequence (e_MayBeNull e_SequenceType);
        PMap NonAnyType_Object (e_MayBeNull (T_ Object));
        PMap NonAnyType_Symbol (e_MayBeNull (T_ Symbol));
        PMap NonAnyType_Error (e_MayBeNull (T_ Error_));
        PMap NonAnyType_ArrayBuffer (e_MayBeNull (T_ ArrayBuffer));
        PMap NonAnyType_DataView (e_MayBeNull (T_ DataView));
        PMap NonAnyType_Int8Array (e_MayBeNull (T_ Int8Array));
        PMap NonAnyType_Int16Array (e_MayBeNull (T_ Int16Array));
        PMap NonAnyType_Int32Array (e_MayBeNull (T_ Int32Array));
        PMap NonAnyType_Uint8Array (e_MayBeNull (T_ Uint8Array));
        PMap NonAnyType_Uint16Array (e_MayBeNull (T_ Uint16Array));
        PMap NonAnyType_Uint32Array (e_MayBeNull (T_ Uint32Array));
        PMap NonAnyType_Uint8ClampedArray (e_MayBeNull (T_ Uint8ClampedArray));
        PMap NonAnyType_Float32Array (e_MayBeNull (T_ Float32Array));
        PMap NonAnyType_Float64Array (e_MayBeNull (T_ Float64Array));
        PMap NonAnyType_ArrayBufferView (e_MayBeNull (T_ ArrayBufferView));
        PMap NonAnyType_BufferSource (e_MayBeNull (T_ BufferSource));
        PMap NonAnyType_FrozenArrayType (e_MayBeNull e_FrozenArrayType);
        PMap NonAnyType_RecordType (e_MayBeNull e_RecordType);
        PMap NonAnyType_Identifier (e_MayBeNull e_Identifier)].
(** src/types.rs:13-16. *)
Definition e_SingleType : pexp SingleType :=
  PAlt [PMap (fun _ => SingleType_Any) (T_ Any); PMap SingleType_NonAny e_NonAnyType].
(** src/types.rs:11-18. *)
Definition e_Type : pexp Type_ :=
  PAlt [PMap Type_Single e_SingleType; PMap Type_Union (e_MayBeNull e_UnionType)].
(** src/types.rs:127-132. *)
Definition e_RecordKeyType : pexp RecordKeyType :=
  PAlt [PMap (fun _ => RecordKeyType_Byte) (T_ ByteString);
        PMap (fun _ => RecordKeyType_DOM) (T_ DOMString);
        PMap (fun _ => RecordKeyType_USV) (T_ USVString);
        PMap RecordKeyType_NonAny e_NonAnyType].
(** src/types.rs:151-154. *)
Definition e_ReturnType : pexp ReturnType :=
  PAlt [PMap (fun _ => ReturnType_Undefined) (T_ Undefined); PMap ReturnType_Type e_Type].

(** src/attribute.rs:6. *)
Definition e_ExtendedAttributeList : pexp ExtendedAttributeList :=
  e_Bracketed (e_Punctuated (PNT NT_ExtendedAttribute) Comma).
(** The field [attributes: Option<ExtendedAttributeList<'a>>] of most structs. *)
Definition e_attributes : pexp (option ExtendedAttributeList) := e_Option e_ExtendedAttributeList.

(** src/types.rs:157-160. *)
Definition e_AttributedType : pexp AttributedType :=
  a <- e_attributes ;; t <- e_Type ;; PRet (mkAttributedType a t).
(** src/types.rs:163-166. *)
Definition e_AttributedNonAnyType : pexp AttributedNonAnyType :=
  a <- e_attributes ;; t <- e_NonAnyType ;; PRet (mkAttributedNonAnyType a t).
(** src/types.rs:135-138. *)
Definition e_UnionMemberType : pexp UnionMemberType :=
  PAlt [PMap UnionMemberType_Single e_AttributedNonAnyType;
        PMap UnionMemberType_Union (e_MayBeNull e_UnionType)].

(** ** src/argument.rs *)

(** src/argument.rs:14-23; the default is parsed by
    [map!(cond!(optional.is_some(), weedle!(Option<Default>)), |d| d.unwrap_or(None))]. *)
Definition e_SingleArgument : pexp SingleArgument :=
  a <- e_attributes ;;
  o <- e_Option (T_ Optional) ;;
  t <- e_AttributedType ;;
  i <- e_Identifier ;;
  d <- PMap (fun d => match d with Some d' => d' | None => None end)
            (PCond (match o with Some _ => true | None => false end) (e_Option e_Default)) ;;
  PRet (mkSingleArgument a o t i d).
(** src/argument.rs:25-30. *)
Definition e_VariadicArgument : pexp VariadicArgument :=
  a <- e_attributes ;; t <- e_Type ;; T_ Ellipsis ;;; i <- e_Identifier ;;
  PRet (mkVariadicArgument a t i).
(** src/argument.rs:10-31. *)
Definition e_Argument : pexp Argument :=
  PAlt [PMap Argument_Single e_SingleArgument; PMap Argument_Variadic e_VariadicArgument].
(** src/argument.rs:6. *)
Definition e_ArgumentList : pexp ArgumentList := e_Punctuated e_Argument Comma.

(** ** src/attribute.rs *)

(** src/attribute.rs:17-20. *)
Definition e_ExtendedAttributeArgList : pexp ExtendedAttributeArgList :=
  i <- e_Identifier ;; a <- e_Parenthesized e_ArgumentList ;; PRet (mkExtendedAttributeArgList i a).
(** src/attribute.rs:24-30. *)
Definition e_ExtendedAttributeNamedArgList : pexp ExtendedAttributeNamedArgList :=
  l <- e_Identifier ;; T_ Assign ;;; r <- e_Identifier ;; a <- e_Parenthesized e_ArgumentList ;;
  PRet (mkExtendedAttributeNamedArgList l r a).
(** src/attribute.rs:9. *)
Definition e_IdentifierList : pexp IdentifierList := e_Punctuated e_Identifier Comma.
(** src/attribute.rs:34-38. *)
Definition e_ExtendedAttributeIdentList : pexp ExtendedAttributeIdentList :=
  i <- e_Identifier ;; T_ Assign ;;; l <- e_Parenthesized e_IdentifierList ;;
  PRet (mkExtendedAttributeIdentList i l).
(** src/attribute.rs:62-65. *)
Definition e_IdentifierOrString : pexp IdentifierOrString :=
  PAlt [PMap IdentifierOrString_Identifier e_Identifier;
        PMap IdentifierOrString_String (PTerm TmStringLit)].
(** src/attribute.rs:41-45. *)
Definition e_ExtendedAttributeIdent : pexp ExtendedAttributeIdent :=
  l <- e_Identifier ;; T_ Assign ;;; r <- e_IdentifierOrString ;; PRet (mkExtendedAttributeIdent l r).
(** src/attribute.rs:48-52. *)
Definition e_ExtendedAttributeWildCard : pexp ExtendedAttributeWildCard :=
  l <- e_Identifier ;; T_ Assign ;;; T_ Asterisk ;;; PRet (mkExtendedAttributeWildCard l).
(** src/attribute.rs:55-57. *)
Definition e_ExtendedAttributeNoArgs : pexp Identifier := e_Identifier.
(** src/attribute.rs:13-58. *)
Definition e_ExtendedAttribute : pexp ExtendedAttribute :=
  PAlt [PMap ExtendedAttribute_ArgList e_ExtendedAttributeArgList;
        PMap ExtendedAttribute_NamedArgList e_ExtendedAttributeNamedArgList;
        PMap ExtendedAttribute_IdentList e_ExtendedAttributeIdentList;
        PMap ExtendedAttribute_Ident e_ExtendedAttributeIdent;
        PMap ExtendedAttribute_Wildcard e_ExtendedAttributeWildCard;
        PMap ExtendedAttribute_NoArgs e_ExtendedAttributeNoArgs].

(** The parser behind each recursive call. *)
Definition grammar {A} (x : nt A) : pexp A :=
  match x with
  | NT_Type => e_Type
  | NT_ReturnType => e_ReturnType
  | NT_RecordKeyType => e_RecordKeyType
  | NT_UnionMemberType => e_UnionMemberType
  | NT_ExtendedAttribute => e_ExtendedAttribute
  end.

(** ** src/interface.rs *)

(** src/interface.rs:13-16. *)
Definition e_Inheritance : pexp Inheritance :=
  T_ Colon ;;; i <- e_Identifier ;; PRet (mkInheritance i).
(** src/interface.rs:21-29. *)
Definition e_ConstMember : pexp ConstMember :=
  a <- e_attributes ;; T_ Const ;;; t <- e_ConstType ;; i <- e_Identifier ;; T_ Assign ;;;
  v <- PTerm TmConstValue ;; T_ SemiColon ;;; PRet (mkConstMember a t i v).
(** src/interface.rs:132-136. *)
Definition e_StringifierOrInheritOrStatic : pexp StringifierOrInheritOrStatic :=
  PAlt [PMap (fun _ => SIS_Stringifier) (T_ Stringifier); PMap (fun _ => SIS_Inherit) (T_ Inherit);
        PMap (fun _ => SIS_Static) (T_ Static)].
(** src/interface.rs:140-143. *)
Definition e_StringifierOrStatic : pexp StringifierOrStatic :=
  PAlt [PMap (fun _ => SS_Stringifier) (T_ Stringifier); PMap (fun _ => SS_Static) (T_ Static)].
(** src/interface.rs:123-128. *)
Definition e_Special : pexp Special :=
  PAlt [PMap (fun _ => Special_Getter) (T_ Getter); PMap (fun _ => Special_Setter) (T_ Setter);
        PMap (fun _ => Special_Deleter) (T_ Deleter);
        PMap (fun _ => Special_LegacyCaller) (T_ LegacyCaller)].
(** src/interface.rs:31-39. *)
Definition e_AttributeInterfaceMember : pexp AttributeInterfaceMember :=
  a <- e_attributes ;; m <- e_Option e_StringifierOrInheritOrStatic ;; r <- e_Option (T_ ReadOnly) ;;
  T_ Attribute ;;; t <- e_AttributedType ;; i <- e_Identifier ;; T_ SemiColon ;;;
  PRet (mkAttributeInterfaceMember a m r t i).
(** src/interface.rs:43-48. *)
Definition e_ConstructorInterfaceMember : pexp ConstructorInterfaceMember :=
  a <- e_attributes ;; T_ Constructor ;;; args <- e_Parenthesized e_ArgumentList ;; T_ SemiColon ;;;
  PRet (mkConstructorInterfaceMember a args).
(** src/interface.rs:52-60. *)
Definition e_OperationInterfaceMember : pexp OperationInterfaceMember :=
  a <- e_attributes ;; m <- e_Option e_StringifierOrStatic ;; s <- e_Option e_Special ;;
  r <- e_ReturnType ;; i <- e_Option e_Identifier ;; args <- e_Parenthesized e_ArgumentList ;;
  T_ SemiColon ;;; PRet (mkOperationInterfaceMember a m s r i args).
(** src/interface.rs:64-69. *)
Definition e_SingleTypedIterable : pexp SingleTypedIterable :=
  a <- e_attributes ;; T_ Iterable ;;; g <- e_Generics e_AttributedType ;; T_ SemiColon ;;;
  PRet (mkSingleTypedIterable a g).
(** src/interface.rs:71-76. *)
Definition e_DoubleTypedIterable : pexp DoubleTypedIterable :=
  a <- e_attributes ;; T_ Iterable ;;;
  g <- e_Generics (e_triple e_AttributedType Comma e_AttributedType) ;; T_ SemiColon ;;;
  PRet (mkDoubleTypedIterable a g).
(** src/interface.rs:62-77. *)
Definition e_IterableInterfaceMember : pexp IterableInterfaceMember :=
  PAlt [PMap IterableInterfaceMember_Single e_SingleTypedIterable;
        PMap IterableInterfaceMember_Double e_DoubleTypedIterable].
(** src/interface.rs:81-87; [(term!(async), term!(iterable))::parse] is src/common.rs:18-20. *)
Definition e_SingleTypedAsyncIterable : pexp SingleTypedAsyncIterable :=
  a <- e_attributes ;; T_ Async ;;; T_ Iterable ;;; g <- e_Generics e_AttributedType ;;
  args <- e_Option (e_Parenthesized e_ArgumentList) ;; T_ SemiColon ;;;
  PRet (mkSingleTypedAsyncIterable a g args).
(** src/interface.rs:89-95. *)
Definition e_DoubleTypedAsyncIterable : pexp DoubleTypedAsyncIterable :=
  a <- e_attributes ;; T_ Async ;;; T_ Iterable ;;;
  g <- e_Generics (e_triple e_AttributedType Comma e_AttributedType) ;;
  args <- e_Option (e_Parenthesized e_ArgumentList) ;; T_ SemiColon ;;;
  PRet (mkDoubleTypedAsyncIterable a g args).
(** src/interface.rs:79-96. *)
Definition e_AsyncIterableInterfaceMember : pexp AsyncIterableInterfaceMember :=
  PAlt [PMap AsyncIterableInterfaceMember_Single e_SingleTypedAsyncIterable;
        PMap AsyncIterableInterfaceMember_Double e_DoubleTypedAsyncIterable].
(** src/interface.rs:98-104. *)
Definition e_MaplikeInterfaceMember : pexp MaplikeInterfaceMember :=
  a <- e_attributes ;; r <- e_Option (T_ ReadOnly) ;; T_ Maplike ;;;
  g <- e_Generics (e_triple e_AttributedType Comma e_AttributedType) ;; T_ SemiColon ;;;
  PRet (mkMaplikeInterfaceMember a r g).
(** src/interface.rs:105-111. *)
Definition e_SetlikeInterfaceMember : pexp SetlikeInterfaceMember :=
  a <- e_attributes ;; r <- e_Option (T_ ReadOnly) ;; T_ Setlike ;;;
  g <- e_Generics e_AttributedType ;; T_ SemiColon ;;; PRet (mkSetlikeInterfaceMember a r g).
(** src/interface.rs:114-118. *)
Definition e_StringifierMember : pexp StringifierMember :=
  a <- e_attributes ;; T_ Stringifier ;;; T_ SemiColon ;;; PRet (mkStringifierMember a).
(** src/interface.rs:19-119. *)
Definition e_InterfaceMember : pexp InterfaceMember :=
  PAlt [PMap InterfaceMember_Const e_ConstMember;
        PMap InterfaceMember_Attribute e_AttributeInterfaceMember;
        PMap InterfaceMember_Constructor e_ConstructorInterfaceMember;
        PMap InterfaceMember_Operation e_OperationInterfaceMember;
        PMap InterfaceMember_Iterable e_IterableInterfaceMember;
        PMap InterfaceMember_AsyncIterable e_AsyncIterableInterfaceMember;
        PMap InterfaceMember_Maplike e_MaplikeInterfaceMember;
        PMap InterfaceMember_Setlike e_SetlikeInterfaceMember;
        PMap InterfaceMember_Stringifier e_StringifierMember].
(** src/interface.rs:8. *)
Definition e_InterfaceMembers : pexp InterfaceMembers := e_Vec e_InterfaceMember.

(** ** src/mixin.rs *)

(** src/mixin.rs:17-24. *)
Definition e_OperationMixinMember : pexp OperationMixinMember :=
  a <- e_attributes ;; s <- e_Option (T_ Stringifier) ;; r <- e_ReturnType ;; i <- e_Option e_Identifier ;;
  args <- e_Parenthesized e_ArgumentList ;; T_ SemiColon ;;; PRet (mkOperationMixinMember a s r i args).
(** src/mixin.rs:26-34. *)
Definition e_AttributeMixinMember : pexp AttributeMixinMember :=
  a <- e_attributes ;; s <- e_Option (T_ Stringifier) ;; r <- e_Option (T_ ReadOnly) ;; T_ Attribute ;;;
  t <- e_AttributedType ;; i <- e_Identifier ;; T_ SemiColon ;;; PRet (mkAttributeMixinMember a s r t i).
(** src/mixin.rs:12-36. *)
Definition e_MixinMember : pexp MixinMember :=
  PAlt [PMap MixinMember_Const e_ConstMember; PMap MixinMember_Operation e_OperationMixinMember;
        PMap MixinMember_Attribute e_AttributeMixinMember; PMap MixinMember_Stringifier e_StringifierMember].
(** src/mixin.rs:8. *)
Definition e_MixinMembers : pexp MixinMembers := e_Vec e_MixinMember.

(** ** src/namespace.rs *)

(** src/namespace.rs:14-22. *)
Definition e_ConstNamespaceMember : pexp ConstNamespaceMember :=
  a <- e_attributes ;; T_ Const ;;; t <- e_ConstType ;; i <- e_Identifier ;; T_ Assign ;;;
  v <- PTerm TmConstValue ;; T_ SemiColon ;;; PRet (mkConstNamespaceMember a t i v).
(** src/namespace.rs:26-32. *)
Definition e_OperationNamespaceMember : pexp OperationNamespaceMember :=
  a <- e_attributes ;; r <- e_ReturnType ;; i <- e_Option e_Identifier ;;
  args <- e_Parenthesized e_ArgumentList ;; T_ SemiColon ;;; PRet (mkOperationNamespaceMember a r i args).
(** src/namespace.rs:34-41. *)
Definition e_AttributeNamespaceMember : pexp AttributeNamespaceMember :=
  a <- e_attributes ;; T_ ReadOnly ;;; T_ Attribute ;;; t <- e_AttributedType ;; i <- e_Identifier ;;
  T_ SemiColon ;;; PRet (mkAttributeNamespaceMember a t i).
(** src/namespace.rs:12-42. *)
Definition e_NamespaceMember : pexp NamespaceMember :=
  PAlt [PMap NamespaceMember_Const e_ConstNamespaceMember;
        PMap NamespaceMember_Operation e_OperationNamespaceMember;
        PMap NamespaceMember_Attribute e_AttributeNamespaceMember].
(** src/namespace.rs:8. *)
Definition e_NamespaceMembers : pexp NamespaceMembers := e_Vec e_NamespaceMember.

(** ** src/dictionary.rs *)

(** src/dictionary.rs:10-17. *)
Definition e_DictionaryMember : pexp DictionaryMember :=
  a <- e_attributes ;; r <- e_Option (T_ Required) ;; t <- e_Type ;; i <- e_Identifier ;;
  d <- e_Option e_Default ;; T_ SemiColon ;;; PRet (mkDictionaryMember a r t i d).
(** src/dictionary.rs:6. *)
Definition e_DictionaryMembers : pexp DictionaryMembers := e_Vec e_DictionaryMember.

(** ** src/lib.rs *)

(** src/lib.rs:118-126. *)
Definition e_CallbackDefinition : pexp CallbackDefinition :=
  a <- e_attributes ;; T_ Callback ;;; i <- e_Identifier ;; T_ Assign ;;; r <- e_ReturnType ;;
  args <- e_Parenthesized e_ArgumentList ;; T_ SemiColon ;;; PRet (mkCallbackDefinition a i r args).
(** src/lib.rs:128-136. *)
Definition e_CallbackInterfaceDefinition : pexp CallbackInterfaceDefinition :=
  a <- e_attributes ;; T_ Callback ;;; T_ Interface ;;; i <- e_Identifier ;; h <- e_Option e_Inheritance ;;
  m <- e_Braced e_InterfaceMembers ;; T_ SemiColon ;;; PRet (mkCallbackInterfaceDefinition a i h m).
(** src/lib.rs:138-145. *)
Definition e_InterfaceDefinition : pexp InterfaceDefinition :=
  a <- e_attributes ;; T_ Interface ;;; i <- e_Identifier ;; h <- e_Option e_Inheritance ;;
  m <- e_Braced e_InterfaceMembers ;; T_ SemiColon ;;; PRet (mkInterfaceDefinition a i h m).
(** src/lib.rs:147-154. *)
Definition e_InterfaceMixinDefinition : pexp InterfaceMixinDefinition :=
  a <- e_attributes ;; T_ Interface ;;; T_ Mixin ;;; i <- e_Identifier ;;
  m <- e_Braced e_MixinMembers ;; T_ SemiColon ;;; PRet (mkInterfaceMixinDefinition a i m).
(** src/lib.rs:156-162. *)
Definition e_NamespaceDefinition : pexp NamespaceDefinition :=
  a <- e_attributes ;; T_ Namespace ;;; i <- e_Identifier ;;
  m <- e_Braced e_NamespaceMembers ;; T_ SemiColon ;;; PRet (mkNamespaceDefinition a i m).
(** src/lib.rs:164-171. *)
Definition e_DictionaryDefinition : pexp DictionaryDefinition :=
  a <- e_attributes ;; T_ Dictionary ;;; i <- e_Identifier ;; h <- e_Option e_Inheritance ;;
  m <- e_Braced e_DictionaryMembers ;; T_ SemiColon ;;; PRet (mkDictionaryDefinition a i h m).
(** src/lib.rs:173-180. *)
Definition e_PartialInterfaceDefinition : pexp PartialInterfaceDefinition :=
  a <- e_attributes ;; T_ Partial ;;; T_ Interface ;;; i <- e_Identifier ;;
  m <- e_Braced e_InterfaceMembers ;; T_ SemiColon ;;; PRet (mkPartialInterfaceDefinition a i m).
(** src/lib.rs:182-190. *)
Definition e_PartialInterfaceMixinDefinition : pexp PartialInterfaceMixinDefinition :=
  a <- e_attributes ;; T_ Partial ;;; T_ Interface ;;; T_ Mixin ;;; i <- e_Identifier ;;
  m <- e_Braced e_MixinMembers ;; T_ SemiColon ;;; PRet (mkPartialInterfaceMixinDefinition a i m).
(** src/lib.rs:192-199. *)
Definition e_PartialDictionaryDefinition : pexp PartialDictionaryDefinition :=
  a <- e_attributes ;; T_ Partial ;;; T_ Dictionary ;;; i <- e_Identifier ;;
  m <- e_Braced e_DictionaryMembers ;; T_ SemiColon ;;; PRet (mkPartialDictionaryDefinition a i m).
(** src/lib.rs:201-208. *)
Definition e_PartialNamespaceDefinition : pexp PartialNamespaceDefinition :=
  a <- e_attributes ;; T_ Partial ;;; T_ Namespace ;;; i <- e_Identifier ;;
  m <- e_Braced e_NamespaceMembers ;; T_ SemiColon ;;; PRet (mkPartialNamespaceDefinition a i m).
(** src/lib.rs:245. *)
Definition e_EnumValueList : pexp EnumValueList := e_PunctuatedNonEmpty (PTerm TmStringLit) Comma.
(** src/lib.rs:210-216. *)
Definition e_EnumDefinition : pexp EnumDefinition :=
  a <- e_attributes ;; T_ Enum ;;; i <- e_Identifier ;; v <- e_Braced e_EnumValueList ;; T_ SemiColon ;;;
  PRet (mkEnumDefinition a i v).
(** src/lib.rs:218-224. *)
Definition e_TypedefDefinition : pexp TypedefDefinition :=
  a <- e_attributes ;; T_ Typedef ;;; t <- e_AttributedType ;; i <- e_Identifier ;; T_ SemiColon ;;;
  PRet (mkTypedefDefinition a t i).
(** src/lib.rs:226-232. *)
Definition e_IncludesStatementDefinition : pexp IncludesStatementDefinition :=
  a <- e_attributes ;; l <- e_Identifier ;; T_ Includes ;;; r <- e_Identifier ;; T_ SemiColon ;;;
  PRet (mkIncludesStatementDefinition a l r).
(** src/lib.rs:234-240. *)
Definition e_ImplementsDefinition : pexp ImplementsDefinition :=
  a <- e_attributes ;; l <- e_Identifier ;; T_ Implements ;;; r <- e_Identifier ;; T_ SemiColon ;;;
  PRet (mkImplementsDefinition a l r).
(** src/lib.rs:116-241. *)
Definition e_Definition : pexp Definition_ :=
  PAlt [PMap Definition_Callback e_CallbackDefinition;
        PMap Definition_CallbackInterface e_CallbackInterfaceDefinition;
        PMap Definition_Interface e_InterfaceDefinition;
        PMap Definition_InterfaceMixin e_InterfaceMixinDefinition;
        PMap Definition_Namespace e_NamespaceDefinition;
        PMap Definition_Dictionary e_DictionaryDefinition;
        PMap Definition_PartialInterface e_PartialInterfaceDefinition;
        PMap Definition_PartialInterfaceMixin e_PartialInterfaceMixinDefinition;
        PMap Definition_PartialDictionary e_PartialDictionaryDefinition;
        PMap Definition_PartialNamespace e_PartialNamespaceDefinition;
        PMap Definition_Enum e_EnumDefinition;
        PMap Definition_Typedef e_TypedefDefinition;
        PMap Definition_IncludesStatement e_IncludesStatementDefinition;
        PMap Definition_Implements e_ImplementsDefinition].
(** src/lib.rs:112: [Definitions = Vec<Definition>]. *)
Definition e_Definitions : pexp Definitions := e_Vec e_Definition.

(** ** Meaning of parser expressions *)
Section Run.
  Context {I : Type}.
  Variable same : I -> I -> bool.                              (* [==] on inputs *)
  Variable tsem : forall A, terminal A -> parser I A.          (* the lexical layer *)

  (** [run n p]: the function that [p] stands for.  [n] bounds the depth of recursive calls and the number of
      iterations of each loop. *)
  Fixpoint run (n : nat) : forall A, pexp A -> parser I A :=
    fix go (A : Type) (p : pexp A) {struct p} : parser I A :=
      match p in pexp A0 return parser I A0 with
      | PTerm t => tsem _ t
      | PRet a => ret a
      | PBind q f => bind (go _ q) (fun a => go _ (f a))
      | POr q r => alt_or (go _ q) (go _ r)
      | PEnd => alt_end
      | POpt q => opt (go _ q)
      | PMany0 q => many0 same n (go _ q)
      | PSepList s q => separated_list same n (go _ s) (go _ q)
      | PSepNonEmpty s q => separated_nonempty_list same n (go _ s) (go _ q)
      | PNT x => match n with
                 | O => fun _ => Diverge
                 | S m => run m _ (grammar x)
                 end
      end.
End Run.

(** The lexical layer on text. *)
Definition text_sem (A : Type) (t : terminal A) : parser text A :=
  match t with
  | TmTerm t => p_term t
  | TmIdentifier => p_Identifier
  | TmStringLit => p_StringLit
  | TmDefaultValue => p_DefaultValue
  | TmConstValue => p_ConstValue
  end.

(** [<T as Parse>::parse(i)] for the type whose parser is [p]. *)
Definition parse_as {A} (p : pexp A) (i : text) : res text A :=
  run text_eqb text_sem (S (length i)) A p i.

(** What a call of [weedle::parse] can do: return [Ok], return [Err], fail its assertion, or not return. *)
Inductive outcome : Type :=
| Parsed (defs : Definitions)
| Failed (e : nom_err text)
| Panicked
| NoReturn.

(** src/lib.rs:83-90: [weedle::parse]. *)
Definition parse (raw : text) : outcome :=
  match parse_as e_Definitions raw with
  | Err e => Failed e
  | Diverge => NoReturn
  | Ok remaining parsed =>
      match remaining with
      | [] => Parsed parsed
      | _ :: _ => Panicked
      end
  end.
