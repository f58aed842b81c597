(** * All implementations of the trait [Parse] of the crate. *)
From Coq Require Import String Ascii NArith Arith Bool List Lia.
From Verif Require Import Nom Lex Ast Grammar.
Import ListNotations.

(** [(T, U)::parse] (src/common.rs:18-20). *)
Definition e_pair2 {A B} (p : pexp A) (q : pexp B) : pexp (A * B) := a <- p ;; b <- q ;; PRet (a, b).
(** [(T, U, V)::parse] (src/common.rs:22-26). *)
Definition e_triple3 {A B C} (p : pexp A) (q : pexp B) (r : pexp C) : pexp (A * B * C) :=
  a <- p ;; b <- q ;; c <- r ;; PRet (a, b, c).
(** [Punctuated<T, S>::parse] (src/common.rs:62-65) for any [S]. *)
Definition e_PunctuatedBy {A S} (p : pexp A) (s : pexp S) : pexp (list A) := l <- PSepList s p ;; PRet l.
(** [PunctuatedNonEmpty<T, S>::parse] (src/common.rs:68-74) for any [S]. *)
Definition e_PunctuatedNonEmptyBy {A S} (p : pexp A) (s : pexp S) : pexp (list A) :=
  l <- (l <- PSepNonEmpty s p ;; POpt s ;;; PRet l) ;; PRet l.

(** [Impl b A p]: the crate has a type implementing [Parse] whose tree is [A] and whose parser is [p].  If [b] is true
    the type is not a list or an option, that is: it cannot be parsed from nothing.
    The non-generic types are listed one by one (every [ast_types!] declaration of the crate, and every term).  The generic
    implementations of src/common.rs and [MayBeNull] can be applied to any implementation.  ([Box<T>],
    src/common.rs:9-11, has the parser of [T].) *)
Inductive Impl : bool -> forall A : Type, pexp A -> Prop :=
| I_term t : Impl true _ (T_ t)
| I_StringLit : Impl true _ (PTerm TmStringLit)
| I_DefaultValue : Impl true _ (PTerm TmDefaultValue)
| I_ConstValue : Impl true _ (PTerm TmConstValue)
| I_Identifier : Impl true _ e_Identifier
| I_Default : Impl true _ e_Default
| I_LongLongType : Impl true _ e_LongLongType
| I_LongType : Impl true _ e_LongType
| I_ShortType : Impl true _ e_ShortType
| I_IntegerType : Impl true _ e_IntegerType
| I_FloatType : Impl true _ e_FloatType
| I_DoubleType : Impl true _ e_DoubleType
| I_FloatingPointType : Impl true _ e_FloatingPointType
| I_ConstType : Impl true _ e_ConstType
| I_SequenceType : Impl true _ e_SequenceType
| I_FrozenArrayType : Impl true _ e_FrozenArrayType
| I_PromiseType : Impl true _ e_PromiseType
| I_RecordType : Impl true _ e_RecordType
| I_UnionType : Impl true _ e_UnionType
| I_NonAnyType : Impl true _ e_NonAnyType
| I_SingleType : Impl true _ e_SingleType
| I_Type : Impl true _ e_Type
| I_RecordKeyType : Impl true _ e_RecordKeyType
| I_ReturnType : Impl true _ e_ReturnType
| I_ExtendedAttributeList : Impl true _ e_ExtendedAttributeList
| I_AttributedType : Impl true _ e_AttributedType
| I_AttributedNonAnyType : Impl true _ e_AttributedNonAnyType
| I_UnionMemberType : Impl true _ e_UnionMemberType
| I_SingleArgument : Impl true _ e_SingleArgument
| I_VariadicArgument : Impl true _ e_VariadicArgument
| I_Argument : Impl true _ e_Argument
| I_ArgumentList : Impl false _ e_ArgumentList
| I_ExtendedAttributeArgList : Impl true _ e_ExtendedAttributeArgList
| I_ExtendedAttributeNamedArgList : Impl true _ e_ExtendedAttributeNamedArgList
| I_IdentifierList : Impl false _ e_IdentifierList
| I_ExtendedAttributeIdentList : Impl true _ e_ExtendedAttributeIdentList
| I_IdentifierOrString : Impl true _ e_IdentifierOrString
| I_ExtendedAttributeIdent : Impl true _ e_ExtendedAttributeIdent
| I_ExtendedAttributeWildCard : Impl true _ e_ExtendedAttributeWildCard
| I_ExtendedAttributeNoArgs : Impl true _ e_ExtendedAttributeNoArgs
| I_ExtendedAttribute : Impl true _ e_ExtendedAttribute
| I_Inheritance : Impl true _ e_Inheritance
| I_ConstMember : Impl true _ e_ConstMember
| I_StringifierOrInheritOrStatic : Impl true _ e_StringifierOrInheritOrStatic
| I_StringifierOrStatic : Impl true _ e_StringifierOrStatic
| I_Special : Impl true _ e_Special
| I_AttributeInterfaceMember : Impl true _ e_AttributeInterfaceMember
| I_ConstructorInterfaceMember : Impl true _ e_ConstructorInterfaceMember
| I_OperationInterfaceMember : Impl true _ e_OperationInterfaceMember
| I_SingleTypedIterable : Impl true _ e_SingleTypedIterable
| I_DoubleTypedIterable : Impl true _ e_DoubleTypedIterable
| I_IterableInterfaceMember : Impl true _ e_IterableInterfaceMember
| I_SingleTypedAsyncIterable : Impl true _ e_SingleTypedAsyncIterable
| I_DoubleTypedAsyncIterable : Impl true _ e_DoubleTypedAsyncIterable
| I_AsyncIterableInterfaceMember : Impl true _ e_AsyncIterableInterfaceMember
| I_MaplikeInterfaceMember : Impl true _ e_MaplikeInterfaceMember
| I_SetlikeInterfaceMember : Impl true _ e_SetlikeInterfaceMember
| I_StringifierMember : Impl true _ e_StringifierMember
| I_InterfaceMember : Impl true _ e_InterfaceMember
| I_InterfaceMembers : Impl false _ e_InterfaceMembers
| I_OperationMixinMember : Impl true _ e_OperationMixinMember
| I_AttributeMixinMember : Impl true _ e_AttributeMixinMember
| I_MixinMember : Impl true _ e_MixinMember
| I_MixinMembers : Impl false _ e_MixinMembers
| I_ConstNamespaceMember : Impl true _ e_ConstNamespaceMember
| I_OperationNamespaceMember : Impl true _ e_OperationNamespaceMember
| I_AttributeNamespaceMember : Impl true _ e_AttributeNamespaceMember
| I_NamespaceMember : Impl true _ e_NamespaceMember
| I_NamespaceMembers : Impl false _ e_NamespaceMembers
| I_DictionaryMember : Impl true _ e_DictionaryMember
| I_DictionaryMembers : Impl false _ e_DictionaryMembers
| I_CallbackDefinition : Impl true _ e_CallbackDefinition
| I_CallbackInterfaceDefinition : Impl true _ e_CallbackInterfaceDefinition
| I_InterfaceDefinition : Impl true _ e_InterfaceDefinition
| I_InterfaceMixinDefinition : Impl true _ e_InterfaceMixinDefinition
| I_NamespaceDefinition : Impl true _ e_NamespaceDefinition
| I_DictionaryDefinition : Impl true _ e_DictionaryDefinition
| I_PartialInterfaceDefinition : Impl true _ e_PartialInterfaceDefinition
| I_PartialInterfaceMixinDefinition : Impl true _ e_PartialInterfaceMixinDefinition
| I_PartialDictionaryDefinition : Impl true _ e_PartialDictionaryDefinition
| I_PartialNamespaceDefinition : Impl true _ e_PartialNamespaceDefinition
| I_EnumValueList : Impl true _ e_EnumValueList
| I_EnumDefinition : Impl true _ e_EnumDefinition
| I_TypedefDefinition : Impl true _ e_TypedefDefinition
| I_IncludesStatementDefinition : Impl true _ e_IncludesStatementDefinition
| I_ImplementsDefinition : Impl true _ e_ImplementsDefinition
| I_Definition : Impl true _ e_Definition
| I_Definitions : Impl false _ e_Definitions
| I_Option b A p : Impl b A p -> Impl false _ (e_Option p)
| I_Vec b A p : Impl b A p -> Impl false _ (e_Vec p)
| I_pair b b' A B p q : Impl b A p -> Impl b' B q -> Impl (b || b') _ (e_pair2 p q)
| I_triple b b' b'' A B C p q r : Impl b A p -> Impl b' B q -> Impl b'' C r -> Impl (b || b' || b'') _ (e_triple3 p q r)
| I_Parenthesized b A p : Impl b A p -> Impl true _ (e_Parenthesized p)
| I_Bracketed b A p : Impl b A p -> Impl true _ (e_Bracketed p)
| I_Braced b A p : Impl b A p -> Impl true _ (e_Braced p)
| I_Generics b A p : Impl b A p -> Impl true _ (e_Generics p)
| I_Punctuated b b' A S p s : Impl b A p -> Impl b' S s -> Impl false _ (e_PunctuatedBy p s)
| I_PunctuatedNonEmpty b b' A S p s : Impl b A p -> Impl b' S s -> Impl true _ (e_PunctuatedNonEmptyBy p s)
| I_MayBeNull b (A : Set) p : Impl b A p -> Impl b _ (e_MayBeNull p).

(** The same for the functions on text: the implementations above, and the literals (src/literal.rs), which are parsed
    character by character. *)
Inductive Parser : bool -> forall A : Type, parser text A -> Prop :=
| P_Impl b A p : Impl b A p -> Parser b A (parse_as p)
| P_DecLit : Parser true _ p_DecLit
| P_HexLit : Parser true _ p_HexLit
| P_OctLit : Parser true _ p_OctLit
| P_IntegerLit : Parser true _ p_IntegerLit
| P_BooleanLit : Parser true _ p_BooleanLit
| P_FloatValueLit : Parser true _ p_FloatValueLit
| P_FloatLit : Parser true _ p_FloatLit
| P_EmptyArrayLit : Parser true _ p_EmptyArrayLit
| P_EmptyDictionaryLit : Parser true _ p_EmptyDictionaryLit.
