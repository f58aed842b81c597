(** * Attributes in front

    Most items of Web IDL may have a list of extended attributes in front of them: structs whose first field is
    [attributes: Option<ExtendedAttributeList>].  Such a list is transparent: with it and without it the same item is read. *)
From Coq Require Import String Ascii NArith Arith Bool List Lia.
From Verif Require Import Nom Lex Ast Grammar Spec LexFacts NumFacts TokFacts RunFacts Shapes TermFacts Api ApiFacts LexProps
  Tok TokRun TokSound TokComplete TokMembers Shows Exact.
Import ListNotations.
Open Scope list_scope.

(** ** The field [attributes] and its update *)
(** src/types.rs:157-160. *)
Definition attributes_AttributedType (x : AttributedType) : option ExtendedAttributeList := match x with mkAttributedType a _ => a end.
Definition with_AttributedType (x : AttributedType) (a : option ExtendedAttributeList) : AttributedType := match x with mkAttributedType _ x1 => mkAttributedType a x1 end.
(** src/types.rs:163-166. *)
Definition attributes_AttributedNonAnyType (x : AttributedNonAnyType) : option ExtendedAttributeList := match x with mkAttributedNonAnyType a _ => a end.
Definition with_AttributedNonAnyType (x : AttributedNonAnyType) (a : option ExtendedAttributeList) : AttributedNonAnyType := match x with mkAttributedNonAnyType _ x1 => mkAttributedNonAnyType a x1 end.
(** src/argument.rs:14-23. *)
Definition attributes_SingleArgument (x : SingleArgument) : option ExtendedAttributeList := match x with mkSingleArgument a _ _ _ _ => a end.
Definition with_SingleArgument (x : SingleArgument) (a : option ExtendedAttributeList) : SingleArgument := match x with mkSingleArgument _ x1 x2 x3 x4 => mkSingleArgument a x1 x2 x3 x4 end.
(** src/argument.rs:25-30. *)
Definition attributes_VariadicArgument (x : VariadicArgument) : option ExtendedAttributeList := match x with mkVariadicArgument a _ _ => a end.
Definition with_VariadicArgument (x : VariadicArgument) (a : option ExtendedAttributeList) : VariadicArgument := match x with mkVariadicArgument _ x1 x2 => mkVariadicArgument a x1 x2 end.
(** src/interface.rs:21-29. *)
Definition attributes_ConstMember (x : ConstMember) : option ExtendedAttributeList := match x with mkConstMember a _ _ _ => a end.
Definition with_ConstMember (x : ConstMember) (a : option ExtendedAttributeList) : ConstMember := match x with mkConstMember _ x1 x2 x3 => mkConstMember a x1 x2 x3 end.
(** src/interface.rs:31-39. *)
Definition attributes_AttributeInterfaceMember (x : AttributeInterfaceMember) : option ExtendedAttributeList := match x with mkAttributeInterfaceMember a _ _ _ _ => a end.
Definition with_AttributeInterfaceMember (x : AttributeInterfaceMember) (a : option ExtendedAttributeList) : AttributeInterfaceMember := match x with mkAttributeInterfaceMember _ x1 x2 x3 x4 => mkAttributeInterfaceMember a x1 x2 x3 x4 end.
(** src/interface.rs:43-48. *)
Definition attributes_ConstructorInterfaceMember (x : ConstructorInterfaceMember) : option ExtendedAttributeList := match x with mkConstructorInterfaceMember a _ => a end.
Definition with_ConstructorInterfaceMember (x : ConstructorInterfaceMember) (a : option ExtendedAttributeList) : ConstructorInterfaceMember := match x with mkConstructorInterfaceMember _ x1 => mkConstructorInterfaceMember a x1 end.
(** src/interface.rs:52-60. *)
Definition attributes_OperationInterfaceMember (x : OperationInterfaceMember) : option ExtendedAttributeList := match x with mkOperationInterfaceMember a _ _ _ _ _ => a end.
Definition with_OperationInterfaceMember (x : OperationInterfaceMember) (a : option ExtendedAttributeList) : OperationInterfaceMember := match x with mkOperationInterfaceMember _ x1 x2 x3 x4 x5 => mkOperationInterfaceMember a x1 x2 x3 x4 x5 end.
(** src/interface.rs:64-69. *)
Definition attributes_SingleTypedIterable (x : SingleTypedIterable) : option ExtendedAttributeList := match x with mkSingleTypedIterable a _ => a end.
Definition with_SingleTypedIterable (x : SingleTypedIterable) (a : option ExtendedAttributeList) : SingleTypedIterable := match x with mkSingleTypedIterable _ x1 => mkSingleTypedIterable a x1 end.
(** src/interface.rs:71-76. *)
Definition attributes_DoubleTypedIterable (x : DoubleTypedIterable) : option ExtendedAttributeList := match x with mkDoubleTypedIterable a _ => a end.
Definition with_DoubleTypedIterable (x : DoubleTypedIterable) (a : option ExtendedAttributeList) : DoubleTypedIterable := match x with mkDoubleTypedIterable _ x1 => mkDoubleTypedIterable a x1 end.
(** src/interface.rs:81-87. *)
Definition attributes_SingleTypedAsyncIterable (x : SingleTypedAsyncIterable) : option ExtendedAttributeList := match x with mkSingleTypedAsyncIterable a _ _ => a end.
Definition with_SingleTypedAsyncIterable (x : SingleTypedAsyncIterable) (a : option ExtendedAttributeList) : SingleTypedAsyncIterable := match x with mkSingleTypedAsyncIterable _ x1 x2 => mkSingleTypedAsyncIterable a x1 x2 end.
(** src/interface.rs:89-95. *)
Definition attributes_DoubleTypedAsyncIterable (x : DoubleTypedAsyncIterable) : option ExtendedAttributeList := match x with mkDoubleTypedAsyncIterable a _ _ => a end.
Definition with_DoubleTypedAsyncIterable (x : DoubleTypedAsyncIterable) (a : option ExtendedAttributeList) : DoubleTypedAsyncIterable := match x with mkDoubleTypedAsyncIterable _ x1 x2 => mkDoubleTypedAsyncIterable a x1 x2 end.
(** src/interface.rs:98-104. *)
Definition attributes_MaplikeInterfaceMember (x : MaplikeInterfaceMember) : option ExtendedAttributeList := match x with mkMaplikeInterfaceMember a _ _ => a end.
Definition with_MaplikeInterfaceMember (x : MaplikeInterfaceMember) (a : option ExtendedAttributeList) : MaplikeInterfaceMember := match x with mkMaplikeInterfaceMember _ x1 x2 => mkMaplikeInterfaceMember a x1 x2 end.
(** src/interface.rs:105-111. *)
Definition attributes_SetlikeInterfaceMember (x : SetlikeInterfaceMember) : option ExtendedAttributeList := match x with mkSetlikeInterfaceMember a _ _ => a end.
Definition with_SetlikeInterfaceMember (x : SetlikeInterfaceMember) (a : option ExtendedAttributeList) : SetlikeInterfaceMember := match x with mkSetlikeInterfaceMember _ x1 x2 => mkSetlikeInterfaceMember a x1 x2 end.
(** src/interface.rs:114-118. *)
Definition attributes_StringifierMember (x : StringifierMember) : option ExtendedAttributeList := match x with mkStringifierMember a => a end.
Definition with_StringifierMember (x : StringifierMember) (a : option ExtendedAttributeList) : StringifierMember := match x with mkStringifierMember _ => mkStringifierMember a end.
(** src/mixin.rs:17-24. *)
Definition attributes_OperationMixinMember (x : OperationMixinMember) : option ExtendedAttributeList := match x with mkOperationMixinMember a _ _ _ _ => a end.
Definition with_OperationMixinMember (x : OperationMixinMember) (a : option ExtendedAttributeList) : OperationMixinMember := match x with mkOperationMixinMember _ x1 x2 x3 x4 => mkOperationMixinMember a x1 x2 x3 x4 end.
(** src/mixin.rs:26-34. *)
Definition attributes_AttributeMixinMember (x : AttributeMixinMember) : option ExtendedAttributeList := match x with mkAttributeMixinMember a _ _ _ _ => a end.
Definition with_AttributeMixinMember (x : AttributeMixinMember) (a : option ExtendedAttributeList) : AttributeMixinMember := match x with mkAttributeMixinMember _ x1 x2 x3 x4 => mkAttributeMixinMember a x1 x2 x3 x4 end.
(** src/namespace.rs:14-22. *)
Definition attributes_ConstNamespaceMember (x : ConstNamespaceMember) : option ExtendedAttributeList := match x with mkConstNamespaceMember a _ _ _ => a end.
Definition with_ConstNamespaceMember (x : ConstNamespaceMember) (a : option ExtendedAttributeList) : ConstNamespaceMember := match x with mkConstNamespaceMember _ x1 x2 x3 => mkConstNamespaceMember a x1 x2 x3 end.
(** src/namespace.rs:26-32. *)
Definition attributes_OperationNamespaceMember (x : OperationNamespaceMember) : option ExtendedAttributeList := match x with mkOperationNamespaceMember a _ _ _ => a end.
Definition with_OperationNamespaceMember (x : OperationNamespaceMember) (a : option ExtendedAttributeList) : OperationNamespaceMember := match x with mkOperationNamespaceMember _ x1 x2 x3 => mkOperationNamespaceMember a x1 x2 x3 end.
(** src/namespace.rs:34-41. *)
Definition attributes_AttributeNamespaceMember (x : AttributeNamespaceMember) : option ExtendedAttributeList := match x with mkAttributeNamespaceMember a _ _ => a end.
Definition with_AttributeNamespaceMember (x : AttributeNamespaceMember) (a : option ExtendedAttributeList) : AttributeNamespaceMember := match x with mkAttributeNamespaceMember _ x1 x2 => mkAttributeNamespaceMember a x1 x2 end.
(** src/dictionary.rs:10-17. *)
Definition attributes_DictionaryMember (x : DictionaryMember) : option ExtendedAttributeList := match x with mkDictionaryMember a _ _ _ _ => a end.
Definition with_DictionaryMember (x : DictionaryMember) (a : option ExtendedAttributeList) : DictionaryMember := match x with mkDictionaryMember _ x1 x2 x3 x4 => mkDictionaryMember a x1 x2 x3 x4 end.
(** src/lib.rs:118-126. *)
Definition attributes_CallbackDefinition (x : CallbackDefinition) : option ExtendedAttributeList := match x with mkCallbackDefinition a _ _ _ => a end.
Definition with_CallbackDefinition (x : CallbackDefinition) (a : option ExtendedAttributeList) : CallbackDefinition := match x with mkCallbackDefinition _ x1 x2 x3 => mkCallbackDefinition a x1 x2 x3 end.
(** src/lib.rs:128-136. *)
Definition attributes_CallbackInterfaceDefinition (x : CallbackInterfaceDefinition) : option ExtendedAttributeList := match x with mkCallbackInterfaceDefinition a _ _ _ => a end.
Definition with_CallbackInterfaceDefinition (x : CallbackInterfaceDefinition) (a : option ExtendedAttributeList) : CallbackInterfaceDefinition := match x with mkCallbackInterfaceDefinition _ x1 x2 x3 => mkCallbackInterfaceDefinition a x1 x2 x3 end.
(** src/lib.rs:138-145. *)
Definition attributes_InterfaceDefinition (x : InterfaceDefinition) : option ExtendedAttributeList := match x with mkInterfaceDefinition a _ _ _ => a end.
Definition with_InterfaceDefinition (x : InterfaceDefinition) (a : option ExtendedAttributeList) : InterfaceDefinition := match x with mkInterfaceDefinition _ x1 x2 x3 => mkInterfaceDefinition a x1 x2 x3 end.
(** src/lib.rs:147-154. *)
Definition attributes_InterfaceMixinDefinition (x : InterfaceMixinDefinition) : option ExtendedAttributeList := match x with mkInterfaceMixinDefinition a _ _ => a end.
Definition with_InterfaceMixinDefinition (x : InterfaceMixinDefinition) (a : option ExtendedAttributeList) : InterfaceMixinDefinition := match x with mkInterfaceMixinDefinition _ x1 x2 => mkInterfaceMixinDefinition a x1 x2 end.
(** src/lib.rs:156-162. *)
Definition attributes_NamespaceDefinition (x : NamespaceDefinition) : option ExtendedAttributeList := match x with mkNamespaceDefinition a _ _ => a end.
Definition with_NamespaceDefinition (x : NamespaceDefinition) (a : option ExtendedAttributeList) : NamespaceDefinition := match x with mkNamespaceDefinition _ x1 x2 => mkNamespaceDefinition a x1 x2 end.
(** src/lib.rs:164-171. *)
Definition attributes_DictionaryDefinition (x : DictionaryDefinition) : option ExtendedAttributeList := match x with mkDictionaryDefinition a _ _ _ => a end.
Definition with_DictionaryDefinition (x : DictionaryDefinition) (a : option ExtendedAttributeList) : DictionaryDefinition := match x with mkDictionaryDefinition _ x1 x2 x3 => mkDictionaryDefinition a x1 x2 x3 end.
(** src/lib.rs:173-180. *)
Definition attributes_PartialInterfaceDefinition (x : PartialInterfaceDefinition) : option ExtendedAttributeList := match x with mkPartialInterfaceDefinition a _ _ => a end.
Definition with_PartialInterfaceDefinition (x : PartialInterfaceDefinition) (a : option ExtendedAttributeList) : PartialInterfaceDefinition := match x with mkPartialInterfaceDefinition _ x1 x2 => mkPartialInterfaceDefinition a x1 x2 end.
(** src/lib.rs:182-190. *)
Definition attributes_PartialInterfaceMixinDefinition (x : PartialInterfaceMixinDefinition) : option ExtendedAttributeList := match x with mkPartialInterfaceMixinDefinition a _ _ => a end.
Definition with_PartialInterfaceMixinDefinition (x : PartialInterfaceMixinDefinition) (a : option ExtendedAttributeList) : PartialInterfaceMixinDefinition := match x with mkPartialInterfaceMixinDefinition _ x1 x2 => mkPartialInterfaceMixinDefinition a x1 x2 end.
(** src/lib.rs:192-199. *)
Definition attributes_PartialDictionaryDefinition (x : PartialDictionaryDefinition) : option ExtendedAttributeList := match x with mkPartialDictionaryDefinition a _ _ => a end.
Definition with_PartialDictionaryDefinition (x : PartialDictionaryDefinition) (a : option ExtendedAttributeList) : PartialDictionaryDefinition := match x with mkPartialDictionaryDefinition _ x1 x2 => mkPartialDictionaryDefinition a x1 x2 end.
(** src/lib.rs:201-208. *)
Definition attributes_PartialNamespaceDefinition (x : PartialNamespaceDefinition) : option ExtendedAttributeList := match x with mkPartialNamespaceDefinition a _ _ => a end.
Definition with_PartialNamespaceDefinition (x : PartialNamespaceDefinition) (a : option ExtendedAttributeList) : PartialNamespaceDefinition := match x with mkPartialNamespaceDefinition _ x1 x2 => mkPartialNamespaceDefinition a x1 x2 end.
(** src/lib.rs:210-216. *)
Definition attributes_EnumDefinition (x : EnumDefinition) : option ExtendedAttributeList := match x with mkEnumDefinition a _ _ => a end.
Definition with_EnumDefinition (x : EnumDefinition) (a : option ExtendedAttributeList) : EnumDefinition := match x with mkEnumDefinition _ x1 x2 => mkEnumDefinition a x1 x2 end.
(** src/lib.rs:218-224. *)
Definition attributes_TypedefDefinition (x : TypedefDefinition) : option ExtendedAttributeList := match x with mkTypedefDefinition a _ _ => a end.
Definition with_TypedefDefinition (x : TypedefDefinition) (a : option ExtendedAttributeList) : TypedefDefinition := match x with mkTypedefDefinition _ x1 x2 => mkTypedefDefinition a x1 x2 end.
(** src/lib.rs:226-232. *)
Definition attributes_IncludesStatementDefinition (x : IncludesStatementDefinition) : option ExtendedAttributeList := match x with mkIncludesStatementDefinition a _ _ => a end.
Definition with_IncludesStatementDefinition (x : IncludesStatementDefinition) (a : option ExtendedAttributeList) : IncludesStatementDefinition := match x with mkIncludesStatementDefinition _ x1 x2 => mkIncludesStatementDefinition a x1 x2 end.
(** src/lib.rs:234-240. *)
Definition attributes_ImplementsDefinition (x : ImplementsDefinition) : option ExtendedAttributeList := match x with mkImplementsDefinition a _ _ => a end.
Definition with_ImplementsDefinition (x : ImplementsDefinition) (a : option ExtendedAttributeList) : ImplementsDefinition := match x with mkImplementsDefinition _ x1 x2 => mkImplementsDefinition a x1 x2 end.
(** src/argument.rs:10-31. *)
Definition attributes_Argument (x : Argument) : option ExtendedAttributeList :=
  match x with
  | Argument_Single x => attributes_SingleArgument x
  | Argument_Variadic x => attributes_VariadicArgument x
  end.
Definition with_Argument (x : Argument) (a : option ExtendedAttributeList) : Argument :=
  match x with
  | Argument_Single x => Argument_Single (with_SingleArgument x a)
  | Argument_Variadic x => Argument_Variadic (with_VariadicArgument x a)
  end.
(** src/interface.rs:62-77. *)
Definition attributes_IterableInterfaceMember (x : IterableInterfaceMember) : option ExtendedAttributeList :=
  match x with
  | IterableInterfaceMember_Single x => attributes_SingleTypedIterable x
  | IterableInterfaceMember_Double x => attributes_DoubleTypedIterable x
  end.
Definition with_IterableInterfaceMember (x : IterableInterfaceMember) (a : option ExtendedAttributeList) : IterableInterfaceMember :=
  match x with
  | IterableInterfaceMember_Single x => IterableInterfaceMember_Single (with_SingleTypedIterable x a)
  | IterableInterfaceMember_Double x => IterableInterfaceMember_Double (with_DoubleTypedIterable x a)
  end.
(** src/interface.rs:79-96. *)
Definition attributes_AsyncIterableInterfaceMember (x : AsyncIterableInterfaceMember) : option ExtendedAttributeList :=
  match x with
  | AsyncIterableInterfaceMember_Single x => attributes_SingleTypedAsyncIterable x
  | AsyncIterableInterfaceMember_Double x => attributes_DoubleTypedAsyncIterable x
  end.
Definition with_AsyncIterableInterfaceMember (x : AsyncIterableInterfaceMember) (a : option ExtendedAttributeList) : AsyncIterableInterfaceMember :=
  match x with
  | AsyncIterableInterfaceMember_Single x => AsyncIterableInterfaceMember_Single (with_SingleTypedAsyncIterable x a)
  | AsyncIterableInterfaceMember_Double x => AsyncIterableInterfaceMember_Double (with_DoubleTypedAsyncIterable x a)
  end.
(** src/interface.rs:19-119. *)
Definition attributes_InterfaceMember (x : InterfaceMember) : option ExtendedAttributeList :=
  match x with
  | InterfaceMember_Const x => attributes_ConstMember x
  | InterfaceMember_Attribute x => attributes_AttributeInterfaceMember x
  | InterfaceMember_Constructor x => attributes_ConstructorInterfaceMember x
  | InterfaceMember_Operation x => attributes_OperationInterfaceMember x
  | InterfaceMember_Iterable x => attributes_IterableInterfaceMember x
  | InterfaceMember_AsyncIterable x => attributes_AsyncIterableInterfaceMember x
  | InterfaceMember_Maplike x => attributes_MaplikeInterfaceMember x
  | InterfaceMember_Setlike x => attributes_SetlikeInterfaceMember x
  | InterfaceMember_Stringifier x => attributes_StringifierMember x
  end.
Definition with_InterfaceMember (x : InterfaceMember) (a : option ExtendedAttributeList) : InterfaceMember :=
  match x with
  | InterfaceMember_Const x => InterfaceMember_Const (with_ConstMember x a)
  | InterfaceMember_Attribute x => InterfaceMember_Attribute (with_AttributeInterfaceMember x a)
  | InterfaceMember_Constructor x => InterfaceMember_Constructor (with_ConstructorInterfaceMember x a)
  | InterfaceMember_Operation x => InterfaceMember_Operation (with_OperationInterfaceMember x a)
  | InterfaceMember_Iterable x => InterfaceMember_Iterable (with_IterableInterfaceMember x a)
  | InterfaceMember_AsyncIterable x => InterfaceMember_AsyncIterable (with_AsyncIterableInterfaceMember x a)
  | InterfaceMember_Maplike x => InterfaceMember_Maplike (with_MaplikeInterfaceMember x a)
  | InterfaceMember_Setlike x => InterfaceMember_Setlike (with_SetlikeInterfaceMember x a)
  | InterfaceMember_Stringifier x => InterfaceMember_Stringifier (with_StringifierMember x a)
  end.
(** src/mixin.rs:12-36. *)
Definition attributes_MixinMember (x : MixinMember) : option ExtendedAttributeList :=
  match x with
  | MixinMember_Const x => attributes_ConstMember x
  | MixinMember_Operation x => attributes_OperationMixinMember x
  | MixinMember_Attribute x => attributes_AttributeMixinMember x
  | MixinMember_Stringifier x => attributes_StringifierMember x
  end.
Definition with_MixinMember (x : MixinMember) (a : option ExtendedAttributeList) : MixinMember :=
  match x with
  | MixinMember_Const x => MixinMember_Const (with_ConstMember x a)
  | MixinMember_Operation x => MixinMember_Operation (with_OperationMixinMember x a)
  | MixinMember_Attribute x => MixinMember_Attribute (with_AttributeMixinMember x a)
  | MixinMember_Stringifier x => MixinMember_Stringifier (with_StringifierMember x a)
  end.
(** src/namespace.rs:12-42. *)
Definition attributes_NamespaceMember (x : NamespaceMember) : option ExtendedAttributeList :=
  match x with
  | NamespaceMember_Const x => attributes_ConstNamespaceMember x
  | NamespaceMember_Operation x => attributes_OperationNamespaceMember x
  | NamespaceMember_Attribute x => attributes_AttributeNamespaceMember x
  end.
Definition with_NamespaceMember (x : NamespaceMember) (a : option ExtendedAttributeList) : NamespaceMember :=
  match x with
  | NamespaceMember_Const x => NamespaceMember_Const (with_ConstNamespaceMember x a)
  | NamespaceMember_Operation x => NamespaceMember_Operation (with_OperationNamespaceMember x a)
  | NamespaceMember_Attribute x => NamespaceMember_Attribute (with_AttributeNamespaceMember x a)
  end.
(** src/lib.rs:116-241. *)
Definition attributes_Definition_ (x : Definition_) : option ExtendedAttributeList :=
  match x with
  | Definition_Callback x => attributes_CallbackDefinition x
  | Definition_CallbackInterface x => attributes_CallbackInterfaceDefinition x
  | Definition_Interface x => attributes_InterfaceDefinition x
  | Definition_InterfaceMixin x => attributes_InterfaceMixinDefinition x
  | Definition_Namespace x => attributes_NamespaceDefinition x
  | Definition_Dictionary x => attributes_DictionaryDefinition x
  | Definition_PartialInterface x => attributes_PartialInterfaceDefinition x
  | Definition_PartialInterfaceMixin x => attributes_PartialInterfaceMixinDefinition x
  | Definition_PartialDictionary x => attributes_PartialDictionaryDefinition x
  | Definition_PartialNamespace x => attributes_PartialNamespaceDefinition x
  | Definition_Enum x => attributes_EnumDefinition x
  | Definition_Typedef x => attributes_TypedefDefinition x
  | Definition_IncludesStatement x => attributes_IncludesStatementDefinition x
  | Definition_Implements x => attributes_ImplementsDefinition x
  end.
Definition with_Definition_ (x : Definition_) (a : option ExtendedAttributeList) : Definition_ :=
  match x with
  | Definition_Callback x => Definition_Callback (with_CallbackDefinition x a)
  | Definition_CallbackInterface x => Definition_CallbackInterface (with_CallbackInterfaceDefinition x a)
  | Definition_Interface x => Definition_Interface (with_InterfaceDefinition x a)
  | Definition_InterfaceMixin x => Definition_InterfaceMixin (with_InterfaceMixinDefinition x a)
  | Definition_Namespace x => Definition_Namespace (with_NamespaceDefinition x a)
  | Definition_Dictionary x => Definition_Dictionary (with_DictionaryDefinition x a)
  | Definition_PartialInterface x => Definition_PartialInterface (with_PartialInterfaceDefinition x a)
  | Definition_PartialInterfaceMixin x => Definition_PartialInterfaceMixin (with_PartialInterfaceMixinDefinition x a)
  | Definition_PartialDictionary x => Definition_PartialDictionary (with_PartialDictionaryDefinition x a)
  | Definition_PartialNamespace x => Definition_PartialNamespace (with_PartialNamespaceDefinition x a)
  | Definition_Enum x => Definition_Enum (with_EnumDefinition x a)
  | Definition_Typedef x => Definition_Typedef (with_TypedefDefinition x a)
  | Definition_IncludesStatement x => Definition_IncludesStatement (with_IncludesStatementDefinition x a)
  | Definition_Implements x => Definition_Implements (with_ImplementsDefinition x a)
  end.

(** All of them: type, parser, field and update; the boolean says that the next field does not have attributes of its own. *)
Inductive Annotated : bool -> forall A : Type, pexp A -> (A -> option ExtendedAttributeList) -> (A -> option ExtendedAttributeList -> A) -> Prop :=
| An_AttributedType : Annotated true _ e_AttributedType attributes_AttributedType with_AttributedType
| An_AttributedNonAnyType : Annotated true _ e_AttributedNonAnyType attributes_AttributedNonAnyType with_AttributedNonAnyType
| An_SingleArgument : Annotated false _ e_SingleArgument attributes_SingleArgument with_SingleArgument
| An_VariadicArgument : Annotated true _ e_VariadicArgument attributes_VariadicArgument with_VariadicArgument
| An_ConstMember : Annotated true _ e_ConstMember attributes_ConstMember with_ConstMember
| An_AttributeInterfaceMember : Annotated true _ e_AttributeInterfaceMember attributes_AttributeInterfaceMember with_AttributeInterfaceMember
| An_ConstructorInterfaceMember : Annotated true _ e_ConstructorInterfaceMember attributes_ConstructorInterfaceMember with_ConstructorInterfaceMember
| An_OperationInterfaceMember : Annotated true _ e_OperationInterfaceMember attributes_OperationInterfaceMember with_OperationInterfaceMember
| An_SingleTypedIterable : Annotated true _ e_SingleTypedIterable attributes_SingleTypedIterable with_SingleTypedIterable
| An_DoubleTypedIterable : Annotated true _ e_DoubleTypedIterable attributes_DoubleTypedIterable with_DoubleTypedIterable
| An_SingleTypedAsyncIterable : Annotated true _ e_SingleTypedAsyncIterable attributes_SingleTypedAsyncIterable with_SingleTypedAsyncIterable
| An_DoubleTypedAsyncIterable : Annotated true _ e_DoubleTypedAsyncIterable attributes_DoubleTypedAsyncIterable with_DoubleTypedAsyncIterable
| An_MaplikeInterfaceMember : Annotated true _ e_MaplikeInterfaceMember attributes_MaplikeInterfaceMember with_MaplikeInterfaceMember
| An_SetlikeInterfaceMember : Annotated true _ e_SetlikeInterfaceMember attributes_SetlikeInterfaceMember with_SetlikeInterfaceMember
| An_StringifierMember : Annotated true _ e_StringifierMember attributes_StringifierMember with_StringifierMember
| An_OperationMixinMember : Annotated true _ e_OperationMixinMember attributes_OperationMixinMember with_OperationMixinMember
| An_AttributeMixinMember : Annotated true _ e_AttributeMixinMember attributes_AttributeMixinMember with_AttributeMixinMember
| An_ConstNamespaceMember : Annotated true _ e_ConstNamespaceMember attributes_ConstNamespaceMember with_ConstNamespaceMember
| An_OperationNamespaceMember : Annotated true _ e_OperationNamespaceMember attributes_OperationNamespaceMember with_OperationNamespaceMember
| An_AttributeNamespaceMember : Annotated true _ e_AttributeNamespaceMember attributes_AttributeNamespaceMember with_AttributeNamespaceMember
| An_DictionaryMember : Annotated true _ e_DictionaryMember attributes_DictionaryMember with_DictionaryMember
| An_CallbackDefinition : Annotated true _ e_CallbackDefinition attributes_CallbackDefinition with_CallbackDefinition
| An_CallbackInterfaceDefinition : Annotated true _ e_CallbackInterfaceDefinition attributes_CallbackInterfaceDefinition with_CallbackInterfaceDefinition
| An_InterfaceDefinition : Annotated true _ e_InterfaceDefinition attributes_InterfaceDefinition with_InterfaceDefinition
| An_InterfaceMixinDefinition : Annotated true _ e_InterfaceMixinDefinition attributes_InterfaceMixinDefinition with_InterfaceMixinDefinition
| An_NamespaceDefinition : Annotated true _ e_NamespaceDefinition attributes_NamespaceDefinition with_NamespaceDefinition
| An_DictionaryDefinition : Annotated true _ e_DictionaryDefinition attributes_DictionaryDefinition with_DictionaryDefinition
| An_PartialInterfaceDefinition : Annotated true _ e_PartialInterfaceDefinition attributes_PartialInterfaceDefinition with_PartialInterfaceDefinition
| An_PartialInterfaceMixinDefinition : Annotated true _ e_PartialInterfaceMixinDefinition attributes_PartialInterfaceMixinDefinition with_PartialInterfaceMixinDefinition
| An_PartialDictionaryDefinition : Annotated true _ e_PartialDictionaryDefinition attributes_PartialDictionaryDefinition with_PartialDictionaryDefinition
| An_PartialNamespaceDefinition : Annotated true _ e_PartialNamespaceDefinition attributes_PartialNamespaceDefinition with_PartialNamespaceDefinition
| An_EnumDefinition : Annotated true _ e_EnumDefinition attributes_EnumDefinition with_EnumDefinition
| An_TypedefDefinition : Annotated true _ e_TypedefDefinition attributes_TypedefDefinition with_TypedefDefinition
| An_IncludesStatementDefinition : Annotated true _ e_IncludesStatementDefinition attributes_IncludesStatementDefinition with_IncludesStatementDefinition
| An_ImplementsDefinition : Annotated true _ e_ImplementsDefinition attributes_ImplementsDefinition with_ImplementsDefinition
| An_Argument : Annotated false _ e_Argument attributes_Argument with_Argument
| An_IterableInterfaceMember : Annotated true _ e_IterableInterfaceMember attributes_IterableInterfaceMember with_IterableInterfaceMember
| An_AsyncIterableInterfaceMember : Annotated true _ e_AsyncIterableInterfaceMember attributes_AsyncIterableInterfaceMember with_AsyncIterableInterfaceMember
| An_InterfaceMember : Annotated true _ e_InterfaceMember attributes_InterfaceMember with_InterfaceMember
| An_MixinMember : Annotated true _ e_MixinMember attributes_MixinMember with_MixinMember
| An_NamespaceMember : Annotated true _ e_NamespaceMember attributes_NamespaceMember with_NamespaceMember
| An_Definition_ : Annotated true _ e_Definition attributes_Definition_ with_Definition_.

(** ** Reading with and without *)
Definition Sets {A} n (set : A -> option ExtendedAttributeList -> A) a (p q : pexp A) : Prop := forall j,
  trun n A p j = match trun n A q j with Ok r x => Ok r (set x (Some a)) | Err e => Err e | Diverge => Diverge end.
Lemma Sets_bind A B n set a (p : pexp B) (f g : B -> pexp A) : (forall x, Sets n set a (f x) (g x)) -> Sets n set a (PBind p f) (PBind p g).
Proof. intros H j. rewrite !run_bind. unfold bind. destruct (trun n B p j) as [r x| |]; auto. apply H. Qed.
Lemma Sets_ret A n set a (x y : A) : x = set y (Some a) -> Sets n set a (PRet x) (PRet y).
Proof. intros -> j. rewrite !run_ret. reflexivity. Qed.
Definition Gets {A} n (get : A -> option ExtendedAttributeList) a (p : pexp A) : Prop := forall j r x, trun n A p j = Ok r x -> get x = a.
Lemma Gets_bind A B n get a (p : pexp B) (f : B -> pexp A) : (forall x, Gets n get a (f x)) -> Gets n get a (PBind p f).
Proof. intros H j r x. rewrite run_bind. unfold bind. destruct (trun n B p j) as [r' x'| |]; try discriminate. apply H. Qed.
Lemma Gets_ret A n get a (x : A) : get x = a -> Gets n get a (PRet x).
Proof. intros H j r y. rewrite run_ret. intros [= <- <-]. auto. Qed.
Ltac sets := repeat (apply Sets_bind; intros ?); apply Sets_ret; reflexivity.
Ltac gets := repeat (apply Gets_bind; intros ?); apply Gets_ret; reflexivity.

Section Fuel.
  Variable n : nat.

  (** The results of a parser behind the attributes [a] and without them. *)
  Definition Along {A} (get : A -> option ExtendedAttributeList) (set : A -> option ExtendedAttributeList -> A)
      (a : ExtendedAttributeList) (o o' : res text A) : Prop :=
    match o, o' with
    | Ok r x, Ok r' y => r = r' /\ get y = None /\ x = set y (Some a)
    | Err (Error _ _), Err (Error _ _) => True
    | Diverge, Diverge => True
    | _, _ => False
    end.
  Definition Transparent {A} (p : pexp A) get set : Prop := forall i r a pos k,
    trun n _ e_ExtendedAttributeList i = Ok r a -> trun n _ e_ExtendedAttributeList r = Err (Error pos k) ->
    Along get set a (trun n A p i) (trun n A p r).
  (** A parser that accepts with these attributes keeps them. *)
  Definition Keeps {A} (p : pexp A) (get : A -> option ExtendedAttributeList) : Prop := forall i r x,
    trun n A p i = Ok r x ->
    match get x with
    | Some a => exists j, trun n _ e_ExtendedAttributeList i = Ok j a
    | None => exists pos k, trun n _ e_ExtendedAttributeList i = Err (Error pos k)
    end.

  Lemma Transparent_map A B (f : A -> B) p get set get' set' : Transparent p get set ->
    (forall x, get' (f x) = get x) -> (forall x a, set' (f x) a = f (set x a)) -> Transparent (PMap f p) get' set'.
  Proof.
    intros H Hg Hs i r a pos k E E'. specialize (H i r a pos k E E'). unfold Along in *. unfold PMap. rewrite run_bind. unfold bind.
    destruct (trun n A p i) as [r1 x|[]|]; destruct (trun n A p r) as [r2 y|[]|]; try contradiction; auto.
    rewrite !run_ret. unfold ret. destruct H as (-> & H & ->). rewrite Hg, Hs. auto.
  Qed.
  Lemma Transparent_or A (p q : pexp A) get set : Transparent p get set -> Transparent q get set -> Transparent (POr p q) get set.
  Proof.
    intros H H' i r a pos k E E'. specialize (H i r a pos k E E'). specialize (H' i r a pos k E E'). rewrite run_or. unfold alt_or.
    unfold Along in *. destruct (trun n A p i) as [r1 x|[]|]; destruct (trun n A p r) as [r2 y|[]|]; try contradiction; auto.
  Qed.
  Lemma Transparent_end A get set : Transparent (@PEnd A) get set.
  Proof. intros i r a pos k _ _. rewrite run_end. exact Logic.I. Qed.
  Lemma Transparent_struct A (k : option ExtendedAttributeList -> pexp A) get set :
    (forall a, Sets n set a (k (Some a)) (k None)) -> Gets n get None (k None) ->
    Transparent (PBind e_attributes k) get set.
  Proof.
    intros Hk Hn i r a pos kk E E'. rewrite run_bind. unfold bind, e_attributes, e_Option. rewrite run_opt. unfold opt. rewrite E, E'.
    rewrite Hk. pose proof (trun_Good n A (k None) r) as HG. pose proof (Hn r) as H.
    destruct (trun n A (k None) r) as [r1 x|[]|]; cbn; auto.
    split; [auto|]. split; eauto.
  Qed.
  Lemma Keeps_map A B (f : A -> B) p get get' : Keeps p get -> (forall x, get' (f x) = get x) -> Keeps (PMap f p) get'.
  Proof.
    intros H Hg i r x. unfold PMap. rewrite run_bind. unfold bind. destruct (trun n A p i) as [r1 y| |] eqn:E; try discriminate.
    rewrite run_ret. unfold ret. intros [= <- <-]. rewrite Hg. apply H in E. exact E.
  Qed.
  Lemma Keeps_or A (p q : pexp A) get : Keeps p get -> Keeps q get -> Keeps (POr p q) get.
  Proof.
    intros H H' i r x. rewrite run_or. unfold alt_or. destruct (trun n A p i) as [r1 y|[]|] eqn:E; try discriminate.
    - intros [= <- <-]. apply H in E. exact E.
    - apply H'.
  Qed.
  Lemma Keeps_end A get : Keeps (@PEnd A) get.
  Proof. intros i r x. rewrite run_end. discriminate. Qed.
  Lemma Keeps_struct A (k : option ExtendedAttributeList -> pexp A) get :
    (forall a, Gets n get a (k a)) -> Keeps (PBind e_attributes k) get.
  Proof.
    intros Hk i r x. rewrite run_bind. unfold bind, e_attributes, e_Option. rewrite run_opt. unfold opt.
    destruct (trun n _ e_ExtendedAttributeList i) as [j a|[pos kk| |]|] eqn:E; try discriminate.
    - intros H. apply Hk in H. rewrite H. eauto.
    - intros H. apply Hk in H. rewrite H. eauto.
  Qed.
End Fuel.

Ltac annotated_struct E :=
  split; unfold E; [apply Transparent_struct; [intros a; sets|gets]
                   |apply Keeps_struct; intros a; gets].

Lemma annotated_AttributedType n : Transparent n e_AttributedType attributes_AttributedType with_AttributedType /\ Keeps n e_AttributedType attributes_AttributedType.
Proof. annotated_struct e_AttributedType. Qed.
Lemma annotated_AttributedNonAnyType n : Transparent n e_AttributedNonAnyType attributes_AttributedNonAnyType with_AttributedNonAnyType /\ Keeps n e_AttributedNonAnyType attributes_AttributedNonAnyType.
Proof. annotated_struct e_AttributedNonAnyType. Qed.
Lemma annotated_SingleArgument n : Transparent n e_SingleArgument attributes_SingleArgument with_SingleArgument /\ Keeps n e_SingleArgument attributes_SingleArgument.
Proof. annotated_struct e_SingleArgument. Qed.
Lemma annotated_VariadicArgument n : Transparent n e_VariadicArgument attributes_VariadicArgument with_VariadicArgument /\ Keeps n e_VariadicArgument attributes_VariadicArgument.
Proof. annotated_struct e_VariadicArgument. Qed.
Lemma annotated_ConstMember n : Transparent n e_ConstMember attributes_ConstMember with_ConstMember /\ Keeps n e_ConstMember attributes_ConstMember.
Proof. annotated_struct e_ConstMember. Qed.
Lemma annotated_AttributeInterfaceMember n : Transparent n e_AttributeInterfaceMember attributes_AttributeInterfaceMember with_AttributeInterfaceMember /\ Keeps n e_AttributeInterfaceMember attributes_AttributeInterfaceMember.
Proof. annotated_struct e_AttributeInterfaceMember. Qed.
Lemma annotated_ConstructorInterfaceMember n : Transparent n e_ConstructorInterfaceMember attributes_ConstructorInterfaceMember with_ConstructorInterfaceMember /\ Keeps n e_ConstructorInterfaceMember attributes_ConstructorInterfaceMember.
Proof. annotated_struct e_ConstructorInterfaceMember. Qed.
Lemma annotated_OperationInterfaceMember n : Transparent n e_OperationInterfaceMember attributes_OperationInterfaceMember with_OperationInterfaceMember /\ Keeps n e_OperationInterfaceMember attributes_OperationInterfaceMember.
Proof. annotated_struct e_OperationInterfaceMember. Qed.
Lemma annotated_SingleTypedIterable n : Transparent n e_SingleTypedIterable attributes_SingleTypedIterable with_SingleTypedIterable /\ Keeps n e_SingleTypedIterable attributes_SingleTypedIterable.
Proof. annotated_struct e_SingleTypedIterable. Qed.
Lemma annotated_DoubleTypedIterable n : Transparent n e_DoubleTypedIterable attributes_DoubleTypedIterable with_DoubleTypedIterable /\ Keeps n e_DoubleTypedIterable attributes_DoubleTypedIterable.
Proof. annotated_struct e_DoubleTypedIterable. Qed.
Lemma annotated_SingleTypedAsyncIterable n : Transparent n e_SingleTypedAsyncIterable attributes_SingleTypedAsyncIterable with_SingleTypedAsyncIterable /\ Keeps n e_SingleTypedAsyncIterable attributes_SingleTypedAsyncIterable.
Proof. annotated_struct e_SingleTypedAsyncIterable. Qed.
Lemma annotated_DoubleTypedAsyncIterable n : Transparent n e_DoubleTypedAsyncIterable attributes_DoubleTypedAsyncIterable with_DoubleTypedAsyncIterable /\ Keeps n e_DoubleTypedAsyncIterable attributes_DoubleTypedAsyncIterable.
Proof. annotated_struct e_DoubleTypedAsyncIterable. Qed.
Lemma annotated_MaplikeInterfaceMember n : Transparent n e_MaplikeInterfaceMember attributes_MaplikeInterfaceMember with_MaplikeInterfaceMember /\ Keeps n e_MaplikeInterfaceMember attributes_MaplikeInterfaceMember.
Proof. annotated_struct e_MaplikeInterfaceMember. Qed.
Lemma annotated_SetlikeInterfaceMember n : Transparent n e_SetlikeInterfaceMember attributes_SetlikeInterfaceMember with_SetlikeInterfaceMember /\ Keeps n e_SetlikeInterfaceMember attributes_SetlikeInterfaceMember.
Proof. annotated_struct e_SetlikeInterfaceMember. Qed.
Lemma annotated_StringifierMember n : Transparent n e_StringifierMember attributes_StringifierMember with_StringifierMember /\ Keeps n e_StringifierMember attributes_StringifierMember.
Proof. annotated_struct e_StringifierMember. Qed.
Lemma annotated_OperationMixinMember n : Transparent n e_OperationMixinMember attributes_OperationMixinMember with_OperationMixinMember /\ Keeps n e_OperationMixinMember attributes_OperationMixinMember.
Proof. annotated_struct e_OperationMixinMember. Qed.
Lemma annotated_AttributeMixinMember n : Transparent n e_AttributeMixinMember attributes_AttributeMixinMember with_AttributeMixinMember /\ Keeps n e_AttributeMixinMember attributes_AttributeMixinMember.
Proof. annotated_struct e_AttributeMixinMember. Qed.
Lemma annotated_ConstNamespaceMember n : Transparent n e_ConstNamespaceMember attributes_ConstNamespaceMember with_ConstNamespaceMember /\ Keeps n e_ConstNamespaceMember attributes_ConstNamespaceMember.
Proof. annotated_struct e_ConstNamespaceMember. Qed.
Lemma annotated_OperationNamespaceMember n : Transparent n e_OperationNamespaceMember attributes_OperationNamespaceMember with_OperationNamespaceMember /\ Keeps n e_OperationNamespaceMember attributes_OperationNamespaceMember.
Proof. annotated_struct e_OperationNamespaceMember. Qed.
Lemma annotated_AttributeNamespaceMember n : Transparent n e_AttributeNamespaceMember attributes_AttributeNamespaceMember with_AttributeNamespaceMember /\ Keeps n e_AttributeNamespaceMember attributes_AttributeNamespaceMember.
Proof. annotated_struct e_AttributeNamespaceMember. Qed.
Lemma annotated_DictionaryMember n : Transparent n e_DictionaryMember attributes_DictionaryMember with_DictionaryMember /\ Keeps n e_DictionaryMember attributes_DictionaryMember.
Proof. annotated_struct e_DictionaryMember. Qed.
Lemma annotated_CallbackDefinition n : Transparent n e_CallbackDefinition attributes_CallbackDefinition with_CallbackDefinition /\ Keeps n e_CallbackDefinition attributes_CallbackDefinition.
Proof. annotated_struct e_CallbackDefinition. Qed.
Lemma annotated_CallbackInterfaceDefinition n : Transparent n e_CallbackInterfaceDefinition attributes_CallbackInterfaceDefinition with_CallbackInterfaceDefinition /\ Keeps n e_CallbackInterfaceDefinition attributes_CallbackInterfaceDefinition.
Proof. annotated_struct e_CallbackInterfaceDefinition. Qed.
Lemma annotated_InterfaceDefinition n : Transparent n e_InterfaceDefinition attributes_InterfaceDefinition with_InterfaceDefinition /\ Keeps n e_InterfaceDefinition attributes_InterfaceDefinition.
Proof. annotated_struct e_InterfaceDefinition. Qed.
Lemma annotated_InterfaceMixinDefinition n : Transparent n e_InterfaceMixinDefinition attributes_InterfaceMixinDefinition with_InterfaceMixinDefinition /\ Keeps n e_InterfaceMixinDefinition attributes_InterfaceMixinDefinition.
Proof. annotated_struct e_InterfaceMixinDefinition. Qed.
Lemma annotated_NamespaceDefinition n : Transparent n e_NamespaceDefinition attributes_NamespaceDefinition with_NamespaceDefinition /\ Keeps n e_NamespaceDefinition attributes_NamespaceDefinition.
Proof. annotated_struct e_NamespaceDefinition. Qed.
Lemma annotated_DictionaryDefinition n : Transparent n e_DictionaryDefinition attributes_DictionaryDefinition with_DictionaryDefinition /\ Keeps n e_DictionaryDefinition attributes_DictionaryDefinition.
Proof. annotated_struct e_DictionaryDefinition. Qed.
Lemma annotated_PartialInterfaceDefinition n : Transparent n e_PartialInterfaceDefinition attributes_PartialInterfaceDefinition with_PartialInterfaceDefinition /\ Keeps n e_PartialInterfaceDefinition attributes_PartialInterfaceDefinition.
Proof. annotated_struct e_PartialInterfaceDefinition. Qed.
Lemma annotated_PartialInterfaceMixinDefinition n : Transparent n e_PartialInterfaceMixinDefinition attributes_PartialInterfaceMixinDefinition with_PartialInterfaceMixinDefinition /\ Keeps n e_PartialInterfaceMixinDefinition attributes_PartialInterfaceMixinDefinition.
Proof. annotated_struct e_PartialInterfaceMixinDefinition. Qed.
Lemma annotated_PartialDictionaryDefinition n : Transparent n e_PartialDictionaryDefinition attributes_PartialDictionaryDefinition with_PartialDictionaryDefinition /\ Keeps n e_PartialDictionaryDefinition attributes_PartialDictionaryDefinition.
Proof. annotated_struct e_PartialDictionaryDefinition. Qed.
Lemma annotated_PartialNamespaceDefinition n : Transparent n e_PartialNamespaceDefinition attributes_PartialNamespaceDefinition with_PartialNamespaceDefinition /\ Keeps n e_PartialNamespaceDefinition attributes_PartialNamespaceDefinition.
Proof. annotated_struct e_PartialNamespaceDefinition. Qed.
Lemma annotated_EnumDefinition n : Transparent n e_EnumDefinition attributes_EnumDefinition with_EnumDefinition /\ Keeps n e_EnumDefinition attributes_EnumDefinition.
Proof. annotated_struct e_EnumDefinition. Qed.
Lemma annotated_TypedefDefinition n : Transparent n e_TypedefDefinition attributes_TypedefDefinition with_TypedefDefinition /\ Keeps n e_TypedefDefinition attributes_TypedefDefinition.
Proof. annotated_struct e_TypedefDefinition. Qed.
Lemma annotated_IncludesStatementDefinition n : Transparent n e_IncludesStatementDefinition attributes_IncludesStatementDefinition with_IncludesStatementDefinition /\ Keeps n e_IncludesStatementDefinition attributes_IncludesStatementDefinition.
Proof. annotated_struct e_IncludesStatementDefinition. Qed.
Lemma annotated_ImplementsDefinition n : Transparent n e_ImplementsDefinition attributes_ImplementsDefinition with_ImplementsDefinition /\ Keeps n e_ImplementsDefinition attributes_ImplementsDefinition.
Proof. annotated_struct e_ImplementsDefinition. Qed.
Lemma annotated_Argument n : Transparent n e_Argument attributes_Argument with_Argument /\ Keeps n e_Argument attributes_Argument.
Proof.
  unfold e_Argument. cbn [PAlt]. split.
  - apply Transparent_or; [eapply Transparent_map; [apply annotated_SingleArgument|reflexivity|reflexivity]|].
    apply Transparent_or; [eapply Transparent_map; [apply annotated_VariadicArgument|reflexivity|reflexivity]|]. apply Transparent_end.
  - apply Keeps_or; [eapply Keeps_map; [apply annotated_SingleArgument|reflexivity]|].
    apply Keeps_or; [eapply Keeps_map; [apply annotated_VariadicArgument|reflexivity]|]. apply Keeps_end.
Qed.
Lemma annotated_IterableInterfaceMember n : Transparent n e_IterableInterfaceMember attributes_IterableInterfaceMember with_IterableInterfaceMember /\ Keeps n e_IterableInterfaceMember attributes_IterableInterfaceMember.
Proof.
  unfold e_IterableInterfaceMember. cbn [PAlt]. split.
  - apply Transparent_or; [eapply Transparent_map; [apply annotated_SingleTypedIterable|reflexivity|reflexivity]|].
    apply Transparent_or; [eapply Transparent_map; [apply annotated_DoubleTypedIterable|reflexivity|reflexivity]|]. apply Transparent_end.
  - apply Keeps_or; [eapply Keeps_map; [apply annotated_SingleTypedIterable|reflexivity]|].
    apply Keeps_or; [eapply Keeps_map; [apply annotated_DoubleTypedIterable|reflexivity]|]. apply Keeps_end.
Qed.
Lemma annotated_AsyncIterableInterfaceMember n : Transparent n e_AsyncIterableInterfaceMember attributes_AsyncIterableInterfaceMember with_AsyncIterableInterfaceMember /\ Keeps n e_AsyncIterableInterfaceMember attributes_AsyncIterableInterfaceMember.
Proof.
  unfold e_AsyncIterableInterfaceMember. cbn [PAlt]. split.
  - apply Transparent_or; [eapply Transparent_map; [apply annotated_SingleTypedAsyncIterable|reflexivity|reflexivity]|].
    apply Transparent_or; [eapply Transparent_map; [apply annotated_DoubleTypedAsyncIterable|reflexivity|reflexivity]|]. apply Transparent_end.
  - apply Keeps_or; [eapply Keeps_map; [apply annotated_SingleTypedAsyncIterable|reflexivity]|].
    apply Keeps_or; [eapply Keeps_map; [apply annotated_DoubleTypedAsyncIterable|reflexivity]|]. apply Keeps_end.
Qed.
Lemma annotated_InterfaceMember n : Transparent n e_InterfaceMember attributes_InterfaceMember with_InterfaceMember /\ Keeps n e_InterfaceMember attributes_InterfaceMember.
Proof.
  unfold e_InterfaceMember. cbn [PAlt]. split.
  - apply Transparent_or; [eapply Transparent_map; [apply annotated_ConstMember|reflexivity|reflexivity]|].
    apply Transparent_or; [eapply Transparent_map; [apply annotated_AttributeInterfaceMember|reflexivity|reflexivity]|].
    apply Transparent_or; [eapply Transparent_map; [apply annotated_ConstructorInterfaceMember|reflexivity|reflexivity]|].
    apply Transparent_or; [eapply Transparent_map; [apply annotated_OperationInterfaceMember|reflexivity|reflexivity]|].
    apply Transparent_or; [eapply Transparent_map; [apply annotated_IterableInterfaceMember|reflexivity|reflexivity]|].
    apply Transparent_or; [eapply Transparent_map; [apply annotated_AsyncIterableInterfaceMember|reflexivity|reflexivity]|].
    apply Transparent_or; [eapply Transparent_map; [apply annotated_MaplikeInterfaceMember|reflexivity|reflexivity]|].
    apply Transparent_or; [eapply Transparent_map; [apply annotated_SetlikeInterfaceMember|reflexivity|reflexivity]|].
    apply Transparent_or; [eapply Transparent_map; [apply annotated_StringifierMember|reflexivity|reflexivity]|]. apply Transparent_end.
  - apply Keeps_or; [eapply Keeps_map; [apply annotated_ConstMember|reflexivity]|].
    apply Keeps_or; [eapply Keeps_map; [apply annotated_AttributeInterfaceMember|reflexivity]|].
    apply Keeps_or; [eapply Keeps_map; [apply annotated_ConstructorInterfaceMember|reflexivity]|].
    apply Keeps_or; [eapply Keeps_map; [apply annotated_OperationInterfaceMember|reflexivity]|].
    apply Keeps_or; [eapply Keeps_map; [apply annotated_IterableInterfaceMember|reflexivity]|].
    apply Keeps_or; [eapply Keeps_map; [apply annotated_AsyncIterableInterfaceMember|reflexivity]|].
    apply Keeps_or; [eapply Keeps_map; [apply annotated_MaplikeInterfaceMember|reflexivity]|].
    apply Keeps_or; [eapply Keeps_map; [apply annotated_SetlikeInterfaceMember|reflexivity]|].
    apply Keeps_or; [eapply Keeps_map; [apply annotated_StringifierMember|reflexivity]|]. apply Keeps_end.
Qed.
Lemma annotated_MixinMember n : Transparent n e_MixinMember attributes_MixinMember with_MixinMember /\ Keeps n e_MixinMember attributes_MixinMember.
Proof.
  unfold e_MixinMember. cbn [PAlt]. split.
  - apply Transparent_or; [eapply Transparent_map; [apply annotated_ConstMember|reflexivity|reflexivity]|].
    apply Transparent_or; [eapply Transparent_map; [apply annotated_OperationMixinMember|reflexivity|reflexivity]|].
    apply Transparent_or; [eapply Transparent_map; [apply annotated_AttributeMixinMember|reflexivity|reflexivity]|].
    apply Transparent_or; [eapply Transparent_map; [apply annotated_StringifierMember|reflexivity|reflexivity]|]. apply Transparent_end.
  - apply Keeps_or; [eapply Keeps_map; [apply annotated_ConstMember|reflexivity]|].
    apply Keeps_or; [eapply Keeps_map; [apply annotated_OperationMixinMember|reflexivity]|].
    apply Keeps_or; [eapply Keeps_map; [apply annotated_AttributeMixinMember|reflexivity]|].
    apply Keeps_or; [eapply Keeps_map; [apply annotated_StringifierMember|reflexivity]|]. apply Keeps_end.
Qed.
Lemma annotated_NamespaceMember n : Transparent n e_NamespaceMember attributes_NamespaceMember with_NamespaceMember /\ Keeps n e_NamespaceMember attributes_NamespaceMember.
Proof.
  unfold e_NamespaceMember. cbn [PAlt]. split.
  - apply Transparent_or; [eapply Transparent_map; [apply annotated_ConstNamespaceMember|reflexivity|reflexivity]|].
    apply Transparent_or; [eapply Transparent_map; [apply annotated_OperationNamespaceMember|reflexivity|reflexivity]|].
    apply Transparent_or; [eapply Transparent_map; [apply annotated_AttributeNamespaceMember|reflexivity|reflexivity]|]. apply Transparent_end.
  - apply Keeps_or; [eapply Keeps_map; [apply annotated_ConstNamespaceMember|reflexivity]|].
    apply Keeps_or; [eapply Keeps_map; [apply annotated_OperationNamespaceMember|reflexivity]|].
    apply Keeps_or; [eapply Keeps_map; [apply annotated_AttributeNamespaceMember|reflexivity]|]. apply Keeps_end.
Qed.
Lemma annotated_Definition_ n : Transparent n e_Definition attributes_Definition_ with_Definition_ /\ Keeps n e_Definition attributes_Definition_.
Proof.
  unfold e_Definition. cbn [PAlt]. split.
  - apply Transparent_or; [eapply Transparent_map; [apply annotated_CallbackDefinition|reflexivity|reflexivity]|].
    apply Transparent_or; [eapply Transparent_map; [apply annotated_CallbackInterfaceDefinition|reflexivity|reflexivity]|].
    apply Transparent_or; [eapply Transparent_map; [apply annotated_InterfaceDefinition|reflexivity|reflexivity]|].
    apply Transparent_or; [eapply Transparent_map; [apply annotated_InterfaceMixinDefinition|reflexivity|reflexivity]|].
    apply Transparent_or; [eapply Transparent_map; [apply annotated_NamespaceDefinition|reflexivity|reflexivity]|].
    apply Transparent_or; [eapply Transparent_map; [apply annotated_DictionaryDefinition|reflexivity|reflexivity]|].
    apply Transparent_or; [eapply Transparent_map; [apply annotated_PartialInterfaceDefinition|reflexivity|reflexivity]|].
    apply Transparent_or; [eapply Transparent_map; [apply annotated_PartialInterfaceMixinDefinition|reflexivity|reflexivity]|].
    apply Transparent_or; [eapply Transparent_map; [apply annotated_PartialDictionaryDefinition|reflexivity|reflexivity]|].
    apply Transparent_or; [eapply Transparent_map; [apply annotated_PartialNamespaceDefinition|reflexivity|reflexivity]|].
    apply Transparent_or; [eapply Transparent_map; [apply annotated_EnumDefinition|reflexivity|reflexivity]|].
    apply Transparent_or; [eapply Transparent_map; [apply annotated_TypedefDefinition|reflexivity|reflexivity]|].
    apply Transparent_or; [eapply Transparent_map; [apply annotated_IncludesStatementDefinition|reflexivity|reflexivity]|].
    apply Transparent_or; [eapply Transparent_map; [apply annotated_ImplementsDefinition|reflexivity|reflexivity]|]. apply Transparent_end.
  - apply Keeps_or; [eapply Keeps_map; [apply annotated_CallbackDefinition|reflexivity]|].
    apply Keeps_or; [eapply Keeps_map; [apply annotated_CallbackInterfaceDefinition|reflexivity]|].
    apply Keeps_or; [eapply Keeps_map; [apply annotated_InterfaceDefinition|reflexivity]|].
    apply Keeps_or; [eapply Keeps_map; [apply annotated_InterfaceMixinDefinition|reflexivity]|].
    apply Keeps_or; [eapply Keeps_map; [apply annotated_NamespaceDefinition|reflexivity]|].
    apply Keeps_or; [eapply Keeps_map; [apply annotated_DictionaryDefinition|reflexivity]|].
    apply Keeps_or; [eapply Keeps_map; [apply annotated_PartialInterfaceDefinition|reflexivity]|].
    apply Keeps_or; [eapply Keeps_map; [apply annotated_PartialInterfaceMixinDefinition|reflexivity]|].
    apply Keeps_or; [eapply Keeps_map; [apply annotated_PartialDictionaryDefinition|reflexivity]|].
    apply Keeps_or; [eapply Keeps_map; [apply annotated_PartialNamespaceDefinition|reflexivity]|].
    apply Keeps_or; [eapply Keeps_map; [apply annotated_EnumDefinition|reflexivity]|].
    apply Keeps_or; [eapply Keeps_map; [apply annotated_TypedefDefinition|reflexivity]|].
    apply Keeps_or; [eapply Keeps_map; [apply annotated_IncludesStatementDefinition|reflexivity]|].
    apply Keeps_or; [eapply Keeps_map; [apply annotated_ImplementsDefinition|reflexivity]|]. apply Keeps_end.
Qed.

(** ** Two lists in a row *)
Definition Once n {A} (p : pexp A) : Prop := forall i r r' a b r'' x,
  trun n _ e_ExtendedAttributeList i = Ok r a -> trun n _ e_ExtendedAttributeList r = Ok r' b -> trun n A p i <> Ok r'' x.
(** Reading [p] from an opening bracket fails. *)
Definition NoBracket {A} (p : pexp A) : Prop := Plain p /\ forall m us, exists e, krun (20 + m) A p (TPunct "[" :: us) = Err e.

Lemma AL_Plain : Plain e_ExtendedAttributeList. Proof. exact Plain_e_attributes. Qed.
Lemma NoBracket_no n A (p : pexp A) i r a r' x : NoBracket p -> trun n _ e_ExtendedAttributeList i = Ok r a -> trun n A p i <> Ok r' x.
Proof.
  intros [HP Hb] E E'. destruct (tokenize i) as (ts & r0 & H0 & HR).
  pose proof (run_Sim r0 H0 n _ _ AL_Plain i ts HR) as H. rewrite E in H. unfold SimR in H.
  destruct (krun n _ e_ExtendedAttributeList ts) as [ts' a'| |] eqn:Ek; try contradiction.
  unfold e_ExtendedAttributeList, e_Bracketed in Ek. rewrite run_bind in Ek. unfold bind in Ek.
  destruct (krun n _ (T_ OpenBracket) ts) as [us []| |] eqn:Et; try discriminate. apply kr_term in Et. subst ts.
  pose proof (run_Sim r0 H0 n _ _ HP i _ HR) as H'. rewrite E' in H'. unfold SimR in H'.
  destruct (krun n A p (_ :: us)) as [us' x'| |] eqn:Ep; try contradiction.
  apply krun_mono with (m := 20 + n) in Ep; [|lia|discriminate]. destruct (Hb n us) as (e & Hb'). unfold term_tok in Ep. cbn in Hb', Ep. congruence.
Qed.
Lemma Once_struct n A (k : option ExtendedAttributeList -> pexp A) : (forall a, NoBracket (k a)) -> Once n (PBind e_attributes k).
Proof.
  intros H i r r' a b r'' x E E'. rewrite run_bind. unfold bind, e_attributes, e_Option. rewrite run_opt. unfold opt. rewrite E.
  eapply NoBracket_no; eauto.
Qed.
Lemma Once_map n A B (f : A -> B) (p : pexp A) : Once n p -> Once n (PMap f p).
Proof.
  intros H i r r' a b r'' x E E'. unfold PMap. rewrite run_bind. unfold bind. specialize (H i r r' a b). 
  destruct (trun n A p i) as [r1 y| |]; try discriminate. exfalso. eapply H; eauto.
Qed.
Lemma Once_or n A (p q : pexp A) : Once n p -> Once n q -> Once n (POr p q).
Proof.
  intros H H' i r r' a b r'' x E E'. rewrite run_or. unfold alt_or. specialize (H i r r' a b). specialize (H' i r r' a b).
  destruct (trun n A p i) as [r1 y|[]|]; try discriminate; eauto.
Qed.
Lemma Once_end n A : Once n (@PEnd A).
Proof. intros i r r' a b r'' x _ _. rewrite run_end. discriminate. Qed.

Lemma once_AttributedType n : Once n e_AttributedType.
Proof. unfold e_AttributedType. apply Once_struct. intros a. split; [solve [plain1]||solve [cbn; plains]|intros m us; eexists; vm_compute; reflexivity]. Qed.
Lemma once_AttributedNonAnyType n : Once n e_AttributedNonAnyType.
Proof. unfold e_AttributedNonAnyType. apply Once_struct. intros a. split; [solve [plain1]||solve [cbn; plains]|intros m us; eexists; vm_compute; reflexivity]. Qed.
Lemma once_VariadicArgument n : Once n e_VariadicArgument.
Proof. unfold e_VariadicArgument. apply Once_struct. intros a. split; [solve [plain1]||solve [cbn; plains]|intros m us; eexists; vm_compute; reflexivity]. Qed.
Lemma once_ConstMember n : Once n e_ConstMember.
Proof. unfold e_ConstMember. apply Once_struct. intros a. split; [solve [plain1]||solve [cbn; plains]|intros m us; eexists; vm_compute; reflexivity]. Qed.
Lemma once_AttributeInterfaceMember n : Once n e_AttributeInterfaceMember.
Proof. unfold e_AttributeInterfaceMember. apply Once_struct. intros a. split; [solve [plain1]||solve [cbn; plains]|intros m us; eexists; vm_compute; reflexivity]. Qed.
Lemma once_ConstructorInterfaceMember n : Once n e_ConstructorInterfaceMember.
Proof. unfold e_ConstructorInterfaceMember. apply Once_struct. intros a. split; [solve [plain1]||solve [cbn; plains]|intros m us; eexists; vm_compute; reflexivity]. Qed.
Lemma once_OperationInterfaceMember n : Once n e_OperationInterfaceMember.
Proof. unfold e_OperationInterfaceMember. apply Once_struct. intros a. split; [solve [plain1]||solve [cbn; plains]|intros m us; eexists; vm_compute; reflexivity]. Qed.
Lemma once_SingleTypedIterable n : Once n e_SingleTypedIterable.
Proof. unfold e_SingleTypedIterable. apply Once_struct. intros a. split; [solve [plain1]||solve [cbn; plains]|intros m us; eexists; vm_compute; reflexivity]. Qed.
Lemma once_DoubleTypedIterable n : Once n e_DoubleTypedIterable.
Proof. unfold e_DoubleTypedIterable. apply Once_struct. intros a. split; [solve [plain1]||solve [cbn; plains]|intros m us; eexists; vm_compute; reflexivity]. Qed.
Lemma once_SingleTypedAsyncIterable n : Once n e_SingleTypedAsyncIterable.
Proof. unfold e_SingleTypedAsyncIterable. apply Once_struct. intros a. split; [solve [plain1]||solve [cbn; plains]|intros m us; eexists; vm_compute; reflexivity]. Qed.
Lemma once_DoubleTypedAsyncIterable n : Once n e_DoubleTypedAsyncIterable.
Proof. unfold e_DoubleTypedAsyncIterable. apply Once_struct. intros a. split; [solve [plain1]||solve [cbn; plains]|intros m us; eexists; vm_compute; reflexivity]. Qed.
Lemma once_MaplikeInterfaceMember n : Once n e_MaplikeInterfaceMember.
Proof. unfold e_MaplikeInterfaceMember. apply Once_struct. intros a. split; [solve [plain1]||solve [cbn; plains]|intros m us; eexists; vm_compute; reflexivity]. Qed.
Lemma once_SetlikeInterfaceMember n : Once n e_SetlikeInterfaceMember.
Proof. unfold e_SetlikeInterfaceMember. apply Once_struct. intros a. split; [solve [plain1]||solve [cbn; plains]|intros m us; eexists; vm_compute; reflexivity]. Qed.
Lemma once_StringifierMember n : Once n e_StringifierMember.
Proof. unfold e_StringifierMember. apply Once_struct. intros a. split; [solve [plain1]||solve [cbn; plains]|intros m us; eexists; vm_compute; reflexivity]. Qed.
Lemma once_OperationMixinMember n : Once n e_OperationMixinMember.
Proof. unfold e_OperationMixinMember. apply Once_struct. intros a. split; [solve [plain1]||solve [cbn; plains]|intros m us; eexists; vm_compute; reflexivity]. Qed.
Lemma once_AttributeMixinMember n : Once n e_AttributeMixinMember.
Proof. unfold e_AttributeMixinMember. apply Once_struct. intros a. split; [solve [plain1]||solve [cbn; plains]|intros m us; eexists; vm_compute; reflexivity]. Qed.
Lemma once_ConstNamespaceMember n : Once n e_ConstNamespaceMember.
Proof. unfold e_ConstNamespaceMember. apply Once_struct. intros a. split; [solve [plain1]||solve [cbn; plains]|intros m us; eexists; vm_compute; reflexivity]. Qed.
Lemma once_OperationNamespaceMember n : Once n e_OperationNamespaceMember.
Proof. unfold e_OperationNamespaceMember. apply Once_struct. intros a. split; [solve [plain1]||solve [cbn; plains]|intros m us; eexists; vm_compute; reflexivity]. Qed.
Lemma once_AttributeNamespaceMember n : Once n e_AttributeNamespaceMember.
Proof. unfold e_AttributeNamespaceMember. apply Once_struct. intros a. split; [solve [plain1]||solve [cbn; plains]|intros m us; eexists; vm_compute; reflexivity]. Qed.
Lemma once_DictionaryMember n : Once n e_DictionaryMember.
Proof. unfold e_DictionaryMember. apply Once_struct. intros a. split; [solve [plain1]||solve [cbn; plains]|intros m us; eexists; vm_compute; reflexivity]. Qed.
Lemma once_CallbackDefinition n : Once n e_CallbackDefinition.
Proof. unfold e_CallbackDefinition. apply Once_struct. intros a. split; [solve [plain1]||solve [cbn; plains]|intros m us; eexists; vm_compute; reflexivity]. Qed.
Lemma once_CallbackInterfaceDefinition n : Once n e_CallbackInterfaceDefinition.
Proof. unfold e_CallbackInterfaceDefinition. apply Once_struct. intros a. split; [solve [plain1]||solve [cbn; plains]|intros m us; eexists; vm_compute; reflexivity]. Qed.
Lemma once_InterfaceDefinition n : Once n e_InterfaceDefinition.
Proof. unfold e_InterfaceDefinition. apply Once_struct. intros a. split; [solve [plain1]||solve [cbn; plains]|intros m us; eexists; vm_compute; reflexivity]. Qed.
Lemma once_InterfaceMixinDefinition n : Once n e_InterfaceMixinDefinition.
Proof. unfold e_InterfaceMixinDefinition. apply Once_struct. intros a. split; [solve [plain1]||solve [cbn; plains]|intros m us; eexists; vm_compute; reflexivity]. Qed.
Lemma once_NamespaceDefinition n : Once n e_NamespaceDefinition.
Proof. unfold e_NamespaceDefinition. apply Once_struct. intros a. split; [solve [plain1]||solve [cbn; plains]|intros m us; eexists; vm_compute; reflexivity]. Qed.
Lemma once_DictionaryDefinition n : Once n e_DictionaryDefinition.
Proof. unfold e_DictionaryDefinition. apply Once_struct. intros a. split; [solve [plain1]||solve [cbn; plains]|intros m us; eexists; vm_compute; reflexivity]. Qed.
Lemma once_PartialInterfaceDefinition n : Once n e_PartialInterfaceDefinition.
Proof. unfold e_PartialInterfaceDefinition. apply Once_struct. intros a. split; [solve [plain1]||solve [cbn; plains]|intros m us; eexists; vm_compute; reflexivity]. Qed.
Lemma once_PartialInterfaceMixinDefinition n : Once n e_PartialInterfaceMixinDefinition.
Proof. unfold e_PartialInterfaceMixinDefinition. apply Once_struct. intros a. split; [solve [plain1]||solve [cbn; plains]|intros m us; eexists; vm_compute; reflexivity]. Qed.
Lemma once_PartialDictionaryDefinition n : Once n e_PartialDictionaryDefinition.
Proof. unfold e_PartialDictionaryDefinition. apply Once_struct. intros a. split; [solve [plain1]||solve [cbn; plains]|intros m us; eexists; vm_compute; reflexivity]. Qed.
Lemma once_PartialNamespaceDefinition n : Once n e_PartialNamespaceDefinition.
Proof. unfold e_PartialNamespaceDefinition. apply Once_struct. intros a. split; [solve [plain1]||solve [cbn; plains]|intros m us; eexists; vm_compute; reflexivity]. Qed.
Lemma once_EnumDefinition n : Once n e_EnumDefinition.
Proof. unfold e_EnumDefinition. apply Once_struct. intros a. split; [solve [plain1]||solve [cbn; plains]|intros m us; eexists; vm_compute; reflexivity]. Qed.
Lemma once_TypedefDefinition n : Once n e_TypedefDefinition.
Proof. unfold e_TypedefDefinition. apply Once_struct. intros a. split; [solve [plain1]||solve [cbn; plains]|intros m us; eexists; vm_compute; reflexivity]. Qed.
Lemma once_IncludesStatementDefinition n : Once n e_IncludesStatementDefinition.
Proof. unfold e_IncludesStatementDefinition. apply Once_struct. intros a. split; [solve [plain1]||solve [cbn; plains]|intros m us; eexists; vm_compute; reflexivity]. Qed.
Lemma once_ImplementsDefinition n : Once n e_ImplementsDefinition.
Proof. unfold e_ImplementsDefinition. apply Once_struct. intros a. split; [solve [plain1]||solve [cbn; plains]|intros m us; eexists; vm_compute; reflexivity]. Qed.
Lemma once_IterableInterfaceMember n : Once n e_IterableInterfaceMember.
Proof.
  unfold e_IterableInterfaceMember. cbn [PAlt].
  apply Once_or; [apply Once_map, once_SingleTypedIterable|].
  apply Once_or; [apply Once_map, once_DoubleTypedIterable|]. apply Once_end.
Qed.
Lemma once_AsyncIterableInterfaceMember n : Once n e_AsyncIterableInterfaceMember.
Proof.
  unfold e_AsyncIterableInterfaceMember. cbn [PAlt].
  apply Once_or; [apply Once_map, once_SingleTypedAsyncIterable|].
  apply Once_or; [apply Once_map, once_DoubleTypedAsyncIterable|]. apply Once_end.
Qed.
Lemma once_InterfaceMember n : Once n e_InterfaceMember.
Proof.
  unfold e_InterfaceMember. cbn [PAlt].
  apply Once_or; [apply Once_map, once_ConstMember|].
  apply Once_or; [apply Once_map, once_AttributeInterfaceMember|].
  apply Once_or; [apply Once_map, once_ConstructorInterfaceMember|].
  apply Once_or; [apply Once_map, once_OperationInterfaceMember|].
  apply Once_or; [apply Once_map, once_IterableInterfaceMember|].
  apply Once_or; [apply Once_map, once_AsyncIterableInterfaceMember|].
  apply Once_or; [apply Once_map, once_MaplikeInterfaceMember|].
  apply Once_or; [apply Once_map, once_SetlikeInterfaceMember|].
  apply Once_or; [apply Once_map, once_StringifierMember|]. apply Once_end.
Qed.
Lemma once_MixinMember n : Once n e_MixinMember.
Proof.
  unfold e_MixinMember. cbn [PAlt].
  apply Once_or; [apply Once_map, once_ConstMember|].
  apply Once_or; [apply Once_map, once_OperationMixinMember|].
  apply Once_or; [apply Once_map, once_AttributeMixinMember|].
  apply Once_or; [apply Once_map, once_StringifierMember|]. apply Once_end.
Qed.
Lemma once_NamespaceMember n : Once n e_NamespaceMember.
Proof.
  unfold e_NamespaceMember. cbn [PAlt].
  apply Once_or; [apply Once_map, once_ConstNamespaceMember|].
  apply Once_or; [apply Once_map, once_OperationNamespaceMember|].
  apply Once_or; [apply Once_map, once_AttributeNamespaceMember|]. apply Once_end.
Qed.
Lemma once_Definition_ n : Once n e_Definition.
Proof.
  unfold e_Definition. cbn [PAlt].
  apply Once_or; [apply Once_map, once_CallbackDefinition|].
  apply Once_or; [apply Once_map, once_CallbackInterfaceDefinition|].
  apply Once_or; [apply Once_map, once_InterfaceDefinition|].
  apply Once_or; [apply Once_map, once_InterfaceMixinDefinition|].
  apply Once_or; [apply Once_map, once_NamespaceDefinition|].
  apply Once_or; [apply Once_map, once_DictionaryDefinition|].
  apply Once_or; [apply Once_map, once_PartialInterfaceDefinition|].
  apply Once_or; [apply Once_map, once_PartialInterfaceMixinDefinition|].
  apply Once_or; [apply Once_map, once_PartialDictionaryDefinition|].
  apply Once_or; [apply Once_map, once_PartialNamespaceDefinition|].
  apply Once_or; [apply Once_map, once_EnumDefinition|].
  apply Once_or; [apply Once_map, once_TypedefDefinition|].
  apply Once_or; [apply Once_map, once_IncludesStatementDefinition|].
  apply Once_or; [apply Once_map, once_ImplementsDefinition|]. apply Once_end.
Qed.

(** ** All of them *)
Lemma Annotated_Impl b A p get set : Annotated b A p get set -> Impl true A p.
Proof. destruct 1; constructor. Qed.
Lemma Annotated_run b A p get set n : Annotated b A p get set -> Transparent n p get set /\ Keeps n p get.
Proof.
  destruct 1; [apply annotated_AttributedType|apply annotated_AttributedNonAnyType|apply annotated_SingleArgument|apply annotated_VariadicArgument|apply annotated_ConstMember|apply annotated_AttributeInterfaceMember|apply annotated_ConstructorInterfaceMember|apply annotated_OperationInterfaceMember|apply annotated_SingleTypedIterable|apply annotated_DoubleTypedIterable|apply annotated_SingleTypedAsyncIterable|apply annotated_DoubleTypedAsyncIterable|apply annotated_MaplikeInterfaceMember|apply annotated_SetlikeInterfaceMember|apply annotated_StringifierMember|apply annotated_OperationMixinMember|apply annotated_AttributeMixinMember|apply annotated_ConstNamespaceMember|apply annotated_OperationNamespaceMember|apply annotated_AttributeNamespaceMember|apply annotated_DictionaryMember|apply annotated_CallbackDefinition|apply annotated_CallbackInterfaceDefinition|apply annotated_InterfaceDefinition|apply annotated_InterfaceMixinDefinition|apply annotated_NamespaceDefinition|apply annotated_DictionaryDefinition|apply annotated_PartialInterfaceDefinition|apply annotated_PartialInterfaceMixinDefinition|apply annotated_PartialDictionaryDefinition|apply annotated_PartialNamespaceDefinition|apply annotated_EnumDefinition|apply annotated_TypedefDefinition|apply annotated_IncludesStatementDefinition|apply annotated_ImplementsDefinition|apply annotated_Argument|apply annotated_IterableInterfaceMember|apply annotated_AsyncIterableInterfaceMember|apply annotated_InterfaceMember|apply annotated_MixinMember|apply annotated_NamespaceMember|apply annotated_Definition_].
Qed.
Lemma Annotated_once b A p get set n : Annotated b A p get set -> b = true -> Once n p.
Proof.
  destruct 1; intros Hb; try discriminate; [apply once_AttributedType|apply once_AttributedNonAnyType|apply once_VariadicArgument|apply once_ConstMember|apply once_AttributeInterfaceMember|apply once_ConstructorInterfaceMember|apply once_OperationInterfaceMember|apply once_SingleTypedIterable|apply once_DoubleTypedIterable|apply once_SingleTypedAsyncIterable|apply once_DoubleTypedAsyncIterable|apply once_MaplikeInterfaceMember|apply once_SetlikeInterfaceMember|apply once_StringifierMember|apply once_OperationMixinMember|apply once_AttributeMixinMember|apply once_ConstNamespaceMember|apply once_OperationNamespaceMember|apply once_AttributeNamespaceMember|apply once_DictionaryMember|apply once_CallbackDefinition|apply once_CallbackInterfaceDefinition|apply once_InterfaceDefinition|apply once_InterfaceMixinDefinition|apply once_NamespaceDefinition|apply once_DictionaryDefinition|apply once_PartialInterfaceDefinition|apply once_PartialInterfaceMixinDefinition|apply once_PartialDictionaryDefinition|apply once_PartialNamespaceDefinition|apply once_EnumDefinition|apply once_TypedefDefinition|apply once_IncludesStatementDefinition|apply once_ImplementsDefinition|apply once_IterableInterfaceMember|apply once_AsyncIterableInterfaceMember|apply once_InterfaceMember|apply once_MixinMember|apply once_NamespaceMember|apply once_Definition_].
Qed.
Lemma Annotated_get b A p get set : Annotated b A p get set -> forall x a, get (set x a) = a.
Proof. destruct 1; intros x a; repeat (destruct x as [x|x] || destruct x); reflexivity. Qed.
Lemma Annotated_set b A p get set : Annotated b A p get set -> forall x a, set (set x a) (get x) = x.
Proof. destruct 1; intros x a; repeat (destruct x as [x|x] || destruct x); reflexivity. Qed.
Lemma Annotated_set_get b A p get set : Annotated b A p get set -> forall x, set x (get x) = x.
Proof. destruct 1; intros x; repeat (destruct x as [x|x] || destruct x); reflexivity. Qed.
Lemma Annotated_set_set b A p get set : Annotated b A p get set -> forall x a a', set (set x a) a' = set x a'.
Proof. destruct 1; intros x a a'; repeat (destruct x as [x|x] || destruct x); reflexivity. Qed.

Lemma run_at b A (p : pexp A) (i r : text) : Impl b A p -> length r <= length i -> trun (S (length i)) A p r = parse_as p r.
Proof. intros H Hl. eapply run_parse; eauto. lia. Qed.

Section All.
  Context {A : Type} {b : bool} {p : pexp A} {get : A -> option ExtendedAttributeList} {set : A -> option ExtendedAttributeList -> A}.
  Hypothesis HA : Annotated b A p get set.

  (** An item with attributes is the item that follows them. *)
  Theorem attributes_transparent i r a : parse_as e_ExtendedAttributeList i = Ok r a -> Fails (parse_as e_ExtendedAttributeList) r ->
    forall rest x, parse_as p i = Ok rest x <-> exists y, parse_as p r = Ok rest y /\ get y = None /\ x = set y (Some a).
  Proof.
    intros E (pos & k & E') rest x. pose proof (parse_consumes _ _ _ _ _ I_ExtendedAttributeList E) as Hl.
    rewrite <- (run_at _ _ _ i r I_ExtendedAttributeList) in E' by lia.
    destruct (Annotated_run _ _ _ _ _ (S (length i)) HA) as [HT _]. specialize (HT i r a pos k E E'). unfold Along in HT.
    rewrite (run_at _ _ _ i r (Annotated_Impl _ _ _ _ _ HA)) in HT by lia. fold (parse_as p i) in HT.
    destruct (parse_as p i) as [r1 x1|[]|]; destruct (parse_as p r) as [r2 x2|[]|]; try contradiction;
      try (split; [discriminate|intros (y & K & _); discriminate]).
    destruct HT as (-> & Hn & ->). split.
    - intros [= <- <-]. eauto.
    - intros (y & [= <- <-] & _ & ->). auto.
  Qed.
  (** The field says whether there are attributes in front, and which. *)
  Theorem attributes_kept i rest x : parse_as p i = Ok rest x ->
    match get x with
    | Some a => exists r, parse_as e_ExtendedAttributeList i = Ok r a
    | None => Fails (parse_as e_ExtendedAttributeList) i
    end.
  Proof.
    intros E. destruct (Annotated_run _ _ _ _ _ (S (length i)) HA) as [_ HK]. apply HK in E. destruct (get x); exact E.
  Qed.
End All.

(** Two lists in a row are not accepted. *)
Theorem attributes_once A p get set i r r' a a' : Annotated true A p get set ->
  parse_as e_ExtendedAttributeList i = Ok r a -> parse_as e_ExtendedAttributeList r = Ok r' a' -> Fails (parse_as p) i.
Proof.
  intros HA E E'. destruct (parse_cases _ _ _ i (Annotated_Impl _ _ _ _ _ HA)) as [(r1 & x & E1)|H]; [|exact H].
  exfalso. pose proof (parse_consumes _ _ _ _ _ I_ExtendedAttributeList E) as Hl.
  rewrite <- (run_at _ _ _ i r I_ExtendedAttributeList) in E' by lia.
  exact (Annotated_once _ _ _ _ _ (S (length i)) HA eq_refl i r r' a a' r1 x E E' E1).
Qed.

(** The first attributes of a list of items. *)
Lemma Chain_det A (p : parser text A) i l r : Chain p i l r -> Fails p r -> forall l' r', Chain p i l' r' -> Fails p r' -> l = l' /\ r = r'.
Proof.
  induction 1 as [i|i j r a l E HC IH]; intros HF l' r' HC' HF'; inversion HC' as [|? j' ? a' l1 E' HC1]; subst; auto.
  - destruct HF as (? & ? & ?). congruence.
  - destruct HF' as (? & ? & ?). congruence.
  - rewrite E in E'. injection E' as <- <-. destruct (IH HF _ _ HC1 HF') as [-> ->]. auto.
Qed.
Lemma Vec_cons A p i r x xs : Impl true A p -> parse_as (e_Vec p) i = Ok r (x :: xs) <->
  exists j, parse_as p i = Ok j x /\ parse_as (e_Vec p) j = Ok r xs.
Proof.
  intros H. destruct (Vec_spec A p i H) as (l & r1 & E & HC & HF). rewrite E. split.
  - intros [= -> ->]. inversion HC as [|? j ? ? ? E1 HC1]; subst. exists j. split; auto.
    destruct (Vec_spec A p j H) as (l' & r' & E' & HC' & HF'). rewrite E'. 
    assert (K : l' = xs /\ r' = r) by (eapply Chain_det; eauto). destruct K as [-> ->]. auto.
  - intros (j & E1 & E2). destruct (Vec_spec A p j H) as (l' & r' & E' & HC' & HF'). rewrite E' in E2. injection E2 as -> ->.
    assert (K : l = x :: xs /\ r1 = r) by (eapply Chain_det; eauto; econstructor; eauto). destruct K as [-> ->]. auto.
Qed.
Theorem attributes_first A p get set i rest x xs a : Annotated true A p get set -> get x = Some a ->
  parse_as (e_Vec p) i = Ok rest (x :: xs) <->
  exists r, parse_as e_ExtendedAttributeList i = Ok r a /\ parse_as (e_Vec p) r = Ok rest (set x None :: xs).
Proof.
  intros HA Hx. pose proof (Annotated_Impl _ _ _ _ _ HA) as HI. rewrite (Vec_cons _ _ _ _ _ _ HI). split.
  - intros (j & E & E'). pose proof (attributes_kept HA _ _ _ E) as HK. rewrite Hx in HK. destruct HK as (r & Er). exists r. split; auto.
    apply Vec_cons; auto. exists j. split; auto.
    destruct (parse_cases _ _ _ r I_ExtendedAttributeList) as [(r' & a' & Er')|HF].
    + exfalso. destruct (attributes_once _ _ _ _ _ _ _ _ _ HA Er Er') as (pos & k & K). congruence.
    + apply (attributes_transparent HA _ _ _ Er HF) in E as (y & Ey & Hy & ->).
      rewrite (Annotated_set_set _ _ _ _ _ HA), <- Hy, (Annotated_set_get _ _ _ _ _ HA). auto.
  - intros (r & Er & E). apply Vec_cons in E as (j & E & E'); auto. exists j. split; auto.
    pose proof (attributes_kept HA _ _ _ E) as HK. rewrite (Annotated_get _ _ _ _ _ HA) in HK.
    apply (attributes_transparent HA _ _ _ Er HK). exists (set x None). split; auto.
    rewrite (Annotated_get _ _ _ _ _ HA), <- Hx, (Annotated_set _ _ _ _ _ HA). auto.
Qed.
Theorem parse_first_attributes i d ds a : attributes_Definition_ d = Some a ->
  parse i = Parsed (d :: ds) <->
  exists r, parse_as e_ExtendedAttributeList i = Ok r a /\ parse r = Parsed (with_Definition_ d None :: ds).
Proof.
  intros Hd. assert (HP : forall s l, parse s = Parsed l <-> parse_as e_Definitions s = Ok [] l).
  { intros s l. unfold parse. destruct (parse_as e_Definitions s) as [[|c r] l'| |]; split; intros H; try discriminate; injection H as ->; reflexivity. }
  rewrite HP. unfold e_Definitions. rewrite (attributes_first _ _ _ _ i [] d ds a An_Definition_ Hd).
  split; intros (r & E & E'); exists r; (split; [auto|]); apply HP; auto.
Qed.

