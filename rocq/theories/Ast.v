(** * The syntax tree types.

    One Coq type per Rust type.  Simplifications, the same everywhere:
    - fields whose type is a terminal (unit structs such as [term!(;)]) carry no information and are left out; an
      [Option<term!(x)>] is kept as [option unit];
    - [Box<T>] is [T]; [Parenthesized<T>], [Bracketed<T>], [Braced<T>], [Generics<T>] (src/common.rs:28-59) hold only
      terminals beside their [body], so they are identified with [T];
    - [Punctuated<T, S>] and [PunctuatedNonEmpty<T, S>] (src/common.rs:61-74) hold a list and a unit marker, so they
      are identified with [list T];
    - tuple structs with one field ([Identifier], [StringLit], [DecLit], ...) are identified with that field;
    - lifetimes disappear: a [&'a str] is a [text]. *)
From Coq Require Import String Ascii NArith Arith Bool List.
From Verif Require Import Nom Lex.
Import ListNotations.

(** [Default] (src/common.rs:94-99): [= value]. *)
Definition Default := DefaultValue.

(** [MayBeNull] (src/types.rs:69-72). *)
Record MayBeNull (T : Set) : Set := mkMayBeNull { type_ : T; q_mark : option unit }.
Arguments mkMayBeNull {T}. Arguments type_ {T}. Arguments q_mark {T}.

(** [IntegerType], [LongLongType], [LongType], [ShortType] (src/types.rs:80-101). *)
Record LongLongType : Set := mkLongLongType { LongLongType_unsigned : option unit }.
Record LongType : Set := mkLongType { LongType_unsigned : option unit }.
Record ShortType : Set := mkShortType { ShortType_unsigned : option unit }.
Inductive IntegerType : Set :=
| IntegerType_LongLong (x : LongLongType)
| IntegerType_Long (x : LongType)
| IntegerType_Short (x : ShortType).

(** [FloatingPointType], [FloatType], [DoubleType] (src/types.rs:103-118). *)
Record FloatType : Set := mkFloatType { FloatType_unrestricted : option unit }.
Record DoubleType : Set := mkDoubleType { DoubleType_unrestricted : option unit }.
Inductive FloatingPointType : Set :=
| FloatingPointType_Float (x : FloatType)
| FloatingPointType_Double (x : DoubleType).

(** [ConstType] (src/types.rs:140-148). *)
Inductive ConstType : Set :=
| ConstType_Integer (x : MayBeNull IntegerType)
| ConstType_FloatingPoint (x : MayBeNull FloatingPointType)
| ConstType_Boolean (x : MayBeNull unit)
| ConstType_Byte (x : MayBeNull unit)
| ConstType_Octet (x : MayBeNull unit)
| ConstType_Identifier (x : MayBeNull Identifier).

(** [IdentifierOrString] (src/attribute.rs:62-65). *)
Inductive IdentifierOrString : Set :=
| IdentifierOrString_Identifier (x : Identifier)
| IdentifierOrString_String (x : StringLit).

(** [ExtendedAttributeIdentList] (src/attribute.rs:34-38). *)
Record ExtendedAttributeIdentList : Set := mkExtendedAttributeIdentList {
  EAIdentList_identifier : Identifier;
  EAIdentList_list : list Identifier }.
(** [ExtendedAttributeIdent] (src/attribute.rs:41-45). *)
Record ExtendedAttributeIdent : Set := mkExtendedAttributeIdent {
  EAIdent_lhs_identifier : Identifier;
  EAIdent_rhs : IdentifierOrString }.
(** [ExtendedAttributeWildCard] (src/attribute.rs:48-52). *)
Record ExtendedAttributeWildCard : Set := mkExtendedAttributeWildCard {
  EAWildCard_lhs_identifier : Identifier }.

(** The mutually recursive types of src/types.rs, src/attribute.rs and src/argument.rs. *)
Inductive Type_ : Set :=                                         (* src/types.rs:11-18 *)
| Type_Single (x : SingleType)
| Type_Union (x : MayBeNull (list UnionMemberType))              (* UnionType: src/types.rs:7 *)
with SingleType : Set :=                                         (* src/types.rs:13-16 *)
| SingleType_Any
| SingleType_NonAny (x : NonAnyType)
with NonAnyType : Set :=                                         (* src/types.rs:21-51 *)
| NonAnyType_Promise (x : PromiseType)
| NonAnyType_Integer (x : MayBeNull IntegerType)
| NonAnyType_FloatingPoint (x : MayBeNull FloatingPointType)
| NonAnyType_Boolean (x : MayBeNull unit)
| NonAnyType_Byte (x : MayBeNull unit)
| NonAnyType_Octet (x : MayBeNull unit)
| NonAnyType_ByteString (x : MayBeNull unit)
| NonAnyType_DOMString (x : MayBeNull unit)
| NonAnyType_USVString (x : MayBeNull unit)
| NonAnyType_Sequence (x : MayBeNull SequenceType)
| NonAnyType_Object (x : MayBeNull unit)
| NonAnyType_Symbol (x : MayBeNull unit)
| NonAnyType_Error (x : MayBeNull unit)
| NonAnyType_ArrayBuffer (x : MayBeNull unit)
| NonAnyType_DataView (x : MayBeNull unit)
| NonAnyType_Int8Array (x : MayBeNull unit)
| NonAnyType_Int16Array (x : MayBeNull unit)
| NonAnyType_Int32Array (x : MayBeNull unit)
| NonAnyType_Uint8Array (x : MayBeNull unit)
| NonAnyType_Uint16Array (x : MayBeNull unit)
| NonAnyType_Uint32Array (x : MayBeNull unit)
| NonAnyType_Uint8ClampedArray (x : MayBeNull unit)
| NonAnyType_Float32Array (x : MayBeNull unit)
| NonAnyType_Float64Array (x : MayBeNull unit)
| NonAnyType_ArrayBufferView (x : MayBeNull unit)
| NonAnyType_BufferSource (x : MayBeNull unit)
| NonAnyType_FrozenArrayType (x : MayBeNull FrozenArrayType)
| NonAnyType_RecordType (x : MayBeNull RecordType)
| NonAnyType_Identifier (x : MayBeNull Identifier)
with SequenceType : Set :=                                       (* src/types.rs:54-57 *)
| mkSequenceType (generics : Type_)
with FrozenArrayType : Set :=                                    (* src/types.rs:60-63 *)
| mkFrozenArrayType (generics : Type_)
with PromiseType : Set :=                                        (* src/types.rs:75-78 *)
| mkPromiseType (generics : ReturnType)
with RecordType : Set :=                                         (* src/types.rs:121-124 *)
| mkRecordType (key : RecordKeyType) (value : Type_)
with RecordKeyType : Set :=                                      (* src/types.rs:127-132 *)
| RecordKeyType_Byte
| RecordKeyType_DOM
| RecordKeyType_USV
| RecordKeyType_NonAny (x : NonAnyType)
with UnionMemberType : Set :=                                    (* src/types.rs:135-138 *)
| UnionMemberType_Single (x : AttributedNonAnyType)
| UnionMemberType_Union (x : MayBeNull (list UnionMemberType))
with ReturnType : Set :=                                         (* src/types.rs:151-154 *)
| ReturnType_Undefined
| ReturnType_Type (x : Type_)
with AttributedType : Set :=                                     (* src/types.rs:157-160 *)
| mkAttributedType (attributes : option (list ExtendedAttribute)) (type_ : Type_)
with AttributedNonAnyType : Set :=                               (* src/types.rs:163-166 *)
| mkAttributedNonAnyType (attributes : option (list ExtendedAttribute)) (type_ : NonAnyType)
with ExtendedAttribute : Set :=                                  (* src/attribute.rs:13-58 *)
| ExtendedAttribute_ArgList (x : ExtendedAttributeArgList)
| ExtendedAttribute_NamedArgList (x : ExtendedAttributeNamedArgList)
| ExtendedAttribute_IdentList (x : ExtendedAttributeIdentList)
| ExtendedAttribute_Ident (x : ExtendedAttributeIdent)
| ExtendedAttribute_Wildcard (x : ExtendedAttributeWildCard)
| ExtendedAttribute_NoArgs (x : Identifier)
with ExtendedAttributeArgList : Set :=                           (* src/attribute.rs:17-20 *)
| mkExtendedAttributeArgList (identifier : Identifier) (args : list Argument)
with ExtendedAttributeNamedArgList : Set :=                      (* src/attribute.rs:24-30 *)
| mkExtendedAttributeNamedArgList (lhs_identifier rhs_identifier : Identifier) (args : list Argument)
with Argument : Set :=                                           (* src/argument.rs:10-31 *)
| Argument_Single (x : SingleArgument)
| Argument_Variadic (x : VariadicArgument)
with SingleArgument : Set :=                                     (* src/argument.rs:14-23 *)
| mkSingleArgument (attributes : option (list ExtendedAttribute)) (optional : option unit)
    (type_ : AttributedType) (identifier : Identifier) (default : option Default)
with VariadicArgument : Set :=                                   (* src/argument.rs:25-30 *)
| mkVariadicArgument (attributes : option (list ExtendedAttribute)) (type_ : Type_) (identifier : Identifier).

(** [ExtendedAttributeList] (src/attribute.rs:6), [IdentifierList] (src/attribute.rs:9),
    [ArgumentList] (src/argument.rs:6), [UnionType] (src/types.rs:7). *)
Definition ExtendedAttributeList := list ExtendedAttribute.
Definition IdentifierList := list Identifier.
Definition ArgumentList := list Argument.
Definition UnionType := list UnionMemberType.

(** ** src/interface.rs *)

(** src/interface.rs:13-16. *)
Record Inheritance : Set := mkInheritance { Inheritance_identifier : Identifier }.

(** src/interface.rs:21-29. *)
Record ConstMember : Set := mkConstMember {
  ConstMember_attributes : option ExtendedAttributeList;
  ConstMember_const_type : ConstType;
  ConstMember_identifier : Identifier;
  ConstMember_const_value : ConstValue }.

(** src/interface.rs:123-128. *)
Inductive Special : Set := Special_Getter | Special_Setter | Special_Deleter | Special_LegacyCaller.
(** src/interface.rs:132-136. *)
Inductive StringifierOrInheritOrStatic : Set := SIS_Stringifier | SIS_Inherit | SIS_Static.
(** src/interface.rs:140-143. *)
Inductive StringifierOrStatic : Set := SS_Stringifier | SS_Static.

(** src/interface.rs:31-39. *)
Record AttributeInterfaceMember : Set := mkAttributeInterfaceMember {
  AIM_attributes : option ExtendedAttributeList;
  AIM_modifier : option StringifierOrInheritOrStatic;
  AIM_readonly : option unit;
  AIM_type_ : AttributedType;
  AIM_identifier : Identifier }.
(** src/interface.rs:43-48. *)
Record ConstructorInterfaceMember : Set := mkConstructorInterfaceMember {
  CIM_attributes : option ExtendedAttributeList;
  CIM_args : ArgumentList }.
(** src/interface.rs:52-60. *)
Record OperationInterfaceMember : Set := mkOperationInterfaceMember {
  OIM_attributes : option ExtendedAttributeList;
  OIM_modifier : option StringifierOrStatic;
  OIM_special : option Special;
  OIM_return_type : ReturnType;
  OIM_identifier : option Identifier;
  OIM_args : ArgumentList }.
(** src/interface.rs:64-69. *)
Record SingleTypedIterable : Set := mkSingleTypedIterable {
  STI_attributes : option ExtendedAttributeList;
  STI_generics : AttributedType }.
(** src/interface.rs:71-76. *)
Record DoubleTypedIterable : Set := mkDoubleTypedIterable {
  DTI_attributes : option ExtendedAttributeList;
  DTI_generics : AttributedType * AttributedType }.
(** src/interface.rs:62-77. *)
Inductive IterableInterfaceMember : Set :=
| IterableInterfaceMember_Single (x : SingleTypedIterable)
| IterableInterfaceMember_Double (x : DoubleTypedIterable).
(** src/interface.rs:81-87. *)
Record SingleTypedAsyncIterable : Set := mkSingleTypedAsyncIterable {
  STAI_attributes : option ExtendedAttributeList;
  STAI_generics : AttributedType;
  STAI_args : option ArgumentList }.
(** src/interface.rs:89-95. *)
Record DoubleTypedAsyncIterable : Set := mkDoubleTypedAsyncIterable {
  DTAI_attributes : option ExtendedAttributeList;
  DTAI_generics : AttributedType * AttributedType;
  DTAI_args : option ArgumentList }.
(** src/interface.rs:79-96. *)
Inductive AsyncIterableInterfaceMember : Set :=
| AsyncIterableInterfaceMember_Single (x : SingleTypedAsyncIterable)
| AsyncIterableInterfaceMember_Double (x : DoubleTypedAsyncIterable).
(** src/interface.rs:98-104. *)
Record MaplikeInterfaceMember : Set := mkMaplikeInterfaceMember {
  MIM_attributes : option ExtendedAttributeList;
  MIM_readonly : option unit;
  MIM_generics : AttributedType * AttributedType }.
(** src/interface.rs:105-111. *)
Record SetlikeInterfaceMember : Set := mkSetlikeInterfaceMember {
  SLIM_attributes : option ExtendedAttributeList;
  SLIM_readonly : option unit;
  SLIM_generics : AttributedType }.
(** src/interface.rs:114-118. *)
Record StringifierMember : Set := mkStringifierMember {
  SM_attributes : option ExtendedAttributeList }.
(** src/interface.rs:19-119. *)
Inductive InterfaceMember : Set :=
| InterfaceMember_Const (x : ConstMember)
| InterfaceMember_Attribute (x : AttributeInterfaceMember)
| InterfaceMember_Constructor (x : ConstructorInterfaceMember)
| InterfaceMember_Operation (x : OperationInterfaceMember)
| InterfaceMember_Iterable (x : IterableInterfaceMember)
| InterfaceMember_AsyncIterable (x : AsyncIterableInterfaceMember)
| InterfaceMember_Maplike (x : MaplikeInterfaceMember)
| InterfaceMember_Setlike (x : SetlikeInterfaceMember)
| InterfaceMember_Stringifier (x : StringifierMember).

(** ** src/mixin.rs *)

(** src/mixin.rs:17-24. *)
Record OperationMixinMember : Set := mkOperationMixinMember {
  OMM_attributes : option ExtendedAttributeList;
  OMM_stringifier : option unit;
  OMM_return_type : ReturnType;
  OMM_identifier : option Identifier;
  OMM_args : ArgumentList }.
(** src/mixin.rs:26-34. *)
Record AttributeMixinMember : Set := mkAttributeMixinMember {
  AMM_attributes : option ExtendedAttributeList;
  AMM_stringifier : option unit;
  AMM_readonly : option unit;
  AMM_type_ : AttributedType;
  AMM_identifier : Identifier }.
(** src/mixin.rs:12-36. *)
Inductive MixinMember : Set :=
| MixinMember_Const (x : ConstMember)
| MixinMember_Operation (x : OperationMixinMember)
| MixinMember_Attribute (x : AttributeMixinMember)
| MixinMember_Stringifier (x : StringifierMember).

(** ** src/namespace.rs *)

(** src/namespace.rs:14-22. *)
Record ConstNamespaceMember : Set := mkConstNamespaceMember {
  CNM_attributes : option ExtendedAttributeList;
  CNM_const_type : ConstType;
  CNM_identifier : Identifier;
  CNM_const_value : ConstValue }.
(** src/namespace.rs:26-32. *)
Record OperationNamespaceMember : Set := mkOperationNamespaceMember {
  ONM_attributes : option ExtendedAttributeList;
  ONM_return_type : ReturnType;
  ONM_identifier : option Identifier;
  ONM_args : ArgumentList }.
(** src/namespace.rs:34-41. *)
Record AttributeNamespaceMember : Set := mkAttributeNamespaceMember {
  ANM_attributes : option ExtendedAttributeList;
  ANM_type_ : AttributedType;
  ANM_identifier : Identifier }.
(** src/namespace.rs:12-42. *)
Inductive NamespaceMember : Set :=
| NamespaceMember_Const (x : ConstNamespaceMember)
| NamespaceMember_Operation (x : OperationNamespaceMember)
| NamespaceMember_Attribute (x : AttributeNamespaceMember).

(** ** src/dictionary.rs *)

(** src/dictionary.rs:10-17. *)
Record DictionaryMember : Set := mkDictionaryMember {
  DM_attributes : option ExtendedAttributeList;
  DM_required : option unit;
  DM_type_ : Type_;
  DM_identifier : Identifier;
  DM_default : option Default }.

(** [InterfaceMembers] (src/interface.rs:8), [MixinMembers] (src/mixin.rs:8), [NamespaceMembers]
    (src/namespace.rs:8), [DictionaryMembers] (src/dictionary.rs:6), [EnumValueList] (src/lib.rs:245). *)
Definition InterfaceMembers := list InterfaceMember.
Definition MixinMembers := list MixinMember.
Definition NamespaceMembers := list NamespaceMember.
Definition DictionaryMembers := list DictionaryMember.
Definition EnumValueList := list StringLit.

(** ** src/lib.rs *)

(** src/lib.rs:118-126. *)
Record CallbackDefinition : Set := mkCallbackDefinition {
  Callback_attributes : option ExtendedAttributeList;
  Callback_identifier : Identifier;
  Callback_return_type : ReturnType;
  Callback_arguments : ArgumentList }.
(** src/lib.rs:128-136. *)
Record CallbackInterfaceDefinition : Set := mkCallbackInterfaceDefinition {
  CallbackInterface_attributes : option ExtendedAttributeList;
  CallbackInterface_identifier : Identifier;
  CallbackInterface_inheritance : option Inheritance;
  CallbackInterface_members : InterfaceMembers }.
(** src/lib.rs:138-145. *)
Record InterfaceDefinition : Set := mkInterfaceDefinition {
  Interface_attributes : option ExtendedAttributeList;
  Interface_identifier : Identifier;
  Interface_inheritance : option Inheritance;
  Interface_members : InterfaceMembers }.
(** src/lib.rs:147-154. *)
Record InterfaceMixinDefinition : Set := mkInterfaceMixinDefinition {
  InterfaceMixin_attributes : option ExtendedAttributeList;
  InterfaceMixin_identifier : Identifier;
  InterfaceMixin_members : MixinMembers }.
(** src/lib.rs:156-162. *)
Record NamespaceDefinition : Set := mkNamespaceDefinition {
  Namespace_attributes : option ExtendedAttributeList;
  Namespace_identifier : Identifier;
  Namespace_members : NamespaceMembers }.
(** src/lib.rs:164-171. *)
Record DictionaryDefinition : Set := mkDictionaryDefinition {
  Dictionary_attributes : option ExtendedAttributeList;
  Dictionary_identifier : Identifier;
  Dictionary_inheritance : option Inheritance;
  Dictionary_members : DictionaryMembers }.
(** src/lib.rs:173-180. *)
Record PartialInterfaceDefinition : Set := mkPartialInterfaceDefinition {
  PartialInterface_attributes : option ExtendedAttributeList;
  PartialInterface_identifier : Identifier;
  PartialInterface_members : InterfaceMembers }.
(** src/lib.rs:182-190. *)
Record PartialInterfaceMixinDefinition : Set := mkPartialInterfaceMixinDefinition {
  PartialInterfaceMixin_attributes : option ExtendedAttributeList;
  PartialInterfaceMixin_identifier : Identifier;
  PartialInterfaceMixin_members : MixinMembers }.
(** src/lib.rs:192-199. *)
Record PartialDictionaryDefinition : Set := mkPartialDictionaryDefinition {
  PartialDictionary_attributes : option ExtendedAttributeList;
  PartialDictionary_identifier : Identifier;
  PartialDictionary_members : DictionaryMembers }.
(** src/lib.rs:201-208. *)
Record PartialNamespaceDefinition : Set := mkPartialNamespaceDefinition {
  PartialNamespace_attributes : option ExtendedAttributeList;
  PartialNamespace_identifier : Identifier;
  PartialNamespace_members : NamespaceMembers }.
(** src/lib.rs:210-216. *)
Record EnumDefinition : Set := mkEnumDefinition {
  Enum_attributes : option ExtendedAttributeList;
  Enum_identifier : Identifier;
  Enum_values : EnumValueList }.
(** src/lib.rs:218-224. *)
Record TypedefDefinition : Set := mkTypedefDefinition {
  Typedef_attributes : option ExtendedAttributeList;
  Typedef_type_ : AttributedType;
  Typedef_identifier : Identifier }.
(** src/lib.rs:226-232. *)
Record IncludesStatementDefinition : Set := mkIncludesStatementDefinition {
  IncludesStatement_attributes : option ExtendedAttributeList;
  IncludesStatement_lhs_identifier : Identifier;
  IncludesStatement_rhs_identifier : Identifier }.
(** src/lib.rs:234-240. *)
Record ImplementsDefinition : Set := mkImplementsDefinition {
  Implements_attributes : option ExtendedAttributeList;
  Implements_lhs_identifier : Identifier;
  Implements_rhs_identifier : Identifier }.
(** src/lib.rs:116-241. *)
Inductive Definition_ : Set :=
| Definition_Callback (x : CallbackDefinition)
| Definition_CallbackInterface (x : CallbackInterfaceDefinition)
| Definition_Interface (x : InterfaceDefinition)
| Definition_InterfaceMixin (x : InterfaceMixinDefinition)
| Definition_Namespace (x : NamespaceDefinition)
| Definition_Dictionary (x : DictionaryDefinition)
| Definition_PartialInterface (x : PartialInterfaceDefinition)
| Definition_PartialInterfaceMixin (x : PartialInterfaceMixinDefinition)
| Definition_PartialDictionary (x : PartialDictionaryDefinition)
| Definition_PartialNamespace (x : PartialNamespaceDefinition)
| Definition_Enum (x : EnumDefinition)
| Definition_Typedef (x : TypedefDefinition)
| Definition_IncludesStatement (x : IncludesStatementDefinition)
| Definition_Implements (x : ImplementsDefinition).

(** [Definitions] (src/lib.rs:112). *)
Definition Definitions := list Definition_.
