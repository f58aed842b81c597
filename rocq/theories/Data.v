(** * Trees as plain data: the derived comparisons, and the size of trees

    Every type of the crate derives [Eq], [Ord] and [Hash] (src/macros.rs:191, 232, 411; src/term.rs:5, 42).  What [derive]
    makes of a type depends only on the order of its fields and variants: [data_T] below spells it out for each type [T] by
    turning a value into a tree of numbered variants and fields in the order of the declaration.  Left out are the same
    fields as in Ast.v: terminals, which are unit structs and always equal. *)
From Coq Require Import String Ascii NArith Arith Bool List Lia.
From Verif Require Import Nom Lex Ast Grammar Spec.
Import ListNotations.
Open Scope list_scope.

(** A value: the number of its variant (0 for a struct) and its fields, or a [&str]. *)
Inductive data : Set :=
| Node (variant : nat) (fields : list data)
| Text (s : text).

(** [str]: in the order of the characters ([Ord] of [str] compares bytes; see [utf8_order] in Order.v). *)
Fixpoint cmp_text (s t : text) : comparison :=
  match s, t with
  | [], [] => Eq
  | [], _ :: _ => Lt
  | _ :: _, [] => Gt
  | c :: s', d :: t' => match N.compare c d with Eq => cmp_text s' t' | x => x end
  end.
(** Derived [Ord::cmp]: first the variants, then the fields one after the other (of a [Vec]: the elements, and a beginning of a
    [Vec] comes before it). *)
Fixpoint cmp (a b : data) : comparison :=
  match a, b with
  | Node i l, Node j m =>
      match Nat.compare i j with
      | Eq => (fix cmps (l m : list data) : comparison :=
                 match l, m with
                 | [], [] => Eq
                 | [], _ :: _ => Lt
                 | _ :: _, [] => Gt
                 | x :: l', y :: m' => match cmp x y with Eq => cmps l' m' | c => c end
                 end) l m
      | c => c
      end
  | Text s, Text t => cmp_text s t
  | Text _, Node _ _ => Lt
  | Node _ _, Text _ => Gt
  end.

(** [&str], [bool], terminals, [Option], [Vec] (and [Punctuated]), pairs, [MayBeNull] (src/types.rs:69-72). *)
Definition d_text (s : text) : data := Text s.
Definition d_bool (b : bool) : data := Node (if b then 1 else 0) [].
Definition d_unit (_ : unit) : data := Node 0 [].
Definition d_option {A} (f : A -> data) (o : option A) : data :=
  match o with None => Node 0 [] | Some x => Node 1 [f x] end.
Definition d_list {A} (f : A -> data) (l : list A) : data := Node 0 (map f l).
Definition d_pair {A B} (f : A -> data) (g : B -> data) (x : A * B) : data :=
  match x with (a, b) => Node 0 [f a; g b] end.
Definition d_null {T : Set} (f : T -> data) (m : MayBeNull T) : data :=
  match m with mkMayBeNull t q => Node 0 [f t; d_option d_unit q] end.

(** See Lex.v. *)
Definition data_IntegerLit (t : IntegerLit) : data :=
  match t with
  | IntegerLit_Dec x => Node 0 [d_text x]
  | IntegerLit_Hex x => Node 1 [d_text x]
  | IntegerLit_Oct x => Node 2 [d_text x]
  end.
(** See Lex.v. *)
Definition data_FloatLit (t : FloatLit) : data :=
  match t with
  | FloatLit_Value x => Node 0 [d_text x]
  | FloatLit_NegInfinity => Node 1 []
  | FloatLit_Infinity => Node 2 []
  | FloatLit_NaN => Node 3 []
  end.
(** See Lex.v. *)
Definition data_DefaultValue (t : DefaultValue) : data :=
  match t with
  | DefaultValue_Boolean x => Node 0 [d_bool x]
  | DefaultValue_EmptyArray => Node 1 []
  | DefaultValue_EmptyDictionary => Node 2 []
  | DefaultValue_Float x => Node 3 [data_FloatLit x]
  | DefaultValue_Integer x => Node 4 [data_IntegerLit x]
  | DefaultValue_Null => Node 5 []
  | DefaultValue_String x => Node 6 [d_text x]
  end.
(** See Lex.v. *)
Definition data_ConstValue (t : ConstValue) : data :=
  match t with
  | ConstValue_Boolean x => Node 0 [d_bool x]
  | ConstValue_Float x => Node 1 [data_FloatLit x]
  | ConstValue_Integer x => Node 2 [data_IntegerLit x]
  | ConstValue_Null => Node 3 []
  end.
(** [IntegerType], [LongLongType], [LongType], [ShortType] (src/types.rs:80-101). *)
Definition data_LongLongType (t : LongLongType) : data :=
  match t with
  | mkLongLongType x => Node 0 [d_option d_unit x]
  end.
(** [IntegerType], [LongLongType], [LongType], [ShortType] (src/types.rs:80-101). *)
Definition data_LongType (t : LongType) : data :=
  match t with
  | mkLongType x => Node 0 [d_option d_unit x]
  end.
(** [IntegerType], [LongLongType], [LongType], [ShortType] (src/types.rs:80-101). *)
Definition data_ShortType (t : ShortType) : data :=
  match t with
  | mkShortType x => Node 0 [d_option d_unit x]
  end.
(** [IntegerType], [LongLongType], [LongType], [ShortType] (src/types.rs:80-101). *)
Definition data_IntegerType (t : IntegerType) : data :=
  match t with
  | IntegerType_LongLong x => Node 0 [data_LongLongType x]
  | IntegerType_Long x => Node 1 [data_LongType x]
  | IntegerType_Short x => Node 2 [data_ShortType x]
  end.
(** [FloatingPointType], [FloatType], [DoubleType] (src/types.rs:103-118). *)
Definition data_FloatType (t : FloatType) : data :=
  match t with
  | mkFloatType x => Node 0 [d_option d_unit x]
  end.
(** [FloatingPointType], [FloatType], [DoubleType] (src/types.rs:103-118). *)
Definition data_DoubleType (t : DoubleType) : data :=
  match t with
  | mkDoubleType x => Node 0 [d_option d_unit x]
  end.
(** [FloatingPointType], [FloatType], [DoubleType] (src/types.rs:103-118). *)
Definition data_FloatingPointType (t : FloatingPointType) : data :=
  match t with
  | FloatingPointType_Float x => Node 0 [data_FloatType x]
  | FloatingPointType_Double x => Node 1 [data_DoubleType x]
  end.
(** [ConstType] (src/types.rs:140-148). *)
Definition data_ConstType (t : ConstType) : data :=
  match t with
  | ConstType_Integer x => Node 0 [d_null data_IntegerType x]
  | ConstType_FloatingPoint x => Node 1 [d_null data_FloatingPointType x]
  | ConstType_Boolean x => Node 2 [d_null d_unit x]
  | ConstType_Byte x => Node 3 [d_null d_unit x]
  | ConstType_Octet x => Node 4 [d_null d_unit x]
  | ConstType_Identifier x => Node 5 [d_null d_text x]
  end.
(** [IdentifierOrString] (src/attribute.rs:62-65). *)
Definition data_IdentifierOrString (t : IdentifierOrString) : data :=
  match t with
  | IdentifierOrString_Identifier x => Node 0 [d_text x]
  | IdentifierOrString_String x => Node 1 [d_text x]
  end.
(** [ExtendedAttributeIdentList] (src/attribute.rs:34-38). *)
Definition data_ExtendedAttributeIdentList (t : ExtendedAttributeIdentList) : data :=
  match t with
  | mkExtendedAttributeIdentList x y => Node 0 [d_text x; d_list d_text y]
  end.
(** [ExtendedAttributeIdent] (src/attribute.rs:41-45). *)
Definition data_ExtendedAttributeIdent (t : ExtendedAttributeIdent) : data :=
  match t with
  | mkExtendedAttributeIdent x y => Node 0 [d_text x; data_IdentifierOrString y]
  end.
(** [ExtendedAttributeWildCard] (src/attribute.rs:48-52). *)
Definition data_ExtendedAttributeWildCard (t : ExtendedAttributeWildCard) : data :=
  match t with
  | mkExtendedAttributeWildCard x => Node 0 [d_text x]
  end.
(** The recursive types: src/types.rs:11-166, src/attribute.rs:13-58, src/argument.rs:10-31. *)
Fixpoint data_Type (t : Type_) : data :=
  match t with
  | Type_Single x => Node 0 [data_SingleType x]
  | Type_Union x => Node 1 [d_null (d_list data_UnionMemberType) x]
  end
with data_SingleType (t : SingleType) : data :=
  match t with
  | SingleType_Any => Node 0 []
  | SingleType_NonAny x => Node 1 [data_NonAnyType x]
  end
with data_NonAnyType (t : NonAnyType) : data :=
  match t with
  | NonAnyType_Promise x => Node 0 [data_PromiseType x]
  | NonAnyType_Integer x => Node 1 [d_null data_IntegerType x]
  | NonAnyType_FloatingPoint x => Node 2 [d_null data_FloatingPointType x]
  | NonAnyType_Boolean x => Node 3 [d_null d_unit x]
  | NonAnyType_Byte x => Node 4 [d_null d_unit x]
  | NonAnyType_Octet x => Node 5 [d_null d_unit x]
  | NonAnyType_ByteString x => Node 6 [d_null d_unit x]
  | NonAnyType_DOMString x => Node 7 [d_null d_unit x]
  | NonAnyType_USVString x => Node 8 [d_null d_unit x]
  | NonAnyType_Sequence x => Node 9 [d_null data_SequenceType x]
  | NonAnyType_Object x => Node 10 [d_null d_unit x]
  | NonAnyType_Symbol x => Node 11 [d_null d_unit x]
  | NonAnyType_Error x => Node 12 [d_null d_unit x]
  | NonAnyType_ArrayBuffer x => Node 13 [d_null d_unit x]
  | NonAnyType_DataView x => Node 14 [d_null d_unit x]
  | NonAnyType_Int8Array x => Node 15 [d_null d_unit x]
  | NonAnyType_Int16Array x => Node 16 [d_null d_unit x]
  | NonAnyType_Int32Array x => Node 17 [d_null d_unit x]
  | NonAnyType_Uint8Array x => Node 18 [d_null d_unit x]
  | NonAnyType_Uint16Array x => Node 19 [d_null d_unit x]
  | NonAnyType_Uint32Array x => Node 20 [d_null d_unit x]
  | NonAnyType_Uint8ClampedArray x => Node 21 [d_null d_unit x]
  | NonAnyType_Float32Array x => Node 22 [d_null d_unit x]
  | NonAnyType_Float64Array x => Node 23 [d_null d_unit x]
  | NonAnyType_ArrayBufferView x => Node 24 [d_null d_unit x]
  | NonAnyType_BufferSource x => Node 25 [d_null d_unit x]
  | NonAnyType_FrozenArrayType x => Node 26 [d_null data_FrozenArrayType x]
  | NonAnyType_RecordType x => Node 27 [d_null data_RecordType x]
  | NonAnyType_Identifier x => Node 28 [d_null d_text x]
  end
with data_SequenceType (t : SequenceType) : data :=
  match t with
  | mkSequenceType x => Node 0 [data_Type x]
  end
with data_FrozenArrayType (t : FrozenArrayType) : data :=
  match t with
  | mkFrozenArrayType x => Node 0 [data_Type x]
  end
with data_PromiseType (t : PromiseType) : data :=
  match t with
  | mkPromiseType x => Node 0 [data_ReturnType x]
  end
with data_RecordType (t : RecordType) : data :=
  match t with
  | mkRecordType x y => Node 0 [data_RecordKeyType x; data_Type y]
  end
with data_RecordKeyType (t : RecordKeyType) : data :=
  match t with
  | RecordKeyType_Byte => Node 0 []
  | RecordKeyType_DOM => Node 1 []
  | RecordKeyType_USV => Node 2 []
  | RecordKeyType_NonAny x => Node 3 [data_NonAnyType x]
  end
with data_UnionMemberType (t : UnionMemberType) : data :=
  match t with
  | UnionMemberType_Single x => Node 0 [data_AttributedNonAnyType x]
  | UnionMemberType_Union x => Node 1 [d_null (d_list data_UnionMemberType) x]
  end
with data_ReturnType (t : ReturnType) : data :=
  match t with
  | ReturnType_Undefined => Node 0 []
  | ReturnType_Type x => Node 1 [data_Type x]
  end
with data_AttributedType (t : AttributedType) : data :=
  match t with
  | mkAttributedType x y => Node 0 [d_option (d_list data_ExtendedAttribute) x; data_Type y]
  end
with data_AttributedNonAnyType (t : AttributedNonAnyType) : data :=
  match t with
  | mkAttributedNonAnyType x y => Node 0 [d_option (d_list data_ExtendedAttribute) x; data_NonAnyType y]
  end
with data_ExtendedAttribute (t : ExtendedAttribute) : data :=
  match t with
  | ExtendedAttribute_ArgList x => Node 0 [data_ExtendedAttributeArgList x]
  | ExtendedAttribute_NamedArgList x => Node 1 [data_ExtendedAttributeNamedArgList x]
  | ExtendedAttribute_IdentList x => Node 2 [data_ExtendedAttributeIdentList x]
  | ExtendedAttribute_Ident x => Node 3 [data_ExtendedAttributeIdent x]
  | ExtendedAttribute_Wildcard x => Node 4 [data_ExtendedAttributeWildCard x]
  | ExtendedAttribute_NoArgs x => Node 5 [d_text x]
  end
with data_ExtendedAttributeArgList (t : ExtendedAttributeArgList) : data :=
  match t with
  | mkExtendedAttributeArgList x y => Node 0 [d_text x; d_list data_Argument y]
  end
with data_ExtendedAttributeNamedArgList (t : ExtendedAttributeNamedArgList) : data :=
  match t with
  | mkExtendedAttributeNamedArgList x y z => Node 0 [d_text x; d_text y; d_list data_Argument z]
  end
with data_Argument (t : Argument) : data :=
  match t with
  | Argument_Single x => Node 0 [data_SingleArgument x]
  | Argument_Variadic x => Node 1 [data_VariadicArgument x]
  end
with data_SingleArgument (t : SingleArgument) : data :=
  match t with
  | mkSingleArgument x y z u v => Node 0 [d_option (d_list data_ExtendedAttribute) x; d_option d_unit y; data_AttributedType z; d_text u; d_option data_DefaultValue v]
  end
with data_VariadicArgument (t : VariadicArgument) : data :=
  match t with
  | mkVariadicArgument x y z => Node 0 [d_option (d_list data_ExtendedAttribute) x; data_Type y; d_text z]
  end.

(** src/interface.rs:13-16. *)
Definition data_Inheritance (t : Inheritance) : data :=
  match t with
  | mkInheritance x => Node 0 [d_text x]
  end.
(** src/interface.rs:21-29. *)
Definition data_ConstMember (t : ConstMember) : data :=
  match t with
  | mkConstMember x y z u => Node 0 [d_option (d_list data_ExtendedAttribute) x; data_ConstType y; d_text z; data_ConstValue u]
  end.
(** src/interface.rs:123-128. *)
Definition data_Special (t : Special) : data :=
  match t with
  | Special_Getter => Node 0 []
  | Special_Setter => Node 1 []
  | Special_Deleter => Node 2 []
  | Special_LegacyCaller => Node 3 []
  end.
(** src/interface.rs:132-136. *)
Definition data_StringifierOrInheritOrStatic (t : StringifierOrInheritOrStatic) : data :=
  match t with
  | SIS_Stringifier => Node 0 []
  | SIS_Inherit => Node 1 []
  | SIS_Static => Node 2 []
  end.
(** src/interface.rs:140-143. *)
Definition data_StringifierOrStatic (t : StringifierOrStatic) : data :=
  match t with
  | SS_Stringifier => Node 0 []
  | SS_Static => Node 1 []
  end.
(** src/interface.rs:31-39. *)
Definition data_AttributeInterfaceMember (t : AttributeInterfaceMember) : data :=
  match t with
  | mkAttributeInterfaceMember x y z u v => Node 0 [d_option (d_list data_ExtendedAttribute) x; d_option data_StringifierOrInheritOrStatic y; d_option d_unit z; data_AttributedType u; d_text v]
  end.
(** src/interface.rs:43-48. *)
Definition data_ConstructorInterfaceMember (t : ConstructorInterfaceMember) : data :=
  match t with
  | mkConstructorInterfaceMember x y => Node 0 [d_option (d_list data_ExtendedAttribute) x; d_list data_Argument y]
  end.
(** src/interface.rs:52-60. *)
Definition data_OperationInterfaceMember (t : OperationInterfaceMember) : data :=
  match t with
  | mkOperationInterfaceMember x y z u v w => Node 0 [d_option (d_list data_ExtendedAttribute) x; d_option data_StringifierOrStatic y; d_option data_Special z; data_ReturnType u; d_option d_text v; d_list data_Argument w]
  end.
(** src/interface.rs:64-69. *)
Definition data_SingleTypedIterable (t : SingleTypedIterable) : data :=
  match t with
  | mkSingleTypedIterable x y => Node 0 [d_option (d_list data_ExtendedAttribute) x; data_AttributedType y]
  end.
(** src/interface.rs:71-76. *)
Definition data_DoubleTypedIterable (t : DoubleTypedIterable) : data :=
  match t with
  | mkDoubleTypedIterable x y => Node 0 [d_option (d_list data_ExtendedAttribute) x; d_pair data_AttributedType data_AttributedType y]
  end.
(** src/interface.rs:62-77. *)
Definition data_IterableInterfaceMember (t : IterableInterfaceMember) : data :=
  match t with
  | IterableInterfaceMember_Single x => Node 0 [data_SingleTypedIterable x]
  | IterableInterfaceMember_Double x => Node 1 [data_DoubleTypedIterable x]
  end.
(** src/interface.rs:81-87. *)
Definition data_SingleTypedAsyncIterable (t : SingleTypedAsyncIterable) : data :=
  match t with
  | mkSingleTypedAsyncIterable x y z => Node 0 [d_option (d_list data_ExtendedAttribute) x; data_AttributedType y; d_option (d_list data_Argument) z]
  end.
(** src/interface.rs:89-95. *)
Definition data_DoubleTypedAsyncIterable (t : DoubleTypedAsyncIterable) : data :=
  match t with
  | mkDoubleTypedAsyncIterable x y z => Node 0 [d_option (d_list data_ExtendedAttribute) x; d_pair data_AttributedType data_AttributedType y; d_option (d_list data_Argument) z]
  end.
(** src/interface.rs:79-96. *)
Definition data_AsyncIterableInterfaceMember (t : AsyncIterableInterfaceMember) : data :=
  match t with
  | AsyncIterableInterfaceMember_Single x => Node 0 [data_SingleTypedAsyncIterable x]
  | AsyncIterableInterfaceMember_Double x => Node 1 [data_DoubleTypedAsyncIterable x]
  end.
(** src/interface.rs:98-104. *)
Definition data_MaplikeInterfaceMember (t : MaplikeInterfaceMember) : data :=
  match t with
  | mkMaplikeInterfaceMember x y z => Node 0 [d_option (d_list data_ExtendedAttribute) x; d_option d_unit y; d_pair data_AttributedType data_AttributedType z]
  end.
(** src/interface.rs:105-111. *)
Definition data_SetlikeInterfaceMember (t : SetlikeInterfaceMember) : data :=
  match t with
  | mkSetlikeInterfaceMember x y z => Node 0 [d_option (d_list data_ExtendedAttribute) x; d_option d_unit y; data_AttributedType z]
  end.
(** src/interface.rs:114-118. *)
Definition data_StringifierMember (t : StringifierMember) : data :=
  match t with
  | mkStringifierMember x => Node 0 [d_option (d_list data_ExtendedAttribute) x]
  end.
(** src/interface.rs:19-119. *)
Definition data_InterfaceMember (t : InterfaceMember) : data :=
  match t with
  | InterfaceMember_Const x => Node 0 [data_ConstMember x]
  | InterfaceMember_Attribute x => Node 1 [data_AttributeInterfaceMember x]
  | InterfaceMember_Constructor x => Node 2 [data_ConstructorInterfaceMember x]
  | InterfaceMember_Operation x => Node 3 [data_OperationInterfaceMember x]
  | InterfaceMember_Iterable x => Node 4 [data_IterableInterfaceMember x]
  | InterfaceMember_AsyncIterable x => Node 5 [data_AsyncIterableInterfaceMember x]
  | InterfaceMember_Maplike x => Node 6 [data_MaplikeInterfaceMember x]
  | InterfaceMember_Setlike x => Node 7 [data_SetlikeInterfaceMember x]
  | InterfaceMember_Stringifier x => Node 8 [data_StringifierMember x]
  end.
(** src/mixin.rs:17-24. *)
Definition data_OperationMixinMember (t : OperationMixinMember) : data :=
  match t with
  | mkOperationMixinMember x y z u v => Node 0 [d_option (d_list data_ExtendedAttribute) x; d_option d_unit y; data_ReturnType z; d_option d_text u; d_list data_Argument v]
  end.
(** src/mixin.rs:26-34. *)
Definition data_AttributeMixinMember (t : AttributeMixinMember) : data :=
  match t with
  | mkAttributeMixinMember x y z u v => Node 0 [d_option (d_list data_ExtendedAttribute) x; d_option d_unit y; d_option d_unit z; data_AttributedType u; d_text v]
  end.
(** src/mixin.rs:12-36. *)
Definition data_MixinMember (t : MixinMember) : data :=
  match t with
  | MixinMember_Const x => Node 0 [data_ConstMember x]
  | MixinMember_Operation x => Node 1 [data_OperationMixinMember x]
  | MixinMember_Attribute x => Node 2 [data_AttributeMixinMember x]
  | MixinMember_Stringifier x => Node 3 [data_StringifierMember x]
  end.
(** src/namespace.rs:14-22. *)
Definition data_ConstNamespaceMember (t : ConstNamespaceMember) : data :=
  match t with
  | mkConstNamespaceMember x y z u => Node 0 [d_option (d_list data_ExtendedAttribute) x; data_ConstType y; d_text z; data_ConstValue u]
  end.
(** src/namespace.rs:26-32. *)
Definition data_OperationNamespaceMember (t : OperationNamespaceMember) : data :=
  match t with
  | mkOperationNamespaceMember x y z u => Node 0 [d_option (d_list data_ExtendedAttribute) x; data_ReturnType y; d_option d_text z; d_list data_Argument u]
  end.
(** src/namespace.rs:34-41. *)
Definition data_AttributeNamespaceMember (t : AttributeNamespaceMember) : data :=
  match t with
  | mkAttributeNamespaceMember x y z => Node 0 [d_option (d_list data_ExtendedAttribute) x; data_AttributedType y; d_text z]
  end.
(** src/namespace.rs:12-42. *)
Definition data_NamespaceMember (t : NamespaceMember) : data :=
  match t with
  | NamespaceMember_Const x => Node 0 [data_ConstNamespaceMember x]
  | NamespaceMember_Operation x => Node 1 [data_OperationNamespaceMember x]
  | NamespaceMember_Attribute x => Node 2 [data_AttributeNamespaceMember x]
  end.
(** src/dictionary.rs:10-17. *)
Definition data_DictionaryMember (t : DictionaryMember) : data :=
  match t with
  | mkDictionaryMember x y z u v => Node 0 [d_option (d_list data_ExtendedAttribute) x; d_option d_unit y; data_Type z; d_text u; d_option data_DefaultValue v]
  end.
(** src/lib.rs:118-126. *)
Definition data_CallbackDefinition (t : CallbackDefinition) : data :=
  match t with
  | mkCallbackDefinition x y z u => Node 0 [d_option (d_list data_ExtendedAttribute) x; d_text y; data_ReturnType z; d_list data_Argument u]
  end.
(** src/lib.rs:128-136. *)
Definition data_CallbackInterfaceDefinition (t : CallbackInterfaceDefinition) : data :=
  match t with
  | mkCallbackInterfaceDefinition x y z u => Node 0 [d_option (d_list data_ExtendedAttribute) x; d_text y; d_option data_Inheritance z; d_list data_InterfaceMember u]
  end.
(** src/lib.rs:138-145. *)
Definition data_InterfaceDefinition (t : InterfaceDefinition) : data :=
  match t with
  | mkInterfaceDefinition x y z u => Node 0 [d_option (d_list data_ExtendedAttribute) x; d_text y; d_option data_Inheritance z; d_list data_InterfaceMember u]
  end.
(** src/lib.rs:147-154. *)
Definition data_InterfaceMixinDefinition (t : InterfaceMixinDefinition) : data :=
  match t with
  | mkInterfaceMixinDefinition x y z => Node 0 [d_option (d_list data_ExtendedAttribute) x; d_text y; d_list data_MixinMember z]
  end.
(** src/lib.rs:156-162. *)
Definition data_NamespaceDefinition (t : NamespaceDefinition) : data :=
  match t with
  | mkNamespaceDefinition x y z => Node 0 [d_option (d_list data_ExtendedAttribute) x; d_text y; d_list data_NamespaceMember z]
  end.
(** src/lib.rs:164-171. *)
Definition data_DictionaryDefinition (t : DictionaryDefinition) : data :=
  match t with
  | mkDictionaryDefinition x y z u => Node 0 [d_option (d_list data_ExtendedAttribute) x; d_text y; d_option data_Inheritance z; d_list data_DictionaryMember u]
  end.
(** src/lib.rs:173-180. *)
Definition data_PartialInterfaceDefinition (t : PartialInterfaceDefinition) : data :=
  match t with
  | mkPartialInterfaceDefinition x y z => Node 0 [d_option (d_list data_ExtendedAttribute) x; d_text y; d_list data_InterfaceMember z]
  end.
(** src/lib.rs:182-190. *)
Definition data_PartialInterfaceMixinDefinition (t : PartialInterfaceMixinDefinition) : data :=
  match t with
  | mkPartialInterfaceMixinDefinition x y z => Node 0 [d_option (d_list data_ExtendedAttribute) x; d_text y; d_list data_MixinMember z]
  end.
(** src/lib.rs:192-199. *)
Definition data_PartialDictionaryDefinition (t : PartialDictionaryDefinition) : data :=
  match t with
  | mkPartialDictionaryDefinition x y z => Node 0 [d_option (d_list data_ExtendedAttribute) x; d_text y; d_list data_DictionaryMember z]
  end.
(** src/lib.rs:201-208. *)
Definition data_PartialNamespaceDefinition (t : PartialNamespaceDefinition) : data :=
  match t with
  | mkPartialNamespaceDefinition x y z => Node 0 [d_option (d_list data_ExtendedAttribute) x; d_text y; d_list data_NamespaceMember z]
  end.
(** src/lib.rs:210-216. *)
Definition data_EnumDefinition (t : EnumDefinition) : data :=
  match t with
  | mkEnumDefinition x y z => Node 0 [d_option (d_list data_ExtendedAttribute) x; d_text y; d_list d_text z]
  end.
(** src/lib.rs:218-224. *)
Definition data_TypedefDefinition (t : TypedefDefinition) : data :=
  match t with
  | mkTypedefDefinition x y z => Node 0 [d_option (d_list data_ExtendedAttribute) x; data_AttributedType y; d_text z]
  end.
(** src/lib.rs:226-232. *)
Definition data_IncludesStatementDefinition (t : IncludesStatementDefinition) : data :=
  match t with
  | mkIncludesStatementDefinition x y z => Node 0 [d_option (d_list data_ExtendedAttribute) x; d_text y; d_text z]
  end.
(** src/lib.rs:234-240. *)
Definition data_ImplementsDefinition (t : ImplementsDefinition) : data :=
  match t with
  | mkImplementsDefinition x y z => Node 0 [d_option (d_list data_ExtendedAttribute) x; d_text y; d_text z]
  end.
(** src/lib.rs:116-241. *)
Definition data_Definition (t : Definition_) : data :=
  match t with
  | Definition_Callback x => Node 0 [data_CallbackDefinition x]
  | Definition_CallbackInterface x => Node 1 [data_CallbackInterfaceDefinition x]
  | Definition_Interface x => Node 2 [data_InterfaceDefinition x]
  | Definition_InterfaceMixin x => Node 3 [data_InterfaceMixinDefinition x]
  | Definition_Namespace x => Node 4 [data_NamespaceDefinition x]
  | Definition_Dictionary x => Node 5 [data_DictionaryDefinition x]
  | Definition_PartialInterface x => Node 6 [data_PartialInterfaceDefinition x]
  | Definition_PartialInterfaceMixin x => Node 7 [data_PartialInterfaceMixinDefinition x]
  | Definition_PartialDictionary x => Node 8 [data_PartialDictionaryDefinition x]
  | Definition_PartialNamespace x => Node 9 [data_PartialNamespaceDefinition x]
  | Definition_Enum x => Node 10 [data_EnumDefinition x]
  | Definition_Typedef x => Node 11 [data_TypedefDefinition x]
  | Definition_IncludesStatement x => Node 12 [data_IncludesStatementDefinition x]
  | Definition_Implements x => Node 13 [data_ImplementsDefinition x]
  end.
(** [Definitions] (src/lib.rs:112). *)
Definition data_Definitions (l : Definitions) : data := d_list data_Definition l.
