(** * Replacing names and literals

    What [parse] makes of a text depends on the spelling of names and literals only through the keywords: replace the
    identifiers, strings and numbers of a text by others, and the tree is the same with the same replacement. *)
From Coq Require Import String Ascii NArith Arith Bool List Lia.
From Verif Require Import Nom Lex Ast Grammar Spec LexFacts NumFacts TokFacts RunFacts Shapes TermFacts Api ApiFacts LexProps
  Tok TokRun TokSound TokComplete TokMembers Shows Exact Print Cost.
Import ListNotations.
Open Scope list_scope.

(** The words that the grammar treats specially. *)
Definition keyword_list : list string :=
  ["or"; "optional"; "async"; "attribute"; "callback"; "const"; "deleter"; "dictionary"; "enum"; "getter"; "includes";
   "inherit"; "interface"; "iterable"; "maplike"; "namespace"; "partial"; "required"; "setlike"; "setter"; "static";
   "stringifier"; "typedef"; "unrestricted"; "symbol"; "ByteString"; "DOMString"; "FrozenArray"; "Infinity"; "NaN";
   "USVString"; "any"; "boolean"; "byte"; "double"; "false"; "float"; "long"; "null"; "object"; "octet"; "sequence";
   "short"; "true"; "unsigned"; "undefined"; "record"; "ArrayBuffer"; "DataView"; "Int8Array"; "Int16Array";
   "Int32Array"; "Uint8Array"; "Uint16Array"; "Uint32Array"; "Uint8ClampedArray"; "Float32Array"; "Float64Array";
   "ArrayBufferView"; "BufferSource"; "Promise"; "Error"; "readonly"; "mixin"; "implements"; "legacycaller";
   "constructor"]%string.
Definition keyword (n : text) : Prop := exists k, In k keyword_list /\ n = str k.
Definition keyword_b (n : text) : bool := existsb (fun k => text_eqb n (str k)) keyword_list.
Lemma keyword_b_spec n : keyword_b n = true <-> keyword n.
Proof.
  unfold keyword_b, keyword. rewrite existsb_exists. split; intros (k & H & H'); exists k; split; auto; apply text_eqb_spec; auto.
Qed.
Lemma keyword_dec n : {keyword n} + {~ keyword n}.
Proof. destruct (keyword_b n) eqn:E; [left; apply keyword_b_spec; auto|right; rewrite <- keyword_b_spec; congruence]. Qed.

Definition same {A} (x : A) : A := x.
Definition ren_pair {A B} (f : A -> A) (g : B -> B) (x : A * B) : A * B := (f (fst x), g (snd x)).
Definition ren_null {T : Set} (f : T -> T) (x : MayBeNull T) : MayBeNull T := mkMayBeNull (f (type_ x)) (q_mark x).

Section Ren.
  (** What becomes of a name, of the contents of a string, of an integer and of a decimal number. *)
  Variables (fn fs : text -> text) (fi : IntegerLit -> IntegerLit) (ff : text -> text).

  (** ** On trees *)
  Definition ren_FloatLit (x : FloatLit) : FloatLit := match x with FloatLit_Value s => FloatLit_Value (ff s) | _ => x end.
  Definition ren_ConstValue (x : ConstValue) : ConstValue :=
    match x with
    | ConstValue_Boolean b => ConstValue_Boolean b
    | ConstValue_Float f => ConstValue_Float (ren_FloatLit f)
    | ConstValue_Integer l => ConstValue_Integer (fi l)
    | ConstValue_Null => ConstValue_Null
    end.
  Definition ren_DefaultValue (x : DefaultValue) : DefaultValue :=
    match x with
    | DefaultValue_Float f => DefaultValue_Float (ren_FloatLit f)
    | DefaultValue_Integer l => DefaultValue_Integer (fi l)
    | DefaultValue_String s => DefaultValue_String (fs s)
    | _ => x
    end.
  Definition ren_LongLongType (x : LongLongType) : LongLongType :=
    match x with mkLongLongType x0 => mkLongLongType ((option_map same) x0) end.
  Definition ren_LongType (x : LongType) : LongType :=
    match x with mkLongType x0 => mkLongType ((option_map same) x0) end.
  Definition ren_ShortType (x : ShortType) : ShortType :=
    match x with mkShortType x0 => mkShortType ((option_map same) x0) end.
  Definition ren_IntegerType (x : IntegerType) : IntegerType :=
    match x with
    | IntegerType_LongLong x0 => IntegerType_LongLong (ren_LongLongType x0)
    | IntegerType_Long x0 => IntegerType_Long (ren_LongType x0)
    | IntegerType_Short x0 => IntegerType_Short (ren_ShortType x0)
    end.
  Definition ren_FloatType (x : FloatType) : FloatType :=
    match x with mkFloatType x0 => mkFloatType ((option_map same) x0) end.
  Definition ren_DoubleType (x : DoubleType) : DoubleType :=
    match x with mkDoubleType x0 => mkDoubleType ((option_map same) x0) end.
  Definition ren_FloatingPointType (x : FloatingPointType) : FloatingPointType :=
    match x with
    | FloatingPointType_Float x0 => FloatingPointType_Float (ren_FloatType x0)
    | FloatingPointType_Double x0 => FloatingPointType_Double (ren_DoubleType x0)
    end.
  Definition ren_ConstType (x : ConstType) : ConstType :=
    match x with
    | ConstType_Integer x0 => ConstType_Integer ((ren_null ren_IntegerType) x0)
    | ConstType_FloatingPoint x0 => ConstType_FloatingPoint ((ren_null ren_FloatingPointType) x0)
    | ConstType_Boolean x0 => ConstType_Boolean ((ren_null same) x0)
    | ConstType_Byte x0 => ConstType_Byte ((ren_null same) x0)
    | ConstType_Octet x0 => ConstType_Octet ((ren_null same) x0)
    | ConstType_Identifier x0 => ConstType_Identifier ((ren_null fn) x0)
    end.
  Definition ren_IdentifierOrString (x : IdentifierOrString) : IdentifierOrString :=
    match x with
    | IdentifierOrString_Identifier x0 => IdentifierOrString_Identifier (fn x0)
    | IdentifierOrString_String x0 => IdentifierOrString_String (fs x0)
    end.
  Definition ren_ExtendedAttributeIdentList (x : ExtendedAttributeIdentList) : ExtendedAttributeIdentList :=
    match x with mkExtendedAttributeIdentList x0 x1 => mkExtendedAttributeIdentList (fn x0) ((map fn) x1) end.
  Definition ren_ExtendedAttributeIdent (x : ExtendedAttributeIdent) : ExtendedAttributeIdent :=
    match x with mkExtendedAttributeIdent x0 x1 => mkExtendedAttributeIdent (fn x0) (ren_IdentifierOrString x1) end.
  Definition ren_ExtendedAttributeWildCard (x : ExtendedAttributeWildCard) : ExtendedAttributeWildCard :=
    match x with mkExtendedAttributeWildCard x0 => mkExtendedAttributeWildCard (fn x0) end.
  Fixpoint ren_Type (x : Type_) {struct x} : Type_ :=
    match x with
    | Type_Single x0 => Type_Single (ren_SingleType x0)
    | Type_Union x0 => Type_Union ((ren_null (map ren_UnionMemberType)) x0)
    end
  with ren_SingleType (x : SingleType) {struct x} : SingleType :=
    match x with
    | SingleType_Any => SingleType_Any
    | SingleType_NonAny x0 => SingleType_NonAny (ren_NonAnyType x0)
    end
  with ren_NonAnyType (x : NonAnyType) {struct x} : NonAnyType :=
    match x with
    | NonAnyType_Promise x0 => NonAnyType_Promise (ren_PromiseType x0)
    | NonAnyType_Integer x0 => NonAnyType_Integer ((ren_null ren_IntegerType) x0)
    | NonAnyType_FloatingPoint x0 => NonAnyType_FloatingPoint ((ren_null ren_FloatingPointType) x0)
    | NonAnyType_Boolean x0 => NonAnyType_Boolean ((ren_null same) x0)
    | NonAnyType_Byte x0 => NonAnyType_Byte ((ren_null same) x0)
    | NonAnyType_Octet x0 => NonAnyType_Octet ((ren_null same) x0)
    | NonAnyType_ByteString x0 => NonAnyType_ByteString ((ren_null same) x0)
    | NonAnyType_DOMString x0 => NonAnyType_DOMString ((ren_null same) x0)
    | NonAnyType_USVString x0 => NonAnyType_USVString ((ren_null same) x0)
    | NonAnyType_Sequence x0 => NonAnyType_Sequence ((ren_null ren_SequenceType) x0)
    | NonAnyType_Object x0 => NonAnyType_Object ((ren_null same) x0)
    | NonAnyType_Symbol x0 => NonAnyType_Symbol ((ren_null same) x0)
    | NonAnyType_Error x0 => NonAnyType_Error ((ren_null same) x0)
    | NonAnyType_ArrayBuffer x0 => NonAnyType_ArrayBuffer ((ren_null same) x0)
    | NonAnyType_DataView x0 => NonAnyType_DataView ((ren_null same) x0)
    | NonAnyType_Int8Array x0 => NonAnyType_Int8Array ((ren_null same) x0)
    | NonAnyType_Int16Array x0 => NonAnyType_Int16Array ((ren_null same) x0)
    | NonAnyType_Int32Array x0 => NonAnyType_Int32Array ((ren_null same) x0)
    | NonAnyType_Uint8Array x0 => NonAnyType_Uint8Array ((ren_null same) x0)
    | NonAnyType_Uint16Array x0 => NonAnyType_Uint16Array ((ren_null same) x0)
    | NonAnyType_Uint32Array x0 => NonAnyType_Uint32Array ((ren_null same) x0)
    | NonAnyType_Uint8ClampedArray x0 => NonAnyType_Uint8ClampedArray ((ren_null same) x0)
    | NonAnyType_Float32Array x0 => NonAnyType_Float32Array ((ren_null same) x0)
    | NonAnyType_Float64Array x0 => NonAnyType_Float64Array ((ren_null same) x0)
    | NonAnyType_ArrayBufferView x0 => NonAnyType_ArrayBufferView ((ren_null same) x0)
    | NonAnyType_BufferSource x0 => NonAnyType_BufferSource ((ren_null same) x0)
    | NonAnyType_FrozenArrayType x0 => NonAnyType_FrozenArrayType ((ren_null ren_FrozenArrayType) x0)
    | NonAnyType_RecordType x0 => NonAnyType_RecordType ((ren_null ren_RecordType) x0)
    | NonAnyType_Identifier x0 => NonAnyType_Identifier ((ren_null fn) x0)
    end
  with ren_SequenceType (x : SequenceType) {struct x} : SequenceType :=
    match x with
    | mkSequenceType x0 => mkSequenceType (ren_Type x0)
    end
  with ren_FrozenArrayType (x : FrozenArrayType) {struct x} : FrozenArrayType :=
    match x with
    | mkFrozenArrayType x0 => mkFrozenArrayType (ren_Type x0)
    end
  with ren_PromiseType (x : PromiseType) {struct x} : PromiseType :=
    match x with
    | mkPromiseType x0 => mkPromiseType (ren_ReturnType x0)
    end
  with ren_RecordType (x : RecordType) {struct x} : RecordType :=
    match x with
    | mkRecordType x0 x1 => mkRecordType (ren_RecordKeyType x0) (ren_Type x1)
    end
  with ren_RecordKeyType (x : RecordKeyType) {struct x} : RecordKeyType :=
    match x with
    | RecordKeyType_Byte => RecordKeyType_Byte
    | RecordKeyType_DOM => RecordKeyType_DOM
    | RecordKeyType_USV => RecordKeyType_USV
    | RecordKeyType_NonAny x0 => RecordKeyType_NonAny (ren_NonAnyType x0)
    end
  with ren_UnionMemberType (x : UnionMemberType) {struct x} : UnionMemberType :=
    match x with
    | UnionMemberType_Single x0 => UnionMemberType_Single (ren_AttributedNonAnyType x0)
    | UnionMemberType_Union x0 => UnionMemberType_Union ((ren_null (map ren_UnionMemberType)) x0)
    end
  with ren_ReturnType (x : ReturnType) {struct x} : ReturnType :=
    match x with
    | ReturnType_Undefined => ReturnType_Undefined
    | ReturnType_Type x0 => ReturnType_Type (ren_Type x0)
    end
  with ren_AttributedType (x : AttributedType) {struct x} : AttributedType :=
    match x with
    | mkAttributedType x0 x1 => mkAttributedType ((option_map (map ren_ExtendedAttribute)) x0) (ren_Type x1)
    end
  with ren_AttributedNonAnyType (x : AttributedNonAnyType) {struct x} : AttributedNonAnyType :=
    match x with
    | mkAttributedNonAnyType x0 x1 => mkAttributedNonAnyType ((option_map (map ren_ExtendedAttribute)) x0) (ren_NonAnyType x1)
    end
  with ren_ExtendedAttribute (x : ExtendedAttribute) {struct x} : ExtendedAttribute :=
    match x with
    | ExtendedAttribute_ArgList x0 => ExtendedAttribute_ArgList (ren_ExtendedAttributeArgList x0)
    | ExtendedAttribute_NamedArgList x0 => ExtendedAttribute_NamedArgList (ren_ExtendedAttributeNamedArgList x0)
    | ExtendedAttribute_IdentList x0 => ExtendedAttribute_IdentList (ren_ExtendedAttributeIdentList x0)
    | ExtendedAttribute_Ident x0 => ExtendedAttribute_Ident (ren_ExtendedAttributeIdent x0)
    | ExtendedAttribute_Wildcard x0 => ExtendedAttribute_Wildcard (ren_ExtendedAttributeWildCard x0)
    | ExtendedAttribute_NoArgs x0 => ExtendedAttribute_NoArgs (fn x0)
    end
  with ren_ExtendedAttributeArgList (x : ExtendedAttributeArgList) {struct x} : ExtendedAttributeArgList :=
    match x with
    | mkExtendedAttributeArgList x0 x1 => mkExtendedAttributeArgList (fn x0) ((map ren_Argument) x1)
    end
  with ren_ExtendedAttributeNamedArgList (x : ExtendedAttributeNamedArgList) {struct x} : ExtendedAttributeNamedArgList :=
    match x with
    | mkExtendedAttributeNamedArgList x0 x1 x2 => mkExtendedAttributeNamedArgList (fn x0) (fn x1) ((map ren_Argument) x2)
    end
  with ren_Argument (x : Argument) {struct x} : Argument :=
    match x with
    | Argument_Single x0 => Argument_Single (ren_SingleArgument x0)
    | Argument_Variadic x0 => Argument_Variadic (ren_VariadicArgument x0)
    end
  with ren_SingleArgument (x : SingleArgument) {struct x} : SingleArgument :=
    match x with
    | mkSingleArgument x0 x1 x2 x3 x4 => mkSingleArgument ((option_map (map ren_ExtendedAttribute)) x0) ((option_map same) x1) (ren_AttributedType x2) (fn x3) ((option_map ren_DefaultValue) x4)
    end
  with ren_VariadicArgument (x : VariadicArgument) {struct x} : VariadicArgument :=
    match x with
    | mkVariadicArgument x0 x1 x2 => mkVariadicArgument ((option_map (map ren_ExtendedAttribute)) x0) (ren_Type x1) (fn x2)
    end.
  Definition ren_Inheritance (x : Inheritance) : Inheritance :=
    match x with mkInheritance x0 => mkInheritance (fn x0) end.
  Definition ren_ConstMember (x : ConstMember) : ConstMember :=
    match x with mkConstMember x0 x1 x2 x3 => mkConstMember ((option_map (map ren_ExtendedAttribute)) x0) (ren_ConstType x1) (fn x2) (ren_ConstValue x3) end.
  Definition ren_Special (x : Special) : Special :=
    match x with
    | Special_Getter => Special_Getter
    | Special_Setter => Special_Setter
    | Special_Deleter => Special_Deleter
    | Special_LegacyCaller => Special_LegacyCaller
    end.
  Definition ren_StringifierOrInheritOrStatic (x : StringifierOrInheritOrStatic) : StringifierOrInheritOrStatic :=
    match x with
    | SIS_Stringifier => SIS_Stringifier
    | SIS_Inherit => SIS_Inherit
    | SIS_Static => SIS_Static
    end.
  Definition ren_StringifierOrStatic (x : StringifierOrStatic) : StringifierOrStatic :=
    match x with
    | SS_Stringifier => SS_Stringifier
    | SS_Static => SS_Static
    end.
  Definition ren_AttributeInterfaceMember (x : AttributeInterfaceMember) : AttributeInterfaceMember :=
    match x with mkAttributeInterfaceMember x0 x1 x2 x3 x4 => mkAttributeInterfaceMember ((option_map (map ren_ExtendedAttribute)) x0) ((option_map ren_StringifierOrInheritOrStatic) x1) ((option_map same) x2) (ren_AttributedType x3) (fn x4) end.
  Definition ren_ConstructorInterfaceMember (x : ConstructorInterfaceMember) : ConstructorInterfaceMember :=
    match x with mkConstructorInterfaceMember x0 x1 => mkConstructorInterfaceMember ((option_map (map ren_ExtendedAttribute)) x0) ((map ren_Argument) x1) end.
  Definition ren_OperationInterfaceMember (x : OperationInterfaceMember) : OperationInterfaceMember :=
    match x with mkOperationInterfaceMember x0 x1 x2 x3 x4 x5 => mkOperationInterfaceMember ((option_map (map ren_ExtendedAttribute)) x0) ((option_map ren_StringifierOrStatic) x1) ((option_map ren_Special) x2) (ren_ReturnType x3) ((option_map fn) x4) ((map ren_Argument) x5) end.
  Definition ren_SingleTypedIterable (x : SingleTypedIterable) : SingleTypedIterable :=
    match x with mkSingleTypedIterable x0 x1 => mkSingleTypedIterable ((option_map (map ren_ExtendedAttribute)) x0) (ren_AttributedType x1) end.
  Definition ren_DoubleTypedIterable (x : DoubleTypedIterable) : DoubleTypedIterable :=
    match x with mkDoubleTypedIterable x0 x1 => mkDoubleTypedIterable ((option_map (map ren_ExtendedAttribute)) x0) ((ren_pair ren_AttributedType ren_AttributedType) x1) end.
  Definition ren_IterableInterfaceMember (x : IterableInterfaceMember) : IterableInterfaceMember :=
    match x with
    | IterableInterfaceMember_Single x0 => IterableInterfaceMember_Single (ren_SingleTypedIterable x0)
    | IterableInterfaceMember_Double x0 => IterableInterfaceMember_Double (ren_DoubleTypedIterable x0)
    end.
  Definition ren_SingleTypedAsyncIterable (x : SingleTypedAsyncIterable) : SingleTypedAsyncIterable :=
    match x with mkSingleTypedAsyncIterable x0 x1 x2 => mkSingleTypedAsyncIterable ((option_map (map ren_ExtendedAttribute)) x0) (ren_AttributedType x1) ((option_map (map ren_Argument)) x2) end.
  Definition ren_DoubleTypedAsyncIterable (x : DoubleTypedAsyncIterable) : DoubleTypedAsyncIterable :=
    match x with mkDoubleTypedAsyncIterable x0 x1 x2 => mkDoubleTypedAsyncIterable ((option_map (map ren_ExtendedAttribute)) x0) ((ren_pair ren_AttributedType ren_AttributedType) x1) ((option_map (map ren_Argument)) x2) end.
  Definition ren_AsyncIterableInterfaceMember (x : AsyncIterableInterfaceMember) : AsyncIterableInterfaceMember :=
    match x with
    | AsyncIterableInterfaceMember_Single x0 => AsyncIterableInterfaceMember_Single (ren_SingleTypedAsyncIterable x0)
    | AsyncIterableInterfaceMember_Double x0 => AsyncIterableInterfaceMember_Double (ren_DoubleTypedAsyncIterable x0)
    end.
  Definition ren_MaplikeInterfaceMember (x : MaplikeInterfaceMember) : MaplikeInterfaceMember :=
    match x with mkMaplikeInterfaceMember x0 x1 x2 => mkMaplikeInterfaceMember ((option_map (map ren_ExtendedAttribute)) x0) ((option_map same) x1) ((ren_pair ren_AttributedType ren_AttributedType) x2) end.
  Definition ren_SetlikeInterfaceMember (x : SetlikeInterfaceMember) : SetlikeInterfaceMember :=
    match x with mkSetlikeInterfaceMember x0 x1 x2 => mkSetlikeInterfaceMember ((option_map (map ren_ExtendedAttribute)) x0) ((option_map same) x1) (ren_AttributedType x2) end.
  Definition ren_StringifierMember (x : StringifierMember) : StringifierMember :=
    match x with mkStringifierMember x0 => mkStringifierMember ((option_map (map ren_ExtendedAttribute)) x0) end.
  Definition ren_InterfaceMember (x : InterfaceMember) : InterfaceMember :=
    match x with
    | InterfaceMember_Const x0 => InterfaceMember_Const (ren_ConstMember x0)
    | InterfaceMember_Attribute x0 => InterfaceMember_Attribute (ren_AttributeInterfaceMember x0)
    | InterfaceMember_Constructor x0 => InterfaceMember_Constructor (ren_ConstructorInterfaceMember x0)
    | InterfaceMember_Operation x0 => InterfaceMember_Operation (ren_OperationInterfaceMember x0)
    | InterfaceMember_Iterable x0 => InterfaceMember_Iterable (ren_IterableInterfaceMember x0)
    | InterfaceMember_AsyncIterable x0 => InterfaceMember_AsyncIterable (ren_AsyncIterableInterfaceMember x0)
    | InterfaceMember_Maplike x0 => InterfaceMember_Maplike (ren_MaplikeInterfaceMember x0)
    | InterfaceMember_Setlike x0 => InterfaceMember_Setlike (ren_SetlikeInterfaceMember x0)
    | InterfaceMember_Stringifier x0 => InterfaceMember_Stringifier (ren_StringifierMember x0)
    end.
  Definition ren_OperationMixinMember (x : OperationMixinMember) : OperationMixinMember :=
    match x with mkOperationMixinMember x0 x1 x2 x3 x4 => mkOperationMixinMember ((option_map (map ren_ExtendedAttribute)) x0) ((option_map same) x1) (ren_ReturnType x2) ((option_map fn) x3) ((map ren_Argument) x4) end.
  Definition ren_AttributeMixinMember (x : AttributeMixinMember) : AttributeMixinMember :=
    match x with mkAttributeMixinMember x0 x1 x2 x3 x4 => mkAttributeMixinMember ((option_map (map ren_ExtendedAttribute)) x0) ((option_map same) x1) ((option_map same) x2) (ren_AttributedType x3) (fn x4) end.
  Definition ren_MixinMember (x : MixinMember) : MixinMember :=
    match x with
    | MixinMember_Const x0 => MixinMember_Const (ren_ConstMember x0)
    | MixinMember_Operation x0 => MixinMember_Operation (ren_OperationMixinMember x0)
    | MixinMember_Attribute x0 => MixinMember_Attribute (ren_AttributeMixinMember x0)
    | MixinMember_Stringifier x0 => MixinMember_Stringifier (ren_StringifierMember x0)
    end.
  Definition ren_ConstNamespaceMember (x : ConstNamespaceMember) : ConstNamespaceMember :=
    match x with mkConstNamespaceMember x0 x1 x2 x3 => mkConstNamespaceMember ((option_map (map ren_ExtendedAttribute)) x0) (ren_ConstType x1) (fn x2) (ren_ConstValue x3) end.
  Definition ren_OperationNamespaceMember (x : OperationNamespaceMember) : OperationNamespaceMember :=
    match x with mkOperationNamespaceMember x0 x1 x2 x3 => mkOperationNamespaceMember ((option_map (map ren_ExtendedAttribute)) x0) (ren_ReturnType x1) ((option_map fn) x2) ((map ren_Argument) x3) end.
  Definition ren_AttributeNamespaceMember (x : AttributeNamespaceMember) : AttributeNamespaceMember :=
    match x with mkAttributeNamespaceMember x0 x1 x2 => mkAttributeNamespaceMember ((option_map (map ren_ExtendedAttribute)) x0) (ren_AttributedType x1) (fn x2) end.
  Definition ren_NamespaceMember (x : NamespaceMember) : NamespaceMember :=
    match x with
    | NamespaceMember_Const x0 => NamespaceMember_Const (ren_ConstNamespaceMember x0)
    | NamespaceMember_Operation x0 => NamespaceMember_Operation (ren_OperationNamespaceMember x0)
    | NamespaceMember_Attribute x0 => NamespaceMember_Attribute (ren_AttributeNamespaceMember x0)
    end.
  Definition ren_DictionaryMember (x : DictionaryMember) : DictionaryMember :=
    match x with mkDictionaryMember x0 x1 x2 x3 x4 => mkDictionaryMember ((option_map (map ren_ExtendedAttribute)) x0) ((option_map same) x1) (ren_Type x2) (fn x3) ((option_map ren_DefaultValue) x4) end.
  Definition ren_CallbackDefinition (x : CallbackDefinition) : CallbackDefinition :=
    match x with mkCallbackDefinition x0 x1 x2 x3 => mkCallbackDefinition ((option_map (map ren_ExtendedAttribute)) x0) (fn x1) (ren_ReturnType x2) ((map ren_Argument) x3) end.
  Definition ren_CallbackInterfaceDefinition (x : CallbackInterfaceDefinition) : CallbackInterfaceDefinition :=
    match x with mkCallbackInterfaceDefinition x0 x1 x2 x3 => mkCallbackInterfaceDefinition ((option_map (map ren_ExtendedAttribute)) x0) (fn x1) ((option_map ren_Inheritance) x2) ((map ren_InterfaceMember) x3) end.
  Definition ren_InterfaceDefinition (x : InterfaceDefinition) : InterfaceDefinition :=
    match x with mkInterfaceDefinition x0 x1 x2 x3 => mkInterfaceDefinition ((option_map (map ren_ExtendedAttribute)) x0) (fn x1) ((option_map ren_Inheritance) x2) ((map ren_InterfaceMember) x3) end.
  Definition ren_InterfaceMixinDefinition (x : InterfaceMixinDefinition) : InterfaceMixinDefinition :=
    match x with mkInterfaceMixinDefinition x0 x1 x2 => mkInterfaceMixinDefinition ((option_map (map ren_ExtendedAttribute)) x0) (fn x1) ((map ren_MixinMember) x2) end.
  Definition ren_NamespaceDefinition (x : NamespaceDefinition) : NamespaceDefinition :=
    match x with mkNamespaceDefinition x0 x1 x2 => mkNamespaceDefinition ((option_map (map ren_ExtendedAttribute)) x0) (fn x1) ((map ren_NamespaceMember) x2) end.
  Definition ren_DictionaryDefinition (x : DictionaryDefinition) : DictionaryDefinition :=
    match x with mkDictionaryDefinition x0 x1 x2 x3 => mkDictionaryDefinition ((option_map (map ren_ExtendedAttribute)) x0) (fn x1) ((option_map ren_Inheritance) x2) ((map ren_DictionaryMember) x3) end.
  Definition ren_PartialInterfaceDefinition (x : PartialInterfaceDefinition) : PartialInterfaceDefinition :=
    match x with mkPartialInterfaceDefinition x0 x1 x2 => mkPartialInterfaceDefinition ((option_map (map ren_ExtendedAttribute)) x0) (fn x1) ((map ren_InterfaceMember) x2) end.
  Definition ren_PartialInterfaceMixinDefinition (x : PartialInterfaceMixinDefinition) : PartialInterfaceMixinDefinition :=
    match x with mkPartialInterfaceMixinDefinition x0 x1 x2 => mkPartialInterfaceMixinDefinition ((option_map (map ren_ExtendedAttribute)) x0) (fn x1) ((map ren_MixinMember) x2) end.
  Definition ren_PartialDictionaryDefinition (x : PartialDictionaryDefinition) : PartialDictionaryDefinition :=
    match x with mkPartialDictionaryDefinition x0 x1 x2 => mkPartialDictionaryDefinition ((option_map (map ren_ExtendedAttribute)) x0) (fn x1) ((map ren_DictionaryMember) x2) end.
  Definition ren_PartialNamespaceDefinition (x : PartialNamespaceDefinition) : PartialNamespaceDefinition :=
    match x with mkPartialNamespaceDefinition x0 x1 x2 => mkPartialNamespaceDefinition ((option_map (map ren_ExtendedAttribute)) x0) (fn x1) ((map ren_NamespaceMember) x2) end.
  Definition ren_EnumDefinition (x : EnumDefinition) : EnumDefinition :=
    match x with mkEnumDefinition x0 x1 x2 => mkEnumDefinition ((option_map (map ren_ExtendedAttribute)) x0) (fn x1) ((map fs) x2) end.
  Definition ren_TypedefDefinition (x : TypedefDefinition) : TypedefDefinition :=
    match x with mkTypedefDefinition x0 x1 x2 => mkTypedefDefinition ((option_map (map ren_ExtendedAttribute)) x0) (ren_AttributedType x1) (fn x2) end.
  Definition ren_IncludesStatementDefinition (x : IncludesStatementDefinition) : IncludesStatementDefinition :=
    match x with mkIncludesStatementDefinition x0 x1 x2 => mkIncludesStatementDefinition ((option_map (map ren_ExtendedAttribute)) x0) (fn x1) (fn x2) end.
  Definition ren_ImplementsDefinition (x : ImplementsDefinition) : ImplementsDefinition :=
    match x with mkImplementsDefinition x0 x1 x2 => mkImplementsDefinition ((option_map (map ren_ExtendedAttribute)) x0) (fn x1) (fn x2) end.
  Definition ren_Definition (x : Definition_) : Definition_ :=
    match x with
    | Definition_Callback x0 => Definition_Callback (ren_CallbackDefinition x0)
    | Definition_CallbackInterface x0 => Definition_CallbackInterface (ren_CallbackInterfaceDefinition x0)
    | Definition_Interface x0 => Definition_Interface (ren_InterfaceDefinition x0)
    | Definition_InterfaceMixin x0 => Definition_InterfaceMixin (ren_InterfaceMixinDefinition x0)
    | Definition_Namespace x0 => Definition_Namespace (ren_NamespaceDefinition x0)
    | Definition_Dictionary x0 => Definition_Dictionary (ren_DictionaryDefinition x0)
    | Definition_PartialInterface x0 => Definition_PartialInterface (ren_PartialInterfaceDefinition x0)
    | Definition_PartialInterfaceMixin x0 => Definition_PartialInterfaceMixin (ren_PartialInterfaceMixinDefinition x0)
    | Definition_PartialDictionary x0 => Definition_PartialDictionary (ren_PartialDictionaryDefinition x0)
    | Definition_PartialNamespace x0 => Definition_PartialNamespace (ren_PartialNamespaceDefinition x0)
    | Definition_Enum x0 => Definition_Enum (ren_EnumDefinition x0)
    | Definition_Typedef x0 => Definition_Typedef (ren_TypedefDefinition x0)
    | Definition_IncludesStatement x0 => Definition_IncludesStatement (ren_IncludesStatementDefinition x0)
    | Definition_Implements x0 => Definition_Implements (ren_ImplementsDefinition x0)
    end.

  (** ** On tokens *)

  (** [RenTok t t']: [t'] is [t] with its name or contents replaced; keywords stay, and only names that are no keywords may
      gain or lose the underscore in front. *)
  Inductive RenTok : tok -> tok -> Prop :=
  | RenTok_keyword e n : keyword n -> RenTok (TName e n) (TName e n)
  | RenTok_name e e' n : ~ keyword n -> ~ keyword (fn n) -> RenTok (TName e n) (TName e' (fn n))
  | RenTok_punct s : RenTok (TPunct s) (TPunct s)
  | RenTok_neginf : RenTok TNegInf TNegInf
  | RenTok_int l : RenTok (TInt l) (TInt (fi l))
  | RenTok_float s : RenTok (TFloat s) (TFloat (ff s))
  | RenTok_str s : RenTok (TStr s) (TStr (fs s)).

  Hypothesis fn_keyword : forall n, keyword n -> fn n = n.

  Definition RR {A} (f : A -> A) (o o' : res (list tok) A) : Prop :=
    match o, o' with
    | Ok r a, Ok r' a' => Forall2 RenTok r r' /\ a' = f a
    | Err (Error _ _), Err (Error _ _) => True
    | Err (Failure _ _), Err (Failure _ _) | Err Incomplete, Err Incomplete => True
    | Diverge, Diverge => True
    | _, _ => False
    end.
  Definition RP {A} (f : A -> A) (p p' : parser (list tok) A) : Prop :=
    forall ts ts', Forall2 RenTok ts ts' -> RR f (p ts) (p' ts').

  Lemma Forall2_same ts ts' us us' : Forall2 RenTok ts ts' -> Forall2 RenTok us us' -> toks_same us ts = toks_same us' ts'.
  Proof.
    intros H H'. assert (L : forall l l', Forall2 RenTok l l' -> length l = length l') by (induction 1; cbn; auto).
    apply L in H, H'. unfold toks_same. congruence.
  Qed.

  Ltac cases H := let r := fresh "r" in let a := fresh "a" in let r' := fresh "r'" in let a' := fresh "a'" in
    match type of H with RR _ ?o ?o' => destruct o as [r a|[? ?|? ?|]|], o' as [r' a'|[? ?|? ?|]|]; cbn in H; try contradiction end.

  Lemma RP_ret A (f : A -> A) a a' : a' = f a -> RP f (ret a) (ret a').
  Proof. intros E ts ts' H. cbn. auto. Qed.
  Lemma RP_bind A B (f : A -> A) (g : B -> B) p p' k k' : RP f p p' -> (forall a, RP g (k a) (k' (f a))) -> RP g (bind p k) (bind p' k').
  Proof.
    intros Hp Hk ts ts' H. unfold bind. specialize (Hp _ _ H). cases Hp; cbn; auto.
    destruct Hp as [Hr ->]. apply Hk. auto.
  Qed.
  Lemma RP_or A (f : A -> A) p p' q q' : RP f p p' -> RP f q q' -> RP f (alt_or p q) (alt_or p' q').
  Proof. intros Hp Hq ts ts' H. unfold alt_or. specialize (Hp _ _ H). cases Hp; cbn; auto. Qed.
  Lemma RP_end A (f : A -> A) : RP f alt_end alt_end.
  Proof. intros ts ts' H. exact I. Qed.
  Lemma RP_opt A (f : A -> A) p p' : RP f p p' -> RP (option_map f) (opt p) (opt p').
  Proof.
    intros Hp ts ts' H. unfold opt. specialize (Hp _ _ H). cases Hp; cbn; auto.
    destruct Hp as [Hr ->]. auto.
  Qed.
  Lemma RR_many0 A (f : A -> A) p p' : RP f p p' -> forall n ts ts' acc, Forall2 RenTok ts ts' ->
    RR (map f) (many0_loop toks_same n p ts acc) (many0_loop toks_same n p' ts' (map f acc)).
  Proof.
    intros Hp. induction n as [|n IH]; intros ts ts' acc H; cbn; auto.
    pose proof (Hp _ _ H) as H'. cases H'; cbn; auto.
    destruct H' as [Hr ->]. rewrite (Forall2_same _ _ _ _ H Hr). destruct (toks_same _ _); cbn; auto.
    replace (map f acc ++ [f a]) with (map f (acc ++ [a])) by (rewrite map_app; auto). apply IH. auto.
  Qed.
  Lemma RP_many0 A (f : A -> A) n p p' : RP f p p' -> RP (map f) (many0 toks_same n p) (many0 toks_same n p').
  Proof. intros Hp ts ts' H. apply (RR_many0 _ _ _ _ Hp _ _ _ []). auto. Qed.
  Lemma RR_sep A S (f : A -> A) (g : S -> S) p p' s s' : RP f p p' -> RP g s s' -> forall n ts ts' acc, Forall2 RenTok ts ts' ->
    RR (map f) (sep_loop toks_same n s p ts acc) (sep_loop toks_same n s' p' ts' (map f acc)).
  Proof.
    intros Hp Hs. induction n as [|n IH]; intros ts ts' acc H; cbn; auto.
    pose proof (Hs _ _ H) as H'. cases H'; cbn; auto.
    destruct H' as [Hr ->]. rewrite (Forall2_same _ _ _ _ H Hr). destruct (toks_same _ _); cbn; auto.
    pose proof (Hp _ _ Hr) as H'. cases H'; cbn; auto.
    destruct H' as [Hr' ->]. rewrite (Forall2_same _ _ _ _ H Hr'). destruct (toks_same _ _); cbn; auto.
    match goal with |- context [map f acc ++ [f ?a]] => replace (map f acc ++ [f a]) with (map f (acc ++ [a])) by (rewrite map_app; auto) end.
    apply IH. auto.
  Qed.
  Lemma RP_seplist A S (f : A -> A) (g : S -> S) n p p' s s' : RP f p p' -> RP g s s' ->
    RP (map f) (separated_list toks_same n s p) (separated_list toks_same n s' p').
  Proof.
    intros Hp Hs ts ts' H. unfold separated_list. pose proof (Hp _ _ H) as H'. cases H'; cbn; auto.
    destruct H' as [Hr ->]. rewrite (Forall2_same _ _ _ _ H Hr). destruct (toks_same _ _); cbn; auto.
    apply (RR_sep _ _ _ _ _ _ _ _ Hp Hs n _ _ [a]). auto.
  Qed.
  Lemma RP_sepnonempty A S (f : A -> A) (g : S -> S) n p p' s s' : RP f p p' -> RP g s s' ->
    RP (map f) (separated_nonempty_list toks_same n s p) (separated_nonempty_list toks_same n s' p').
  Proof.
    intros Hp Hs ts ts' H. unfold separated_nonempty_list. pose proof (Hp _ _ H) as H'. cases H'; cbn; auto.
    destruct H' as [Hr ->]. rewrite (Forall2_same _ _ _ _ H Hr). destruct (toks_same _ _); cbn; auto.
    apply (RR_sep _ _ _ _ _ _ _ _ Hp Hs n _ _ [a]). auto.
  Qed.

  (** The terminals. *)
  Lemma not_keyword n k : ~ keyword n -> In k keyword_list -> text_eqb n (str k) = false.
  Proof. intros H Hk. apply not_true_is_false. intros E. apply text_eqb_spec in E. subst. apply H. exists k. auto. Qed.
  Lemma not_keyword_term n t : ~ keyword n -> term_tok t = TName false n -> False.
  Proof.
    intros H E. apply H, keyword_b_spec.
    destruct t; cbn in E; try discriminate; injection E as <-; reflexivity.
  Qed.
  Lemma RP_term t : RP same (tok_sem _ (TmTerm t)) (tok_sem _ (TmTerm t)).
  Proof.
    intros ts ts' H. destruct H as [|x x' r r' H Hr]; cbn; auto.
    assert (E : tok_eqb x (term_tok t) = tok_eqb x' (term_tok t)).
    { apply eq_true_iff_eq. rewrite !tok_eqb_eq. destruct H; try tauto.
      - split; intros E; [destruct e|destruct e'];
          (exfalso; symmetry in E; (eapply not_keyword_term; [|exact E]; auto; fail) || (destruct t; discriminate)).
      - split; intros E; destruct t; discriminate.
      - split; intros E; destruct t; discriminate.
      - split; intros E; destruct t; discriminate. }
    rewrite E. destruct (tok_eqb x' (term_tok t)); cbn; auto.
  Qed.
  Lemma RP_identifier : RP fn (tok_sem _ TmIdentifier) (tok_sem _ TmIdentifier).
  Proof. intros ts ts' H. destruct H as [|x x' r r' H Hr]; cbn; auto. destruct H; cbn; auto. split; auto. symmetry. auto. Qed.
  Lemma RP_string : RP fs (tok_sem _ TmStringLit) (tok_sem _ TmStringLit).
  Proof. intros ts ts' H. destruct H as [|x x' r r' H Hr]; cbn; auto. destruct H; cbn; auto. Qed.
  Lemma const_of_ren ts ts' : Forall2 RenTok ts ts' ->
    match const_of ts, const_of ts' with
    | Some (v, r), Some (v', r') => Forall2 RenTok r r' /\ v' = ren_ConstValue v
    | None, None => True
    | _, _ => False
    end.
  Proof.
    intros H. destruct H as [|x x' r r' H Hr]; [exact I|]. destruct H; cbn [const_of]; auto.
    - destruct e; auto. unfold bool_of, float_of.
      repeat match goal with |- context [if ?b then _ else _] => destruct b end; cbn; auto.
    - assert (F : forall m, ~ keyword m -> bool_of m = None /\ float_of m = None /\ text_eqb m (str "null") = false).
      { intros m Hm. unfold bool_of, float_of. rewrite !(not_keyword m) by (auto; cbn; tauto). auto. }
      destruct (F n) as (-> & -> & ->); auto. destruct (F (fn n)) as (-> & -> & ->); auto. destruct e, e'; auto.
  Qed.
  Lemma RP_const : RP ren_ConstValue (tok_sem _ TmConstValue) (tok_sem _ TmConstValue).
  Proof.
    intros ts ts' H. cbn. pose proof (const_of_ren _ _ H) as H'.
    destruct (const_of ts) as [[v r]|], (const_of ts') as [[v' r']|]; cbn; auto; contradiction.
  Qed.
  Lemma RP_default : RP ren_DefaultValue (tok_sem _ TmDefaultValue) (tok_sem _ TmDefaultValue).
  Proof.
    intros ts ts' H. cbn [tok_sem]. pose proof (const_of_ren _ _ H) as H'.
    assert (K : forall d d' : option (DefaultValue * list tok),
      d = match const_of ts with
         | Some (ConstValue_Boolean b, r) => Some (DefaultValue_Boolean b, r)
         | Some (ConstValue_Float f, r) => Some (DefaultValue_Float f, r)
         | Some (ConstValue_Integer l, r) => Some (DefaultValue_Integer l, r)
         | Some (ConstValue_Null, r) => Some (DefaultValue_Null, r)
         | None => None
         end ->
      d' = match const_of ts' with
         | Some (ConstValue_Boolean b, r) => Some (DefaultValue_Boolean b, r)
         | Some (ConstValue_Float f, r) => Some (DefaultValue_Float f, r)
         | Some (ConstValue_Integer l, r) => Some (DefaultValue_Integer l, r)
         | Some (ConstValue_Null, r) => Some (DefaultValue_Null, r)
         | None => None
         end ->
      RR ren_DefaultValue match d with Some (v, r) => Ok r v | None => tfail ts end
                          match d' with Some (v, r) => Ok r v | None => tfail ts' end).
    { intros d d' -> ->. destruct (const_of ts) as [[v r]|], (const_of ts') as [[v' r']|]; try contradiction; [|exact I].
      destruct H' as [Hr ->]. destruct v; cbn; auto. }
    destruct H as [|x x' r r' H Hr]; [apply K; auto|]. destruct H as [e n Hn|e e' n Hn Hn'|s| | | |s]; try (apply K; reflexivity); [|cbn; auto].
    destruct Hr as [|y y' r r' Hy Hr]; [apply K; auto|]. destruct Hy; try (apply K; reflexivity).
    cbn. repeat match goal with |- context [if ?b then _ else _] => destruct b end; cbn; auto.
  Qed.

  (** ** On grammar expressions *)
  Section Step.
    Variable n : nat.
    Definition NN {A} (f : A -> A) (p p' : pexp A) : Prop := RP f (krun n A p) (krun n A p').
    Definition N {A} (f : A -> A) (p : pexp A) : Prop := NN f p p.

    Lemma NN_bind A B (f : A -> A) (g : B -> B) p p' k k' : NN f p p' -> (forall a, NN g (k a) (k' (f a))) -> NN g (PBind p k) (PBind p' k').
    Proof. intros Hp Hk. unfold NN. rewrite !run_bind. eapply RP_bind; [exact Hp|exact Hk]. Qed.
    Lemma NN_ret A (f : A -> A) a a' : a' = f a -> NN f (PRet a) (PRet a').
    Proof. intros E. unfold NN. rewrite !run_ret. apply RP_ret; auto. Qed.
    Lemma NN_or A (f : A -> A) p p' q q' : NN f p p' -> NN f q q' -> NN f (POr p q) (POr p' q').
    Proof. intros H H'. unfold NN. rewrite !run_or. apply RP_or; auto. Qed.
    Lemma NN_end A (f : A -> A) : NN f PEnd PEnd.
    Proof. unfold NN. rewrite run_end. apply RP_end. Qed.
    Lemma NN_opt A (f : A -> A) p p' : NN f p p' -> NN (option_map f) (POpt p) (POpt p').
    Proof. intros H. unfold NN. rewrite !run_opt. apply RP_opt; auto. Qed.
    Lemma NN_many0 A (f : A -> A) p p' : NN f p p' -> NN (map f) (PMany0 p) (PMany0 p').
    Proof. intros H. unfold NN. rewrite !run_many0. apply RP_many0; auto. Qed.
    Lemma NN_seplist A S (f : A -> A) (g : S -> S) p p' s s' : NN g s s' -> NN f p p' -> NN (map f) (PSepList s p) (PSepList s' p').
    Proof. intros H H'. unfold NN. rewrite !run_seplist. eapply RP_seplist; eauto. Qed.
    Lemma NN_sepnonempty A S (f : A -> A) (g : S -> S) p p' s s' : NN g s s' -> NN f p p' -> NN (map f) (PSepNonEmpty s p) (PSepNonEmpty s' p').
    Proof. intros H H'. unfold NN. rewrite !run_sepnonempty. eapply RP_sepnonempty; eauto. Qed.
    Lemma NN_T t : N same (T_ t).
    Proof. unfold N, NN, T_. rewrite run_term. apply RP_term. Qed.
    Lemma NN_Identifier : N fn e_Identifier.
    Proof. unfold N, NN, e_Identifier. rewrite run_term. apply RP_identifier. Qed.
    Lemma NN_String : N fs (PTerm TmStringLit).
    Proof. unfold N, NN. rewrite run_term. apply RP_string. Qed.
    Lemma NN_Const : N ren_ConstValue (PTerm TmConstValue).
    Proof. unfold N, NN. rewrite run_term. apply RP_const. Qed.
    Lemma NN_DefaultValue : N ren_DefaultValue (PTerm TmDefaultValue).
    Proof. unfold N, NN. rewrite run_term. apply RP_default. Qed.

    Ltac rstep := match goal with
      | |- NN _ (PBind _ _) (PBind _ _) => eapply NN_bind; [|intros ?; cbv beta]
      | |- NN _ (POr _ _) (POr _ _) => apply NN_or
      | |- NN _ PEnd PEnd => apply NN_end
      | |- NN _ (POpt _) (POpt _) => eapply NN_opt
      | |- NN _ (PMany0 _) (PMany0 _) => eapply NN_many0
      | |- NN _ (PSepList _ _) (PSepList _ _) => eapply NN_seplist
      | |- NN _ (PSepNonEmpty _ _) (PSepNonEmpty _ _) => eapply NN_sepnonempty
      | |- NN _ (T_ _) _ => apply NN_T
      | |- NN _ e_Identifier _ => apply NN_Identifier
      | |- NN _ (PTerm TmStringLit) _ => apply NN_String
      | |- NN _ (PTerm TmConstValue) _ => apply NN_Const
      | |- NN _ (PTerm TmDefaultValue) _ => apply NN_DefaultValue
      | |- NN _ (PRet ?x) (PRet ?y) => first [apply NN_ret; reflexivity | idtac]
      end.
    Lemma N_Option A (f : A -> A) p : N f p -> N (option_map f) (e_Option p).
    Proof. apply NN_opt. Qed.
    Lemma N_Vec A (f : A -> A) p : N f p -> N (map f) (e_Vec p).
    Proof. apply NN_many0. Qed.
    Lemma N_Parenthesized A (f : A -> A) p : N f p -> N f (e_Parenthesized p).
    Proof. intros H. unfold N, e_Parenthesized. repeat rstep; exact H. Qed.
    Lemma N_Bracketed A (f : A -> A) p : N f p -> N f (e_Bracketed p).
    Proof. intros H. unfold N, e_Bracketed. repeat rstep; exact H. Qed.
    Lemma N_Braced A (f : A -> A) p : N f p -> N f (e_Braced p).
    Proof. intros H. unfold N, e_Braced. repeat rstep; exact H. Qed.
    Lemma N_Generics A (f : A -> A) p : N f p -> N f (e_Generics p).
    Proof. intros H. unfold N, e_Generics. repeat rstep; exact H. Qed.
    Lemma N_Punctuated A (f : A -> A) p s : N f p -> N (map f) (e_Punctuated p s).
    Proof. intros H. unfold N, e_Punctuated. repeat rstep; exact H. Qed.
    Lemma N_PunctuatedNonEmpty A (f : A -> A) p s : N f p -> N (map f) (e_PunctuatedNonEmpty p s).
    Proof.
      intros H. unfold N, e_PunctuatedNonEmpty. eapply NN_bind; [|intros l; apply NN_ret; reflexivity].
      eapply NN_bind; [eapply NN_sepnonempty; [apply NN_T|exact H]|]. intros l. cbv beta.
      eapply NN_bind; [apply NN_opt, NN_T|]. intros ?. apply NN_ret. reflexivity.
    Qed.
    Lemma N_triple A B (f : A -> A) (g : B -> B) p q s : N f p -> N g q -> N (ren_pair f g) (e_triple p s q).
    Proof.
      intros H H'. unfold N, e_triple. eapply NN_bind; [exact H|]. intros a. cbv beta. eapply NN_bind; [apply NN_T|].
      intros u. eapply NN_bind; [exact H'|]. intros b. apply NN_ret. reflexivity.
    Qed.
    Lemma N_MayBeNull (T : Set) (f : T -> T) p : N f p -> N (ren_null f) (e_MayBeNull p).
    Proof.
      intros H. unfold N, e_MayBeNull. eapply NN_bind; [exact H|]. intros a. cbv beta.
      eapply NN_bind; [apply NN_opt, NN_T|]. intros [[]|]; apply NN_ret; reflexivity.
    Qed.

    Definition ren_nt {A} (x : nt A) : A -> A :=
      match x in nt A0 return A0 -> A0 with
      | NT_Type => ren_Type | NT_ReturnType => ren_ReturnType | NT_RecordKeyType => ren_RecordKeyType
      | NT_UnionMemberType => ren_UnionMemberType | NT_ExtendedAttribute => ren_ExtendedAttribute
      end.
    Hypothesis Hnt : forall A (x : nt A), N (ren_nt x) (PNT x).
    Lemma N_nt1 : N ren_Type (PNT NT_Type). Proof. apply (Hnt _ NT_Type). Qed.
    Lemma N_nt2 : N ren_ReturnType (PNT NT_ReturnType). Proof. apply (Hnt _ NT_ReturnType). Qed.
    Lemma N_nt3 : N ren_RecordKeyType (PNT NT_RecordKeyType). Proof. apply (Hnt _ NT_RecordKeyType). Qed.
    Lemma N_nt4 : N ren_UnionMemberType (PNT NT_UnionMemberType). Proof. apply (Hnt _ NT_UnionMemberType). Qed.
    Lemma N_nt5 : N ren_ExtendedAttribute (PNT NT_ExtendedAttribute). Proof. apply (Hnt _ NT_ExtendedAttribute). Qed.
    Hint Resolve N_nt1 N_nt2 N_nt3 N_nt4 N_nt5 NN_T NN_Identifier NN_String NN_Const NN_DefaultValue N_Option N_Vec
      N_Parenthesized N_Bracketed N_Braced N_Generics N_Punctuated N_PunctuatedNonEmpty N_triple N_MayBeNull : natr.

    (** One step for every constructor; the other parsers have their lemmas in the hint base. *)
    Ltac nat := match goal with
      | |- NN ?f (PMap ?g ?p) _ => unfold PMap; nat
      | |- NN ?f (PAlt _) _ => cbn [PAlt]; nat
      | |- NN ?f (PBind ?p ?k) _ => eapply NN_bind; [nat|intros ?; cbv beta; nat]
      | |- NN ?f (POr _ _) _ => apply NN_or; nat
      | |- NN ?f PEnd _ => apply NN_end
      | |- NN ?f (PRet _) _ => apply NN_ret; first [reflexivity|idtac]
      | |- NN ?f ?p ?p => change (N f p); eauto 10 with natr
      | |- N _ ?p => unfold N; nat
      | |- _ => idtac
      end.
    Lemma N_Default : N ren_DefaultValue e_Default. Proof. unfold e_Default. nat. Qed.
    Hint Resolve N_Default : natr.
    Lemma N_LongLongType : N ren_LongLongType e_LongLongType. Proof. unfold e_LongLongType. nat. Qed.
    Hint Resolve N_LongLongType : natr.
    Lemma N_LongType : N ren_LongType e_LongType. Proof. unfold e_LongType. nat. Qed.
    Hint Resolve N_LongType : natr.
    Lemma N_ShortType : N ren_ShortType e_ShortType. Proof. unfold e_ShortType. nat. Qed.
    Hint Resolve N_ShortType : natr.
    Lemma N_IntegerType : N ren_IntegerType e_IntegerType. Proof. unfold e_IntegerType. nat. Qed.
    Hint Resolve N_IntegerType : natr.
    Lemma N_FloatType : N ren_FloatType e_FloatType. Proof. unfold e_FloatType. nat. Qed.
    Hint Resolve N_FloatType : natr.
    Lemma N_DoubleType : N ren_DoubleType e_DoubleType. Proof. unfold e_DoubleType. nat. Qed.
    Hint Resolve N_DoubleType : natr.
    Lemma N_FloatingPointType : N ren_FloatingPointType e_FloatingPointType. Proof. unfold e_FloatingPointType. nat. Qed.
    Hint Resolve N_FloatingPointType : natr.
    Lemma N_ConstType : N ren_ConstType e_ConstType. Proof. unfold e_ConstType. nat. Qed.
    Hint Resolve N_ConstType : natr.
    Lemma N_SequenceType : N ren_SequenceType e_SequenceType. Proof. unfold e_SequenceType. nat. Qed.
    Hint Resolve N_SequenceType : natr.
    Lemma N_FrozenArrayType : N ren_FrozenArrayType e_FrozenArrayType. Proof. unfold e_FrozenArrayType. nat. Qed.
    Hint Resolve N_FrozenArrayType : natr.
    Lemma N_PromiseType : N ren_PromiseType e_PromiseType. Proof. unfold e_PromiseType. nat. Qed.
    Hint Resolve N_PromiseType : natr.
    Lemma N_RecordType : N ren_RecordType e_RecordType. Proof. unfold e_RecordType. nat. Qed.
    Hint Resolve N_RecordType : natr.
    Lemma N_UnionType : N (map ren_UnionMemberType) e_UnionType. Proof. unfold e_UnionType. nat. Qed.
    Hint Resolve N_UnionType : natr.
    Lemma N_NonAnyType : N ren_NonAnyType e_NonAnyType. Proof. unfold e_NonAnyType. nat. Qed.
    Hint Resolve N_NonAnyType : natr.
    Lemma N_SingleType : N ren_SingleType e_SingleType. Proof. unfold e_SingleType. nat. Qed.
    Hint Resolve N_SingleType : natr.
    Lemma N_Type : N ren_Type e_Type. Proof. unfold e_Type. nat. Qed.
    Hint Resolve N_Type : natr.
    Lemma N_RecordKeyType : N ren_RecordKeyType e_RecordKeyType. Proof. unfold e_RecordKeyType. nat. Qed.
    Hint Resolve N_RecordKeyType : natr.
    Lemma N_ReturnType : N ren_ReturnType e_ReturnType. Proof. unfold e_ReturnType. nat. Qed.
    Hint Resolve N_ReturnType : natr.
    Lemma N_ExtendedAttributeList : N (map ren_ExtendedAttribute) e_ExtendedAttributeList. Proof. unfold e_ExtendedAttributeList. nat. Qed.
    Hint Resolve N_ExtendedAttributeList : natr.
    Lemma N_attributes : N (option_map (map ren_ExtendedAttribute)) e_attributes. Proof. unfold e_attributes. nat. Qed.
    Hint Resolve N_attributes : natr.
    Lemma N_AttributedType : N ren_AttributedType e_AttributedType. Proof. unfold e_AttributedType. nat. Qed.
    Hint Resolve N_AttributedType : natr.
    Lemma N_AttributedNonAnyType : N ren_AttributedNonAnyType e_AttributedNonAnyType. Proof. unfold e_AttributedNonAnyType. nat. Qed.
    Hint Resolve N_AttributedNonAnyType : natr.
    Lemma N_UnionMemberType : N ren_UnionMemberType e_UnionMemberType. Proof. unfold e_UnionMemberType. nat. Qed.
    Hint Resolve N_UnionMemberType : natr.
    Lemma N_SingleArgument : N ren_SingleArgument e_SingleArgument. Proof. unfold e_SingleArgument.
    eapply NN_bind; [nat|intros a; cbv beta]. eapply NN_bind; [nat|intros o; cbv beta]. eapply NN_bind; [nat|intros t; cbv beta].
    eapply NN_bind; [nat|intros i; cbv beta]. apply (NN_bind _ _ (option_map ren_DefaultValue)); [|intros d; nat].
    apply (NN_bind _ _ (option_map (option_map ren_DefaultValue))); [|intros [d|]; apply NN_ret; reflexivity].
    destruct o; cbn [option_map PCond]; [|apply NN_ret; reflexivity]. eapply NN_bind; [nat|intros d; apply NN_ret; reflexivity].
    Qed.
    Hint Resolve N_SingleArgument : natr.
    Lemma N_VariadicArgument : N ren_VariadicArgument e_VariadicArgument. Proof. unfold e_VariadicArgument. nat. Qed.
    Hint Resolve N_VariadicArgument : natr.
    Lemma N_Argument : N ren_Argument e_Argument. Proof. unfold e_Argument. nat. Qed.
    Hint Resolve N_Argument : natr.
    Lemma N_ArgumentList : N (map ren_Argument) e_ArgumentList. Proof. unfold e_ArgumentList. nat. Qed.
    Hint Resolve N_ArgumentList : natr.
    Lemma N_ExtendedAttributeArgList : N ren_ExtendedAttributeArgList e_ExtendedAttributeArgList. Proof. unfold e_ExtendedAttributeArgList. nat. Qed.
    Hint Resolve N_ExtendedAttributeArgList : natr.
    Lemma N_ExtendedAttributeNamedArgList : N ren_ExtendedAttributeNamedArgList e_ExtendedAttributeNamedArgList. Proof. unfold e_ExtendedAttributeNamedArgList. nat. Qed.
    Hint Resolve N_ExtendedAttributeNamedArgList : natr.
    Lemma N_IdentifierList : N (map fn) e_IdentifierList. Proof. unfold e_IdentifierList. nat. Qed.
    Hint Resolve N_IdentifierList : natr.
    Lemma N_ExtendedAttributeIdentList : N ren_ExtendedAttributeIdentList e_ExtendedAttributeIdentList. Proof. unfold e_ExtendedAttributeIdentList. nat. Qed.
    Hint Resolve N_ExtendedAttributeIdentList : natr.
    Lemma N_IdentifierOrString : N ren_IdentifierOrString e_IdentifierOrString. Proof. unfold e_IdentifierOrString. nat. Qed.
    Hint Resolve N_IdentifierOrString : natr.
    Lemma N_ExtendedAttributeIdent : N ren_ExtendedAttributeIdent e_ExtendedAttributeIdent. Proof. unfold e_ExtendedAttributeIdent. nat. Qed.
    Hint Resolve N_ExtendedAttributeIdent : natr.
    Lemma N_ExtendedAttributeWildCard : N ren_ExtendedAttributeWildCard e_ExtendedAttributeWildCard. Proof. unfold e_ExtendedAttributeWildCard. nat. Qed.
    Hint Resolve N_ExtendedAttributeWildCard : natr.
    Lemma N_ExtendedAttributeNoArgs : N fn e_ExtendedAttributeNoArgs. Proof. unfold e_ExtendedAttributeNoArgs. nat. Qed.
    Hint Resolve N_ExtendedAttributeNoArgs : natr.
    Lemma N_ExtendedAttribute : N ren_ExtendedAttribute e_ExtendedAttribute. Proof. unfold e_ExtendedAttribute. nat. Qed.
    Hint Resolve N_ExtendedAttribute : natr.
    Lemma N_Inheritance : N ren_Inheritance e_Inheritance. Proof. unfold e_Inheritance. nat. Qed.
    Hint Resolve N_Inheritance : natr.
    Lemma N_ConstMember : N ren_ConstMember e_ConstMember. Proof. unfold e_ConstMember. nat. Qed.
    Hint Resolve N_ConstMember : natr.
    Lemma N_StringifierOrInheritOrStatic : N ren_StringifierOrInheritOrStatic e_StringifierOrInheritOrStatic. Proof. unfold e_StringifierOrInheritOrStatic. nat. Qed.
    Hint Resolve N_StringifierOrInheritOrStatic : natr.
    Lemma N_StringifierOrStatic : N ren_StringifierOrStatic e_StringifierOrStatic. Proof. unfold e_StringifierOrStatic. nat. Qed.
    Hint Resolve N_StringifierOrStatic : natr.
    Lemma N_Special : N ren_Special e_Special. Proof. unfold e_Special. nat. Qed.
    Hint Resolve N_Special : natr.
    Lemma N_AttributeInterfaceMember : N ren_AttributeInterfaceMember e_AttributeInterfaceMember. Proof. unfold e_AttributeInterfaceMember. nat. Qed.
    Hint Resolve N_AttributeInterfaceMember : natr.
    Lemma N_ConstructorInterfaceMember : N ren_ConstructorInterfaceMember e_ConstructorInterfaceMember. Proof. unfold e_ConstructorInterfaceMember. nat. Qed.
    Hint Resolve N_ConstructorInterfaceMember : natr.
    Lemma N_OperationInterfaceMember : N ren_OperationInterfaceMember e_OperationInterfaceMember. Proof. unfold e_OperationInterfaceMember. nat. Qed.
    Hint Resolve N_OperationInterfaceMember : natr.
    Lemma N_SingleTypedIterable : N ren_SingleTypedIterable e_SingleTypedIterable. Proof. unfold e_SingleTypedIterable. nat. Qed.
    Hint Resolve N_SingleTypedIterable : natr.
    Lemma N_DoubleTypedIterable : N ren_DoubleTypedIterable e_DoubleTypedIterable. Proof. unfold e_DoubleTypedIterable. nat. Qed.
    Hint Resolve N_DoubleTypedIterable : natr.
    Lemma N_IterableInterfaceMember : N ren_IterableInterfaceMember e_IterableInterfaceMember. Proof. unfold e_IterableInterfaceMember. nat. Qed.
    Hint Resolve N_IterableInterfaceMember : natr.
    Lemma N_SingleTypedAsyncIterable : N ren_SingleTypedAsyncIterable e_SingleTypedAsyncIterable. Proof. unfold e_SingleTypedAsyncIterable. nat. Qed.
    Hint Resolve N_SingleTypedAsyncIterable : natr.
    Lemma N_DoubleTypedAsyncIterable : N ren_DoubleTypedAsyncIterable e_DoubleTypedAsyncIterable. Proof. unfold e_DoubleTypedAsyncIterable. nat. Qed.
    Hint Resolve N_DoubleTypedAsyncIterable : natr.
    Lemma N_AsyncIterableInterfaceMember : N ren_AsyncIterableInterfaceMember e_AsyncIterableInterfaceMember. Proof. unfold e_AsyncIterableInterfaceMember. nat. Qed.
    Hint Resolve N_AsyncIterableInterfaceMember : natr.
    Lemma N_MaplikeInterfaceMember : N ren_MaplikeInterfaceMember e_MaplikeInterfaceMember. Proof. unfold e_MaplikeInterfaceMember. nat. Qed.
    Hint Resolve N_MaplikeInterfaceMember : natr.
    Lemma N_SetlikeInterfaceMember : N ren_SetlikeInterfaceMember e_SetlikeInterfaceMember. Proof. unfold e_SetlikeInterfaceMember. nat. Qed.
    Hint Resolve N_SetlikeInterfaceMember : natr.
    Lemma N_StringifierMember : N ren_StringifierMember e_StringifierMember. Proof. unfold e_StringifierMember. nat. Qed.
    Hint Resolve N_StringifierMember : natr.
    Lemma N_InterfaceMember : N ren_InterfaceMember e_InterfaceMember. Proof. unfold e_InterfaceMember. nat. Qed.
    Hint Resolve N_InterfaceMember : natr.
    Lemma N_InterfaceMembers : N (map ren_InterfaceMember) e_InterfaceMembers. Proof. unfold e_InterfaceMembers. nat. Qed.
    Hint Resolve N_InterfaceMembers : natr.
    Lemma N_OperationMixinMember : N ren_OperationMixinMember e_OperationMixinMember. Proof. unfold e_OperationMixinMember. nat. Qed.
    Hint Resolve N_OperationMixinMember : natr.
    Lemma N_AttributeMixinMember : N ren_AttributeMixinMember e_AttributeMixinMember. Proof. unfold e_AttributeMixinMember. nat. Qed.
    Hint Resolve N_AttributeMixinMember : natr.
    Lemma N_MixinMember : N ren_MixinMember e_MixinMember. Proof. unfold e_MixinMember. nat. Qed.
    Hint Resolve N_MixinMember : natr.
    Lemma N_MixinMembers : N (map ren_MixinMember) e_MixinMembers. Proof. unfold e_MixinMembers. nat. Qed.
    Hint Resolve N_MixinMembers : natr.
    Lemma N_ConstNamespaceMember : N ren_ConstNamespaceMember e_ConstNamespaceMember. Proof. unfold e_ConstNamespaceMember. nat. Qed.
    Hint Resolve N_ConstNamespaceMember : natr.
    Lemma N_OperationNamespaceMember : N ren_OperationNamespaceMember e_OperationNamespaceMember. Proof. unfold e_OperationNamespaceMember. nat. Qed.
    Hint Resolve N_OperationNamespaceMember : natr.
    Lemma N_AttributeNamespaceMember : N ren_AttributeNamespaceMember e_AttributeNamespaceMember. Proof. unfold e_AttributeNamespaceMember. nat. Qed.
    Hint Resolve N_AttributeNamespaceMember : natr.
    Lemma N_NamespaceMember : N ren_NamespaceMember e_NamespaceMember. Proof. unfold e_NamespaceMember. nat. Qed.
    Hint Resolve N_NamespaceMember : natr.
    Lemma N_NamespaceMembers : N (map ren_NamespaceMember) e_NamespaceMembers. Proof. unfold e_NamespaceMembers. nat. Qed.
    Hint Resolve N_NamespaceMembers : natr.
    Lemma N_DictionaryMember : N ren_DictionaryMember e_DictionaryMember. Proof. unfold e_DictionaryMember. nat. Qed.
    Hint Resolve N_DictionaryMember : natr.
    Lemma N_DictionaryMembers : N (map ren_DictionaryMember) e_DictionaryMembers. Proof. unfold e_DictionaryMembers. nat. Qed.
    Hint Resolve N_DictionaryMembers : natr.
    Lemma N_CallbackDefinition : N ren_CallbackDefinition e_CallbackDefinition. Proof. unfold e_CallbackDefinition. nat. Qed.
    Hint Resolve N_CallbackDefinition : natr.
    Lemma N_CallbackInterfaceDefinition : N ren_CallbackInterfaceDefinition e_CallbackInterfaceDefinition. Proof. unfold e_CallbackInterfaceDefinition. nat. Qed.
    Hint Resolve N_CallbackInterfaceDefinition : natr.
    Lemma N_InterfaceDefinition : N ren_InterfaceDefinition e_InterfaceDefinition. Proof. unfold e_InterfaceDefinition. nat. Qed.
    Hint Resolve N_InterfaceDefinition : natr.
    Lemma N_InterfaceMixinDefinition : N ren_InterfaceMixinDefinition e_InterfaceMixinDefinition. Proof. unfold e_InterfaceMixinDefinition. nat. Qed.
    Hint Resolve N_InterfaceMixinDefinition : natr.
    Lemma N_NamespaceDefinition : N ren_NamespaceDefinition e_NamespaceDefinition. Proof. unfold e_NamespaceDefinition. nat. Qed.
    Hint Resolve N_NamespaceDefinition : natr.
    Lemma N_DictionaryDefinition : N ren_DictionaryDefinition e_DictionaryDefinition. Proof. unfold e_DictionaryDefinition. nat. Qed.
    Hint Resolve N_DictionaryDefinition : natr.
    Lemma N_PartialInterfaceDefinition : N ren_PartialInterfaceDefinition e_PartialInterfaceDefinition. Proof. unfold e_PartialInterfaceDefinition. nat. Qed.
    Hint Resolve N_PartialInterfaceDefinition : natr.
    Lemma N_PartialInterfaceMixinDefinition : N ren_PartialInterfaceMixinDefinition e_PartialInterfaceMixinDefinition. Proof. unfold e_PartialInterfaceMixinDefinition. nat. Qed.
    Hint Resolve N_PartialInterfaceMixinDefinition : natr.
    Lemma N_PartialDictionaryDefinition : N ren_PartialDictionaryDefinition e_PartialDictionaryDefinition. Proof. unfold e_PartialDictionaryDefinition. nat. Qed.
    Hint Resolve N_PartialDictionaryDefinition : natr.
    Lemma N_PartialNamespaceDefinition : N ren_PartialNamespaceDefinition e_PartialNamespaceDefinition. Proof. unfold e_PartialNamespaceDefinition. nat. Qed.
    Hint Resolve N_PartialNamespaceDefinition : natr.
    Lemma N_EnumValueList : N (map fs) e_EnumValueList. Proof. unfold e_EnumValueList. nat. Qed.
    Hint Resolve N_EnumValueList : natr.
    Lemma N_EnumDefinition : N ren_EnumDefinition e_EnumDefinition. Proof. unfold e_EnumDefinition. nat. Qed.
    Hint Resolve N_EnumDefinition : natr.
    Lemma N_TypedefDefinition : N ren_TypedefDefinition e_TypedefDefinition. Proof. unfold e_TypedefDefinition. nat. Qed.
    Hint Resolve N_TypedefDefinition : natr.
    Lemma N_IncludesStatementDefinition : N ren_IncludesStatementDefinition e_IncludesStatementDefinition. Proof. unfold e_IncludesStatementDefinition. nat. Qed.
    Hint Resolve N_IncludesStatementDefinition : natr.
    Lemma N_ImplementsDefinition : N ren_ImplementsDefinition e_ImplementsDefinition. Proof. unfold e_ImplementsDefinition. nat. Qed.
    Hint Resolve N_ImplementsDefinition : natr.
    Lemma N_Definition : N ren_Definition e_Definition. Proof. unfold e_Definition. nat. Qed.
    Hint Resolve N_Definition : natr.
    Lemma N_Definitions : N (map ren_Definition) e_Definitions. Proof. unfold e_Definitions. nat. Qed.
    Hint Resolve N_Definitions : natr.
  End Step.

  Lemma krun_ren : forall n A (x : nt A), N n (ren_nt x) (PNT x).
  Proof.
    induction n as [|n IH]; intros A x; unfold N, NN.
    - rewrite run_nt_O. intros ts ts' H. exact I.
    - rewrite run_nt_S. destruct x; cbn [grammar ren_nt].
      + apply (N_Type n IH).
      + apply (N_ReturnType n IH).
      + apply (N_RecordKeyType n IH).
      + apply (N_UnionMemberType n IH).
      + apply (N_ExtendedAttribute n IH).
  Qed.
  Lemma krun_ren_Definitions n : N n (map ren_Definition) e_Definitions.
  Proof. apply (N_Definitions n (krun_ren n)). Qed.

  (** ** On texts *)
  Definition ren_outcome (o : outcome) : outcome :=
    match o with Parsed l => Parsed (map ren_Definition l) | Failed e => Failed e | Panicked => Panicked | NoReturn => NoReturn end.

  Lemma Definitions_ren n raw ts r raw' ts' r' : Rd r raw ts -> Stuck r -> Rd r' raw' ts' -> Stuck r' -> Forall2 RenTok ts ts' ->
    length raw < n -> length raw' < n ->
    exists rest us rest' us' defs, parse_as e_Definitions raw = Ok rest defs /\ Step r raw ts rest us /\
      parse_as e_Definitions raw' = Ok rest' (map ren_Definition defs) /\ Step r' raw' ts' rest' us' /\ Forall2 RenTok us us'.
  Proof.
    intros HR Hr HR' Hr' HF Hn Hn'.
    pose proof (run_Sim r Hr n _ _ P_Defs raw ts HR) as H. pose proof (run_Sim r' Hr' n _ _ P_Defs raw' ts' HR') as H'.
    pose proof (krun_ren_Definitions n _ _ HF) as HK.
    change (list Definition_) with Definitions in HK. pose proof (Impl_Shape _ _ _ I_Definitions) as Hs.
    rewrite (trun_fuel n _ _ _ raw Hs Hn) in H. rewrite (trun_fuel n _ _ _ raw' Hs Hn') in H'.
    destruct (Definitions_ok raw) as (defs & rest & E). destruct (Definitions_ok raw') as (defs' & rest' & E').
    rewrite E in *. rewrite E' in *. unfold SimR in H, H'.
    destruct (krun n _ e_Definitions ts) as [us a|[]|]; try contradiction.
    destruct (krun n _ e_Definitions ts') as [us' a'|[]|]; try contradiction.
    destruct H as [-> H], H' as [-> H'], HK as [HK ->]. eauto 10.
  Qed.
  Theorem definitions_ren raw ts r raw' ts' r' : Rd r raw ts -> Stuck r -> Rd r' raw' ts' -> Stuck r' -> Forall2 RenTok ts ts' ->
    exists rest rest' defs, parse_as e_Definitions raw = Ok rest defs /\
      parse_as e_Definitions raw' = Ok rest' (map ren_Definition defs).
  Proof.
    intros HR Hr HR' Hr' HF.
    destruct (Definitions_ren (S (length raw + length raw')) raw ts r raw' ts' r') as (rest & us & rest' & us' & defs & H & _ & H' & _);
      auto; try lia. eauto.
  Qed.
  Lemma Toks_rest raw ts rest us : Toks raw ts -> Step [] raw ts rest us -> rest = [] <-> us = [].
  Proof.
    intros (w & b & -> & Hw & H0 & HL) [[-> ->]|(_ & H & _)].
    - split; [|intros ->; rewrite H0 by auto; apply Lay_nil_inv in HL; auto].
      intros E. apply app_eq_nil in E as [-> ->]. inversion HL as [|t w' i ts0 r Hv]; subst; auto.
      exfalso. apply spell_nonempty in Hv. destruct (spell t); [auto|discriminate].
    - split; [intros ->|intros ->; apply Lay_nil_inv in H; auto]. inversion H as [|t w' i ts0 r Hv]; subst; auto.
      exfalso. apply spell_nonempty in Hv. destruct (spell t); [auto|discriminate].
  Qed.
  Theorem parse_ren raw ts raw' ts' : Toks raw ts -> Toks raw' ts' -> Forall2 RenTok ts ts' ->
    parse raw' = ren_outcome (parse raw).
  Proof.
    intros HT HT' HF.
    assert (HR : forall i us, Toks i us -> Rd [] i us) by (intros i us (w & b & E & Hw & _ & HL); exists w, b; auto).
    destruct (Definitions_ren (S (length raw + length raw')) raw ts [] raw' ts' []) as (rest & us & rest' & us' & defs & E & HS & E' & HS' & HU);
      auto using Stuck_nil; try lia.
    apply (Toks_rest _ _ _ _ HT) in HS. apply (Toks_rest _ _ _ _ HT') in HS'.
    unfold parse. rewrite E, E'. destruct HU.
    - rewrite (proj2 HS eq_refl), (proj2 HS' eq_refl). reflexivity.
    - destruct rest; [discriminate (proj1 HS eq_refl)|]. destruct rest'; [discriminate (proj1 HS' eq_refl)|].
      reflexivity.
  Qed.
End Ren.
