(** * Every parser of the crate has a good shape: guarded recursion, progress. *)
From Coq Require Import String Ascii NArith Arith Bool List Lia.
From Verif Require Import Nom Lex Ast Grammar RunFacts.
Import ListNotations.

Lemma Shape_wrap al A (p : pexp A) o c t c' : Shape true p c' ->
  Shape al (PBind (T_ o) (fun _ => PBind p (fun b => PBind (T_ c) (fun _ => PRet b)))) t.
Proof.
  intros H. apply Shape_bind_t with (c2 := true); [exact Logic.I|]. intros _. exists c', true. repeat split; auto.
  intros b. apply Shape_bind_t with (c2 := false); [exact Logic.I|]. intros _. exact (eq_refl false). rewrite orb_true_r. reflexivity.
Qed.
Lemma Shape_paren al A (p : pexp A) c t : Shape true p c -> Shape al (e_Parenthesized p) t.
Proof. intros H. eapply Shape_wrap; eauto. Qed.
Lemma Shape_bracket al A (p : pexp A) c t : Shape true p c -> Shape al (e_Bracketed p) t.
Proof. intros H. eapply Shape_wrap; eauto. Qed.
Lemma Shape_brace al A (p : pexp A) c t : Shape true p c -> Shape al (e_Braced p) t.
Proof. intros H. eapply Shape_wrap; eauto. Qed.
Lemma Shape_generics al A (p : pexp A) c t : Shape true p c -> Shape al (e_Generics p) t.
Proof. intros H. eapply Shape_wrap; eauto. Qed.
Lemma Shape_punctuated al A (p : pexp A) s : Shape al p false -> Shape al (e_Punctuated p s) false.
Proof. intros H. unfold e_Punctuated. apply Shape_bind_f; [|intros ?; exact (eq_refl false)]. repeat split; auto. Qed.
Lemma Shape_triple A B (p : pexp A) (q : pexp B) s al c : Shape al p c -> Shape true q true ->
  Shape al (e_triple p s q) c.
Proof.
  intros H1 H2. exists c, true. repeat split; auto.
  - intros a. apply Shape_bind_t with (c2 := false); [exact Logic.I|]. intros _.
    apply Shape_bind_t with (c2 := false); auto. intros b. exact (eq_refl false).
  - rewrite orb_true_r. destruct c; reflexivity.
Qed.
Lemma Shape_null al (A : Set) (p : pexp A) c : Shape al p true -> Shape al (e_MayBeNull p) c.
Proof.
  intros H. apply Shape_bind_t with (c2 := false); auto. intros t. apply Shape_bind_f.
  - split; [exists true; exact Logic.I|reflexivity].
  - intros q. exact (eq_refl false).
Qed.
Lemma Shape_T al t c : Shape al (T_ t) c.
Proof. exact Logic.I. Qed.
Ltac shape2 :=
  match goal with
  | |- Shape _ (e_Parenthesized _) _ => eapply Shape_paren with (c := false)
  | |- Shape _ (e_Bracketed _) _ => eapply Shape_bracket with (c := false)
  | |- Shape _ (e_Braced _) _ => eapply Shape_brace with (c := false)
  | |- Shape _ (e_Generics _) _ => eapply Shape_generics with (c := false)
  | |- Shape _ (e_Punctuated _ _) _ => apply Shape_punctuated
  | |- Shape _ (e_triple _ _ _) _ => apply Shape_triple
  | |- Shape _ (e_MayBeNull _) _ => apply Shape_null
  | |- Shape _ (e_Vec _) _ => split; [| exact (eq_refl false)]
  | |- Shape _ (PBind (match ?b with _ => _ end) _) _ => destruct b
  | |- Shape _ (PBind (PMap _ (PCond _ _)) _) _ => apply Shape_bind_f; [|intros ?]
  | |- Shape _ (PCond _ _) _ => unfold PCond
  | |- Shape _ (match ?b with _ => _ end) _ => destruct b
  end.
Ltac shapes := repeat first [solve [auto with shape] | shape2 | shape1].
Lemma Shape_e_Identifier al c : Shape al e_Identifier c.
Proof. unfold e_Identifier; shapes. Qed.
Global Hint Resolve Shape_e_Identifier : shape.
Lemma Shape_e_Default al c : Shape al e_Default c.
Proof. unfold e_Default; shapes. Qed.
Global Hint Resolve Shape_e_Default : shape.
Lemma Shape_e_LongLongType al c : Shape al e_LongLongType c.
Proof. unfold e_LongLongType; shapes. Qed.
Global Hint Resolve Shape_e_LongLongType : shape.
Lemma Shape_e_LongType al c : Shape al e_LongType c.
Proof. unfold e_LongType; shapes. Qed.
Global Hint Resolve Shape_e_LongType : shape.
Lemma Shape_e_ShortType al c : Shape al e_ShortType c.
Proof. unfold e_ShortType; shapes. Qed.
Global Hint Resolve Shape_e_ShortType : shape.
Lemma Shape_e_IntegerType al c : Shape al e_IntegerType c.
Proof. unfold e_IntegerType; shapes. Qed.
Global Hint Resolve Shape_e_IntegerType : shape.
Lemma Shape_e_FloatType al c : Shape al e_FloatType c.
Proof. unfold e_FloatType; shapes. Qed.
Global Hint Resolve Shape_e_FloatType : shape.
Lemma Shape_e_DoubleType al c : Shape al e_DoubleType c.
Proof. unfold e_DoubleType; shapes. Qed.
Global Hint Resolve Shape_e_DoubleType : shape.
Lemma Shape_e_FloatingPointType al c : Shape al e_FloatingPointType c.
Proof. unfold e_FloatingPointType; shapes. Qed.
Global Hint Resolve Shape_e_FloatingPointType : shape.
Lemma Shape_e_ConstType al c : Shape al e_ConstType c.
Proof. unfold e_ConstType; shapes. Qed.
Global Hint Resolve Shape_e_ConstType : shape.
Lemma Shape_e_SequenceType al c : Shape al e_SequenceType c.
Proof. unfold e_SequenceType; shapes. Qed.
Global Hint Resolve Shape_e_SequenceType : shape.
Lemma Shape_e_FrozenArrayType al c : Shape al e_FrozenArrayType c.
Proof. unfold e_FrozenArrayType; shapes. Qed.
Global Hint Resolve Shape_e_FrozenArrayType : shape.
Lemma Shape_e_PromiseType al c : Shape al e_PromiseType c.
Proof. unfold e_PromiseType; shapes. Qed.
Global Hint Resolve Shape_e_PromiseType : shape.
Lemma Shape_e_RecordType al c : Shape al e_RecordType c.
Proof. unfold e_RecordType; shapes. Qed.
Global Hint Resolve Shape_e_RecordType : shape.
Lemma Shape_e_UnionType al c : Shape al e_UnionType c.
Proof. unfold e_UnionType; shapes. Qed.
Global Hint Resolve Shape_e_UnionType : shape.
Lemma Shape_e_NonAnyType al c : Shape al e_NonAnyType c.
Proof. unfold e_NonAnyType; shapes. Qed.
Global Hint Resolve Shape_e_NonAnyType : shape.
Lemma Shape_e_SingleType al c : Shape al e_SingleType c.
Proof. unfold e_SingleType; shapes. Qed.
Global Hint Resolve Shape_e_SingleType : shape.
Lemma Shape_e_Type al c : Shape al e_Type c.
Proof. unfold e_Type; shapes. Qed.
Global Hint Resolve Shape_e_Type : shape.
Lemma Shape_e_RecordKeyType al c : Shape al e_RecordKeyType c.
Proof. unfold e_RecordKeyType; shapes. Qed.
Global Hint Resolve Shape_e_RecordKeyType : shape.
Lemma Shape_e_ReturnType al c : Shape al e_ReturnType c.
Proof. unfold e_ReturnType; shapes. Qed.
Global Hint Resolve Shape_e_ReturnType : shape.
Lemma Shape_e_ExtendedAttributeList al c : Shape al e_ExtendedAttributeList c.
Proof. unfold e_ExtendedAttributeList; shapes. Qed.
Global Hint Resolve Shape_e_ExtendedAttributeList : shape.
Lemma Shape_e_attributes al : Shape al e_attributes false.
Proof. unfold e_attributes; shapes. Qed.
Global Hint Resolve Shape_e_attributes : shape.
Lemma Shape_e_AttributedType al c : Shape al e_AttributedType c.
Proof. unfold e_AttributedType; shapes. Qed.
Global Hint Resolve Shape_e_AttributedType : shape.
Lemma Shape_e_AttributedNonAnyType al c : Shape al e_AttributedNonAnyType c.
Proof. unfold e_AttributedNonAnyType; shapes. Qed.
Global Hint Resolve Shape_e_AttributedNonAnyType : shape.
Lemma Shape_e_UnionMemberType al c : Shape al e_UnionMemberType c.
Proof. unfold e_UnionMemberType; shapes. Qed.
Global Hint Resolve Shape_e_UnionMemberType : shape.
Lemma Shape_e_SingleArgument al c : Shape al e_SingleArgument c.
Proof. unfold e_SingleArgument; shapes. Qed.
Global Hint Resolve Shape_e_SingleArgument : shape.
Lemma Shape_e_VariadicArgument al c : Shape al e_VariadicArgument c.
Proof. unfold e_VariadicArgument; shapes. Qed.
Global Hint Resolve Shape_e_VariadicArgument : shape.
Lemma Shape_e_Argument al c : Shape al e_Argument c.
Proof. unfold e_Argument; shapes. Qed.
Global Hint Resolve Shape_e_Argument : shape.
Lemma Shape_e_ArgumentList al : Shape al e_ArgumentList false.
Proof. unfold e_ArgumentList; shapes. Qed.
Global Hint Resolve Shape_e_ArgumentList : shape.
Lemma Shape_e_ExtendedAttributeArgList al c : Shape al e_ExtendedAttributeArgList c.
Proof. unfold e_ExtendedAttributeArgList; shapes. Qed.
Global Hint Resolve Shape_e_ExtendedAttributeArgList : shape.
Lemma Shape_e_ExtendedAttributeNamedArgList al c : Shape al e_ExtendedAttributeNamedArgList c.
Proof. unfold e_ExtendedAttributeNamedArgList; shapes. Qed.
Global Hint Resolve Shape_e_ExtendedAttributeNamedArgList : shape.
Lemma Shape_e_IdentifierList al : Shape al e_IdentifierList false.
Proof. unfold e_IdentifierList; shapes. Qed.
Global Hint Resolve Shape_e_IdentifierList : shape.
Lemma Shape_e_ExtendedAttributeIdentList al c : Shape al e_ExtendedAttributeIdentList c.
Proof. unfold e_ExtendedAttributeIdentList; shapes. Qed.
Global Hint Resolve Shape_e_ExtendedAttributeIdentList : shape.
Lemma Shape_e_IdentifierOrString al c : Shape al e_IdentifierOrString c.
Proof. unfold e_IdentifierOrString; shapes. Qed.
Global Hint Resolve Shape_e_IdentifierOrString : shape.
Lemma Shape_e_ExtendedAttributeIdent al c : Shape al e_ExtendedAttributeIdent c.
Proof. unfold e_ExtendedAttributeIdent; shapes. Qed.
Global Hint Resolve Shape_e_ExtendedAttributeIdent : shape.
Lemma Shape_e_ExtendedAttributeWildCard al c : Shape al e_ExtendedAttributeWildCard c.
Proof. unfold e_ExtendedAttributeWildCard; shapes. Qed.
Global Hint Resolve Shape_e_ExtendedAttributeWildCard : shape.
Lemma Shape_e_ExtendedAttributeNoArgs al c : Shape al e_ExtendedAttributeNoArgs c.
Proof. unfold e_ExtendedAttributeNoArgs; shapes. Qed.
Global Hint Resolve Shape_e_ExtendedAttributeNoArgs : shape.
Lemma Shape_e_ExtendedAttribute al c : Shape al e_ExtendedAttribute c.
Proof. unfold e_ExtendedAttribute; shapes. Qed.
Global Hint Resolve Shape_e_ExtendedAttribute : shape.
Lemma Shape_e_Inheritance al c : Shape al e_Inheritance c.
Proof. unfold e_Inheritance; shapes. Qed.
Global Hint Resolve Shape_e_Inheritance : shape.
Lemma Shape_e_ConstMember al c : Shape al e_ConstMember c.
Proof. unfold e_ConstMember; shapes. Qed.
Global Hint Resolve Shape_e_ConstMember : shape.
Lemma Shape_e_StringifierOrInheritOrStatic al c : Shape al e_StringifierOrInheritOrStatic c.
Proof. unfold e_StringifierOrInheritOrStatic; shapes. Qed.
Global Hint Resolve Shape_e_StringifierOrInheritOrStatic : shape.
Lemma Shape_e_StringifierOrStatic al c : Shape al e_StringifierOrStatic c.
Proof. unfold e_StringifierOrStatic; shapes. Qed.
Global Hint Resolve Shape_e_StringifierOrStatic : shape.
Lemma Shape_e_Special al c : Shape al e_Special c.
Proof. unfold e_Special; shapes. Qed.
Global Hint Resolve Shape_e_Special : shape.
Lemma Shape_e_AttributeInterfaceMember al c : Shape al e_AttributeInterfaceMember c.
Proof. unfold e_AttributeInterfaceMember; shapes. Qed.
Global Hint Resolve Shape_e_AttributeInterfaceMember : shape.
Lemma Shape_e_ConstructorInterfaceMember al c : Shape al e_ConstructorInterfaceMember c.
Proof. unfold e_ConstructorInterfaceMember; shapes. Qed.
Global Hint Resolve Shape_e_ConstructorInterfaceMember : shape.
Lemma Shape_e_OperationInterfaceMember al c : Shape al e_OperationInterfaceMember c.
Proof. unfold e_OperationInterfaceMember; shapes. Qed.
Global Hint Resolve Shape_e_OperationInterfaceMember : shape.
Lemma Shape_e_SingleTypedIterable al c : Shape al e_SingleTypedIterable c.
Proof. unfold e_SingleTypedIterable; shapes. Qed.
Global Hint Resolve Shape_e_SingleTypedIterable : shape.
Lemma Shape_e_DoubleTypedIterable al c : Shape al e_DoubleTypedIterable c.
Proof. unfold e_DoubleTypedIterable; shapes. Qed.
Global Hint Resolve Shape_e_DoubleTypedIterable : shape.
Lemma Shape_e_IterableInterfaceMember al c : Shape al e_IterableInterfaceMember c.
Proof. unfold e_IterableInterfaceMember; shapes. Qed.
Global Hint Resolve Shape_e_IterableInterfaceMember : shape.
Lemma Shape_e_SingleTypedAsyncIterable al c : Shape al e_SingleTypedAsyncIterable c.
Proof. unfold e_SingleTypedAsyncIterable; shapes. Qed.
Global Hint Resolve Shape_e_SingleTypedAsyncIterable : shape.
Lemma Shape_e_DoubleTypedAsyncIterable al c : Shape al e_DoubleTypedAsyncIterable c.
Proof. unfold e_DoubleTypedAsyncIterable; shapes. Qed.
Global Hint Resolve Shape_e_DoubleTypedAsyncIterable : shape.
Lemma Shape_e_AsyncIterableInterfaceMember al c : Shape al e_AsyncIterableInterfaceMember c.
Proof. unfold e_AsyncIterableInterfaceMember; shapes. Qed.
Global Hint Resolve Shape_e_AsyncIterableInterfaceMember : shape.
Lemma Shape_e_MaplikeInterfaceMember al c : Shape al e_MaplikeInterfaceMember c.
Proof. unfold e_MaplikeInterfaceMember; shapes. Qed.
Global Hint Resolve Shape_e_MaplikeInterfaceMember : shape.
Lemma Shape_e_SetlikeInterfaceMember al c : Shape al e_SetlikeInterfaceMember c.
Proof. unfold e_SetlikeInterfaceMember; shapes. Qed.
Global Hint Resolve Shape_e_SetlikeInterfaceMember : shape.
Lemma Shape_e_StringifierMember al c : Shape al e_StringifierMember c.
Proof. unfold e_StringifierMember; shapes. Qed.
Global Hint Resolve Shape_e_StringifierMember : shape.
Lemma Shape_e_InterfaceMember al c : Shape al e_InterfaceMember c.
Proof. unfold e_InterfaceMember; shapes. Qed.
Global Hint Resolve Shape_e_InterfaceMember : shape.
Lemma Shape_e_InterfaceMembers al : Shape al e_InterfaceMembers false.
Proof. unfold e_InterfaceMembers; shapes. Qed.
Global Hint Resolve Shape_e_InterfaceMembers : shape.
Lemma Shape_e_OperationMixinMember al c : Shape al e_OperationMixinMember c.
Proof. unfold e_OperationMixinMember; shapes. Qed.
Global Hint Resolve Shape_e_OperationMixinMember : shape.
Lemma Shape_e_AttributeMixinMember al c : Shape al e_AttributeMixinMember c.
Proof. unfold e_AttributeMixinMember; shapes. Qed.
Global Hint Resolve Shape_e_AttributeMixinMember : shape.
Lemma Shape_e_MixinMember al c : Shape al e_MixinMember c.
Proof. unfold e_MixinMember; shapes. Qed.
Global Hint Resolve Shape_e_MixinMember : shape.
Lemma Shape_e_MixinMembers al : Shape al e_MixinMembers false.
Proof. unfold e_MixinMembers; shapes. Qed.
Global Hint Resolve Shape_e_MixinMembers : shape.
Lemma Shape_e_ConstNamespaceMember al c : Shape al e_ConstNamespaceMember c.
Proof. unfold e_ConstNamespaceMember; shapes. Qed.
Global Hint Resolve Shape_e_ConstNamespaceMember : shape.
Lemma Shape_e_OperationNamespaceMember al c : Shape al e_OperationNamespaceMember c.
Proof. unfold e_OperationNamespaceMember; shapes. Qed.
Global Hint Resolve Shape_e_OperationNamespaceMember : shape.
Lemma Shape_e_AttributeNamespaceMember al c : Shape al e_AttributeNamespaceMember c.
Proof. unfold e_AttributeNamespaceMember; shapes. Qed.
Global Hint Resolve Shape_e_AttributeNamespaceMember : shape.
Lemma Shape_e_NamespaceMember al c : Shape al e_NamespaceMember c.
Proof. unfold e_NamespaceMember; shapes. Qed.
Global Hint Resolve Shape_e_NamespaceMember : shape.
Lemma Shape_e_NamespaceMembers al : Shape al e_NamespaceMembers false.
Proof. unfold e_NamespaceMembers; shapes. Qed.
Global Hint Resolve Shape_e_NamespaceMembers : shape.
Lemma Shape_e_DictionaryMember al c : Shape al e_DictionaryMember c.
Proof. unfold e_DictionaryMember; shapes. Qed.
Global Hint Resolve Shape_e_DictionaryMember : shape.
Lemma Shape_e_DictionaryMembers al : Shape al e_DictionaryMembers false.
Proof. unfold e_DictionaryMembers; shapes. Qed.
Global Hint Resolve Shape_e_DictionaryMembers : shape.
Lemma Shape_e_CallbackDefinition al c : Shape al e_CallbackDefinition c.
Proof. unfold e_CallbackDefinition; shapes. Qed.
Global Hint Resolve Shape_e_CallbackDefinition : shape.
Lemma Shape_e_CallbackInterfaceDefinition al c : Shape al e_CallbackInterfaceDefinition c.
Proof. unfold e_CallbackInterfaceDefinition; shapes. Qed.
Global Hint Resolve Shape_e_CallbackInterfaceDefinition : shape.
Lemma Shape_e_InterfaceDefinition al c : Shape al e_InterfaceDefinition c.
Proof. unfold e_InterfaceDefinition; shapes. Qed.
Global Hint Resolve Shape_e_InterfaceDefinition : shape.
Lemma Shape_e_InterfaceMixinDefinition al c : Shape al e_InterfaceMixinDefinition c.
Proof. unfold e_InterfaceMixinDefinition; shapes. Qed.
Global Hint Resolve Shape_e_InterfaceMixinDefinition : shape.
Lemma Shape_e_NamespaceDefinition al c : Shape al e_NamespaceDefinition c.
Proof. unfold e_NamespaceDefinition; shapes. Qed.
Global Hint Resolve Shape_e_NamespaceDefinition : shape.
Lemma Shape_e_DictionaryDefinition al c : Shape al e_DictionaryDefinition c.
Proof. unfold e_DictionaryDefinition; shapes. Qed.
Global Hint Resolve Shape_e_DictionaryDefinition : shape.
Lemma Shape_e_PartialInterfaceDefinition al c : Shape al e_PartialInterfaceDefinition c.
Proof. unfold e_PartialInterfaceDefinition; shapes. Qed.
Global Hint Resolve Shape_e_PartialInterfaceDefinition : shape.
Lemma Shape_e_PartialInterfaceMixinDefinition al c : Shape al e_PartialInterfaceMixinDefinition c.
Proof. unfold e_PartialInterfaceMixinDefinition; shapes. Qed.
Global Hint Resolve Shape_e_PartialInterfaceMixinDefinition : shape.
Lemma Shape_e_PartialDictionaryDefinition al c : Shape al e_PartialDictionaryDefinition c.
Proof. unfold e_PartialDictionaryDefinition; shapes. Qed.
Global Hint Resolve Shape_e_PartialDictionaryDefinition : shape.
Lemma Shape_e_PartialNamespaceDefinition al c : Shape al e_PartialNamespaceDefinition c.
Proof. unfold e_PartialNamespaceDefinition; shapes. Qed.
Global Hint Resolve Shape_e_PartialNamespaceDefinition : shape.
Lemma Shape_e_EnumValueList al c : Shape al e_EnumValueList c.
Proof. unfold e_EnumValueList, e_PunctuatedNonEmpty; shapes. Qed.
Global Hint Resolve Shape_e_EnumValueList : shape.
Lemma Shape_e_EnumDefinition al c : Shape al e_EnumDefinition c.
Proof. unfold e_EnumDefinition; shapes. Qed.
Global Hint Resolve Shape_e_EnumDefinition : shape.
Lemma Shape_e_TypedefDefinition al c : Shape al e_TypedefDefinition c.
Proof. unfold e_TypedefDefinition; shapes. Qed.
Global Hint Resolve Shape_e_TypedefDefinition : shape.
Lemma Shape_e_IncludesStatementDefinition al c : Shape al e_IncludesStatementDefinition c.
Proof. unfold e_IncludesStatementDefinition; shapes. Qed.
Global Hint Resolve Shape_e_IncludesStatementDefinition : shape.
Lemma Shape_e_ImplementsDefinition al c : Shape al e_ImplementsDefinition c.
Proof. unfold e_ImplementsDefinition; shapes. Qed.
Global Hint Resolve Shape_e_ImplementsDefinition : shape.
Lemma Shape_e_Definition al c : Shape al e_Definition c.
Proof. unfold e_Definition; shapes. Qed.
Global Hint Resolve Shape_e_Definition : shape.
Lemma Shape_e_Definitions al : Shape al e_Definitions false.
Proof. unfold e_Definitions; shapes. Qed.
Global Hint Resolve Shape_e_Definitions : shape.

Lemma grammar_Shape : forall A (x : nt A), Shape false (grammar x) true.
Proof. intros A x. destruct x; cbn [grammar]; auto with shape. Qed.

Ltac plains := repeat first [exact Logic.I | intros ? | simple apply conj
  | match goal with |- context [match ?b with _ => _ end] => destruct b; cbn end].
Lemma grammar_Plain : forall A (x : nt A), Plain (grammar x).
Proof. destruct x; cbn; plains. Qed.
Lemma Plain_Braced A (p : pexp A) : Plain p -> Plain (e_Braced p).
Proof. cbn; auto 10. Qed.
Lemma Plain_opt A (p : pexp A) : Plain p -> Plain (POpt p).
Proof. auto. Qed.
Lemma Plain_bind A B (p : pexp A) (f : A -> pexp B) : Plain p -> (forall a, Plain (f a)) -> Plain (PBind p f).
Proof. split; auto. Qed.
Lemma Plain_or A (p q : pexp A) : Plain p -> Plain q -> Plain (POr p q).
Proof. split; auto. Qed.
Global Hint Resolve Plain_Braced : plain.
Ltac plain1 := repeat first [solve [auto with plain] | simple apply Plain_or | simple apply Plain_bind | intros ? | exact Logic.I].
Lemma Plain_e_attributes : Plain e_attributes. Proof. cbn; plains. Qed.
Lemma Plain_e_AttributedType : Plain e_AttributedType. Proof. cbn; plains. Qed.
Lemma Plain_e_ReturnType : Plain e_ReturnType. Proof. cbn; plains. Qed.
Lemma Plain_e_Type : Plain e_Type. Proof. cbn; plains. Qed.
Lemma Plain_e_ConstType : Plain e_ConstType. Proof. cbn; plains. Qed.
Lemma Plain_e_args : Plain (e_Parenthesized e_ArgumentList). Proof. cbn; plains. Qed.
Lemma Plain_e_one : Plain (e_Generics e_AttributedType). Proof. cbn; plains. Qed.
Lemma Plain_e_two : Plain (e_Generics (e_triple e_AttributedType Comma e_AttributedType)). Proof. cbn; plains. Qed.
Global Hint Resolve Plain_e_attributes Plain_e_AttributedType Plain_e_ReturnType Plain_e_Type Plain_e_ConstType Plain_e_args
  Plain_e_one Plain_e_two : plain.
Lemma Plain_e_Option A (p : pexp A) : Plain p -> Plain (e_Option p). Proof. auto. Qed.
Global Hint Resolve Plain_e_Option : plain.
Lemma Plain_e_Inheritance : Plain e_Inheritance. Proof. cbn; plains. Qed.
Lemma Plain_e_Default : Plain e_Default. Proof. cbn; plains. Qed.
Lemma Plain_e_SIS : Plain e_StringifierOrInheritOrStatic. Proof. cbn; plains. Qed.
Lemma Plain_e_SS : Plain e_StringifierOrStatic. Proof. cbn; plains. Qed.
Lemma Plain_e_Special : Plain e_Special. Proof. cbn; plains. Qed.
Lemma Plain_e_EnumValueList : Plain e_EnumValueList. Proof. cbn; plains. Qed.
Global Hint Resolve Plain_e_Inheritance Plain_e_Default Plain_e_SIS Plain_e_SS Plain_e_Special Plain_e_EnumValueList : plain.
Lemma Plain_e_ConstMember : Plain e_ConstMember. Proof. unfold e_ConstMember; plain1. Qed.
Lemma Plain_e_StringifierMember : Plain e_StringifierMember. Proof. unfold e_StringifierMember; plain1. Qed.
Global Hint Resolve Plain_e_ConstMember Plain_e_StringifierMember : plain.
Lemma Plain_e_InterfaceMembers : Plain e_InterfaceMembers.
Proof.
  change (Plain e_InterfaceMember). unfold e_InterfaceMember, PAlt, PMap, e_AttributeInterfaceMember, e_ConstructorInterfaceMember,
    e_OperationInterfaceMember, e_IterableInterfaceMember, e_AsyncIterableInterfaceMember, e_MaplikeInterfaceMember,
    e_SetlikeInterfaceMember, PAlt, PMap, e_SingleTypedIterable, e_DoubleTypedIterable, e_SingleTypedAsyncIterable,
    e_DoubleTypedAsyncIterable; plain1.
Qed.
Lemma Plain_e_MixinMembers : Plain e_MixinMembers.
Proof.
  change (Plain e_MixinMember). unfold e_MixinMember, PAlt, PMap, e_OperationMixinMember, e_AttributeMixinMember; plain1.
Qed.
Lemma Plain_e_NamespaceMembers : Plain e_NamespaceMembers.
Proof.
  change (Plain e_NamespaceMember). unfold e_NamespaceMember, PAlt, PMap, e_ConstNamespaceMember, e_OperationNamespaceMember,
    e_AttributeNamespaceMember; plain1.
Qed.
Lemma Plain_e_DictionaryMembers : Plain e_DictionaryMembers.
Proof. change (Plain e_DictionaryMember). unfold e_DictionaryMember; plain1. Qed.
Global Hint Resolve Plain_e_InterfaceMembers Plain_e_MixinMembers Plain_e_NamespaceMembers Plain_e_DictionaryMembers : plain.
Lemma e_Definition_Plain : Plain e_Definition.
Proof.
  unfold e_Definition, PAlt, PMap, e_CallbackDefinition, e_CallbackInterfaceDefinition, e_InterfaceDefinition,
    e_InterfaceMixinDefinition, e_NamespaceDefinition, e_DictionaryDefinition, e_PartialInterfaceDefinition,
    e_PartialInterfaceMixinDefinition, e_PartialDictionaryDefinition, e_PartialNamespaceDefinition, e_EnumDefinition,
    e_TypedefDefinition, e_IncludesStatementDefinition, e_ImplementsDefinition; plain1.
Qed.
