(** * The model is what the source says: all implementations of [Parse], and [fn parse] *)
From Coq Require Import String Ascii NArith Arith Bool List Lia.
From Verif Require Import Nom Lex Ast Grammar RunFacts Api ApiFacts LexProps Source Crate Interp Embed Faithful SourceLex SourceTypes.
Import ListNotations.
Open Scope string_scope.
Open Scope list_scope.

(** [Modelled t A p enc]: the model of the type [t] of the crate is [A], the model of its [parse] is [p], and [enc] gives the
    Rust value that a tree stands for.  The types that are not generic are listed; the generic ones (src/common.rs:5-74 and
    [MayBeNull], src/types.rs:69-72) can be applied to any others.  A separator must be a terminal, as everywhere in the crate. *)
Inductive Modelled : rty -> forall A : Set, pexp A -> (A -> value) -> Prop :=
| M_term c : Modelled (tterm c) _ (T_ c) (enc_term c)
| M_Identifier : Modelled (Ty "Identifier" []) _ e_Identifier enc_Identifier
| M_StringLit : Modelled (Ty "StringLit" []) _ (PTerm TmStringLit) enc_StringLit
| M_DefaultValue : Modelled (Ty "DefaultValue" []) _ (PTerm TmDefaultValue) enc_DefaultValue
| M_ConstValue : Modelled (Ty "ConstValue" []) _ (PTerm TmConstValue) enc_ConstValue
| M_Argument : Modelled (Ty "Argument" []) _ e_Argument enc_Argument
| M_SingleArgument : Modelled (Ty "SingleArgument" []) _ e_SingleArgument enc_SingleArgument
| M_VariadicArgument : Modelled (Ty "VariadicArgument" []) _ e_VariadicArgument enc_VariadicArgument
| M_ExtendedAttribute : Modelled (Ty "ExtendedAttribute" []) _ e_ExtendedAttribute enc_ExtendedAttribute
| M_ExtendedAttributeArgList : Modelled (Ty "ExtendedAttributeArgList" []) _ e_ExtendedAttributeArgList enc_ExtendedAttributeArgList
| M_ExtendedAttributeNamedArgList : Modelled (Ty "ExtendedAttributeNamedArgList" []) _ e_ExtendedAttributeNamedArgList enc_ExtendedAttributeNamedArgList
| M_ExtendedAttributeIdentList : Modelled (Ty "ExtendedAttributeIdentList" []) _ e_ExtendedAttributeIdentList enc_ExtendedAttributeIdentList
| M_ExtendedAttributeIdent : Modelled (Ty "ExtendedAttributeIdent" []) _ e_ExtendedAttributeIdent enc_ExtendedAttributeIdent
| M_ExtendedAttributeWildCard : Modelled (Ty "ExtendedAttributeWildCard" []) _ e_ExtendedAttributeWildCard enc_ExtendedAttributeWildCard
| M_ExtendedAttributeNoArgs : Modelled (Ty "ExtendedAttributeNoArgs" []) _ e_ExtendedAttributeNoArgs enc_ExtendedAttributeNoArgs
| M_IdentifierOrString : Modelled (Ty "IdentifierOrString" []) _ e_IdentifierOrString enc_IdentifierOrString
| M_Default : Modelled (Ty "Default" []) _ e_Default enc_Default
| M_DictionaryMember : Modelled (Ty "DictionaryMember" []) _ e_DictionaryMember enc_DictionaryMember
| M_Inheritance : Modelled (Ty "Inheritance" []) _ e_Inheritance enc_Inheritance
| M_InterfaceMember : Modelled (Ty "InterfaceMember" []) _ e_InterfaceMember enc_InterfaceMember
| M_ConstMember : Modelled (Ty "ConstMember" []) _ e_ConstMember enc_ConstMember
| M_AttributeInterfaceMember : Modelled (Ty "AttributeInterfaceMember" []) _ e_AttributeInterfaceMember enc_AttributeInterfaceMember
| M_ConstructorInterfaceMember : Modelled (Ty "ConstructorInterfaceMember" []) _ e_ConstructorInterfaceMember enc_ConstructorInterfaceMember
| M_OperationInterfaceMember : Modelled (Ty "OperationInterfaceMember" []) _ e_OperationInterfaceMember enc_OperationInterfaceMember
| M_IterableInterfaceMember : Modelled (Ty "IterableInterfaceMember" []) _ e_IterableInterfaceMember enc_IterableInterfaceMember
| M_SingleTypedIterable : Modelled (Ty "SingleTypedIterable" []) _ e_SingleTypedIterable enc_SingleTypedIterable
| M_DoubleTypedIterable : Modelled (Ty "DoubleTypedIterable" []) _ e_DoubleTypedIterable enc_DoubleTypedIterable
| M_AsyncIterableInterfaceMember : Modelled (Ty "AsyncIterableInterfaceMember" []) _ e_AsyncIterableInterfaceMember enc_AsyncIterableInterfaceMember
| M_SingleTypedAsyncIterable : Modelled (Ty "SingleTypedAsyncIterable" []) _ e_SingleTypedAsyncIterable enc_SingleTypedAsyncIterable
| M_DoubleTypedAsyncIterable : Modelled (Ty "DoubleTypedAsyncIterable" []) _ e_DoubleTypedAsyncIterable enc_DoubleTypedAsyncIterable
| M_MaplikeInterfaceMember : Modelled (Ty "MaplikeInterfaceMember" []) _ e_MaplikeInterfaceMember enc_MaplikeInterfaceMember
| M_SetlikeInterfaceMember : Modelled (Ty "SetlikeInterfaceMember" []) _ e_SetlikeInterfaceMember enc_SetlikeInterfaceMember
| M_StringifierMember : Modelled (Ty "StringifierMember" []) _ e_StringifierMember enc_StringifierMember
| M_Special : Modelled (Ty "Special" []) _ e_Special enc_Special
| M_StringifierOrInheritOrStatic : Modelled (Ty "StringifierOrInheritOrStatic" []) _ e_StringifierOrInheritOrStatic enc_StringifierOrInheritOrStatic
| M_StringifierOrStatic : Modelled (Ty "StringifierOrStatic" []) _ e_StringifierOrStatic enc_StringifierOrStatic
| M_MixinMember : Modelled (Ty "MixinMember" []) _ e_MixinMember enc_MixinMember
| M_OperationMixinMember : Modelled (Ty "OperationMixinMember" []) _ e_OperationMixinMember enc_OperationMixinMember
| M_AttributeMixinMember : Modelled (Ty "AttributeMixinMember" []) _ e_AttributeMixinMember enc_AttributeMixinMember
| M_NamespaceMember : Modelled (Ty "NamespaceMember" []) _ e_NamespaceMember enc_NamespaceMember
| M_ConstNamespaceMember : Modelled (Ty "ConstNamespaceMember" []) _ e_ConstNamespaceMember enc_ConstNamespaceMember
| M_OperationNamespaceMember : Modelled (Ty "OperationNamespaceMember" []) _ e_OperationNamespaceMember enc_OperationNamespaceMember
| M_AttributeNamespaceMember : Modelled (Ty "AttributeNamespaceMember" []) _ e_AttributeNamespaceMember enc_AttributeNamespaceMember
| M_Type : Modelled (Ty "Type" []) _ e_Type enc_Type
| M_SingleType : Modelled (Ty "SingleType" []) _ e_SingleType enc_SingleType
| M_NonAnyType : Modelled (Ty "NonAnyType" []) _ e_NonAnyType enc_NonAnyType
| M_SequenceType : Modelled (Ty "SequenceType" []) _ e_SequenceType enc_SequenceType
| M_FrozenArrayType : Modelled (Ty "FrozenArrayType" []) _ e_FrozenArrayType enc_FrozenArrayType
| M_PromiseType : Modelled (Ty "PromiseType" []) _ e_PromiseType enc_PromiseType
| M_IntegerType : Modelled (Ty "IntegerType" []) _ e_IntegerType enc_IntegerType
| M_LongLongType : Modelled (Ty "LongLongType" []) _ e_LongLongType enc_LongLongType
| M_LongType : Modelled (Ty "LongType" []) _ e_LongType enc_LongType
| M_ShortType : Modelled (Ty "ShortType" []) _ e_ShortType enc_ShortType
| M_FloatingPointType : Modelled (Ty "FloatingPointType" []) _ e_FloatingPointType enc_FloatingPointType
| M_FloatType : Modelled (Ty "FloatType" []) _ e_FloatType enc_FloatType
| M_DoubleType : Modelled (Ty "DoubleType" []) _ e_DoubleType enc_DoubleType
| M_RecordType : Modelled (Ty "RecordType" []) _ e_RecordType enc_RecordType
| M_RecordKeyType : Modelled (Ty "RecordKeyType" []) _ e_RecordKeyType enc_RecordKeyType
| M_UnionMemberType : Modelled (Ty "UnionMemberType" []) _ e_UnionMemberType enc_UnionMemberType
| M_ConstType : Modelled (Ty "ConstType" []) _ e_ConstType enc_ConstType
| M_ReturnType : Modelled (Ty "ReturnType" []) _ e_ReturnType enc_ReturnType
| M_AttributedType : Modelled (Ty "AttributedType" []) _ e_AttributedType enc_AttributedType
| M_AttributedNonAnyType : Modelled (Ty "AttributedNonAnyType" []) _ e_AttributedNonAnyType enc_AttributedNonAnyType
| M_Definition : Modelled (Ty "Definition" []) _ e_Definition enc_Definition
| M_CallbackDefinition : Modelled (Ty "CallbackDefinition" []) _ e_CallbackDefinition enc_CallbackDefinition
| M_CallbackInterfaceDefinition : Modelled (Ty "CallbackInterfaceDefinition" []) _ e_CallbackInterfaceDefinition enc_CallbackInterfaceDefinition
| M_InterfaceDefinition : Modelled (Ty "InterfaceDefinition" []) _ e_InterfaceDefinition enc_InterfaceDefinition
| M_InterfaceMixinDefinition : Modelled (Ty "InterfaceMixinDefinition" []) _ e_InterfaceMixinDefinition enc_InterfaceMixinDefinition
| M_NamespaceDefinition : Modelled (Ty "NamespaceDefinition" []) _ e_NamespaceDefinition enc_NamespaceDefinition
| M_DictionaryDefinition : Modelled (Ty "DictionaryDefinition" []) _ e_DictionaryDefinition enc_DictionaryDefinition
| M_PartialInterfaceDefinition : Modelled (Ty "PartialInterfaceDefinition" []) _ e_PartialInterfaceDefinition enc_PartialInterfaceDefinition
| M_PartialInterfaceMixinDefinition : Modelled (Ty "PartialInterfaceMixinDefinition" []) _ e_PartialInterfaceMixinDefinition enc_PartialInterfaceMixinDefinition
| M_PartialDictionaryDefinition : Modelled (Ty "PartialDictionaryDefinition" []) _ e_PartialDictionaryDefinition enc_PartialDictionaryDefinition
| M_PartialNamespaceDefinition : Modelled (Ty "PartialNamespaceDefinition" []) _ e_PartialNamespaceDefinition enc_PartialNamespaceDefinition
| M_EnumDefinition : Modelled (Ty "EnumDefinition" []) _ e_EnumDefinition enc_EnumDefinition
| M_TypedefDefinition : Modelled (Ty "TypedefDefinition" []) _ e_TypedefDefinition enc_TypedefDefinition
| M_IncludesStatementDefinition : Modelled (Ty "IncludesStatementDefinition" []) _ e_IncludesStatementDefinition enc_IncludesStatementDefinition
| M_ImplementsDefinition : Modelled (Ty "ImplementsDefinition" []) _ e_ImplementsDefinition enc_ImplementsDefinition
| M_Option t A p enc : Modelled t A p enc -> Modelled (Ty "Option" [t]) _ (e_Option p) (enc_Option enc)
| M_Box t A p enc : Modelled t A p enc -> Modelled (Ty "Box" [t]) _ p (enc_Box enc)
| M_Vec t A p enc : Modelled t A p enc -> Modelled (Ty "Vec" [t]) _ (e_Vec p) (enc_Vec enc)
| M_pair t A p enc u B q enc' : Modelled t A p enc -> Modelled u B q enc' ->
    Modelled (TyTuple [t; u]) _ (e_pair2 p q) (fun x => VTup [enc (fst x); enc' (snd x)])
| M_triple t A p enc u B q enc' v C r enc'' : Modelled t A p enc -> Modelled u B q enc' -> Modelled v C r enc'' ->
    Modelled (TyTuple [t; u; v]) _ (e_triple3 p q r) (fun x => VTup [enc (fst (fst x)); enc' (snd (fst x)); enc'' (snd x)])
| M_Parenthesized t A p enc : Modelled t A p enc -> Modelled (Ty "Parenthesized" [t]) _ (e_Parenthesized p) (enc_Parenthesized enc)
| M_Bracketed t A p enc : Modelled t A p enc -> Modelled (Ty "Bracketed" [t]) _ (e_Bracketed p) (enc_Bracketed enc)
| M_Braced t A p enc : Modelled t A p enc -> Modelled (Ty "Braced" [t]) _ (e_Braced p) (enc_Braced enc)
| M_Generics t A p enc : Modelled t A p enc -> Modelled (Ty "Generics" [t]) _ (e_Generics p) (enc_Generics enc)
| M_Punctuated t A p enc c : Modelled t A p enc ->
    Modelled (Ty "Punctuated" [t; tterm c]) _ (e_PunctuatedBy p (T_ c)) (enc_Punctuated (enc_term c tt) enc)
| M_PunctuatedNonEmpty t A p enc c : Modelled t A p enc ->
    Modelled (Ty "PunctuatedNonEmpty" [t; tterm c]) _ (e_PunctuatedNonEmptyBy p (T_ c)) (enc_PunctuatedNonEmpty (enc_term c tt) enc)
| M_MayBeNull t A p enc : Modelled t A p enc -> Modelled (Ty "MayBeNull" [t]) _ (e_MayBeNull p) (enc_MayBeNull enc).
(** The same for parsers of text: the ones above and the literals (src/literal.rs). *)
Inductive ImplFor : rty -> forall A : Set, parser text A -> (A -> value) -> Prop :=
| Imp_Modelled t A p enc : Modelled t A p enc -> ImplFor t A (parse_as p) enc
| Imp_DecLit : ImplFor (Ty "DecLit" []) _ p_DecLit enc_DecLit
| Imp_HexLit : ImplFor (Ty "HexLit" []) _ p_HexLit enc_HexLit
| Imp_OctLit : ImplFor (Ty "OctLit" []) _ p_OctLit enc_OctLit
| Imp_IntegerLit : ImplFor (Ty "IntegerLit" []) _ p_IntegerLit enc_IntegerLit
| Imp_BooleanLit : ImplFor (Ty "BooleanLit" []) _ p_BooleanLit enc_BooleanLit
| Imp_FloatValueLit : ImplFor (Ty "FloatValueLit" []) _ p_FloatValueLit enc_FloatValueLit
| Imp_FloatLit : ImplFor (Ty "FloatLit" []) _ p_FloatLit enc_FloatLit
| Imp_EmptyArrayLit : ImplFor (Ty "EmptyArrayLit" []) _ p_EmptyArrayLit (fun _ => enc_EmptyArrayLit)
| Imp_EmptyDictionaryLit : ImplFor (Ty "EmptyDictionaryLit" []) _ p_EmptyDictionaryLit (fun _ => enc_EmptyDictionaryLit).

Lemma src_pair2 m A (p : pexp A) t enc B (q : pexp B) u enc' : SrcP m p t enc -> SrcP m q u enc' ->
  SrcP m (e_pair2 p q) (TyTuple [t; u]) (fun x => VTup [enc (fst x); enc' (snd x)]).
Proof.
  intros H H'. refine (ev_S _ _ (ev_and _ _ H H') _). intros n (K & K1) i. enter. unfold e_pair2.
  rewrite run_bind. eapply ref_step; [reflexivity|eapply ref_parse; [reflexivity|apply K]|intros r v].
  rewrite run_bind. eapply ref_step; [reflexivity|eapply ref_parse; [reflexivity|apply K1]|intros r' v'].
  rewrite run_ret. eapply ref_done; reflexivity.
Qed.
Lemma src_triple3 m A (p : pexp A) t enc B (q : pexp B) u enc' C (s : pexp C) w enc'' : SrcP m p t enc -> SrcP m q u enc' -> SrcP m s w enc'' ->
  SrcP m (e_triple3 p q s) (TyTuple [t; u; w]) (fun x => VTup [enc (fst (fst x)); enc' (snd (fst x)); enc'' (snd x)]).
Proof.
  intros H H' H''. refine (ev_S _ _ (ev_and _ _ H (ev_and _ _ H' H'')) _). intros n (K & K1 & K2) i. enter. unfold e_triple3.
  rewrite run_bind. eapply ref_step; [reflexivity|eapply ref_parse; [reflexivity|apply K]|intros r v].
  rewrite run_bind. eapply ref_step; [reflexivity|eapply ref_parse; [reflexivity|apply K1]|intros r' v'].
  rewrite run_bind. eapply ref_step; [reflexivity|eapply ref_parse; [reflexivity|apply K2]|intros r'' v''].
  rewrite run_ret. eapply ref_done; reflexivity.
Qed.
Lemma default_term c : default (tterm c) = Some (vt (term_type c)).
Proof. destruct c; reflexivity. Qed.
Lemma modelled_src t A p enc : Modelled t A p enc -> forall m, SrcP m p t enc.
Proof.
  intros H m. destruct (rec_all m). induction H.
  - apply src_T.
  - apply src_Identifier_.
  - apply src_StringLit_.
  - apply src_DefaultValue_.
  - apply src_ConstValue_.
  - apply (src_Argument m); assumption.
  - apply (src_SingleArgument m); assumption.
  - apply (src_VariadicArgument m); assumption.
  - apply (src_ExtendedAttribute m); assumption.
  - apply (src_ExtendedAttributeArgList m); assumption.
  - apply (src_ExtendedAttributeNamedArgList m); assumption.
  - apply (src_ExtendedAttributeIdentList m); assumption.
  - apply (src_ExtendedAttributeIdent m); assumption.
  - apply (src_ExtendedAttributeWildCard m); assumption.
  - apply (src_ExtendedAttributeNoArgs m); assumption.
  - apply (src_IdentifierOrString m); assumption.
  - apply (src_Default m); assumption.
  - apply (src_DictionaryMember m); assumption.
  - apply (src_Inheritance m); assumption.
  - apply (src_InterfaceMember m); assumption.
  - apply (src_ConstMember m); assumption.
  - apply (src_AttributeInterfaceMember m); assumption.
  - apply (src_ConstructorInterfaceMember m); assumption.
  - apply (src_OperationInterfaceMember m); assumption.
  - apply (src_IterableInterfaceMember m); assumption.
  - apply (src_SingleTypedIterable m); assumption.
  - apply (src_DoubleTypedIterable m); assumption.
  - apply (src_AsyncIterableInterfaceMember m); assumption.
  - apply (src_SingleTypedAsyncIterable m); assumption.
  - apply (src_DoubleTypedAsyncIterable m); assumption.
  - apply (src_MaplikeInterfaceMember m); assumption.
  - apply (src_SetlikeInterfaceMember m); assumption.
  - apply (src_StringifierMember m); assumption.
  - apply (src_Special m); assumption.
  - apply (src_StringifierOrInheritOrStatic m); assumption.
  - apply (src_StringifierOrStatic m); assumption.
  - apply (src_MixinMember m); assumption.
  - apply (src_OperationMixinMember m); assumption.
  - apply (src_AttributeMixinMember m); assumption.
  - apply (src_NamespaceMember m); assumption.
  - apply (src_ConstNamespaceMember m); assumption.
  - apply (src_OperationNamespaceMember m); assumption.
  - apply (src_AttributeNamespaceMember m); assumption.
  - apply (src_Type m); assumption.
  - apply (src_SingleType m); assumption.
  - apply (src_NonAnyType m); assumption.
  - apply (src_SequenceType m); assumption.
  - apply (src_FrozenArrayType m); assumption.
  - apply (src_PromiseType m); assumption.
  - apply (src_IntegerType m); assumption.
  - apply (src_LongLongType m); assumption.
  - apply (src_LongType m); assumption.
  - apply (src_ShortType m); assumption.
  - apply (src_FloatingPointType m); assumption.
  - apply (src_FloatType m); assumption.
  - apply (src_DoubleType m); assumption.
  - apply (src_RecordType m); assumption.
  - apply (src_RecordKeyType m); assumption.
  - apply (src_UnionMemberType m); assumption.
  - apply (src_ConstType m); assumption.
  - apply (src_ReturnType m); assumption.
  - apply (src_AttributedType m); assumption.
  - apply (src_AttributedNonAnyType m); assumption.
  - apply (src_Definition m); assumption.
  - apply (src_CallbackDefinition m); assumption.
  - apply (src_CallbackInterfaceDefinition m); assumption.
  - apply (src_InterfaceDefinition m); assumption.
  - apply (src_InterfaceMixinDefinition m); assumption.
  - apply (src_NamespaceDefinition m); assumption.
  - apply (src_DictionaryDefinition m); assumption.
  - apply (src_PartialInterfaceDefinition m); assumption.
  - apply (src_PartialInterfaceMixinDefinition m); assumption.
  - apply (src_PartialDictionaryDefinition m); assumption.
  - apply (src_PartialNamespaceDefinition m); assumption.
  - apply (src_EnumDefinition m); assumption.
  - apply (src_TypedefDefinition m); assumption.
  - apply (src_IncludesStatementDefinition m); assumption.
  - apply (src_ImplementsDefinition m); assumption.
  - apply src_Option; assumption.
  - apply src_Box; assumption.
  - apply src_Vec; assumption.
  - apply src_pair2; assumption.
  - apply src_triple3; assumption.
  - apply src_Parenthesized; assumption.
  - apply src_Bracketed; assumption.
  - apply src_Braced; assumption.
  - apply src_Generics; assumption.
  - apply (src_Punctuated m A c p t enc); [assumption|apply default_term].
  - apply (src_PunctuatedNonEmpty m A c p t enc); [assumption|apply default_term].
  - apply src_MayBeNull; assumption.
Qed.
Lemma modelled_impl t A p enc : Modelled t A p enc -> exists b, Impl b A p.
Proof.
  induction 1; repeat match goal with H : exists b, _ |- _ => destruct H end; try (eexists; eassumption); try (eexists; econstructor; fail);
    try (eexists; econstructor; eassumption).
  - eexists. apply (I_Punctuated _ true _ _ _ _ H0). constructor.
  - eexists. apply (I_PunctuatedNonEmpty _ true _ _ _ _ H0). constructor.
Qed.
Lemma implements_parser t A P enc : ImplFor t A P enc -> exists b, Parser b A P.
Proof. destruct 1; try (eexists; constructor; fail). destruct (modelled_impl _ _ _ _ H). eexists. constructor. eassumption. Qed.

(** What [<t as Parse>::parse] gives when the parser of the model gives [r]. *)
Definition answer {A} (enc : A -> value) (r : res text A) : ans :=
  match r with
  | Ok rest v => Val (VCon "Ok" [VTup [VStr rest; enc v]])
  | Err e => Val (VCon "Err" [VNom e])
  | Diverge => Stuck
  end.
Lemma ref_answer A (enc : A -> value) r a : Ref enc r a -> r <> Diverge -> a = answer enc r.
Proof. intros H K. destruct r; [exact H|exact H|elim K; reflexivity]. Qed.
Lemma src_answer A P t (enc : A -> value) b : (forall i, exists N, forall n, N <= n -> Ref enc (P i) (call n (CParse t) [VStr i])) -> Parser b A P ->
  forall i, exists N, forall n, N <= n -> call n (CParse t) [VStr i] = answer enc (P i).
Proof. intros H HP i. destruct (H i) as [N HN]. exists N. intros n Hn. apply ref_answer; [auto|]. eapply Parser_terminates, HP. Qed.
Theorem implements_source t A P enc : ImplFor t A P enc ->
  forall i, exists N, forall n, N <= n -> call n (CParse t) [VStr i] = answer enc (P i).
Proof.
  intros H. destruct (implements_parser _ _ _ _ H) as [b HP]. apply (src_answer _ _ _ _ b); [|exact HP]. destruct H; intro i.
  - destruct (modelled_src _ _ _ _ H (S (length i))) as [N HN]. exists N. intros n Hn. apply (HN n Hn).
  - exists 2. intros [|[|n]] Hn; try lia. apply src_DecLit.
  - exists 2. intros [|[|n]] Hn; try lia. apply src_HexLit.
  - exists 2. intros [|[|n]] Hn; try lia. apply src_OctLit.
  - exists 3. intros [|[|[|n]]] Hn; try lia. apply src_IntegerLit.
  - exists 3. intros [|[|[|n]]] Hn; try lia. apply src_BooleanLit.
  - exists 2. intros [|[|n]] Hn; try lia. apply src_FloatValueLit.
  - exists 3. intros [|[|[|n]]] Hn; try lia. apply src_FloatLit.
  - exists 3. intros [|[|[|n]]] Hn; try lia. apply src_EmptyArrayLit.
  - exists 3. intros [|[|[|n]]] Hn; try lia. apply src_EmptyDictionaryLit.
Qed.

(** ** [fn parse] *)
(** What [parse] gives, by the model. *)
Definition outcome_answer (o : outcome) : ans :=
  match o with
  | Parsed d => Val (VCon "Ok" [enc_Vec enc_Definition d])
  | Failed e => Val (VCon "Err" [VNom e])
  | Panicked => Panic
  | NoReturn => Stuck
  end.
Theorem parse_source raw : exists N, forall n, N <= n -> call n (CFn "parse") [VStr raw] = outcome_answer (parse raw).
Proof.
  destruct (implements_source _ _ _ _ (Imp_Modelled _ _ _ _ (M_Vec _ _ _ _ M_Definition)) raw) as [N HN].
  exists (S N). intros [|n] Hn; [lia|]. specialize (HN n ltac:(lia)). enter. rewrite eval_EMatch.
  assert (E : eval n (call n) [] "" [("raw", Some (VStr raw))] (EParse (Ty "Vec" [Ty "Definition" []]) (EVar "raw")) =
    answer (enc_Vec enc_Definition) (parse_as e_Definitions raw)) by exact HN.
  rewrite E. unfold parse. assert (parse_as e_Definitions raw <> Diverge) by (eapply Parser_terminates, P_Impl, I_Definitions).
  destruct (parse_as e_Definitions raw) as [[|c r] v|e|]; [reflexivity|reflexivity|reflexivity|congruence].
Qed.

(** ** Nothing is left out *)
(** An implementation of [Parse] in the source is modelled: for all modelled types in place of its parameters. *)
Definition covered (vs : list string) (t : rty) : Prop :=
  forall te : list (string * rty), map fst te = vs ->
  (forall v u, In (v, u) te -> (exists A p enc, Modelled u A p enc) /\ (v = "S" -> exists c, u = tterm c)) ->
  exists A P enc, ImplFor (subst te t) A P enc.
Lemma sub_nil t : subst [] t = t.
Proof.
  revert t. fix IH 1. intros [x l|l]; cbn.
  - f_equal. induction l as [|y l IHl]; cbn; [reflexivity|]. rewrite IH, IHl. reflexivity.
  - f_equal. induction l as [|y l IHl]; cbn; [reflexivity|]. rewrite IH, IHl. reflexivity.
Qed.
(** The terminal of a type. *)
Definition find_term (s : string) : option term := find (fun c => String.eqb s (term_type c)) all_terms.
Lemma cover0 t : (exists A P enc, ImplFor t A P enc) -> covered [] t.
Proof. intros H [|? ?] E _; [|discriminate]. rewrite sub_nil. exact H. Qed.
Lemma cover1 t : (forall u, (exists A p enc, Modelled u A p enc) -> exists A P enc, ImplFor (subst [("T", u)] t) A P enc) -> covered ["T"] t.
Proof. intros H [|[v u] [|? ?]] E K; try discriminate. injection E as ->. apply H. apply (K "T" u). left. reflexivity. Qed.
Lemma cover2 t : (forall u c, (exists A p enc, Modelled u A p enc) -> exists A P enc, ImplFor (subst [("T", u); ("S", tterm c)] t) A P enc) -> covered ["T"; "S"] t.
Proof.
  intros H [|[v u] [|[w x] [|? ?]]] E K; try discriminate. injection E as -> ->.
  destruct (K "S" x) as [_ [c ->]]; [right; left; reflexivity|reflexivity|]. apply H. apply (K "T" u). left. reflexivity.
Qed.
Lemma mkc t (A : Set) P enc : ImplFor t A P enc -> exists A P enc, ImplFor t A P enc.
Proof. eauto. Qed.
Ltac cover :=
  lazymatch goal with
  | |- covered [] (Ty ?s []) =>
      apply cover0;
      let o := eval vm_compute in (find_term s) in
      lazymatch o with
      | Some ?c => change (Ty s []) with (tterm c); do 3 eexists; apply Imp_Modelled, M_term
      | None => first [exact (mkc _ _ _ _ Imp_DecLit) | exact (mkc _ _ _ _ Imp_HexLit) | exact (mkc _ _ _ _ Imp_OctLit) | exact (mkc _ _ _ _ Imp_IntegerLit) | exact (mkc _ _ _ _ Imp_BooleanLit) | exact (mkc _ _ _ _ Imp_FloatValueLit) | exact (mkc _ _ _ _ Imp_FloatLit) | exact (mkc _ _ _ _ Imp_EmptyArrayLit) | exact (mkc _ _ _ _ Imp_EmptyDictionaryLit) | do 3 eexists; apply Imp_Modelled; constructor]
      end
  | |- covered ["T"] _ => apply cover1; intros u (A & p & enc & H); cbn; first [exact (mkc _ _ _ _ (Imp_Modelled _ _ _ _ (M_Option _ _ _ _ H))) | exact (mkc _ _ _ _ (Imp_Modelled _ _ _ _ (M_Box _ _ _ _ H))) | exact (mkc _ _ _ _ (Imp_Modelled _ _ _ _ (M_Vec _ _ _ _ H))) | exact (mkc _ _ _ _ (Imp_Modelled _ _ _ _ (M_Parenthesized _ _ _ _ H))) | exact (mkc _ _ _ _ (Imp_Modelled _ _ _ _ (M_Bracketed _ _ _ _ H))) | exact (mkc _ _ _ _ (Imp_Modelled _ _ _ _ (M_Braced _ _ _ _ H))) | exact (mkc _ _ _ _ (Imp_Modelled _ _ _ _ (M_Generics _ _ _ _ H))) | exact (mkc _ _ _ _ (Imp_Modelled _ _ _ _ (M_MayBeNull _ _ _ _ H)))]
  | |- covered ["T"; "S"] _ => apply cover2; intros u c (A & p & enc & H); cbn -[tterm]; first [exact (mkc _ _ _ _ (Imp_Modelled _ _ _ _ (M_Punctuated _ _ _ _ c H))) | exact (mkc _ _ _ _ (Imp_Modelled _ _ _ _ (M_PunctuatedNonEmpty _ _ _ _ c H)))]
  end.
(** The types that the source implements [Parse] for. *)
Definition heads : list (list string * rty) := Eval vm_compute in map (fun q => match q with (vs, t, _, _) => (vs, t) end) parse_impls.
Lemma heads_covered : Forall (fun q => covered (fst q) (snd q)) heads.
Proof.
  unfold heads. repeat (apply Forall_cons; [cbn [fst snd]|]); [..|apply Forall_nil]; try cover.
  - intros [|[v1 t1] [|[v2 t2] [|? ?]]] E K; try discriminate. injection E as -> ->. cbn.
    pose proof (proj1 (K "T" t1 (or_introl eq_refl))) as (A & p & enc & H). pose proof (proj1 (K "U" t2 (or_intror (or_introl eq_refl)))) as (B & q & enc' & H').
    exact (mkc _ _ _ _ (Imp_Modelled _ _ _ _ (M_pair _ _ _ _ _ _ _ _ H H'))).
  - intros [|[v1 t1] [|[v2 t2] [|[v3 t3] [|? ?]]]] E K; try discriminate. injection E as -> -> ->. cbn.
    pose proof (proj1 (K "T" t1 (or_introl eq_refl))) as (A & p & enc & H). pose proof (proj1 (K "U" t2 (or_intror (or_introl eq_refl)))) as (B & q & enc' & H').
    pose proof (proj1 (K "V" t3 (or_intror (or_intror (or_introl eq_refl))))) as (C & r & enc'' & H'').
    exact (mkc _ _ _ _ (Imp_Modelled _ _ _ _ (M_triple _ _ _ _ _ _ _ _ _ _ _ _ H H' H''))).
Qed.
Theorem all_covered vs t x b : In (IParse vs t x b) crate_items -> covered vs t.
Proof.
  intros H. change (covered (fst (vs, t)) (snd (vs, t))). revert H. generalize heads_covered. intros F H.
  rewrite Forall_forall in F. apply F. assert (E : heads = flat_map (fun i => match i with IParse vs t _ _ => [(vs, t)] | _ => [] end) crate_items) by (vm_compute; reflexivity).
  rewrite E. apply in_flat_map. eexists. split; [exact H|]. left. reflexivity.
Qed.

(** ** Everything was understood *)
Theorem crate_read : crate_items = read_crate /\ length crate_items = 496 /\ forall l, ~ In (IBad l) crate_items.
Proof.
  split; [vm_compute; reflexivity|]. split; [vm_compute; reflexivity|]. intros l H.
  assert (E : forallb (fun i => match i with IBad _ => false | _ => true end) crate_items = true) by (vm_compute; reflexivity).
  rewrite forallb_forall in E. apply E in H. discriminate.
Qed.
