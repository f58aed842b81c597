(** * Upper bounds on the number of steps *)
From Coq Require Import String Ascii NArith Arith Bool List Lia.
From Verif Require Import Nom Lex Ast Grammar Spec LexFacts NumFacts TokFacts RunFacts Shapes TermFacts Api ApiFacts LexProps
  Tok TokRun TokSound TokComplete TokMembers Shows Exact Print Cost.
Import ListNotations.
Open Scope list_scope.

(** ** Size of an expression

    [Sized p c k]: [p] has at most [c] leaves (lexical or recursive calls, some counted twice), and loops are nested at most
    [k] deep in it. *)
Fixpoint Sized {A} (p : pexp A) (c k : nat) {struct p} : Prop :=
  match p with
  | PTerm _ => 1 <= c
  | PRet _ => True
  | PBind q f => exists c1 c2, Sized q c1 k /\ (forall a, Sized (f a) c2 k) /\ c1 + c2 <= c
  | POr q r => exists c1 c2, Sized q c1 k /\ Sized r c2 k /\ c1 + c2 <= c
  | PEnd => True
  | POpt q => Sized q c k
  | PMany0 q => exists k', Sized q c k' /\ k' < k
  | PSepList s q | PSepNonEmpty s q => exists c1 c2 k', Sized s c1 k' /\ Sized q c2 k' /\ c1 + 2 * c2 <= c /\ k' < k
  | PNT _ => 1 <= c
  end.
Lemma Sized_mono : forall A (p : pexp A) c k c' k', Sized p c k -> c <= c' -> k <= k' -> Sized p c' k'.
Proof.
  induction p as [A t|A a|A B p IHp f IHf|A p IHp q IHq|A|A p IHp|A p IHp|S A s IHs p IHp|S A s IHs p IHp|A x];
    cbn [Sized]; intros c k c' k' H Hc Hk; auto; try lia.
  - destruct H as (c1 & c2 & H1 & H2 & H3). exists c1, c2. split; [eauto|split; [intros; eapply IHf; eauto|lia]].
  - destruct H as (c1 & c2 & H1 & H2 & H3). exists c1, c2. split; [eauto|split; [eauto|lia]].
  - eauto.
  - destruct H as (j & H1 & H2). exists j. split; [eauto|lia].
  - destruct H as (c1 & c2 & j & H1 & H2 & H3 & H4). exists c1, c2, j. repeat split; auto; lia.
  - destruct H as (c1 & c2 & j & H1 & H2 & H3 & H4). exists c1, c2, j. repeat split; auto; lia.
Qed.
Definition Sz {A} (p : pexp A) : Prop := exists c k, Sized p c k.
Definition USz {X A} (f : X -> pexp A) : Prop := exists c k, forall x, Sized (f x) c k.
Lemma USz_Sz X A (p : X -> pexp A) x : USz p -> Sz (p x).
Proof. intros (c & k & H). exists c, k. auto. Qed.
Lemma USz_const X A (p : pexp A) : Sz p -> USz (fun _ : X => p).
Proof. intros (c & k & H). exists c, k. auto. Qed.
Lemma USz_bind X A B (p : X -> pexp A) (f : X -> A -> pexp B) : USz p -> USz (fun xa => f (fst xa) (snd xa)) ->
  USz (fun x => PBind (p x) (f x)).
Proof.
  intros (c & k & H) (c' & k' & H'). exists (c + c'), (k + k'). intros x. exists c, c'. split; [|split; [intros a|lia]].
  - eapply Sized_mono; eauto; lia.
  - eapply Sized_mono; [apply (H' (x, a))|lia|lia].
Qed.
Lemma USz_ret X A (f : X -> A) : USz (fun x => PRet (f x)). Proof. exists 0, 0. cbn; auto. Qed.
Lemma USz_cond X A (b : X -> bool) (p : pexp A) : Sz p -> USz (fun x => PCond (b x) p).
Proof.
  intros (c & k & H). exists c, k. intros x. destruct (b x); cbn; auto. exists c, 0. split; auto. split; auto. lia.
Qed.
Lemma Sz_bind A B (p : pexp A) (f : A -> pexp B) : Sz p -> USz f -> Sz (PBind p f).
Proof. intros H H'. apply (USz_Sz unit _ (fun _ => PBind p f) tt). apply (USz_bind unit _ _ (fun _ => p) (fun _ => f)).
  - apply USz_const; auto.
  - destruct H' as (c & k & H'). exists c, k. auto.
Qed.
Lemma Sz_or A (p q : pexp A) : Sz p -> Sz q -> Sz (POr p q).
Proof.
  intros (c & k & H) (c' & k' & H'). exists (c + c'), (k + k'), c, c'. split; [|split; [|lia]]; eapply Sized_mono; eauto; lia.
Qed.
Lemma Sz_term A (t : terminal A) : Sz (PTerm t). Proof. exists 1, 0. cbn. auto. Qed.
Lemma Sz_T t : Sz (T_ t). Proof. apply Sz_term. Qed.
Lemma Sz_ret A (a : A) : Sz (PRet a). Proof. exists 0, 0. cbn. auto. Qed.
Lemma Sz_end A : Sz (@PEnd A). Proof. exists 0, 0. cbn. auto. Qed.
Lemma Sz_nt A (x : nt A) : Sz (PNT x). Proof. exists 1, 0. cbn. auto. Qed.
Lemma Sz_opt A (p : pexp A) : Sz p -> Sz (POpt p). Proof. auto. Qed.
Lemma Sz_option A (p : pexp A) : Sz p -> Sz (e_Option p). Proof. auto. Qed.
Lemma Sz_many A (p : pexp A) : Sz p -> Sz (PMany0 p).
Proof. intros (c & k & H). exists c, (S k), k. auto. Qed.
Lemma Sz_seplist A S (s : pexp S) (p : pexp A) : Sz s -> Sz p -> Sz (PSepList s p).
Proof.
  intros (c & k & H) (c' & k' & H'). exists (c + 2 * c'), (1 + k + k'), c, c', (k + k').
  split; [|split; [|split; lia]]; eapply Sized_mono; eauto; lia.
Qed.
Lemma Sz_sepnonempty A S (s : pexp S) (p : pexp A) : Sz s -> Sz p -> Sz (PSepNonEmpty s p).
Proof. apply Sz_seplist. Qed.
Ltac sz1 := first
  [ assumption | solve [auto with sz] | simple apply Sz_T | simple apply Sz_term | simple apply Sz_ret | simple apply Sz_end | simple apply Sz_nt
  | simple apply Sz_option | simple apply Sz_opt | simple apply Sz_many | simple apply Sz_seplist | simple apply Sz_sepnonempty
  | simple apply Sz_or | simple apply Sz_bind | simple apply USz_cond | simple apply USz_const | simple apply USz_ret
  | match goal with
    | |- USz (fun x => PBind (@?p x) (fun a => @?f x a)) => apply (USz_bind _ _ _ p f); cbv beta
    end ].
Ltac sz := unfold PMap; cbn [PAlt]; unfold PMap; repeat (sz1; cbv beta).

Lemma Sz_wrap A (p : pexp A) o c : Sz p -> Sz (T_ o ;;; b <- p ;; T_ c ;;; PRet b).
Proof. intros H. sz. Qed.
Lemma Sz_paren A (p : pexp A) : Sz p -> Sz (e_Parenthesized p). Proof. apply Sz_wrap. Qed.
Lemma Sz_bracket A (p : pexp A) : Sz p -> Sz (e_Bracketed p). Proof. apply Sz_wrap. Qed.
Lemma Sz_brace A (p : pexp A) : Sz p -> Sz (e_Braced p). Proof. apply Sz_wrap. Qed.
Lemma Sz_generics A (p : pexp A) : Sz p -> Sz (e_Generics p). Proof. apply Sz_wrap. Qed.
Lemma Sz_punctuated A (p : pexp A) t : Sz p -> Sz (e_Punctuated p t). Proof. intros H. unfold e_Punctuated. sz. Qed.
Lemma Sz_triple A B (p : pexp A) t (q : pexp B) : Sz p -> Sz q -> Sz (e_triple p t q). Proof. intros H H'. unfold e_triple. sz. Qed.
Lemma Sz_null (A : Set) (p : pexp A) : Sz p -> Sz (e_MayBeNull p). Proof. intros H. unfold e_MayBeNull. sz. Qed.
Lemma Sz_vec A (p : pexp A) : Sz p -> Sz (e_Vec p). Proof. apply Sz_many. Qed.
Global Hint Resolve Sz_paren Sz_bracket Sz_brace Sz_generics Sz_punctuated Sz_triple Sz_null Sz_vec Sz_T Sz_term Sz_nt Sz_option : sz.
Ltac sz ::= unfold PMap; cbn [PAlt]; unfold PMap; repeat (first [sz1 | apply Sz_punctuated | apply Sz_vec | apply Sz_paren | apply Sz_bracket]; cbv beta).
Lemma Sz_e_Identifier : Sz e_Identifier. Proof. unfold e_Identifier; sz. Qed.
Global Hint Resolve Sz_e_Identifier : sz.
Lemma Sz_e_Default : Sz e_Default. Proof. unfold e_Default; sz. Qed.
Global Hint Resolve Sz_e_Default : sz.
Lemma Sz_e_LongLongType : Sz e_LongLongType. Proof. unfold e_LongLongType; sz. Qed.
Global Hint Resolve Sz_e_LongLongType : sz.
Lemma Sz_e_LongType : Sz e_LongType. Proof. unfold e_LongType; sz. Qed.
Global Hint Resolve Sz_e_LongType : sz.
Lemma Sz_e_ShortType : Sz e_ShortType. Proof. unfold e_ShortType; sz. Qed.
Global Hint Resolve Sz_e_ShortType : sz.
Lemma Sz_e_IntegerType : Sz e_IntegerType. Proof. unfold e_IntegerType; sz. Qed.
Global Hint Resolve Sz_e_IntegerType : sz.
Lemma Sz_e_FloatType : Sz e_FloatType. Proof. unfold e_FloatType; sz. Qed.
Global Hint Resolve Sz_e_FloatType : sz.
Lemma Sz_e_DoubleType : Sz e_DoubleType. Proof. unfold e_DoubleType; sz. Qed.
Global Hint Resolve Sz_e_DoubleType : sz.
Lemma Sz_e_FloatingPointType : Sz e_FloatingPointType. Proof. unfold e_FloatingPointType; sz. Qed.
Global Hint Resolve Sz_e_FloatingPointType : sz.
Lemma Sz_e_ConstType : Sz e_ConstType. Proof. unfold e_ConstType; sz. Qed.
Global Hint Resolve Sz_e_ConstType : sz.
Lemma Sz_e_SequenceType : Sz e_SequenceType. Proof. unfold e_SequenceType; sz. Qed.
Global Hint Resolve Sz_e_SequenceType : sz.
Lemma Sz_e_FrozenArrayType : Sz e_FrozenArrayType. Proof. unfold e_FrozenArrayType; sz. Qed.
Global Hint Resolve Sz_e_FrozenArrayType : sz.
Lemma Sz_e_PromiseType : Sz e_PromiseType. Proof. unfold e_PromiseType; sz. Qed.
Global Hint Resolve Sz_e_PromiseType : sz.
Lemma Sz_e_RecordType : Sz e_RecordType. Proof. unfold e_RecordType; sz. Qed.
Global Hint Resolve Sz_e_RecordType : sz.
Lemma Sz_e_UnionType : Sz e_UnionType. Proof. unfold e_UnionType; sz. Qed.
Global Hint Resolve Sz_e_UnionType : sz.
Lemma Sz_e_NonAnyType : Sz e_NonAnyType. Proof. unfold e_NonAnyType; sz. Qed.
Global Hint Resolve Sz_e_NonAnyType : sz.
Lemma Sz_e_SingleType : Sz e_SingleType. Proof. unfold e_SingleType; sz. Qed.
Global Hint Resolve Sz_e_SingleType : sz.
Lemma Sz_e_Type : Sz e_Type. Proof. unfold e_Type; sz. Qed.
Global Hint Resolve Sz_e_Type : sz.
Lemma Sz_e_RecordKeyType : Sz e_RecordKeyType. Proof. unfold e_RecordKeyType; sz. Qed.
Global Hint Resolve Sz_e_RecordKeyType : sz.
Lemma Sz_e_ReturnType : Sz e_ReturnType. Proof. unfold e_ReturnType; sz. Qed.
Global Hint Resolve Sz_e_ReturnType : sz.
Lemma Sz_e_ExtendedAttributeList : Sz e_ExtendedAttributeList. Proof. unfold e_ExtendedAttributeList; sz. Qed.
Global Hint Resolve Sz_e_ExtendedAttributeList : sz.
Lemma Sz_e_attributes : Sz e_attributes. Proof. unfold e_attributes; sz. Qed.
Global Hint Resolve Sz_e_attributes : sz.
Lemma Sz_e_AttributedType : Sz e_AttributedType. Proof. unfold e_AttributedType; sz. Qed.
Global Hint Resolve Sz_e_AttributedType : sz.
Lemma Sz_e_AttributedNonAnyType : Sz e_AttributedNonAnyType. Proof. unfold e_AttributedNonAnyType; sz. Qed.
Global Hint Resolve Sz_e_AttributedNonAnyType : sz.
Lemma Sz_e_UnionMemberType : Sz e_UnionMemberType. Proof. unfold e_UnionMemberType; sz. Qed.
Global Hint Resolve Sz_e_UnionMemberType : sz.
Lemma Sz_e_SingleArgument : Sz e_SingleArgument. Proof. unfold e_SingleArgument; sz. Qed.
Global Hint Resolve Sz_e_SingleArgument : sz.
Lemma Sz_e_VariadicArgument : Sz e_VariadicArgument. Proof. unfold e_VariadicArgument; sz. Qed.
Global Hint Resolve Sz_e_VariadicArgument : sz.
Lemma Sz_e_Argument : Sz e_Argument. Proof. unfold e_Argument; sz. Qed.
Global Hint Resolve Sz_e_Argument : sz.
Lemma Sz_e_ArgumentList : Sz e_ArgumentList. Proof. unfold e_ArgumentList; sz. Qed.
Global Hint Resolve Sz_e_ArgumentList : sz.
Lemma Sz_e_ExtendedAttributeArgList : Sz e_ExtendedAttributeArgList. Proof. unfold e_ExtendedAttributeArgList; sz. Qed.
Global Hint Resolve Sz_e_ExtendedAttributeArgList : sz.
Lemma Sz_e_ExtendedAttributeNamedArgList : Sz e_ExtendedAttributeNamedArgList. Proof. unfold e_ExtendedAttributeNamedArgList; sz. Qed.
Global Hint Resolve Sz_e_ExtendedAttributeNamedArgList : sz.
Lemma Sz_e_IdentifierList : Sz e_IdentifierList. Proof. unfold e_IdentifierList; sz. Qed.
Global Hint Resolve Sz_e_IdentifierList : sz.
Lemma Sz_e_ExtendedAttributeIdentList : Sz e_ExtendedAttributeIdentList. Proof. unfold e_ExtendedAttributeIdentList; sz. Qed.
Global Hint Resolve Sz_e_ExtendedAttributeIdentList : sz.
Lemma Sz_e_IdentifierOrString : Sz e_IdentifierOrString. Proof. unfold e_IdentifierOrString; sz. Qed.
Global Hint Resolve Sz_e_IdentifierOrString : sz.
Lemma Sz_e_ExtendedAttributeIdent : Sz e_ExtendedAttributeIdent. Proof. unfold e_ExtendedAttributeIdent; sz. Qed.
Global Hint Resolve Sz_e_ExtendedAttributeIdent : sz.
Lemma Sz_e_ExtendedAttributeWildCard : Sz e_ExtendedAttributeWildCard. Proof. unfold e_ExtendedAttributeWildCard; sz. Qed.
Global Hint Resolve Sz_e_ExtendedAttributeWildCard : sz.
Lemma Sz_e_ExtendedAttributeNoArgs : Sz e_ExtendedAttributeNoArgs. Proof. unfold e_ExtendedAttributeNoArgs; sz. Qed.
Global Hint Resolve Sz_e_ExtendedAttributeNoArgs : sz.
Lemma Sz_e_ExtendedAttribute : Sz e_ExtendedAttribute. Proof. unfold e_ExtendedAttribute; sz. Qed.
Global Hint Resolve Sz_e_ExtendedAttribute : sz.
Lemma Sz_e_Inheritance : Sz e_Inheritance. Proof. unfold e_Inheritance; sz. Qed.
Global Hint Resolve Sz_e_Inheritance : sz.
Lemma Sz_e_ConstMember : Sz e_ConstMember. Proof. unfold e_ConstMember; sz. Qed.
Global Hint Resolve Sz_e_ConstMember : sz.
Lemma Sz_e_StringifierOrInheritOrStatic : Sz e_StringifierOrInheritOrStatic. Proof. unfold e_StringifierOrInheritOrStatic; sz. Qed.
Global Hint Resolve Sz_e_StringifierOrInheritOrStatic : sz.
Lemma Sz_e_StringifierOrStatic : Sz e_StringifierOrStatic. Proof. unfold e_StringifierOrStatic; sz. Qed.
Global Hint Resolve Sz_e_StringifierOrStatic : sz.
Lemma Sz_e_Special : Sz e_Special. Proof. unfold e_Special; sz. Qed.
Global Hint Resolve Sz_e_Special : sz.
Lemma Sz_e_AttributeInterfaceMember : Sz e_AttributeInterfaceMember. Proof. unfold e_AttributeInterfaceMember; sz. Qed.
Global Hint Resolve Sz_e_AttributeInterfaceMember : sz.
Lemma Sz_e_ConstructorInterfaceMember : Sz e_ConstructorInterfaceMember. Proof. unfold e_ConstructorInterfaceMember; sz. Qed.
Global Hint Resolve Sz_e_ConstructorInterfaceMember : sz.
Lemma Sz_e_OperationInterfaceMember : Sz e_OperationInterfaceMember. Proof. unfold e_OperationInterfaceMember; sz. Qed.
Global Hint Resolve Sz_e_OperationInterfaceMember : sz.
Lemma Sz_e_SingleTypedIterable : Sz e_SingleTypedIterable. Proof. unfold e_SingleTypedIterable; sz. Qed.
Global Hint Resolve Sz_e_SingleTypedIterable : sz.
Lemma Sz_e_DoubleTypedIterable : Sz e_DoubleTypedIterable. Proof. unfold e_DoubleTypedIterable; sz. Qed.
Global Hint Resolve Sz_e_DoubleTypedIterable : sz.
Lemma Sz_e_IterableInterfaceMember : Sz e_IterableInterfaceMember. Proof. unfold e_IterableInterfaceMember; sz. Qed.
Global Hint Resolve Sz_e_IterableInterfaceMember : sz.
Lemma Sz_e_SingleTypedAsyncIterable : Sz e_SingleTypedAsyncIterable. Proof. unfold e_SingleTypedAsyncIterable; sz. Qed.
Global Hint Resolve Sz_e_SingleTypedAsyncIterable : sz.
Lemma Sz_e_DoubleTypedAsyncIterable : Sz e_DoubleTypedAsyncIterable. Proof. unfold e_DoubleTypedAsyncIterable; sz. Qed.
Global Hint Resolve Sz_e_DoubleTypedAsyncIterable : sz.
Lemma Sz_e_AsyncIterableInterfaceMember : Sz e_AsyncIterableInterfaceMember. Proof. unfold e_AsyncIterableInterfaceMember; sz. Qed.
Global Hint Resolve Sz_e_AsyncIterableInterfaceMember : sz.
Lemma Sz_e_MaplikeInterfaceMember : Sz e_MaplikeInterfaceMember. Proof. unfold e_MaplikeInterfaceMember; sz. Qed.
Global Hint Resolve Sz_e_MaplikeInterfaceMember : sz.
Lemma Sz_e_SetlikeInterfaceMember : Sz e_SetlikeInterfaceMember. Proof. unfold e_SetlikeInterfaceMember; sz. Qed.
Global Hint Resolve Sz_e_SetlikeInterfaceMember : sz.
Lemma Sz_e_StringifierMember : Sz e_StringifierMember. Proof. unfold e_StringifierMember; sz. Qed.
Global Hint Resolve Sz_e_StringifierMember : sz.
Lemma Sz_e_InterfaceMember : Sz e_InterfaceMember. Proof. unfold e_InterfaceMember; sz. Qed.
Global Hint Resolve Sz_e_InterfaceMember : sz.
Lemma Sz_e_InterfaceMembers : Sz e_InterfaceMembers. Proof. unfold e_InterfaceMembers; sz. Qed.
Global Hint Resolve Sz_e_InterfaceMembers : sz.
Lemma Sz_e_OperationMixinMember : Sz e_OperationMixinMember. Proof. unfold e_OperationMixinMember; sz. Qed.
Global Hint Resolve Sz_e_OperationMixinMember : sz.
Lemma Sz_e_AttributeMixinMember : Sz e_AttributeMixinMember. Proof. unfold e_AttributeMixinMember; sz. Qed.
Global Hint Resolve Sz_e_AttributeMixinMember : sz.
Lemma Sz_e_MixinMember : Sz e_MixinMember. Proof. unfold e_MixinMember; sz. Qed.
Global Hint Resolve Sz_e_MixinMember : sz.
Lemma Sz_e_MixinMembers : Sz e_MixinMembers. Proof. unfold e_MixinMembers; sz. Qed.
Global Hint Resolve Sz_e_MixinMembers : sz.
Lemma Sz_e_ConstNamespaceMember : Sz e_ConstNamespaceMember. Proof. unfold e_ConstNamespaceMember; sz. Qed.
Global Hint Resolve Sz_e_ConstNamespaceMember : sz.
Lemma Sz_e_OperationNamespaceMember : Sz e_OperationNamespaceMember. Proof. unfold e_OperationNamespaceMember; sz. Qed.
Global Hint Resolve Sz_e_OperationNamespaceMember : sz.
Lemma Sz_e_AttributeNamespaceMember : Sz e_AttributeNamespaceMember. Proof. unfold e_AttributeNamespaceMember; sz. Qed.
Global Hint Resolve Sz_e_AttributeNamespaceMember : sz.
Lemma Sz_e_NamespaceMember : Sz e_NamespaceMember. Proof. unfold e_NamespaceMember; sz. Qed.
Global Hint Resolve Sz_e_NamespaceMember : sz.
Lemma Sz_e_NamespaceMembers : Sz e_NamespaceMembers. Proof. unfold e_NamespaceMembers; sz. Qed.
Global Hint Resolve Sz_e_NamespaceMembers : sz.
Lemma Sz_e_DictionaryMember : Sz e_DictionaryMember. Proof. unfold e_DictionaryMember; sz. Qed.
Global Hint Resolve Sz_e_DictionaryMember : sz.
Lemma Sz_e_DictionaryMembers : Sz e_DictionaryMembers. Proof. unfold e_DictionaryMembers; sz. Qed.
Global Hint Resolve Sz_e_DictionaryMembers : sz.
Lemma Sz_e_CallbackDefinition : Sz e_CallbackDefinition. Proof. unfold e_CallbackDefinition; sz. Qed.
Global Hint Resolve Sz_e_CallbackDefinition : sz.
Lemma Sz_e_CallbackInterfaceDefinition : Sz e_CallbackInterfaceDefinition. Proof. unfold e_CallbackInterfaceDefinition; sz. Qed.
Global Hint Resolve Sz_e_CallbackInterfaceDefinition : sz.
Lemma Sz_e_InterfaceDefinition : Sz e_InterfaceDefinition. Proof. unfold e_InterfaceDefinition; sz. Qed.
Global Hint Resolve Sz_e_InterfaceDefinition : sz.
Lemma Sz_e_InterfaceMixinDefinition : Sz e_InterfaceMixinDefinition. Proof. unfold e_InterfaceMixinDefinition; sz. Qed.
Global Hint Resolve Sz_e_InterfaceMixinDefinition : sz.
Lemma Sz_e_NamespaceDefinition : Sz e_NamespaceDefinition. Proof. unfold e_NamespaceDefinition; sz. Qed.
Global Hint Resolve Sz_e_NamespaceDefinition : sz.
Lemma Sz_e_DictionaryDefinition : Sz e_DictionaryDefinition. Proof. unfold e_DictionaryDefinition; sz. Qed.
Global Hint Resolve Sz_e_DictionaryDefinition : sz.
Lemma Sz_e_PartialInterfaceDefinition : Sz e_PartialInterfaceDefinition. Proof. unfold e_PartialInterfaceDefinition; sz. Qed.
Global Hint Resolve Sz_e_PartialInterfaceDefinition : sz.
Lemma Sz_e_PartialInterfaceMixinDefinition : Sz e_PartialInterfaceMixinDefinition. Proof. unfold e_PartialInterfaceMixinDefinition; sz. Qed.
Global Hint Resolve Sz_e_PartialInterfaceMixinDefinition : sz.
Lemma Sz_e_PartialDictionaryDefinition : Sz e_PartialDictionaryDefinition. Proof. unfold e_PartialDictionaryDefinition; sz. Qed.
Global Hint Resolve Sz_e_PartialDictionaryDefinition : sz.
Lemma Sz_e_PartialNamespaceDefinition : Sz e_PartialNamespaceDefinition. Proof. unfold e_PartialNamespaceDefinition; sz. Qed.
Global Hint Resolve Sz_e_PartialNamespaceDefinition : sz.
Lemma Sz_e_EnumValueList : Sz e_EnumValueList. Proof. unfold e_EnumValueList, e_PunctuatedNonEmpty; sz. Qed.
Global Hint Resolve Sz_e_EnumValueList : sz.
Lemma Sz_e_EnumDefinition : Sz e_EnumDefinition. Proof. unfold e_EnumDefinition; sz. Qed.
Global Hint Resolve Sz_e_EnumDefinition : sz.
Lemma Sz_e_TypedefDefinition : Sz e_TypedefDefinition. Proof. unfold e_TypedefDefinition; sz. Qed.
Global Hint Resolve Sz_e_TypedefDefinition : sz.
Lemma Sz_e_IncludesStatementDefinition : Sz e_IncludesStatementDefinition. Proof. unfold e_IncludesStatementDefinition; sz. Qed.
Global Hint Resolve Sz_e_IncludesStatementDefinition : sz.
Lemma Sz_e_ImplementsDefinition : Sz e_ImplementsDefinition. Proof. unfold e_ImplementsDefinition; sz. Qed.
Global Hint Resolve Sz_e_ImplementsDefinition : sz.
Lemma Sz_e_Definition : Sz e_Definition. Proof. unfold e_Definition; sz. Qed.
Global Hint Resolve Sz_e_Definition : sz.
Lemma Sz_e_Definitions : Sz e_Definitions. Proof. unfold e_Definitions; sz. Qed.
Global Hint Resolve Sz_e_Definitions : sz.

Lemma Impl_Sz b A (p : pexp A) : Impl b A p -> Sz p.
Proof. induction 1; auto with sz; unfold e_pair2, e_triple3, e_PunctuatedBy, e_PunctuatedNonEmptyBy; sz. Qed.
(** A common bound for the recursive parsers. *)
Lemma grammar_Sized : exists c k, forall A (x : nt A), Sized (grammar x) c k.
Proof.
  destruct Sz_e_Type as (c1 & k1 & H1), Sz_e_ReturnType as (c2 & k2 & H2), Sz_e_RecordKeyType as (c3 & k3 & H3),
    Sz_e_UnionMemberType as (c4 & k4 & H4), Sz_e_ExtendedAttribute as (c5 & k5 & H5).
  exists (c1 + c2 + c3 + c4 + c5), (k1 + k2 + k3 + k4 + k5). intros A x. destruct x; cbn [grammar]; eapply Sized_mono; eauto; lia.
Qed.

Lemma trun_progress n A (p : pexp A) i r a : trun n A p i = Ok r a -> text_eqb r i = false -> length r < length i.
Proof. apply (run_progress text_eqb text_sem (@length _) Suf Suf_refl Suf_trans Suf_len text_sem_Good). Qed.

(** ** Exponential in the length *)
Section Exponential.
  Variables cg kg : nat.
  Hypothesis HG : forall A (x : nt A), Sized (grammar x) cg kg.
  Let B := 2 + cg * 2 ^ kg.
  Let G m := B ^ m.
  Notation tm := (meter text_eqb text_sem Nat.add 1).

  Lemma G_pos m : 1 <= G m.
  Proof. unfold G. assert (B ^ m <> 0) by (apply Nat.pow_nonzero; unfold B; lia). lia. Qed.
  Lemma G_le m m' : m <= m' -> G m <= G m'.
  Proof. intros H. unfold G. apply Nat.pow_le_mono_r; auto. unfold B. lia. Qed.
  Lemma G_S m : G (S m) = 2 * G m + cg * 2 ^ kg * G m.
  Proof. unfold G. cbn [Nat.pow]. fold (B ^ m). unfold B at 1. lia. Qed.
  Lemma G_2 m m' : m < m' -> 2 * G m <= G m'.
  Proof. intros H. apply G_le in H. rewrite G_S in H. lia. Qed.
  Lemma exp_many A (p : parser text A) (c : text -> nat) w a n : (forall i, c i <= w * G (length i + a)) ->
    (forall i r v, p i = Ok r v -> text_eqb r i = false -> length r < length i) ->
    forall i, m_many0_loop text_eqb Nat.add n p c i <= 2 * (w * G (length i + a)).
  Proof.
    intros Hc Hp. induction n as [|n IH]; intros i; cbn [m_many0_loop]; [lia|]. pose proof (Hc i).
    destruct (p i) as [r v|e|] eqn:E; try lia. destruct (text_eqb r i) eqn:Es; [lia|]. apply Hp in E; auto.
    specialize (IH r). assert (2 * G (length r + a) <= G (length i + a)) by (apply G_2; lia).
    assert (w * (2 * G (length r + a)) <= w * G (length i + a)) by (apply Nat.mul_le_mono_l; auto). lia.
  Qed.
  Lemma exp_sep A S (p : parser text A) (s : parser text S) (c cs : text -> nat) w1 w2 a n :
    (forall i, c i <= w2 * G (length i + a)) -> (forall i, cs i <= w1 * G (length i + a)) ->
    (forall i r v, p i = Ok r v -> length r <= length i) ->
    (forall i r v, s i = Ok r v -> text_eqb r i = false -> length r < length i) ->
    forall i, m_sep_loop text_eqb Nat.add n s p cs c i <= 2 * ((w1 + w2) * G (length i + a)).
  Proof.
    intros Hc Hcs Hp Hs. induction n as [|n IH]; intros i; cbn [m_sep_loop]; [lia|]. pose proof (Hcs i).
    destruct (s i) as [r v|e|] eqn:E; try lia. destruct (text_eqb r i) eqn:Es; [lia|]. apply Hs in E; auto.
    pose proof (Hc r). assert (w2 * G (length r + a) <= w2 * G (length i + a)) by (apply Nat.mul_le_mono_l, G_le; lia).
    destruct (p r) as [r2 v2|e|] eqn:E2; try lia. apply Hp in E2. destruct (text_eqb r2 i); [lia|]. specialize (IH r2).
    assert (2 * G (length r2 + a) <= G (length i + a)) by (apply G_2; lia).
    assert ((w1 + w2) * (2 * G (length r2 + a)) <= (w1 + w2) * G (length i + a)) by (apply Nat.mul_le_mono_l; auto). lia.
  Qed.
  Lemma exp_separated A S (p : parser text A) (s : parser text S) (c cs : text -> nat) w1 w2 a n :
    (forall i, c i <= w2 * G (length i + a)) -> (forall i, cs i <= w1 * G (length i + a)) ->
    (forall i r v, p i = Ok r v -> length r <= length i) ->
    (forall i r v, p i = Ok r v -> text_eqb r i = false -> length r < length i) ->
    (forall i r v, s i = Ok r v -> text_eqb r i = false -> length r < length i) ->
    forall i, m_separated text_eqb Nat.add n s p cs c i <= (w1 + 2 * w2) * G (length i + a).
  Proof.
    intros Hc Hcs Hp Hp' Hs i. unfold m_separated. pose proof (Hc i). destruct (p i) as [r v|e|] eqn:E; try lia.
    destruct (text_eqb r i) eqn:Es; [lia|]. apply Hp' in E; auto.
    pose proof (exp_sep A S p s c cs w1 w2 a n Hc Hcs Hp Hs r).
    assert (2 * G (length r + a) <= G (length i + a)) by (apply G_2; lia).
    assert ((w1 + w2) * (2 * G (length r + a)) <= (w1 + w2) * G (length i + a)) by (apply Nat.mul_le_mono_l; auto). lia.
  Qed.

  Theorem exp_bound n : forall A (p : pexp A) al b c k, Shape al p b -> Sized p c k ->
    forall i, tm n A p i <= c * 2 ^ k * G (length i + if al then 1 else 0).
  Proof.
    induction n as [n IHn] using lt_wf_ind.
    induction p as [A t|A a|A B' p IHp f IHf|A p IHp q IHq|A|A p IHp|A p IHp|S A s IHs p IHp|S A s IHs p IHp|A x];
      cbn [Shape Sized]; intros al b c k HS HZ i; meters; try lia.
    - pose proof (G_pos (length i + if al then 1 else 0)). assert (2 ^ k <> 0) by (apply Nat.pow_nonzero; lia). nia.
    - destruct HS as (b1 & b2 & H1 & H2 & _), HZ as (c1 & c2 & Z1 & Z2 & Hc). pose proof (IHp _ _ _ _ H1 Z1 i) as Hp.
      set (g := G (length i + (if al then 1 else 0))) in *.
      assert (HH : match trun n A p i with Ok r a => tm n B' (f a) r | _ => 0 end <= c2 * 2 ^ k * g).
      { destruct (trun n A p i) as [r a|e|] eqn:E; try lia. pose proof (IHf a _ _ _ _ (H2 a) (Z2 a) r) as Hf.
        eapply Nat.le_trans; [exact Hf|]. apply Nat.mul_le_mono_l. apply G_le.
        pose proof (trun_Le _ _ _ _ _ H1 _ _ _ E). destruct al, b1; cbn in *; lia. }
      assert ((c1 + c2) * (2 ^ k * g) <= c * (2 ^ k * g)) by (apply Nat.mul_le_mono_r; auto). lia.
    - destruct HS as [H1 H2], HZ as (c1 & c2 & Z1 & Z2 & Hc). pose proof (IHp _ _ _ _ H1 Z1 i) as Hp.
      pose proof (IHq _ _ _ _ H2 Z2 i) as Hq. set (g := G (length i + (if al then 1 else 0))) in *.
      assert ((c1 + c2) * (2 ^ k * g) <= c * (2 ^ k * g)) by (apply Nat.mul_le_mono_r; auto).
      destruct (trun n A p i) as [r a|[]|]; lia.
    - destruct HS as ((c' & H1) & _). eapply IHp; eauto.
    - destruct HS as (H1 & _), HZ as (k' & Z1 & Hk).
      pose proof (exp_many A (trun n A p) (tm n A p) (c * 2 ^ k') (if al then 1 else 0) n
        (fun j => IHp _ _ _ _ H1 Z1 j) (fun j r v => trun_progress n A p j r v) i) as H.
      assert (2 ^ S k' <= 2 ^ k) by (apply Nat.pow_le_mono_r; lia). cbn [Nat.pow] in H0.
      set (g := G (length i + (if al then 1 else 0))) in *.
      assert (c * (2 * 2 ^ k') * g <= c * 2 ^ k * g) by (apply Nat.mul_le_mono_r, Nat.mul_le_mono_l; lia). lia.
    - destruct HS as (H1 & H2 & _), HZ as (c1 & c2 & k' & Z1 & Z2 & Hc & Hk).
      pose proof (exp_separated A S (trun n A p) (trun n S s) (tm n A p) (tm n S s) (c1 * 2 ^ k') (c2 * 2 ^ k') (if al then 1 else 0) n
        (fun j => IHp _ _ _ _ H2 Z2 j) (fun j => IHs _ _ _ _ H1 Z1 j)
        (fun j r v E => Nat.le_trans _ _ _ (Nat.le_add_r _ _) (trun_Le _ _ _ _ _ H2 _ _ _ E))
        (fun j r v => trun_progress n A p j r v) (fun j r v => trun_progress n S s j r v) i) as H.
      assert (H0 : 2 ^ k' <= 2 ^ k) by (apply Nat.pow_le_mono_r; lia).
      set (g := G (length i + (if al then 1 else 0))) in *.
      assert ((c1 + 2 * c2) * 2 ^ k' <= c * 2 ^ k) by (apply Nat.mul_le_mono; auto).
      assert (((c1 + 2 * c2) * 2 ^ k') * g <= c * 2 ^ k * g) by (apply Nat.mul_le_mono_r; auto). lia.
    - destruct HS as (H1 & H2), HZ as (c1 & c2 & k' & Z1 & Z2 & Hc & Hk).
      pose proof (exp_separated A S (trun n A p) (trun n S s) (tm n A p) (tm n S s) (c1 * 2 ^ k') (c2 * 2 ^ k') (if al then 1 else 0) n
        (fun j => IHp _ _ _ _ H2 Z2 j) (fun j => IHs _ _ _ _ H1 Z1 j)
        (fun j r v E => Nat.le_trans _ _ _ (Nat.le_add_r _ _) (trun_Le _ _ _ _ _ H2 _ _ _ E))
        (fun j r v => trun_progress n A p j r v) (fun j r v => trun_progress n S s j r v) i) as H.
      assert (H0 : 2 ^ k' <= 2 ^ k) by (apply Nat.pow_le_mono_r; lia).
      set (g := G (length i + (if al then 1 else 0))) in *.
      assert ((c1 + 2 * c2) * 2 ^ k' <= c * 2 ^ k) by (apply Nat.mul_le_mono; auto).
      assert (((c1 + 2 * c2) * 2 ^ k') * g <= c * 2 ^ k * g) by (apply Nat.mul_le_mono_r; auto). lia.
    - subst al. destruct n as [|n]; [rewrite meter_nt_O; lia|]. rewrite meter_nt_S.
      pose proof (IHn n (Nat.lt_succ_diag_r n) _ (grammar x) _ _ _ _ (grammar_Shape _ x) (HG _ x) i) as H. cbn in H.
      rewrite Nat.add_0_r in H. rewrite Nat.add_1_r. rewrite G_S. pose proof (G_pos (length i)).
      assert (2 ^ k <> 0) by (apply Nat.pow_nonzero; lia). assert (1 <= c * 2 ^ k) by nia.
      assert (1 * (2 * G (length i) + cg * 2 ^ kg * G (length i)) <= c * 2 ^ k * (2 * G (length i) + cg * 2 ^ kg * G (length i)))
        by (apply Nat.mul_le_mono_r; auto). lia.
  Qed.
End Exponential.
Theorem steps_as_exp b A (p : pexp A) : Impl b A p -> exists C, forall i, steps_as p i <= C ^ S (length i).
Proof.
  intros HI. destruct grammar_Sized as (cg & kg & HG), (Impl_Sz _ _ _ HI) as (c & k & HZ).
  exists (c * 2 ^ k + (2 + cg * 2 ^ kg)). intros i.
  pose proof (exp_bound cg kg HG (S (length i)) A p false b c k (Impl_Shape _ _ _ HI) HZ i) as H. cbn [Nat.pow]. unfold steps_as.
  rewrite Nat.add_0_r in H. eapply Nat.le_trans; [exact H|]. apply Nat.mul_le_mono; [lia|]. apply Nat.pow_le_mono_l. lia.
Qed.

(** ** Polynomial, if recursive calls are not nested deeply *)
Section Polynomial.
  Variables cg kg N : nat.
  Hypothesis HG : forall A (x : nt A), Sized (grammar x) cg kg.
  Hypothesis HN : 1 <= N.
  Let B := 1 + cg * N ^ kg.
  Notation tm := (meter text_eqb text_sem Nat.add 1).
  Notation td := (meter text_eqb text_sem Nat.max 0).

  Lemma poly_many A (p : parser text A) (c cd : text -> nat) X d n : (forall i, cd i <= d -> c i <= X) ->
    forall i, m_many0_loop text_eqb Nat.max n p cd i <= d -> m_many0_loop text_eqb Nat.add n p c i <= n * X.
  Proof.
    intros Hc. induction n as [|n IH]; intros i; cbn [m_many0_loop]; [lia|]. intros Hd. pose proof (Hc i). specialize (IH) .
    destruct (p i) as [r v|e|] eqn:E; try lia. destruct (text_eqb r i); [lia|]. specialize (IH r). lia.
  Qed.
  Lemma poly_sep A S (p : parser text A) (s : parser text S) (c cs cd csd : text -> nat) X Y d n : (forall i, cd i <= d -> c i <= X) ->
    (forall i, csd i <= d -> cs i <= Y) -> forall i, m_sep_loop text_eqb Nat.max n s p csd cd i <= d ->
    m_sep_loop text_eqb Nat.add n s p cs c i <= n * (X + Y).
  Proof.
    intros Hc Hcs. induction n as [|n IH]; intros i; cbn [m_sep_loop]; [lia|]. intros Hd. pose proof (Hcs i).
    destruct (s i) as [r v|e|] eqn:E; try lia. destruct (text_eqb r i); [lia|]. pose proof (Hc r).
    destruct (p r) as [r2 v2|e|] eqn:E2; try lia. destruct (text_eqb r2 i); [lia|]. specialize (IH r2). lia.
  Qed.
  Lemma poly_separated A S (p : parser text A) (s : parser text S) (c cs cd csd : text -> nat) X Y d n : (forall i, cd i <= d -> c i <= X) ->
    (forall i, csd i <= d -> cs i <= Y) -> forall i, m_separated text_eqb Nat.max n s p csd cd i <= d ->
    m_separated text_eqb Nat.add n s p cs c i <= X + n * (X + Y).
  Proof.
    intros Hc Hcs i. unfold m_separated. intros Hd. pose proof (Hc i). destruct (p i) as [r v|e|] eqn:E; try lia.
    destruct (text_eqb r i); [lia|]. pose proof (poly_sep A S p s c cs cd csd X Y d n Hc Hcs r). lia.
  Qed.
  Lemma pow_step a k k' : k' < k -> N * (a * N ^ k') <= a * N ^ k.
  Proof.
    intros H. assert (N ^ S k' <= N ^ k) by (apply Nat.pow_le_mono_r; lia). cbn [Nat.pow] in H0.
    assert (a * (N * N ^ k') <= a * N ^ k) by (apply Nat.mul_le_mono_l; auto). lia.
  Qed.

  Theorem poly_bound n : n <= N -> forall A (p : pexp A) c k, Sized p c k ->
    forall i d, td n A p i <= d -> tm n A p i <= c * N ^ k * B ^ d.
  Proof.
    assert (HB : forall d, 1 <= B ^ d) by (intros d; assert (B ^ d <> 0) by (apply Nat.pow_nonzero; unfold B; lia); lia).
    assert (HNk : forall k, 1 <= N ^ k) by (intros k; assert (N ^ k <> 0) by (apply Nat.pow_nonzero; lia); lia).
    induction n as [n IHn] using lt_wf_ind. intros Hn.
    induction p as [A t|A a|A B' p IHp f IHf|A p IHp q IHq|A|A p IHp|A p IHp|S A s IHs p IHp|S A s IHs p IHp|A x];
      cbn [Sized]; intros c k HZ i d; meters; intros Hd; try lia.
    - assert (1 * 1 * 1 <= c * N ^ k * B ^ d) by (repeat apply Nat.mul_le_mono; auto). lia.
    - destruct HZ as (c1 & c2 & Z1 & Z2 & Hc). assert (Hd1 : td n A p i <= d) by lia. pose proof (IHp _ _ Z1 i d Hd1) as Hp.
      assert ((c1 + c2) * (N ^ k * B ^ d) <= c * (N ^ k * B ^ d)) by (apply Nat.mul_le_mono_r; auto).
      destruct (trun n A p i) as [r a|e|]; try lia. assert (Hd2 : td n B' (f a) r <= d) by lia.
      pose proof (IHf a _ _ (Z2 a) r d Hd2). lia.
    - destruct HZ as (c1 & c2 & Z1 & Z2 & Hc). assert (Hd1 : td n A p i <= d) by lia. pose proof (IHp _ _ Z1 i d Hd1) as Hp.
      assert ((c1 + c2) * (N ^ k * B ^ d) <= c * (N ^ k * B ^ d)) by (apply Nat.mul_le_mono_r; auto).
      destruct (trun n A p i) as [r a|[]|]; try lia. assert (Hd2 : td n A q i <= d) by lia.
      pose proof (IHq _ _ Z2 i d Hd2). lia.
    - eapply IHp; eauto.
    - destruct HZ as (k' & Z1 & Hk).
      pose proof (poly_many A (trun n A p) (tm n A p) (td n A p) (c * N ^ k' * B ^ d) d n (fun j => IHp _ _ Z1 j d) i Hd) as H.
      pose proof (pow_step c k k' Hk) as Hs.
      assert (n * (c * N ^ k' * B ^ d) <= N * (c * N ^ k' * B ^ d)) by (apply Nat.mul_le_mono_r; auto).
      assert (N * (c * N ^ k') * B ^ d <= c * N ^ k * B ^ d) by (apply Nat.mul_le_mono_r; auto). lia.
    - destruct HZ as (c1 & c2 & k' & Z1 & Z2 & Hc & Hk).
      pose proof (poly_separated A S (trun n A p) (trun n S s) (tm n A p) (tm n S s) (td n A p) (td n S s) (c2 * N ^ k' * B ^ d)
        (c1 * N ^ k' * B ^ d) d n (fun j => IHp _ _ Z2 j d) (fun j => IHs _ _ Z1 j d) i Hd) as H.
      pose proof (pow_step (c1 + 2 * c2) k k' Hk) as Hs.
      set (x := N ^ k' * B ^ d) in *.
      assert (n * ((c1 + c2) * x) <= N * ((c1 + c2) * x)) by (apply Nat.mul_le_mono_r; auto).
      assert (1 * (c2 * x) <= N * (c2 * x)) by (apply Nat.mul_le_mono_r; auto).
      assert (N * ((c1 + 2 * c2) * N ^ k') * B ^ d <= (c1 + 2 * c2) * N ^ k * B ^ d) by (apply Nat.mul_le_mono_r; auto).
      assert ((c1 + 2 * c2) * (N ^ k * B ^ d) <= c * (N ^ k * B ^ d)) by (apply Nat.mul_le_mono_r; auto). lia.
    - destruct HZ as (c1 & c2 & k' & Z1 & Z2 & Hc & Hk).
      pose proof (poly_separated A S (trun n A p) (trun n S s) (tm n A p) (tm n S s) (td n A p) (td n S s) (c2 * N ^ k' * B ^ d)
        (c1 * N ^ k' * B ^ d) d n (fun j => IHp _ _ Z2 j d) (fun j => IHs _ _ Z1 j d) i Hd) as H.
      pose proof (pow_step (c1 + 2 * c2) k k' Hk) as Hs.
      set (x := N ^ k' * B ^ d) in *.
      assert (n * ((c1 + c2) * x) <= N * ((c1 + c2) * x)) by (apply Nat.mul_le_mono_r; auto).
      assert (1 * (c2 * x) <= N * (c2 * x)) by (apply Nat.mul_le_mono_r; auto).
      assert (N * ((c1 + 2 * c2) * N ^ k') * B ^ d <= (c1 + 2 * c2) * N ^ k * B ^ d) by (apply Nat.mul_le_mono_r; auto).
      assert ((c1 + 2 * c2) * (N ^ k * B ^ d) <= c * (N ^ k * B ^ d)) by (apply Nat.mul_le_mono_r; auto). lia.
    - destruct n as [|n]; [rewrite meter_nt_O; lia|]. rewrite meter_nt_S in *. destruct d as [|d]; [lia|].
      assert (Hn' : n <= N) by lia.
      pose proof (IHn n (Nat.lt_succ_diag_r n) Hn' _ (grammar x) _ _ (HG _ x) i d (le_S_n _ _ Hd)) as H. cbn [Nat.pow].
      specialize (HB d). assert (1 * 1 <= c * N ^ k) by (apply Nat.mul_le_mono; auto).
      assert (1 * (B * B ^ d) <= c * N ^ k * (B * B ^ d)) by (apply Nat.mul_le_mono_r; lia).
      assert (B * B ^ d = B ^ d + cg * N ^ kg * B ^ d) by (unfold B at 1; lia). lia.
  Qed.
End Polynomial.
Theorem steps_as_poly b A (p : pexp A) : Impl b A p ->
  exists c k, forall i, steps_as p i <= (c * S (length i) ^ k) ^ S (depth_as p i).
Proof.
  intros HI. destruct grammar_Sized as (cg & kg & HG), (Impl_Sz _ _ _ HI) as (c & k & HZ).
  exists (1 + c + cg), (k + kg). intros i. set (N := S (length i)).
  pose proof (poly_bound cg kg N HG (le_n_S _ _ (Nat.le_0_l _)) N (le_n _) A p c k HZ i (depth_as p i) (le_n _)) as H.
  unfold steps_as. eapply Nat.le_trans; [exact H|].
  assert (HNk : forall k, 1 <= N ^ k) by (intros k0; assert (N ^ k0 <> 0) by (apply Nat.pow_nonzero; unfold N; lia); lia).
  cbn [Nat.pow]. rewrite Nat.pow_add_r. pose proof (HNk k). pose proof (HNk kg). apply Nat.mul_le_mono.
  - apply Nat.mul_le_mono; [lia|]. nia.
  - apply Nat.pow_le_mono_l. assert (cg * N ^ kg <= cg * (N ^ k * N ^ kg)) by (apply Nat.mul_le_mono_l; nia).
    assert (1 * 1 <= (1 + c) * (N ^ k * N ^ kg)) by (apply Nat.mul_le_mono; nia). lia.
Qed.

(** ** Recursive calls are nested no deeper than brackets

    [height ts]: the largest number of brackets [( [ <] that are open at the same time in [ts]. *)
Fixpoint height (ts : list tok) : nat :=
  match ts with
  | [] => 0
  | TPunct p :: r =>
      if existsb (String.eqb p) ["("; "["; "<"]%string then S (height r)
      else if existsb (String.eqb p) [")"; "]"; ">"]%string then pred (height r)
      else height r
  | _ :: r => height r
  end.

(** [Nest d p d']: if [d] brackets are open before [p], [d'] are open after it; recursive calls are inside brackets. *)
Definition level (t : term) (d d' : nat) : Prop :=
  match t with
  | OpenParen | OpenBracket | LessThan => d' = S d
  | CloseParen | CloseBracket | GreaterThan => S d' = d
  | _ => d' = d
  end.
Fixpoint Nest (d : nat) {A} (p : pexp A) (d' : nat) {struct p} : Prop :=
  match p with
  | PTerm t => match t with TmTerm t => level t d d' | _ => d' = d end
  | PRet _ => d' = d
  | PBind q f => exists d1, Nest d q d1 /\ (forall a, Nest d1 (f a) d')
  | POr q r => Nest d q d' /\ Nest d r d'
  | PEnd => True
  | POpt q | PMany0 q => Nest d q d /\ d' = d
  | PSepList s q | PSepNonEmpty s q => Nest d s d /\ Nest d q d /\ d' = d
  | PNT _ => 1 <= d /\ d' = d
  end.
Lemma Nest_bind d d1 d' A B (p : pexp A) (f : A -> pexp B) : Nest d p d1 -> (forall a, Nest d1 (f a) d') -> Nest d (PBind p f) d'.
Proof. intros. exists d1. auto. Qed.
Lemma Nest_same d A B (p : pexp A) (f : A -> pexp B) : Nest d p d -> (forall a, Nest d (f a) d) -> Nest d (PBind p f) d.
Proof. apply Nest_bind. Qed.
Lemma Nest_wrap d A (p : pexp A) o c : level o d (S d) -> level c (S d) d -> Nest (S d) p (S d) ->
  Nest d (T_ o ;;; b <- p ;; T_ c ;;; PRet b) d.
Proof.
  intros Ho Hc H. apply (Nest_bind _ (S d)); [exact Ho|]. intros _. apply (Nest_bind _ (S d)); auto. intros b.
  apply (Nest_bind _ d); [exact Hc|]. intros _. reflexivity.
Qed.
Lemma Nest_paren d A (p : pexp A) : Nest (S d) p (S d) -> Nest d (e_Parenthesized p) d. Proof. apply Nest_wrap; reflexivity. Qed.
Lemma Nest_bracket d A (p : pexp A) : Nest (S d) p (S d) -> Nest d (e_Bracketed p) d. Proof. apply Nest_wrap; reflexivity. Qed.
Lemma Nest_generics d A (p : pexp A) : Nest (S d) p (S d) -> Nest d (e_Generics p) d. Proof. apply Nest_wrap; reflexivity. Qed.
Lemma Nest_brace d A (p : pexp A) : Nest d p d -> Nest d (e_Braced p) d.
Proof. intros H. repeat (apply Nest_same; [first [reflexivity|exact H]|intros ?]). reflexivity. Qed.
Lemma Nest_punctuated d A (p : pexp A) t : level t d d -> Nest d p d -> Nest d (e_Punctuated p t) d.
Proof. intros H H'. apply Nest_same; [|reflexivity]. split; [exact H|auto]. Qed.
Lemma Nest_triple d A B (p : pexp A) t (q : pexp B) : level t d d -> Nest d p d -> Nest d q d -> Nest d (e_triple p t q) d.
Proof. intros H H1 H2. repeat (apply Nest_same; [first [exact H1|exact H2|exact H]|intros ?]). reflexivity. Qed.
Lemma Nest_null d (A : Set) (p : pexp A) : Nest d p d -> Nest d (e_MayBeNull p) d.
Proof. intros H. apply Nest_same; auto. intros a. apply Nest_same; [split; reflexivity|]. reflexivity. Qed.
Lemma Nest_cond d A b (p : pexp A) : Nest d p d -> Nest d (PCond b p) d.
Proof. intros H. destruct b; [|reflexivity]. apply Nest_same; auto. reflexivity. Qed.
Lemma Nest_opt d A (p : pexp A) : Nest d p d -> Nest d (POpt p) d. Proof. split; auto. Qed.
Lemma Nest_option d A (p : pexp A) : Nest d p d -> Nest d (e_Option p) d. Proof. split; auto. Qed.
Lemma Nest_vec d A (p : pexp A) : Nest d p d -> Nest d (e_Vec p) d. Proof. split; auto. Qed.
Lemma Nest_or d A (p q : pexp A) : Nest d p d -> Nest d q d -> Nest d (POr p q) d. Proof. split; auto. Qed.
Lemma Nest_nt d A (x : nt A) : 1 <= d -> Nest d (PNT x) d. Proof. split; auto. Qed.
Lemma Nest_sepnonempty d A S (s : pexp S) (p : pexp A) : Nest d s d -> Nest d p d -> Nest d (PSepNonEmpty s p) d. Proof. repeat split; auto. Qed.
Ltac nest1 := match goal with
  | |- forall _, _ => intros ?
  | |- level _ _ _ => reflexivity
  | |- Nest _ (PRet _) _ => reflexivity
  | |- Nest _ (T_ _) _ => reflexivity
  | |- Nest _ (PTerm _) _ => reflexivity
  | |- Nest _ PEnd _ => exact Logic.I
  | |- Nest _ (PNT _) _ => apply Nest_nt; lia
  | |- Nest _ (PCond _ _) _ => apply Nest_cond
  | |- Nest _ (POpt _) _ => apply Nest_opt
  | |- Nest _ (e_Option _) _ => apply Nest_option
  | |- Nest _ (POr _ _) _ => apply Nest_or
  | |- Nest _ (e_Parenthesized _) _ => apply Nest_paren
  | |- Nest _ (e_Bracketed _) _ => apply Nest_bracket
  | |- Nest _ (e_Generics _) _ => apply Nest_generics
  | |- Nest _ (e_Braced _) _ => apply Nest_brace
  | |- Nest _ (e_Punctuated _ _) _ => apply Nest_punctuated
  | |- Nest _ (e_triple _ _ _) _ => apply Nest_triple
  | |- Nest _ (e_MayBeNull _) _ => apply Nest_null
  | |- Nest _ (e_Vec _) _ => apply Nest_vec
  | |- Nest _ (PSepNonEmpty _ _) _ => apply Nest_sepnonempty
  | |- Nest _ (PBind _ _) _ => apply Nest_same
  | |- Nest _ _ _ => solve [auto with nest]
  end.
Ltac nest := unfold PMap; cbn [PAlt]; unfold PMap; repeat nest1.
Lemma Nest_e_Identifier d : Nest d e_Identifier d. Proof. unfold e_Identifier; nest. Qed.
Global Hint Resolve Nest_e_Identifier : nest.
Lemma Nest_e_Default d : Nest d e_Default d. Proof. unfold e_Default; nest. Qed.
Global Hint Resolve Nest_e_Default : nest.
Lemma Nest_e_LongLongType d : Nest d e_LongLongType d. Proof. unfold e_LongLongType; nest. Qed.
Global Hint Resolve Nest_e_LongLongType : nest.
Lemma Nest_e_LongType d : Nest d e_LongType d. Proof. unfold e_LongType; nest. Qed.
Global Hint Resolve Nest_e_LongType : nest.
Lemma Nest_e_ShortType d : Nest d e_ShortType d. Proof. unfold e_ShortType; nest. Qed.
Global Hint Resolve Nest_e_ShortType : nest.
Lemma Nest_e_IntegerType d : Nest d e_IntegerType d. Proof. unfold e_IntegerType; nest. Qed.
Global Hint Resolve Nest_e_IntegerType : nest.
Lemma Nest_e_FloatType d : Nest d e_FloatType d. Proof. unfold e_FloatType; nest. Qed.
Global Hint Resolve Nest_e_FloatType : nest.
Lemma Nest_e_DoubleType d : Nest d e_DoubleType d. Proof. unfold e_DoubleType; nest. Qed.
Global Hint Resolve Nest_e_DoubleType : nest.
Lemma Nest_e_FloatingPointType d : Nest d e_FloatingPointType d. Proof. unfold e_FloatingPointType; nest. Qed.
Global Hint Resolve Nest_e_FloatingPointType : nest.
Lemma Nest_e_ConstType d : Nest d e_ConstType d. Proof. unfold e_ConstType; nest. Qed.
Global Hint Resolve Nest_e_ConstType : nest.
Lemma Nest_e_SequenceType d : Nest d e_SequenceType d. Proof. unfold e_SequenceType; nest. Qed.
Global Hint Resolve Nest_e_SequenceType : nest.
Lemma Nest_e_FrozenArrayType d : Nest d e_FrozenArrayType d. Proof. unfold e_FrozenArrayType; nest. Qed.
Global Hint Resolve Nest_e_FrozenArrayType : nest.
Lemma Nest_e_PromiseType d : Nest d e_PromiseType d. Proof. unfold e_PromiseType; nest. Qed.
Global Hint Resolve Nest_e_PromiseType : nest.
Lemma Nest_e_RecordType d : Nest d e_RecordType d. Proof. unfold e_RecordType; nest. Qed.
Global Hint Resolve Nest_e_RecordType : nest.
Lemma Nest_e_UnionType d : Nest d e_UnionType d. Proof. unfold e_UnionType; nest. Qed.
Global Hint Resolve Nest_e_UnionType : nest.
Lemma Nest_e_NonAnyType d : Nest d e_NonAnyType d. Proof. unfold e_NonAnyType; nest. Qed.
Global Hint Resolve Nest_e_NonAnyType : nest.
Lemma Nest_e_SingleType d : Nest d e_SingleType d. Proof. unfold e_SingleType; nest. Qed.
Global Hint Resolve Nest_e_SingleType : nest.
Lemma Nest_e_Type d : Nest d e_Type d. Proof. unfold e_Type; nest. Qed.
Global Hint Resolve Nest_e_Type : nest.
Lemma Nest_e_RecordKeyType d : Nest d e_RecordKeyType d. Proof. unfold e_RecordKeyType; nest. Qed.
Global Hint Resolve Nest_e_RecordKeyType : nest.
Lemma Nest_e_ReturnType d : Nest d e_ReturnType d. Proof. unfold e_ReturnType; nest. Qed.
Global Hint Resolve Nest_e_ReturnType : nest.
Lemma Nest_e_ExtendedAttributeList d : Nest d e_ExtendedAttributeList d. Proof. unfold e_ExtendedAttributeList; nest. Qed.
Global Hint Resolve Nest_e_ExtendedAttributeList : nest.
Lemma Nest_e_attributes d : Nest d e_attributes d. Proof. unfold e_attributes; nest. Qed.
Global Hint Resolve Nest_e_attributes : nest.
Lemma Nest_e_AttributedType d : Nest d e_AttributedType d. Proof. unfold e_AttributedType; nest. Qed.
Global Hint Resolve Nest_e_AttributedType : nest.
Lemma Nest_e_AttributedNonAnyType d : Nest d e_AttributedNonAnyType d. Proof. unfold e_AttributedNonAnyType; nest. Qed.
Global Hint Resolve Nest_e_AttributedNonAnyType : nest.
Lemma Nest_e_UnionMemberType d : Nest d e_UnionMemberType d. Proof. unfold e_UnionMemberType; nest. Qed.
Global Hint Resolve Nest_e_UnionMemberType : nest.
Lemma Nest_e_SingleArgument d : Nest d e_SingleArgument d. Proof. unfold e_SingleArgument; nest. Qed.
Global Hint Resolve Nest_e_SingleArgument : nest.
Lemma Nest_e_VariadicArgument d : Nest d e_VariadicArgument d. Proof. unfold e_VariadicArgument; nest. Qed.
Global Hint Resolve Nest_e_VariadicArgument : nest.
Lemma Nest_e_Argument d : Nest d e_Argument d. Proof. unfold e_Argument; nest. Qed.
Global Hint Resolve Nest_e_Argument : nest.
Lemma Nest_e_ArgumentList d : Nest d e_ArgumentList d. Proof. unfold e_ArgumentList; nest. Qed.
Global Hint Resolve Nest_e_ArgumentList : nest.
Lemma Nest_e_ExtendedAttributeArgList d : Nest d e_ExtendedAttributeArgList d. Proof. unfold e_ExtendedAttributeArgList; nest. Qed.
Global Hint Resolve Nest_e_ExtendedAttributeArgList : nest.
Lemma Nest_e_ExtendedAttributeNamedArgList d : Nest d e_ExtendedAttributeNamedArgList d. Proof. unfold e_ExtendedAttributeNamedArgList; nest. Qed.
Global Hint Resolve Nest_e_ExtendedAttributeNamedArgList : nest.
Lemma Nest_e_IdentifierList d : Nest d e_IdentifierList d. Proof. unfold e_IdentifierList; nest. Qed.
Global Hint Resolve Nest_e_IdentifierList : nest.
Lemma Nest_e_ExtendedAttributeIdentList d : Nest d e_ExtendedAttributeIdentList d. Proof. unfold e_ExtendedAttributeIdentList; nest. Qed.
Global Hint Resolve Nest_e_ExtendedAttributeIdentList : nest.
Lemma Nest_e_IdentifierOrString d : Nest d e_IdentifierOrString d. Proof. unfold e_IdentifierOrString; nest. Qed.
Global Hint Resolve Nest_e_IdentifierOrString : nest.
Lemma Nest_e_ExtendedAttributeIdent d : Nest d e_ExtendedAttributeIdent d. Proof. unfold e_ExtendedAttributeIdent; nest. Qed.
Global Hint Resolve Nest_e_ExtendedAttributeIdent : nest.
Lemma Nest_e_ExtendedAttributeWildCard d : Nest d e_ExtendedAttributeWildCard d. Proof. unfold e_ExtendedAttributeWildCard; nest. Qed.
Global Hint Resolve Nest_e_ExtendedAttributeWildCard : nest.
Lemma Nest_e_ExtendedAttributeNoArgs d : Nest d e_ExtendedAttributeNoArgs d. Proof. unfold e_ExtendedAttributeNoArgs; nest. Qed.
Global Hint Resolve Nest_e_ExtendedAttributeNoArgs : nest.
Lemma Nest_e_ExtendedAttribute d : Nest d e_ExtendedAttribute d. Proof. unfold e_ExtendedAttribute; nest. Qed.
Global Hint Resolve Nest_e_ExtendedAttribute : nest.
Lemma Nest_e_Inheritance d : Nest d e_Inheritance d. Proof. unfold e_Inheritance; nest. Qed.
Global Hint Resolve Nest_e_Inheritance : nest.
Lemma Nest_e_ConstMember d : Nest d e_ConstMember d. Proof. unfold e_ConstMember; nest. Qed.
Global Hint Resolve Nest_e_ConstMember : nest.
Lemma Nest_e_StringifierOrInheritOrStatic d : Nest d e_StringifierOrInheritOrStatic d. Proof. unfold e_StringifierOrInheritOrStatic; nest. Qed.
Global Hint Resolve Nest_e_StringifierOrInheritOrStatic : nest.
Lemma Nest_e_StringifierOrStatic d : Nest d e_StringifierOrStatic d. Proof. unfold e_StringifierOrStatic; nest. Qed.
Global Hint Resolve Nest_e_StringifierOrStatic : nest.
Lemma Nest_e_Special d : Nest d e_Special d. Proof. unfold e_Special; nest. Qed.
Global Hint Resolve Nest_e_Special : nest.
Lemma Nest_e_AttributeInterfaceMember d : Nest d e_AttributeInterfaceMember d. Proof. unfold e_AttributeInterfaceMember; nest. Qed.
Global Hint Resolve Nest_e_AttributeInterfaceMember : nest.
Lemma Nest_e_ConstructorInterfaceMember d : Nest d e_ConstructorInterfaceMember d. Proof. unfold e_ConstructorInterfaceMember; nest. Qed.
Global Hint Resolve Nest_e_ConstructorInterfaceMember : nest.
Lemma Nest_e_OperationInterfaceMember d : Nest d e_OperationInterfaceMember d. Proof. unfold e_OperationInterfaceMember; nest. Qed.
Global Hint Resolve Nest_e_OperationInterfaceMember : nest.
Lemma Nest_e_SingleTypedIterable d : Nest d e_SingleTypedIterable d. Proof. unfold e_SingleTypedIterable; nest. Qed.
Global Hint Resolve Nest_e_SingleTypedIterable : nest.
Lemma Nest_e_DoubleTypedIterable d : Nest d e_DoubleTypedIterable d. Proof. unfold e_DoubleTypedIterable; nest. Qed.
Global Hint Resolve Nest_e_DoubleTypedIterable : nest.
Lemma Nest_e_IterableInterfaceMember d : Nest d e_IterableInterfaceMember d. Proof. unfold e_IterableInterfaceMember; nest. Qed.
Global Hint Resolve Nest_e_IterableInterfaceMember : nest.
Lemma Nest_e_SingleTypedAsyncIterable d : Nest d e_SingleTypedAsyncIterable d. Proof. unfold e_SingleTypedAsyncIterable; nest. Qed.
Global Hint Resolve Nest_e_SingleTypedAsyncIterable : nest.
Lemma Nest_e_DoubleTypedAsyncIterable d : Nest d e_DoubleTypedAsyncIterable d. Proof. unfold e_DoubleTypedAsyncIterable; nest. Qed.
Global Hint Resolve Nest_e_DoubleTypedAsyncIterable : nest.
Lemma Nest_e_AsyncIterableInterfaceMember d : Nest d e_AsyncIterableInterfaceMember d. Proof. unfold e_AsyncIterableInterfaceMember; nest. Qed.
Global Hint Resolve Nest_e_AsyncIterableInterfaceMember : nest.
Lemma Nest_e_MaplikeInterfaceMember d : Nest d e_MaplikeInterfaceMember d. Proof. unfold e_MaplikeInterfaceMember; nest. Qed.
Global Hint Resolve Nest_e_MaplikeInterfaceMember : nest.
Lemma Nest_e_SetlikeInterfaceMember d : Nest d e_SetlikeInterfaceMember d. Proof. unfold e_SetlikeInterfaceMember; nest. Qed.
Global Hint Resolve Nest_e_SetlikeInterfaceMember : nest.
Lemma Nest_e_StringifierMember d : Nest d e_StringifierMember d. Proof. unfold e_StringifierMember; nest. Qed.
Global Hint Resolve Nest_e_StringifierMember : nest.
Lemma Nest_e_InterfaceMember d : Nest d e_InterfaceMember d. Proof. unfold e_InterfaceMember; nest. Qed.
Global Hint Resolve Nest_e_InterfaceMember : nest.
Lemma Nest_e_InterfaceMembers d : Nest d e_InterfaceMembers d. Proof. unfold e_InterfaceMembers; nest. Qed.
Global Hint Resolve Nest_e_InterfaceMembers : nest.
Lemma Nest_e_OperationMixinMember d : Nest d e_OperationMixinMember d. Proof. unfold e_OperationMixinMember; nest. Qed.
Global Hint Resolve Nest_e_OperationMixinMember : nest.
Lemma Nest_e_AttributeMixinMember d : Nest d e_AttributeMixinMember d. Proof. unfold e_AttributeMixinMember; nest. Qed.
Global Hint Resolve Nest_e_AttributeMixinMember : nest.
Lemma Nest_e_MixinMember d : Nest d e_MixinMember d. Proof. unfold e_MixinMember; nest. Qed.
Global Hint Resolve Nest_e_MixinMember : nest.
Lemma Nest_e_MixinMembers d : Nest d e_MixinMembers d. Proof. unfold e_MixinMembers; nest. Qed.
Global Hint Resolve Nest_e_MixinMembers : nest.
Lemma Nest_e_ConstNamespaceMember d : Nest d e_ConstNamespaceMember d. Proof. unfold e_ConstNamespaceMember; nest. Qed.
Global Hint Resolve Nest_e_ConstNamespaceMember : nest.
Lemma Nest_e_OperationNamespaceMember d : Nest d e_OperationNamespaceMember d. Proof. unfold e_OperationNamespaceMember; nest. Qed.
Global Hint Resolve Nest_e_OperationNamespaceMember : nest.
Lemma Nest_e_AttributeNamespaceMember d : Nest d e_AttributeNamespaceMember d. Proof. unfold e_AttributeNamespaceMember; nest. Qed.
Global Hint Resolve Nest_e_AttributeNamespaceMember : nest.
Lemma Nest_e_NamespaceMember d : Nest d e_NamespaceMember d. Proof. unfold e_NamespaceMember; nest. Qed.
Global Hint Resolve Nest_e_NamespaceMember : nest.
Lemma Nest_e_NamespaceMembers d : Nest d e_NamespaceMembers d. Proof. unfold e_NamespaceMembers; nest. Qed.
Global Hint Resolve Nest_e_NamespaceMembers : nest.
Lemma Nest_e_DictionaryMember d : Nest d e_DictionaryMember d. Proof. unfold e_DictionaryMember; nest. Qed.
Global Hint Resolve Nest_e_DictionaryMember : nest.
Lemma Nest_e_DictionaryMembers d : Nest d e_DictionaryMembers d. Proof. unfold e_DictionaryMembers; nest. Qed.
Global Hint Resolve Nest_e_DictionaryMembers : nest.
Lemma Nest_e_CallbackDefinition d : Nest d e_CallbackDefinition d. Proof. unfold e_CallbackDefinition; nest. Qed.
Global Hint Resolve Nest_e_CallbackDefinition : nest.
Lemma Nest_e_CallbackInterfaceDefinition d : Nest d e_CallbackInterfaceDefinition d. Proof. unfold e_CallbackInterfaceDefinition; nest. Qed.
Global Hint Resolve Nest_e_CallbackInterfaceDefinition : nest.
Lemma Nest_e_InterfaceDefinition d : Nest d e_InterfaceDefinition d. Proof. unfold e_InterfaceDefinition; nest. Qed.
Global Hint Resolve Nest_e_InterfaceDefinition : nest.
Lemma Nest_e_InterfaceMixinDefinition d : Nest d e_InterfaceMixinDefinition d. Proof. unfold e_InterfaceMixinDefinition; nest. Qed.
Global Hint Resolve Nest_e_InterfaceMixinDefinition : nest.
Lemma Nest_e_NamespaceDefinition d : Nest d e_NamespaceDefinition d. Proof. unfold e_NamespaceDefinition; nest. Qed.
Global Hint Resolve Nest_e_NamespaceDefinition : nest.
Lemma Nest_e_DictionaryDefinition d : Nest d e_DictionaryDefinition d. Proof. unfold e_DictionaryDefinition; nest. Qed.
Global Hint Resolve Nest_e_DictionaryDefinition : nest.
Lemma Nest_e_PartialInterfaceDefinition d : Nest d e_PartialInterfaceDefinition d. Proof. unfold e_PartialInterfaceDefinition; nest. Qed.
Global Hint Resolve Nest_e_PartialInterfaceDefinition : nest.
Lemma Nest_e_PartialInterfaceMixinDefinition d : Nest d e_PartialInterfaceMixinDefinition d. Proof. unfold e_PartialInterfaceMixinDefinition; nest. Qed.
Global Hint Resolve Nest_e_PartialInterfaceMixinDefinition : nest.
Lemma Nest_e_PartialDictionaryDefinition d : Nest d e_PartialDictionaryDefinition d. Proof. unfold e_PartialDictionaryDefinition; nest. Qed.
Global Hint Resolve Nest_e_PartialDictionaryDefinition : nest.
Lemma Nest_e_PartialNamespaceDefinition d : Nest d e_PartialNamespaceDefinition d. Proof. unfold e_PartialNamespaceDefinition; nest. Qed.
Global Hint Resolve Nest_e_PartialNamespaceDefinition : nest.
Lemma Nest_e_EnumValueList d : Nest d e_EnumValueList d. Proof. unfold e_EnumValueList, e_PunctuatedNonEmpty; nest. Qed.
Global Hint Resolve Nest_e_EnumValueList : nest.
Lemma Nest_e_EnumDefinition d : Nest d e_EnumDefinition d. Proof. unfold e_EnumDefinition; nest. Qed.
Global Hint Resolve Nest_e_EnumDefinition : nest.
Lemma Nest_e_TypedefDefinition d : Nest d e_TypedefDefinition d. Proof. unfold e_TypedefDefinition; nest. Qed.
Global Hint Resolve Nest_e_TypedefDefinition : nest.
Lemma Nest_e_IncludesStatementDefinition d : Nest d e_IncludesStatementDefinition d. Proof. unfold e_IncludesStatementDefinition; nest. Qed.
Global Hint Resolve Nest_e_IncludesStatementDefinition : nest.
Lemma Nest_e_ImplementsDefinition d : Nest d e_ImplementsDefinition d. Proof. unfold e_ImplementsDefinition; nest. Qed.
Global Hint Resolve Nest_e_ImplementsDefinition : nest.
Lemma Nest_e_Definition d : Nest d e_Definition d. Proof. unfold e_Definition; nest. Qed.
Global Hint Resolve Nest_e_Definition : nest.
Lemma Nest_e_Definitions d : Nest d e_Definitions d. Proof. unfold e_Definitions; nest. Qed.
Global Hint Resolve Nest_e_Definitions : nest.

Lemma grammar_Nest A (x : nt A) : Nest 0 (grammar x) 0.
Proof. destruct x; cbn [grammar]; auto with nest. Qed.

Lemma const_height ts v r : const_of ts = Some (v, r) -> height r <= height ts.
Proof.
  destruct ts as [|[[] n|p| |l|s|s] ts]; cbn [const_of height]; try discriminate; try (intros [= _ <-]; lia).
  destruct (bool_of n); [intros [= _ <-]; lia|]. destruct (float_of n); [intros [= _ <-]; lia|].
  destruct (text_eqb n (str "null")); [intros [= _ <-]; lia|discriminate].
Qed.
Lemma default_height ts v r : default_of ts = Some (v, r) -> height r <= height ts.
Proof.
  assert (HC : match const_of ts with
    | Some (ConstValue_Boolean b, r) => Some (DefaultValue_Boolean b, r)
    | Some (ConstValue_Float f, r) => Some (DefaultValue_Float f, r)
    | Some (ConstValue_Integer l, r) => Some (DefaultValue_Integer l, r)
    | Some (ConstValue_Null, r) => Some (DefaultValue_Null, r)
    | None => None end = Some (v, r) -> height r <= height ts).
  { destruct (const_of ts) as [[[] r']|] eqn:E; try discriminate; intros [= _ <-]; eapply const_height; eauto. }
  destruct ts as [|[e n|p| |l|s|s] ts]; unfold default_of; auto.
  - destruct ts as [|[e n|q| |l|s|s] ts]; auto.
    destruct (String.eqb p "[" && String.eqb q "]") eqn:E1.
    { apply andb_true_iff in E1 as [->%String.eqb_eq ->%String.eqb_eq]. intros [= _ <-]. cbn. lia. }
    destruct (String.eqb p "{" && String.eqb q "}") eqn:E2; [|discriminate].
    apply andb_true_iff in E2 as [->%String.eqb_eq ->%String.eqb_eq]. intros [= _ <-]. cbn. lia.
  - intros [= _ <-]. cbn. lia.
Qed.
Lemma term_height t d d' ts r u : level t d d' -> tok_sem unit (TmTerm t) ts = Ok r u -> d' + height r <= d + height ts.
Proof.
  intros H. cbn. destruct ts as [|x ts]; [discriminate|]. destruct (tok_eqb x (term_tok t)) eqn:E; [|discriminate].
  apply tok_eqb_eq in E. subst x. intros [= <- _]. destruct t; cbn in H |- *; lia.
Qed.

Section Height.
  Notation km := (meter toks_same tok_sem Nat.max 0).

  Lemma many0_height A (p : parser (list tok) A) n : (forall i r a, p i = Ok r a -> height r <= height i) ->
    forall i acc r l, many0_loop toks_same n p i acc = Ok r l -> height r <= height i.
  Proof.
    intros Hp. induction n as [|n IH]; intros i acc r l; cbn; [discriminate|].
    destruct (p i) as [r' a|[]|] eqn:E; try discriminate.
    - destruct (toks_same r' i); [discriminate|]. intros H. apply IH in H. apply Hp in E. lia.
    - intros [= <- <-]. lia.
  Qed.
  Lemma sep_height A S (s : parser (list tok) S) (p : parser (list tok) A) n : (forall i r a, p i = Ok r a -> height r <= height i) ->
    (forall i r a, s i = Ok r a -> height r <= height i) ->
    forall i acc r l, sep_loop toks_same n s p i acc = Ok r l -> height r <= height i.
  Proof.
    intros Hp Hs. induction n as [|n IH]; intros i acc r l; cbn; [discriminate|].
    destruct (s i) as [r' a|[]|] eqn:E; try discriminate.
    - destruct (toks_same r' i); [discriminate|].
      destruct (p r') as [r'' b|[]|] eqn:E'; try discriminate.
      + destruct (toks_same r'' i); [discriminate|]. intros H. apply IH in H. apply Hp in E'. apply Hs in E. lia.
      + intros [= <- <-]. lia.
    - intros [= <- <-]. lia.
  Qed.
  Theorem Nest_run n : forall A (p : pexp A) d d', Nest d p d' -> forall i r a, krun n A p i = Ok r a -> d' + height r <= d + height i.
  Proof.
    induction n as [n IHn] using lt_wf_ind.
    induction p as [A t|A a|A B p IHp f IHf|A p IHp q IHq|A|A p IHp|A p IHp|S A s IHs p IHp|S A s IHs p IHp|A x];
      cbn [Nest]; intros d d' HN i r v; runs.
    - destruct t; [apply term_height; auto|subst d'..]; cbn.
      + destruct i as [|[] i]; try discriminate. intros [= <- _]. cbn. lia.
      + destruct i as [|[] i]; try discriminate. intros [= <- _]. cbn. lia.
      + destruct (default_of i) as [[w r']|] eqn:E; [|discriminate]. intros [= <- _]. apply default_height in E. lia.
      + destruct (const_of i) as [[w r']|] eqn:E; [|discriminate]. intros [= <- _]. apply const_height in E. lia.
    - cbn. intros [= <- _]. subst. lia.
    - destruct HN as (d1 & H1 & H2). unfold bind. destruct (krun n A p i) as [r' a|[]|] eqn:E; try discriminate.
      intros H. apply (IHp _ _ H1) in E. apply (IHf _ _ _ (H2 a)) in H. lia.
    - destruct HN as (H1 & H2). unfold alt_or. destruct (krun n A p i) as [r' a|[]|] eqn:E; try discriminate.
      + intros [= <- <-]. eapply IHp; eauto.
      + intros H. eapply IHq; eauto.
    - discriminate.
    - destruct HN as (H1 & ->). unfold opt. destruct (krun n A p i) as [r' a|[]|] eqn:E; try discriminate; intros [= <- <-]; [|lia].
      eapply IHp; eauto.
    - destruct HN as (H1 & ->). unfold many0. intros H. apply many0_height in H; [lia|].
      intros j r' a E. apply (IHp _ _ H1) in E. lia.
    - destruct HN as (H1 & H2 & ->). unfold separated_list. destruct (krun n A p i) as [r' a|[]|] eqn:E; try discriminate.
      + destruct (toks_same r' i); [discriminate|]. intros H. apply sep_height in H.
        * apply (IHp _ _ H2) in E. lia.
        * intros j r2 a2 E2. apply (IHp _ _ H2) in E2. lia.
        * intros j r2 a2 E2. apply (IHs _ _ H1) in E2. lia.
      + intros [= <- <-]. lia.
    - destruct HN as (H1 & H2 & ->). unfold separated_nonempty_list. destruct (krun n A p i) as [r' a|[]|] eqn:E; try discriminate.
      destruct (toks_same r' i); [discriminate|]. intros H. apply sep_height in H.
      * apply (IHp _ _ H2) in E. lia.
      * intros j r2 a2 E2. apply (IHp _ _ H2) in E2. lia.
      * intros j r2 a2 E2. apply (IHs _ _ H1) in E2. lia.
    - destruct HN as (Hd & ->). destruct n as [|n]; [discriminate|]. rewrite run_nt_S. intros H.
      apply (IHn n (Nat.lt_succ_diag_r n) _ _ _ _ (grammar_Nest A x)) in H. lia.
  Qed.

  Lemma many0_deep A (p : parser (list tok) A) (c : list tok -> nat) d n : (forall i, c i <= d + height i) ->
    (forall i r a, p i = Ok r a -> height r <= height i) -> forall i, m_many0_loop toks_same Nat.max n p c i <= d + height i.
  Proof.
    intros Hc Hp. induction n as [|n IH]; intros i; cbn; [lia|]. specialize (Hc i).
    destruct (p i) as [r a|e|] eqn:E; try lia. apply Hp in E. specialize (IH r). destruct (toks_same r i); lia.
  Qed.
  Lemma sep_deep A S (s : parser (list tok) S) (p : parser (list tok) A) (c cs : list tok -> nat) d n :
    (forall i, c i <= d + height i) -> (forall i, cs i <= d + height i) ->
    (forall i r a, p i = Ok r a -> height r <= height i) -> (forall i r a, s i = Ok r a -> height r <= height i) ->
    forall i, m_sep_loop toks_same Nat.max n s p cs c i <= d + height i.
  Proof.
    intros Hc Hcs Hp Hs. induction n as [|n IH]; intros i; cbn; [lia|]. specialize (Hcs i).
    destruct (s i) as [r a|e|] eqn:E; try lia. apply Hs in E. destruct (toks_same r i); [lia|]. specialize (Hc r).
    destruct (p r) as [r2 a2|e|] eqn:E2; try lia. apply Hp in E2. destruct (toks_same r2 i); [lia|]. specialize (IH r2). lia.
  Qed.
  Lemma separated_deep A S (s : parser (list tok) S) (p : parser (list tok) A) (c cs : list tok -> nat) d n :
    (forall i, c i <= d + height i) -> (forall i, cs i <= d + height i) ->
    (forall i r a, p i = Ok r a -> height r <= height i) -> (forall i r a, s i = Ok r a -> height r <= height i) ->
    forall i, m_separated toks_same Nat.max n s p cs c i <= d + height i.
  Proof.
    intros Hc Hcs Hp Hs i. unfold m_separated. pose proof (Hc i). destruct (p i) as [r a|e|] eqn:E; try lia. apply Hp in E.
    destruct (toks_same r i); [lia|]. pose proof (sep_deep A S s p c cs d n Hc Hcs Hp Hs r). lia.
  Qed.
  Theorem depth_height n : forall A (p : pexp A) d d', Nest d p d' -> forall i, km n A p i <= d + height i.
  Proof.
    induction n as [n IHn] using lt_wf_ind.
    induction p as [A t|A a|A B p IHp f IHf|A p IHp q IHq|A|A p IHp|A p IHp|S A s IHs p IHp|S A s IHs p IHp|A x];
      cbn [Nest]; intros d d' HN i; meters; try lia.
    - destruct HN as (d1 & H1 & H2). pose proof (IHp _ _ H1 i). destruct (krun n A p i) as [r a|e|] eqn:E; try lia.
      pose proof (Nest_run _ _ _ _ _ H1 _ _ _ E). pose proof (IHf a _ _ (H2 a) r). lia.
    - destruct HN as [H1 H2]. pose proof (IHp _ _ H1 i). pose proof (IHq _ _ H2 i). destruct (krun n A p i) as [r a|[]|]; lia.
    - destruct HN as [H1 _]. eapply IHp; eauto.
    - destruct HN as [H1 _]. apply many0_deep; [intros; eapply IHp; eauto|].
      intros j r a E. apply (Nest_run _ _ _ _ _ H1) in E. lia.
    - destruct HN as (H1 & H2 & _). apply separated_deep; [intros; eapply IHp; eauto|intros; eapply IHs; eauto| |];
        intros j r a E; [apply (Nest_run _ _ _ _ _ H2) in E|apply (Nest_run _ _ _ _ _ H1) in E]; lia.
    - destruct HN as (H1 & H2 & _). apply separated_deep; [intros; eapply IHp; eauto|intros; eapply IHs; eauto| |];
        intros j r a E; [apply (Nest_run _ _ _ _ _ H2) in E|apply (Nest_run _ _ _ _ _ H1) in E]; lia.
    - destruct HN as [Hd _]. destruct n as [|n]; [rewrite meter_nt_O; lia|]. rewrite meter_nt_S.
      pose proof (IHn n (Nat.lt_succ_diag_r n) _ (grammar x) _ _ (grammar_Nest _ x) i). lia.
  Qed.
End Height.

Theorem parse_depth_height raw ts r : Rd r raw ts -> Stuck r -> parse_depth raw <= height ts.
Proof.
  intros HR Hr. unfold parse_depth, depth_as. rewrite (meter_Sim Nat.max 0 r Hr _ _ _ P_Defs raw ts); auto.
  apply (depth_height _ _ _ 0 0). apply Nest_e_Definitions.
Qed.
(** One polynomial for every nesting of brackets. *)
Theorem parse_steps_height : exists c k, forall raw ts r, Rd r raw ts -> Stuck r ->
  parse_steps raw <= (c * S (length raw) ^ k) ^ S (height ts).
Proof.
  destruct (steps_as_poly _ _ _ I_Definitions) as (c & k & H). exists (S c), k. intros raw ts r HT Hr.
  specialize (H raw). apply parse_depth_height in HT; auto. unfold parse_steps, parse_depth in *.
  assert (1 <= S (length raw) ^ k) by (apply Nat.neq_0_lt_0, Nat.pow_nonzero; lia).
  eapply Nat.le_trans; [exact H|]. eapply Nat.le_trans; [apply (Nat.pow_le_mono_l _ (S c * S (length raw) ^ k)); nia|].
  apply Nat.pow_le_mono_r; nia.
Qed.
Theorem parse_steps_exp : exists C, forall raw, parse_steps raw <= C ^ S (length raw).
Proof. exact (steps_as_exp _ _ _ I_Definitions). Qed.

(** For a bounded nesting of brackets, time is polynomial. *)
Theorem parse_steps_polynomial : forall h, exists c k, forall raw ts r, Rd r raw ts -> Stuck r -> height ts <= h ->
  parse_steps raw <= c * S (length raw) ^ k.
Proof.
  intros h. destruct parse_steps_height as (c & k & H). exists (S c ^ S h), (k * S h). intros raw ts r HT Hr Hh.
  etransitivity; [apply (H raw ts r HT Hr)|]. rewrite Nat.pow_mul_r, <- Nat.pow_mul_l.
  etransitivity; [apply Nat.pow_le_mono_l|apply Nat.pow_le_mono_r].
  - apply Nat.mul_le_mono_r. apply Nat.le_succ_diag_r.
  - assert (S (length raw) ^ k <> 0) by (apply Nat.pow_nonzero; discriminate). nia.
  - lia.
Qed.
