(** * The parts of a tree, at every depth

    [nodes_X x] lists the arguments, record keys and unions in [x], at any depth.  Used to state properties of "every
    argument (record key, union) in the tree" without the notion of well-formedness in Spec.v. *)
From Coq Require Import String Ascii NArith Arith Bool List Lia.
From Verif Require Import Nom Lex Ast Grammar Spec LexFacts NumFacts TokFacts RunFacts Shapes TermFacts Api ApiFacts LexProps
  Tok TokRun TokSound TokComplete TokMembers Shows Exact.
Import ListNotations.
Open Scope list_scope.

Inductive node : Set :=
| NArgument (a : Argument)
| NRecordKey (k : RecordKeyType)
| NUnion (members : list UnionMemberType).

Fixpoint nodes_Type (t : Type_) : list node :=
  match t with
  | Type_Single s => nodes_SingleType s
  | Type_Union (mkMayBeNull l _) => NUnion l :: flat_map nodes_UnionMemberType l
  end
with nodes_SingleType (t : SingleType) : list node :=
  match t with
  | SingleType_Any => []
  | SingleType_NonAny x => nodes_NonAnyType x
  end
with nodes_NonAnyType (t : NonAnyType) : list node :=
  match t with
  | NonAnyType_Promise (mkPromiseType x) => nodes_ReturnType x
  | NonAnyType_Sequence (mkMayBeNull (mkSequenceType x) _) => nodes_Type x
  | NonAnyType_FrozenArrayType (mkMayBeNull (mkFrozenArrayType x) _) => nodes_Type x
  | NonAnyType_RecordType (mkMayBeNull (mkRecordType k v) _) => NRecordKey k :: nodes_RecordKeyType k ++ nodes_Type v
  | _ => []
  end
with nodes_RecordKeyType (k : RecordKeyType) : list node :=
  match k with
  | RecordKeyType_NonAny x => nodes_NonAnyType x
  | _ => []
  end
with nodes_UnionMemberType (t : UnionMemberType) : list node :=
  match t with
  | UnionMemberType_Single (mkAttributedNonAnyType a x) =>
      match a with Some l => flat_map nodes_ExtendedAttribute l | None => [] end ++ nodes_NonAnyType x
  | UnionMemberType_Union (mkMayBeNull l _) => NUnion l :: flat_map nodes_UnionMemberType l
  end
with nodes_ReturnType (t : ReturnType) : list node :=
  match t with
  | ReturnType_Undefined => []
  | ReturnType_Type x => nodes_Type x
  end
with nodes_AttributedType (t : AttributedType) : list node :=
  match t with
  | mkAttributedType a x => match a with Some l => flat_map nodes_ExtendedAttribute l | None => [] end ++ nodes_Type x
  end
with nodes_ExtendedAttribute (a : ExtendedAttribute) : list node :=
  match a with
  | ExtendedAttribute_ArgList (mkExtendedAttributeArgList _ args) => flat_map nodes_Argument args
  | ExtendedAttribute_NamedArgList (mkExtendedAttributeNamedArgList _ _ args) => flat_map nodes_Argument args
  | _ => []
  end
with nodes_Argument (a : Argument) : list node :=
  NArgument a ::
  match a with
  | Argument_Single (mkSingleArgument at_ o t i d) =>
      match at_ with Some l => flat_map nodes_ExtendedAttribute l | None => [] end ++ nodes_AttributedType t
  | Argument_Variadic (mkVariadicArgument at_ t i) =>
      match at_ with Some l => flat_map nodes_ExtendedAttribute l | None => [] end ++ nodes_Type t
  end.

Definition nodes_attributes (a : option ExtendedAttributeList) : list node :=
  match a with Some l => flat_map nodes_ExtendedAttribute l | None => [] end.
Definition nodes_args (l : ArgumentList) : list node := flat_map nodes_Argument l.
Definition nodes_opt_args (l : option ArgumentList) : list node := match l with Some l => nodes_args l | None => [] end.
Definition nodes_pair (g : AttributedType * AttributedType) : list node :=
  nodes_AttributedType (fst g) ++ nodes_AttributedType (snd g).

Definition nodes_InterfaceMember (m : InterfaceMember) : list node :=
  match m with
  | InterfaceMember_Const (mkConstMember a _ _ _) => nodes_attributes a
  | InterfaceMember_Attribute (mkAttributeInterfaceMember a _ _ t _) => nodes_attributes a ++ nodes_AttributedType t
  | InterfaceMember_Constructor (mkConstructorInterfaceMember a args) => nodes_attributes a ++ nodes_args args
  | InterfaceMember_Operation (mkOperationInterfaceMember a _ _ r _ args) =>
      nodes_attributes a ++ nodes_ReturnType r ++ nodes_args args
  | InterfaceMember_Iterable (IterableInterfaceMember_Single (mkSingleTypedIterable a g)) =>
      nodes_attributes a ++ nodes_AttributedType g
  | InterfaceMember_Iterable (IterableInterfaceMember_Double (mkDoubleTypedIterable a g)) =>
      nodes_attributes a ++ nodes_pair g
  | InterfaceMember_AsyncIterable (AsyncIterableInterfaceMember_Single (mkSingleTypedAsyncIterable a g args)) =>
      nodes_attributes a ++ nodes_AttributedType g ++ nodes_opt_args args
  | InterfaceMember_AsyncIterable (AsyncIterableInterfaceMember_Double (mkDoubleTypedAsyncIterable a g args)) =>
      nodes_attributes a ++ nodes_pair g ++ nodes_opt_args args
  | InterfaceMember_Maplike (mkMaplikeInterfaceMember a _ g) => nodes_attributes a ++ nodes_pair g
  | InterfaceMember_Setlike (mkSetlikeInterfaceMember a _ g) => nodes_attributes a ++ nodes_AttributedType g
  | InterfaceMember_Stringifier (mkStringifierMember a) => nodes_attributes a
  end.
Definition nodes_MixinMember (m : MixinMember) : list node :=
  match m with
  | MixinMember_Const (mkConstMember a _ _ _) => nodes_attributes a
  | MixinMember_Operation (mkOperationMixinMember a _ r _ args) =>
      nodes_attributes a ++ nodes_ReturnType r ++ nodes_args args
  | MixinMember_Attribute (mkAttributeMixinMember a _ _ t _) => nodes_attributes a ++ nodes_AttributedType t
  | MixinMember_Stringifier (mkStringifierMember a) => nodes_attributes a
  end.
Definition nodes_NamespaceMember (m : NamespaceMember) : list node :=
  match m with
  | NamespaceMember_Const (mkConstNamespaceMember a _ _ _) => nodes_attributes a
  | NamespaceMember_Operation (mkOperationNamespaceMember a r _ args) =>
      nodes_attributes a ++ nodes_ReturnType r ++ nodes_args args
  | NamespaceMember_Attribute (mkAttributeNamespaceMember a t _) => nodes_attributes a ++ nodes_AttributedType t
  end.
Definition nodes_DictionaryMember (m : DictionaryMember) : list node :=
  match m with mkDictionaryMember a _ t _ _ => nodes_attributes a ++ nodes_Type t end.

Definition nodes_Definition (d : Definition_) : list node :=
  match d with
  | Definition_Callback (mkCallbackDefinition a _ r args) => nodes_attributes a ++ nodes_ReturnType r ++ nodes_args args
  | Definition_CallbackInterface (mkCallbackInterfaceDefinition a _ _ m) =>
      nodes_attributes a ++ flat_map nodes_InterfaceMember m
  | Definition_Interface (mkInterfaceDefinition a _ _ m) => nodes_attributes a ++ flat_map nodes_InterfaceMember m
  | Definition_InterfaceMixin (mkInterfaceMixinDefinition a _ m) => nodes_attributes a ++ flat_map nodes_MixinMember m
  | Definition_Namespace (mkNamespaceDefinition a _ m) => nodes_attributes a ++ flat_map nodes_NamespaceMember m
  | Definition_Dictionary (mkDictionaryDefinition a _ _ m) => nodes_attributes a ++ flat_map nodes_DictionaryMember m
  | Definition_PartialInterface (mkPartialInterfaceDefinition a _ m) =>
      nodes_attributes a ++ flat_map nodes_InterfaceMember m
  | Definition_PartialInterfaceMixin (mkPartialInterfaceMixinDefinition a _ m) =>
      nodes_attributes a ++ flat_map nodes_MixinMember m
  | Definition_PartialDictionary (mkPartialDictionaryDefinition a _ m) =>
      nodes_attributes a ++ flat_map nodes_DictionaryMember m
  | Definition_PartialNamespace (mkPartialNamespaceDefinition a _ m) =>
      nodes_attributes a ++ flat_map nodes_NamespaceMember m
  | Definition_Enum (mkEnumDefinition a _ _) => nodes_attributes a
  | Definition_Typedef (mkTypedefDefinition a t _) => nodes_attributes a ++ nodes_AttributedType t
  | Definition_IncludesStatement (mkIncludesStatementDefinition a _ _) => nodes_attributes a
  | Definition_Implements (mkImplementsDefinition a _ _) => nodes_attributes a
  end.
Definition nodes_Definitions (d : Definitions) : list node := flat_map nodes_Definition d.

(** ** What well-formedness says about the nodes *)
Definition node_ok (x : node) : Prop :=
  match x with
  | NArgument (Argument_Single (mkSingleArgument at_ o t i d)) =>
      (d <> None -> o <> None) /\ (at_ = None -> o = None -> match t with mkAttributedType ta _ => ta = None end)
  | NRecordKey (RecordKeyType_NonAny x) =>
      match x with NonAnyType_ByteString _ | NonAnyType_DOMString _ | NonAnyType_USVString _ => False | _ => True end
  | _ => True
  end.
Notation oks := (Forall node_ok).

Lemma oks_app a b : oks a -> oks b -> oks (a ++ b). Proof. intros. apply Forall_app. auto. Qed.
Ltac spl := repeat match goal with H : _ /\ _ |- _ => destruct H end.

Lemma ok_Type : forall t, wf_Type t -> oks (nodes_Type t)
with ok_SingleType : forall t, wf_SingleType t -> oks (nodes_SingleType t)
with ok_NonAnyType : forall t, wf_NonAnyType t -> oks (nodes_NonAnyType t)
with ok_RecordKeyType : forall t, wf_RecordKeyType t -> oks (nodes_RecordKeyType t)
with ok_UnionMemberType : forall t, wf_UnionMemberType t -> oks (nodes_UnionMemberType t)
with ok_ReturnType : forall t, wf_ReturnType t -> oks (nodes_ReturnType t)
with ok_AttributedType : forall t, wf_AttributedType t -> oks (nodes_AttributedType t)
with ok_ExtendedAttribute : forall t, wf_ExtendedAttribute t -> oks (nodes_ExtendedAttribute t)
with ok_Argument : forall t, wf_Argument t -> oks (nodes_Argument t).
Proof.
  - intros [t|[l q]]; cbn [wf_Type nodes_Type]; [apply ok_SingleType|]. intros H. constructor; [exact Logic.I|].
    revert l H. fix IH 1. intros [|a l] H; [constructor|]. apply oks_app; [apply ok_UnionMemberType|apply IH]; apply H.
  - intros [|t]; cbn [wf_SingleType nodes_SingleType]; [constructor|apply ok_NonAnyType].
  - intros [[t]|m|m|m|m|m|m|m|m|[[t] q]|m|m|m|m|m|m|m|m|m|m|m|m|m|m|m|m|[[t] q]|[[k t] q]|m]; cbn [wf_NonAnyType nodes_NonAnyType];
      try (constructor; fail).
    + apply ok_ReturnType.
    + apply ok_Type.
    + apply ok_Type.
    + intros [H1 H2]. constructor; [|apply oks_app; [apply ok_RecordKeyType|apply ok_Type]; auto].
      destruct k as [| | |[]]; try exact Logic.I; exact H1.
  - intros [| | |t]; cbn [nodes_RecordKeyType]; try (constructor; fail). intros H. apply ok_NonAnyType. destruct t; auto; destruct H.
  - intros [[a t]|[l q]]; cbn [wf_UnionMemberType nodes_UnionMemberType].
    + intros [H1 H2]. apply oks_app; [|apply ok_NonAnyType; auto]. destruct a as [l|]; [|constructor].
      revert l H1. fix IH 1. intros [|a l] H; [constructor|]. apply oks_app; [apply ok_ExtendedAttribute|apply IH]; apply H.
    + intros H. constructor; [exact Logic.I|].
      revert l H. fix IH 1. intros [|a l] H; [constructor|]. apply oks_app; [apply ok_UnionMemberType|apply IH]; apply H.
  - intros [|t]; cbn [wf_ReturnType nodes_ReturnType]; [constructor|apply ok_Type].
  - intros [a t]; cbn [wf_AttributedType nodes_AttributedType]. intros [H1 H2]. apply oks_app; [|apply ok_Type; auto].
    destruct a as [l|]; [|constructor].
    revert l H1. fix IH 1. intros [|a l] H; [constructor|]. apply oks_app; [apply ok_ExtendedAttribute|apply IH]; apply H.
  - intros [[x l]|[x y l]|[x l]|[x y]|[x]|x]; cbn [wf_ExtendedAttribute nodes_ExtendedAttribute]; try (constructor; fail).
    + revert l. fix IH 1. intros [|a l] H; [constructor|]. apply oks_app; [apply ok_Argument|apply IH]; apply H.
    + revert l. fix IH 1. intros [|a l] H; [constructor|]. apply oks_app; [apply ok_Argument|apply IH]; apply H.
  - intros [[at_ o t x d]|[at_ t x]]; cbn [wf_Argument nodes_Argument].
    + intros (H1 & H2 & H3 & H4). constructor; [exact (conj H3 H4)|]. apply oks_app; [|apply ok_AttributedType; auto].
      destruct at_ as [l|]; [|constructor].
      clear H4. revert l H1. fix IH 1. intros [|a l] H; [constructor|]. apply oks_app; [apply ok_ExtendedAttribute|apply IH]; apply H.
    + intros (H1 & H2). constructor; [exact Logic.I|]. apply oks_app; [|apply ok_Type; auto]. destruct at_ as [l|]; [|constructor].
      revert l H1. fix IH 1. intros [|a l] H; [constructor|]. apply oks_app; [apply ok_ExtendedAttribute|apply IH]; apply H.
Qed.
Lemma oks_All {A} (w : A -> Prop) (f : A -> list node) l : (forall x, w x -> oks (f x)) -> All w l -> oks (flat_map f l).
Proof. intros Hf. induction l as [|a l IH]; cbn; intros H; [constructor|]. apply oks_app; [apply Hf|apply IH]; apply H. Qed.
Lemma ok_attributes a : wf_attributes a -> oks (nodes_attributes a).
Proof. destruct a as [l|]; [|constructor]. apply oks_All, ok_ExtendedAttribute. Qed.
Lemma ok_args l : wf_args l -> oks (nodes_args l).
Proof. apply oks_All, ok_Argument. Qed.
Lemma ok_opt_args l : wf_opt_args l -> oks (nodes_opt_args l).
Proof. destruct l; [apply ok_args|constructor]. Qed.
Lemma ok_pair g : wf_pair g -> oks (nodes_pair g).
Proof. intros [H1 H2]. apply oks_app; apply ok_AttributedType; auto. Qed.
Ltac ok1 := intros; spl; repeat first [apply ok_attributes; assumption | apply ok_args; assumption | apply ok_opt_args; assumption |
  apply ok_pair; assumption | apply ok_AttributedType; assumption | apply ok_ReturnType; assumption |
  apply ok_Type; assumption | apply oks_app].
Lemma ok_InterfaceMember m : wf_InterfaceMember m -> oks (nodes_InterfaceMember m).
Proof.
  destruct m as [[]|[]|[]|[]|[[]|[]]|[[]|[]]|[]|[]|[]]; cbn [wf_InterfaceMember nodes_InterfaceMember]; ok1.
Qed.
Lemma ok_MixinMember m : wf_MixinMember m -> oks (nodes_MixinMember m).
Proof. destruct m as [[]|[]|[]|[]]; cbn [wf_MixinMember nodes_MixinMember]; ok1. Qed.
Lemma ok_NamespaceMember m : wf_NamespaceMember m -> oks (nodes_NamespaceMember m).
Proof. destruct m as [[]|[]|[]]; cbn [wf_NamespaceMember nodes_NamespaceMember]; ok1. Qed.
Lemma ok_DictionaryMember m : wf_DictionaryMember m -> oks (nodes_DictionaryMember m).
Proof. destruct m; cbn [wf_DictionaryMember nodes_DictionaryMember]; ok1. Qed.
Lemma ok_Definition d : wf_Definition d -> oks (nodes_Definition d).
Proof.
  destruct d as [[]|[]|[]|[]|[]|[]|[]|[]|[]|[]|[]|[]|[]|[]]; cbn [wf_Definition nodes_Definition]; ok1;
    (eapply oks_All; [|eassumption]); auto using ok_InterfaceMember, ok_MixinMember, ok_NamespaceMember, ok_DictionaryMember.
Qed.
Lemma ok_Definitions d : wf_Definitions d -> oks (nodes_Definitions d).
Proof. apply oks_All, ok_Definition. Qed.

(** ** Trees from texts *)
Lemma parse_wf A (p : pexp A) c (w : A -> Prop) i r a : Shape false p c -> Plain p ->
  (forall n ts ts' a, krun n A p ts = Ok ts' a -> w a) -> parse_as p i = Ok r a -> w a.
Proof.
  intros HS HP Hw E. destruct (tokenize i) as (ts & r0 & H0 & HR).
  destruct (text_to_toks _ _ _ _ _ _ _ _ HS HP H0 HR E) as (ts' & HE & _). apply Ev_Some in HE as [n HE]. eauto.
Qed.
(** The parsers whose trees may contain nodes. *)
Inductive Tree : forall A : Type, pexp A -> (A -> list node) -> Prop :=
| Tree_Type : Tree _ e_Type nodes_Type
| Tree_SingleType : Tree _ e_SingleType nodes_SingleType
| Tree_NonAnyType : Tree _ e_NonAnyType nodes_NonAnyType
| Tree_UnionMemberType : Tree _ e_UnionMemberType nodes_UnionMemberType
| Tree_ReturnType : Tree _ e_ReturnType nodes_ReturnType
| Tree_AttributedType : Tree _ e_AttributedType nodes_AttributedType
| Tree_ExtendedAttribute : Tree _ e_ExtendedAttribute nodes_ExtendedAttribute
| Tree_Argument : Tree _ e_Argument nodes_Argument
| Tree_InterfaceMember : Tree _ e_InterfaceMember nodes_InterfaceMember
| Tree_MixinMember : Tree _ e_MixinMember nodes_MixinMember
| Tree_NamespaceMember : Tree _ e_NamespaceMember nodes_NamespaceMember
| Tree_DictionaryMember : Tree _ e_DictionaryMember nodes_DictionaryMember
| Tree_Definition : Tree _ e_Definition nodes_Definition
| Tree_Definitions : Tree _ e_Definitions nodes_Definitions.

Ltac all_nodes ok I := intros H; apply ok; revert H; refine (parse_wf _ _ _ _ _ _ _ (Impl_Shape _ _ _ I) _ _).
Theorem Tree_ok A (p : pexp A) nodes s rest a : Tree A p nodes -> parse_as p s = Ok rest a -> oks (nodes a).
Proof.
  intros T. destruct T.
  - all_nodes ok_Type I_Type; [exact Plain_e_Type|]. intros n ts ts' t E.
    destruct (Snd_all n) as (H1 & H2 & H3 & H4 & H5). apply (K_Type n []) in E; [apply E|apply not_head_nil].
  - all_nodes ok_SingleType I_SingleType; [cbn; plains|]. intros n ts ts' t E.
    destruct (Snd_all n) as (H1 & H2 & H3 & H4 & H5). apply S_SingleType with (bad := []) in E; auto using not_head_nil. apply E.
  - all_nodes ok_NonAnyType I_NonAnyType; [cbn; plains|]. intros n ts ts' t E.
    destruct (Snd_all n) as (H1 & H2 & H3 & H4 & H5). apply S_NonAnyType with (bad := []) in E; auto using not_head_nil. apply E.
  - all_nodes ok_UnionMemberType I_UnionMemberType; [cbn; plains|]. intros n ts ts' t E.
    destruct (Snd_all n) as (H1 & H2 & H3 & H4 & H5). eapply S_UnionMemberType in E; auto. apply E.
  - all_nodes ok_ReturnType I_ReturnType; [exact Plain_e_ReturnType|]. intros n ts ts' t E.
    destruct (Snd_all n) as (H1 & H2 & H3 & H4 & H5). apply (K_ReturnType n []) in E; [apply E|apply not_head_nil].
  - all_nodes ok_AttributedType I_AttributedType; [exact Plain_e_AttributedType|]. intros n ts ts' t E.
    destruct (Snd_all n) as (H1 & H2 & H3 & H4 & H5). apply K_AttributedType in E. apply E.
  - all_nodes ok_ExtendedAttribute I_ExtendedAttribute; [cbn; plains|]. intros n ts ts' t E.
    destruct (Snd_all n) as (H1 & H2 & H3 & H4 & H5). eapply S_ExtendedAttribute in E; auto. apply E.
  - all_nodes ok_Argument I_Argument; [cbn; plains|]. intros n ts ts' t E.
    destruct (Snd_all n) as (H1 & H2 & H3 & H4 & H5). eapply S_Argument in E; auto. apply E.
  - all_nodes ok_InterfaceMember I_InterfaceMember; [exact Plain_e_InterfaceMembers|]. intros n ts ts' t E. eapply S_InterfaceMember in E. apply E.
  - all_nodes ok_MixinMember I_MixinMember; [exact Plain_e_MixinMembers|]. intros n ts ts' t E. eapply S_MixinMember in E. apply E.
  - all_nodes ok_NamespaceMember I_NamespaceMember; [exact Plain_e_NamespaceMembers|]. intros n ts ts' t E. eapply S_NamespaceMember in E. apply E.
  - all_nodes ok_DictionaryMember I_DictionaryMember; [exact Plain_e_DictionaryMembers|]. intros n ts ts' t E. eapply S_DictionaryMember in E. apply E.
  - all_nodes ok_Definition I_Definition; [exact e_Definition_Plain|]. intros n ts ts' t E. eapply S_Definition in E. apply E.
  - all_nodes ok_Definitions I_Definitions; [exact P_Defs|]. intros n ts ts' t E. eapply S_Definitions in E. apply E.
Qed.

Section Facts.
  Context {A : Type} {p : pexp A} {nodes : A -> list node} (T : Tree A p nodes) {s rest : text} {a : A} (E : parse_as p s = Ok rest a).
  Lemma Tree_In x : In x (nodes a) -> node_ok x.
  Proof. pose proof (Tree_ok _ _ _ _ _ _ T E) as H. rewrite Forall_forall in H. apply H. Qed.
End Facts.
Lemma default_optional A (p : pexp A) nodes : Tree A p nodes -> forall s rest a, parse_as p s = Ok rest a ->
  forall at_ o t i d, In (NArgument (Argument_Single (mkSingleArgument at_ o t i (Some d)))) (nodes a) -> o <> None.
Proof. intros T s rest a E at_ o t i d HI. apply (Tree_In T E) in HI as [HI _]. apply HI. discriminate. Qed.
Lemma argument_attributes A (p : pexp A) nodes : Tree A p nodes -> forall s rest a, parse_as p s = Ok rest a ->
  forall ta t i d, In (NArgument (Argument_Single (mkSingleArgument None None (mkAttributedType ta t) i d))) (nodes a) -> ta = None.
Proof. intros T s rest a E ta t i d HI. apply (Tree_In T E) in HI as [_ HI]. auto. Qed.
Lemma record_keys A (p : pexp A) nodes : Tree A p nodes -> forall s rest a, parse_as p s = Ok rest a ->
  forall x, In (NRecordKey (RecordKeyType_NonAny x)) (nodes a) ->
  (forall m, x <> NonAnyType_ByteString m) /\ (forall m, x <> NonAnyType_DOMString m) /\ (forall m, x <> NonAnyType_USVString m).
Proof. intros T s rest a E x HI. apply (Tree_In T E) in HI. cbn in HI. destruct x; repeat split; try discriminate; destruct HI. Qed.
