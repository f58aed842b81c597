(** * The size of trees is linear in the number of tokens *)
From Coq Require Import String Ascii NArith Arith Bool List Lia.
From Verif Require Import Nom Lex Ast Grammar Spec LexFacts NumFacts TokFacts RunFacts Shapes TermFacts Api ApiFacts LexProps
  Tok TokRun TokSound TokComplete TokMembers Shows Exact Data.
Import ListNotations.
Open Scope list_scope.

(** Number of nodes: a node for every struct, enum, [Vec], [Option], pair, [bool] and [&str] (terminals are left out unless
    they are optional, see Ast.v). *)
Fixpoint size (d : data) : nat :=
  match d with
  | Node _ l => S (list_sum (map size l))
  | Text _ => 1
  end.

(** Elements of concrete syntax that cannot be left out. *)
Fixpoint glen (g : list gtok) : nat :=
  match g with
  | [] => 0
  | GOptComma :: g' => glen g'
  | _ :: g' => S (glen g')
  end.
Lemma glen_app g h : glen (g ++ h) = glen g + glen h.
Proof. induction g as [|[] g IH]; cbn; auto. Qed.
Lemma Conc_glen g i r : Conc g i r -> glen g + length r <= length i.
Proof. induction 1; cbn; lia. Qed.

Lemma size_Node i l : size (Node i l) = S (list_sum (map size l)).
Proof. reflexivity. Qed.
Lemma list_join {A} (f : A -> data) (g : A -> list gtok) sep l : Forall (fun x => size (f x) <= 10 * glen (g x)) l ->
  size (d_list f l) <= 1 + 10 * glen (join sep (map g l)).
Proof.
  intros H. unfold d_list. rewrite size_Node. cut (list_sum (map size (map f l)) <= 10 * glen (join sep (map g l))); [lia|].
  induction H as [|x l Hx Hl IH]; [cbn; auto|]. destruct l as [|y l].
  - cbn [map join]. cbn [list_sum fold_right]. unfold list_sum. cbn. lia.
  - change (join sep (map g (x :: y :: l))) with (g x ++ sep :: join sep (map g (y :: l))). rewrite glen_app.
    change (list_sum (map size (map f (x :: y :: l)))) with (size (f x) + list_sum (map size (map f (y :: l)))).
    assert (glen (join sep (map g (y :: l))) <= glen (sep :: join sep (map g (y :: l)))) by (destruct sep; cbn; lia). lia.
Qed.
Lemma list_flat {A} (f : A -> data) (g : A -> list gtok) l : Forall (fun x => size (f x) <= 10 * glen (g x)) l ->
  size (d_list f l) <= 1 + 10 * glen (flat_map g l).
Proof.
  intros H. unfold d_list. rewrite size_Node. cut (list_sum (map size (map f l)) <= 10 * glen (flat_map g l)); [lia|].
  induction H as [|x l Hx Hl IH]; [cbn; auto|]. cbn [flat_map]. rewrite glen_app.
  change (list_sum (map size (map f (x :: l)))) with (size (f x) + list_sum (map size (map f l))). lia.
Qed.
Lemma list_texts (l : list text) g sep : (forall x, glen (g x) = 1) -> size (d_list d_text l) <= 1 + 10 * glen (join sep (map g l)).
Proof. intros H. apply list_join. apply Forall_forall. intros x _. rewrite H. cbn. lia. Qed.
Lemma size_opt_kw q s : size (d_option d_unit q) <= 1 + glen (opt_kw q s).
Proof. destruct q as [[]|]; cbn; lia. Qed.
Lemma size_opt_q q : size (d_option d_unit q) <= 1 + glen (opt_q q).
Proof. destruct q as [[]|]; cbn; lia. Qed.
Lemma size_text s : size (d_text s) = 1. Proof. reflexivity. Qed.
Lemma size_kw_null s m : size (d_null d_unit m) + 6 <= 10 * glen (show_kw_null s m).
Proof. destruct m as [[] [[]|]]; cbn; lia. Qed.
Lemma size_DefaultValue v : size (data_DefaultValue v) <= 10 * glen (show_DefaultValue v).
Proof. destruct v as [[]| | |[]|[]| |]; cbn; lia. Qed.
Lemma size_default v : size (d_option data_DefaultValue v) <= 1 + 10 * glen (show_default v).
Proof. destruct v as [v|]; cbn; [|lia]. pose proof (size_DefaultValue v). lia. Qed.
Lemma size_ConstValue v : size (data_ConstValue v) <= 10 * glen (show_ConstValue v).
Proof. destruct v as [[]|[]|[]|]; cbn; lia. Qed.
Lemma size_IntegerType t : size (d_null data_IntegerType t) + 5 <= 10 * glen (show_null show_IntegerType t).
Proof. destruct t as [[[[[]|]]|[[[]|]]|[[[]|]]] [[]|]]; cbn; lia. Qed.
Lemma size_FloatingPointType t : size (d_null data_FloatingPointType t) + 5 <= 10 * glen (show_null show_FloatingPointType t).
Proof. destruct t as [[[[[]|]]|[[[]|]]] [[]|]]; cbn; lia. Qed.
Lemma size_name_null bad t : size (d_null d_text t) + 6 <= 10 * glen (show_null (fun n => [GTy bad n]) t).
Proof. destruct t as [n [[]|]]; cbn; lia. Qed.
Ltac nodes :=
  repeat (progress (rewrite ?size_Node, ?glen_app; unfold list_sum; cbn [map fold_right app glen])); rewrite ?size_text.
Lemma size_ConstType t : size (data_ConstType t) <= 10 * glen (show_ConstType t).
Proof.
  destruct t as [m|m|m|m|m|m]; cbn [data_ConstType show_ConstType]; 
    [pose proof (size_IntegerType m)|pose proof (size_FloatingPointType m)|pose proof (size_kw_null "boolean" m)|
     pose proof (size_kw_null "byte" m)|pose proof (size_kw_null "octet" m)|pose proof (size_name_null const_words m)]; nodes; lia.
Qed.

Ltac elems := match goal with |- Forall _ ?l => revert l; let IH := fresh in fix IH 1; intros [|? ?]; constructor; [|apply IH] end.

(** [size_attributes], stated for the recursion. *)
Lemma size_attrs_at (a : option (list ExtendedAttribute)) :
  match a with Some l => Forall (fun x => size (data_ExtendedAttribute x) <= 10 * glen (show_ExtendedAttribute x)) l | None => True end ->
  size (d_option (d_list data_ExtendedAttribute) a) <=
  1 + 10 * glen (match a with Some l => GP "[" :: join (GP ",") (map show_ExtendedAttribute l) ++ [GP "]"] | None => [] end).
Proof.
  destruct a as [l|]; intros H; [|cbn; lia]. apply (list_join _ _ (GP ",")) in H. cbn [d_option]. nodes. lia.
Qed.

Ltac attrs a rec :=
  assert (Ha : size (d_option (d_list data_ExtendedAttribute) a) <= 1 + 10 * glen (show_attributes a))
    by (apply size_attrs_at; destruct a as [l0|]; [elems; apply rec|exact I]); destruct a as [l0|]; cbn [show_attributes glen] in Ha; rewrite ?glen_app in Ha; cbn [glen] in Ha.

Fixpoint size_Type bad (t : Type_) {struct t} : size (data_Type t) + 2 <= 10 * glen (show_Type bad t)
with size_SingleType bad (t : SingleType) {struct t} : size (data_SingleType t) + 3 <= 10 * glen (show_SingleType bad t)
with size_NonAnyType bad (t : NonAnyType) {struct t} : size (data_NonAnyType t) + 4 <= 10 * glen (show_NonAnyType bad t)
with size_SequenceType (t : SequenceType) {struct t} : size (data_SequenceType t) + 20 <= 10 * glen (show_SequenceType t)
with size_FrozenArrayType (t : FrozenArrayType) {struct t} : size (data_FrozenArrayType t) + 20 <= 10 * glen (show_FrozenArrayType t)
with size_PromiseType (t : PromiseType) {struct t} : size (data_PromiseType t) + 20 <= 10 * glen (show_PromiseType t)
with size_RecordType (t : RecordType) {struct t} : size (data_RecordType t) + 20 <= 10 * glen (show_RecordType t)
with size_RecordKeyType (t : RecordKeyType) {struct t} : size (data_RecordKeyType t) + 3 <= 10 * glen (show_RecordKeyType t)
with size_UnionMemberType (t : UnionMemberType) {struct t} : size (data_UnionMemberType t) + 1 <= 10 * glen (show_UnionMemberType t)
with size_ReturnType bad (t : ReturnType) {struct t} : size (data_ReturnType t) + 1 <= 10 * glen (show_ReturnType bad t)
with size_AttributedType bad (t : AttributedType) {struct t} : size (data_AttributedType t) <= 10 * glen (show_AttributedType bad t)
with size_ExtendedAttribute (t : ExtendedAttribute) {struct t} : size (data_ExtendedAttribute t) <= 10 * glen (show_ExtendedAttribute t)
with size_Argument (t : Argument) {struct t} : size (data_Argument t) <= 10 * glen (show_Argument t).
Proof.
  - destruct t as [x|[l q]]; cbn [data_Type show_Type d_null].
    + pose proof (size_SingleType bad x). nodes. lia.
    + assert (H : Forall (fun x => size (data_UnionMemberType x) <= 10 * glen (show_UnionMemberType x)) l)
        by (elems; match goal with |- size (_ ?x) <= _ => pose proof (size_UnionMemberType x) end; lia).
      apply (list_join _ _ (GKw "or")) in H. pose proof (size_opt_q q). nodes. lia.
  - destruct t as [|x]; cbn [data_SingleType show_SingleType]; [cbn; lia|].
    pose proof (size_NonAnyType ("any"%string :: bad) x). nodes. lia.
  - destruct t as [x|m|m|m|m|m|m|m|m|[x q]|m|m|m|m|m|m|m|m|m|m|m|m|m|m|m|m|[x q]|[x q]|m]; cbn [data_NonAnyType show_NonAnyType d_null];
      try (pose proof (size_opt_q q));
      try (match goal with |- context [show_kw_null ?s m] => pose proof (size_kw_null s m) end).
    all: try solve [nodes; lia].
    + pose proof (size_PromiseType x). nodes. lia.
    + pose proof (size_IntegerType m). nodes. lia.
    + pose proof (size_FloatingPointType m). nodes. lia.
    + pose proof (size_SequenceType x). nodes. lia.
    + pose proof (size_FrozenArrayType x). nodes. lia.
    + pose proof (size_RecordType x). nodes. lia.
    + pose proof (size_name_null (type_words ++ bad) m). nodes. lia.
  - destruct t as [x]; cbn [data_SequenceType show_SequenceType]. pose proof (size_Type [] x). nodes. lia.
  - destruct t as [x]; cbn [data_FrozenArrayType show_FrozenArrayType]. pose proof (size_Type [] x). nodes. lia.
  - destruct t as [x]; cbn [data_PromiseType show_PromiseType]. pose proof (size_ReturnType [] x). nodes. lia.
  - destruct t as [k x]; cbn [data_RecordType show_RecordType]. pose proof (size_Type [] x). pose proof (size_RecordKeyType k). nodes. lia.
  - destruct t as [| | |x]; cbn [data_RecordKeyType show_RecordKeyType]; try (cbn; lia). pose proof (size_NonAnyType [] x). nodes. lia.
  - destruct t as [[a x]|[l q]]; cbn [data_UnionMemberType data_AttributedNonAnyType show_UnionMemberType d_null].
    + pose proof (size_NonAnyType [] x). attrs a size_ExtendedAttribute; nodes; lia.
    + assert (H : Forall (fun x => size (data_UnionMemberType x) <= 10 * glen (show_UnionMemberType x)) l)
        by (elems; match goal with |- size (_ ?x) <= _ => pose proof (size_UnionMemberType x) end; lia).
      apply (list_join _ _ (GKw "or")) in H. pose proof (size_opt_q q). nodes. lia.
  - destruct t as [|x]; cbn [data_ReturnType show_ReturnType]; [cbn; lia|]. pose proof (size_Type ("undefined"%string :: bad) x). nodes. lia.
  - destruct t as [a x]; cbn [data_AttributedType show_AttributedType]. pose proof (size_Type [] x). pose proof (size_Type bad x).
    attrs a size_ExtendedAttribute; nodes; lia.
  - destruct t as [[i l]|[i j l]|[i l]|[i [x|x]]|[i]|i]; cbn [data_ExtendedAttribute data_ExtendedAttributeArgList data_ExtendedAttributeNamedArgList
      data_ExtendedAttributeIdentList data_ExtendedAttributeIdent data_ExtendedAttributeWildCard data_IdentifierOrString show_ExtendedAttribute show_IdentifierOrString].
    + assert (H : Forall (fun x => size (data_Argument x) <= 10 * glen (show_Argument x)) l) by (elems; apply size_Argument).
      apply (list_join _ _ (GP ",")) in H. nodes. lia.
    + assert (H : Forall (fun x => size (data_Argument x) <= 10 * glen (show_Argument x)) l) by (elems; apply size_Argument).
      apply (list_join _ _ (GP ",")) in H. nodes. lia.
    + pose proof (list_texts l (fun n => [GId [] n]) (GP ",") (fun _ => eq_refl)). nodes. lia.
    + nodes. lia.
    + nodes. lia.
    + nodes. lia.
    + nodes. lia.
  - destruct t as [[a o t i d]|[a t i]]; cbn [data_Argument data_SingleArgument data_VariadicArgument show_Argument].
    + pose proof (size_AttributedType (unless o ["optional"%string]) t). pose proof (size_opt_kw o "optional").
      pose proof (size_default d). unfold name_after. attrs a size_ExtendedAttribute; nodes; lia.
    + pose proof (size_Type [] t). attrs a size_ExtendedAttribute; nodes; lia.
Qed.

Lemma size_attributes a : size (d_option (d_list data_ExtendedAttribute) a) <= 1 + 10 * glen (show_attributes a).
Proof. apply size_attrs_at. destruct a; auto. apply Forall_forall. intros x _. apply size_ExtendedAttribute. Qed.
Lemma size_args l : size (d_list data_Argument l) + 19 <= 10 * glen (show_args l).
Proof.
  assert (H : Forall (fun x => size (data_Argument x) <= 10 * glen (show_Argument x)) l) by (apply Forall_forall; intros; apply size_Argument).
  apply (list_join _ _ (GP ",")) in H. unfold show_args. nodes. lia.
Qed.
Lemma size_opt_args l : size (d_option (d_list data_Argument) l) <= 1 + 10 * glen (show_opt_args l).
Proof. destruct l as [l|]; cbn [d_option show_opt_args]; [pose proof (size_args l)|]; nodes; lia. Qed.
Lemma size_opt_name b n : size (d_option d_text n) <= 1 + 10 * glen (show_opt_name b n).
Proof. destruct n; cbn; lia. Qed.
Lemma size_inheritance h : size (d_option data_Inheritance h) <= 1 + 10 * glen (show_inheritance h).
Proof. destruct h as [[]|]; cbn; lia. Qed.
Lemma size_SIS m : size (d_option data_StringifierOrInheritOrStatic m) <= 1 + 10 * glen (show_SIS m).
Proof. destruct m as [[]|]; cbn; lia. Qed.
Lemma size_SS m : size (d_option data_StringifierOrStatic m) <= 1 + 10 * glen (show_SS m).
Proof. destruct m as [[]|]; cbn; lia. Qed.
Lemma size_Special m : size (d_option data_Special m) <= 1 + 10 * glen (show_Special m).
Proof. destruct m as [[]|]; cbn; lia. Qed.
Lemma size_body {A} (f : A -> data) g l : (forall x, size (f x) <= 10 * glen (g x)) -> size (d_list f l) + 19 <= 10 * glen (show_body g l).
Proof.
  intros H. assert (H' : Forall (fun x => size (f x) <= 10 * glen (g x)) l) by (apply Forall_forall; auto).
  apply list_flat in H'. unfold show_body. nodes. lia.
Qed.
Lemma size_one t : size (data_AttributedType t) + 20 <= 10 * glen (show_one t).
Proof. unfold show_one. pose proof (size_AttributedType [] t). nodes. lia. Qed.
Lemma size_pair t : size (d_pair data_AttributedType data_AttributedType t) + 20 <= 10 * glen (show_pair t).
Proof.
  destruct t as [t u]. unfold show_pair. cbn [d_pair fst snd]. pose proof (size_AttributedType [] t). pose proof (size_AttributedType [] u).
  nodes. lia.
Qed.

(** The parts of the tree in the goal. *)
Ltac pose1 H := let T := type of H in match goal with _ : T |- _ => fail 1 | _ => pose proof H end.
Ltac facts :=
  repeat match goal with
  | |- context [show_attributes ?a] => pose1 (size_attributes a)
  | |- context [show_args ?a] => pose1 (size_args a)
  | |- context [show_opt_args ?a] => pose1 (size_opt_args a)
  | |- context [show_opt_name ?b ?a] => pose1 (size_opt_name b a)
  | |- context [show_inheritance ?a] => pose1 (size_inheritance a)
  | |- context [show_SIS ?a] => pose1 (size_SIS a)
  | |- context [show_SS ?a] => pose1 (size_SS a)
  | |- context [show_Special ?a] => pose1 (size_Special a)
  | |- context [show_one ?a] => pose1 (size_one a)
  | |- context [show_pair ?a] => pose1 (size_pair a)
  | |- context [show_default ?a] => pose1 (size_default a)
  | |- context [show_ConstType ?a] => pose1 (size_ConstType a)
  | |- context [show_ConstValue ?a] => pose1 (size_ConstValue a)
  | |- context [show_Type ?b ?a] => pose1 (size_Type b a)
  | |- context [show_ReturnType ?b ?a] => pose1 (size_ReturnType b a)
  | |- context [show_AttributedType ?b ?a] => pose1 (size_AttributedType b a)
  | |- context [opt_kw ?a ?s] => pose1 (size_opt_kw a s)
  end.
Ltac member := facts; unfold name_after; nodes; lia.

Lemma size_ConstMember m : size (data_ConstMember m) + 5 <= 10 * glen (show_ConstMember m).
Proof. destruct m. cbn [data_ConstMember show_ConstMember]. member. Qed.
Lemma size_StringifierMember m : size (data_StringifierMember m) + 5 <= 10 * glen (show_StringifierMember m).
Proof. destruct m. cbn [data_StringifierMember show_StringifierMember]. member. Qed.
Lemma size_InterfaceMember m : size (data_InterfaceMember m) <= 10 * glen (show_InterfaceMember m).
Proof.
  destruct m as [x|x|x|x|x|x|x|x|x]; cbn [data_InterfaceMember show_InterfaceMember].
  - pose proof (size_ConstMember x). member.
  - destruct x. cbn [data_AttributeInterfaceMember show_AttributeInterfaceMember]. member.
  - destruct x. cbn [data_ConstructorInterfaceMember show_ConstructorInterfaceMember]. member.
  - destruct x. cbn [data_OperationInterfaceMember show_OperationInterfaceMember]. member.
  - destruct x as [[]|[]]; cbn [data_IterableInterfaceMember data_SingleTypedIterable data_DoubleTypedIterable show_IterableInterfaceMember]; member.
  - destruct x as [[]|[]]; cbn [data_AsyncIterableInterfaceMember data_SingleTypedAsyncIterable data_DoubleTypedAsyncIterable
      show_AsyncIterableInterfaceMember]; member.
  - destruct x. cbn [data_MaplikeInterfaceMember show_MaplikeInterfaceMember]. member.
  - destruct x. cbn [data_SetlikeInterfaceMember show_SetlikeInterfaceMember]. member.
  - pose proof (size_StringifierMember x). member.
Qed.
Lemma size_MixinMember m : size (data_MixinMember m) <= 10 * glen (show_MixinMember m).
Proof.
  destruct m as [x|[]|[]|x]; cbn [data_MixinMember data_OperationMixinMember data_AttributeMixinMember show_MixinMember].
  - pose proof (size_ConstMember x). member.
  - member.
  - member.
  - pose proof (size_StringifierMember x). member.
Qed.
Lemma size_NamespaceMember m : size (data_NamespaceMember m) <= 10 * glen (show_NamespaceMember m).
Proof.
  destruct m as [[]|[]|[]]; cbn [data_NamespaceMember data_ConstNamespaceMember data_OperationNamespaceMember data_AttributeNamespaceMember
    show_NamespaceMember]; member.
Qed.
Lemma size_DictionaryMember m : size (data_DictionaryMember m) <= 10 * glen (show_DictionaryMember m).
Proof. destruct m. cbn [data_DictionaryMember show_DictionaryMember]. member. Qed.
Lemma size_Definition m : size (data_Definition m) <= 10 * glen (show_Definition m).
Proof.
  pose proof (fun l => size_body _ _ l size_InterfaceMember) as B1. pose proof (fun l => size_body _ _ l size_MixinMember) as B2.
  pose proof (fun l => size_body _ _ l size_NamespaceMember) as B3. pose proof (fun l => size_body _ _ l size_DictionaryMember) as B4.
  destruct m as [[]|[]|[? ? ? l]|[? ? l]|[? ? l]|[? ? ? l]|[? ? l]|[? ? l]|[? ? l]|[? ? l]|[? ? l]|[]|[]|[]];
    cbn [data_Definition data_CallbackDefinition data_CallbackInterfaceDefinition data_InterfaceDefinition
         data_InterfaceMixinDefinition data_NamespaceDefinition data_DictionaryDefinition data_PartialInterfaceDefinition
         data_PartialInterfaceMixinDefinition data_PartialDictionaryDefinition data_PartialNamespaceDefinition data_EnumDefinition
         data_TypedefDefinition data_IncludesStatementDefinition data_ImplementsDefinition show_Definition];
    try (match goal with |- context [show_body ?f ?l] => first [pose1 (B1 l) | pose1 (B2 l) | pose1 (B3 l) | pose1 (B4 l)] end).
  all: try (pose proof (list_texts l (fun n => [GStr n]) (GP ",") (fun _ => eq_refl))).
  all: member.
Qed.

Theorem size_bound raw defs : parse raw = Parsed defs -> exists ts, Toks raw ts /\ size (data_Definitions defs) <= 1 + 10 * length ts.
Proof.
  intros H. apply parse_sound in H as (ts & HT & H & _). exists ts. split; auto. unfold Sentence in H. apply Conc_glen in H.
  assert (G : Forall (fun x => size (data_Definition x) <= 10 * glen (show_Definition x)) defs)
    by (apply Forall_forall; intros; apply size_Definition).
  apply list_flat in G. unfold data_Definitions, show_Definitions in *. cbn [length] in H. lia.
Qed.
Lemma Lay_length i ts r : Lay i ts r -> length ts + length r <= length i.
Proof.
  induction 1; [auto|]. pose proof (spell_nonempty _ H). rewrite !app_length. cbn [length]. destruct (spell t); [congruence|]. cbn. lia.
Qed.
Lemma Toks_length i ts : Toks i ts -> length ts <= length i.
Proof. intros (w & b & -> & _ & _ & H). apply Lay_length in H. rewrite app_length. lia. Qed.
Theorem size_linear raw defs : parse raw = Parsed defs -> size (data_Definitions defs) <= 1 + 10 * length raw.
Proof. intros H. apply size_bound in H as (ts & HT & H). apply Toks_length in HT. lia. Qed.
