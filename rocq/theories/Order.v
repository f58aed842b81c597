(** * The derived comparison is a total order whose equality is equality of trees *)
From Coq Require Import String Ascii NArith Arith Bool List Lia.
From Verif Require Import Nom Lex Ast Grammar Spec Bytes Utf8 Data.
Import ListNotations.
Open Scope list_scope.

(** ** [cmp] is a total order *)
Fixpoint data_ind' (P : data -> Prop) (H1 : forall i l, Forall P l -> P (Node i l)) (H2 : forall s, P (Text s)) (d : data) : P d :=
  match d with
  | Node i l => H1 i l ((fix go l : Forall P l := match l with [] => Forall_nil _ | x :: l' => Forall_cons x (data_ind' P H1 H2 x) (go l') end) l)
  | Text s => H2 s
  end.

Fixpoint cmps (l m : list data) : comparison :=
  match l, m with
  | [], [] => Eq
  | [], _ :: _ => Lt
  | _ :: _, [] => Gt
  | x :: l', y :: m' => match cmp x y with Eq => cmps l' m' | c => c end
  end.
Lemma cmp_Node i l j m : cmp (Node i l) (Node j m) = match Nat.compare i j with Eq => cmps l m | c => c end.
Proof. reflexivity. Qed.

Lemma cmp_text_Eq s t : cmp_text s t = Eq <-> s = t.
Proof.
  revert t. induction s as [|c s IH]; intros [|d t]; cbn; try (split; [discriminate|discriminate]); [tauto|].
  destruct (N.compare_spec c d) as [->|H|H].
  - rewrite IH. split; [intros ->|intros [= ->]]; auto.
  - split; [discriminate|intros [= -> _]; lia].
  - split; [discriminate|intros [= -> _]; lia].
Qed.
Lemma cmp_text_opp s t : cmp_text t s = CompOpp (cmp_text s t).
Proof.
  revert t. induction s as [|c s IH]; intros [|d t]; cbn; auto. rewrite (N.compare_antisym c d).
  destruct (N.compare c d); cbn; auto.
Qed.
Lemma cmp_text_trans s t u : cmp_text s t = Lt -> cmp_text t u = Lt -> cmp_text s u = Lt.
Proof.
  revert t u. induction s as [|c s IH]; intros [|d t] [|e u]; cbn; try discriminate; auto.
  destruct (N.compare_spec c d) as [->|H|H]; destruct (N.compare_spec d e) as [->|H'|H']; try discriminate; intros; auto.
  - eauto.
  - apply N.compare_lt_iff in H. rewrite H. auto.
  - assert (H2 : (c < e)%N) by lia. apply N.compare_lt_iff in H2. rewrite H2. auto.
Qed.

Lemma cmp_Eq a b : cmp a b = Eq <-> a = b.
Proof.
  revert b. induction a as [i l IH|s] using data_ind'; intros [j m|t]; try (split; discriminate).
  - rewrite cmp_Node. destruct (Nat.compare_spec i j) as [->|H|H]; try (split; [discriminate|intros [= -> _]; lia]).
    assert (G : cmps l m = Eq <-> l = m).
    { revert m. induction IH as [|x l Hx Hl IH]; intros [|y m]; cbn; try (split; discriminate); [tauto|].
      destruct (cmp x y) eqn:E.
      - apply Hx in E. subst y. rewrite IH. split; [intros ->|intros [= ->]]; auto.
      - split; [discriminate|]. intros [= -> _]. assert (cmp y y = Eq) by (apply Hx; auto). congruence.
      - split; [discriminate|]. intros [= -> _]. assert (cmp y y = Eq) by (apply Hx; auto). congruence. }
    rewrite G. split; [intros ->|intros [= ->]]; auto.
  - cbn. rewrite cmp_text_Eq. split; [intros ->|intros [= ->]]; auto.
Qed.
Lemma cmp_opp a b : cmp b a = CompOpp (cmp a b).
Proof.
  revert b. induction a as [i l IH|s] using data_ind'; intros [j m|t]; auto.
  - rewrite !cmp_Node. rewrite (Nat.compare_antisym i j). destruct (Nat.compare i j); cbn; auto.
    revert m. induction IH as [|x l Hx Hl IH]; intros [|y m]; cbn; auto. rewrite Hx. destruct (cmp x y); cbn; auto.
  - cbn. apply cmp_text_opp.
Qed.
Lemma cmp_trans a b c : cmp a b = Lt -> cmp b c = Lt -> cmp a c = Lt.
Proof.
  revert b c. induction a as [i l IH|s] using data_ind'; intros [j m|t] [k n|u]; try discriminate; auto.
  - rewrite !cmp_Node. destruct (Nat.compare_spec i j) as [->|H|H]; destruct (Nat.compare_spec j k) as [->|H'|H']; try discriminate; intros Ha Hb.
    + revert m n Ha Hb. induction IH as [|x l Hx Hl IH]; intros [|y m] [|z n]; cbn; try discriminate; auto.
      destruct (cmp x y) eqn:E1; destruct (cmp y z) eqn:E2; try discriminate; intros Ha Hb.
      * apply cmp_Eq in E1. apply cmp_Eq in E2. subst. rewrite (proj2 (cmp_Eq z z) eq_refl). eauto.
      * apply cmp_Eq in E1. subst. rewrite E2. auto.
      * apply cmp_Eq in E2. subst. rewrite E1. auto.
      * rewrite (Hx _ _ E1 E2). auto.
    + auto.
    + apply Nat.compare_lt_iff in H. rewrite H. auto.
    + assert (H2 : i < k) by lia. apply Nat.compare_lt_iff in H2. rewrite H2. auto.
  - cbn. apply cmp_text_trans.
Qed.

(** ** Different trees are different data *)
Definition injat {A} (f : A -> data) (a : A) : Prop := forall b, f a = f b -> a = b.

Lemma Node_inj i l j m : Node i l = Node j m -> l = m.
Proof. intros [= _ H]. auto. Qed.
Lemma cons_inj {A} (x y : A) l m : x :: l = y :: m -> x = y /\ l = m.
Proof. intros [= H1 H2]. auto. Qed.

Lemma at_text s : injat d_text s.
Proof. intros t [= H]. auto. Qed.
Lemma at_bool s : injat d_bool s.
Proof. intros t. destruct s, t; intros [=]; auto. Qed.
Lemma at_unit s : injat d_unit s.
Proof. intros t. destruct s, t; auto. Qed.
Lemma at_option {A} (f : A -> data) o : match o with None => True | Some x => injat f x end -> injat (d_option f) o.
Proof. intros H [y|] E; destruct o as [x|]; cbn in E; try discriminate; auto. apply Node_inj, cons_inj in E as [E _]. f_equal. auto. Qed.
Lemma at_list {A} (f : A -> data) l : Forall (injat f) l -> injat (d_list f) l.
Proof.
  intros H m E. apply Node_inj in E. revert m E. induction H as [|x l Hx Hl IH]; intros [|y m] E; try discriminate; auto.
  cbn [map] in E. apply cons_inj in E as [E1 E2]. f_equal; auto.
Qed.
Lemma at_pair {A B} (f : A -> data) (g : B -> data) x : injat f (fst x) -> injat g (snd x) -> injat (d_pair f g) x.
Proof.
  destruct x as [a b]. intros Ha Hb [a' b'] E. apply Node_inj, cons_inj in E as [E1 E2]. apply cons_inj in E2 as [E2 _].
  f_equal; auto.
Qed.
Lemma at_null {T : Set} (f : T -> data) t q : injat f t -> injat (d_null f) (mkMayBeNull t q).
Proof.
  intros Ha [t' q'] E. apply Node_inj, cons_inj in E as [E1 E2]. apply cons_inj in E2 as [E2 _].
  f_equal; [apply Ha; auto|]. revert E2. apply at_option. destruct q; auto. apply at_unit.
Qed.

(** The goal [injat f a], with the lemmas for the parts from [base]. *)
Ltac parts base :=
  lazymatch goal with
  | |- injat (d_option _) ?o => apply at_option; destruct o; [parts base|exact I]
  | |- injat (d_list _) ?l =>
      apply at_list; revert l; let IH := fresh in fix IH 1; intros [|? ?]; constructor; [parts base|apply IH]
  | |- injat (d_pair _ _) ?x => apply at_pair; parts base
  | |- injat (d_null _) ?x => destruct x; apply at_null; parts base
  | |- injat d_text _ => apply at_text
  | |- injat d_bool _ => apply at_bool
  | |- injat d_unit _ => apply at_unit
  | |- _ => base
  end.
Ltac recs := first [match goal with H : forall t, injat ?f t |- injat ?f _ => apply H end | auto with inj].
Ltac fields base E :=
  lazymatch type of E with
  | [] = [] => clear E
  | ?f ?x :: _ = ?f ?y :: _ =>
      let E1 := fresh in apply cons_inj in E as [E1 E];
      let H := fresh in assert (H : injat f x); [clear E E1; parts base|apply H in E1; clear H; subst; fields base E]
  end.
Ltac node base := let E := fresh in intro E; try discriminate E; apply Node_inj in E; fields base E; reflexivity.
Lemma inj_IntegerLit t : injat data_IntegerLit t.
Proof. intros u. destruct t, u; cbn [data_IntegerLit]; node ltac:(auto with inj). Qed.
#[export] Hint Resolve inj_IntegerLit : inj.
Lemma inj_FloatLit t : injat data_FloatLit t.
Proof. intros u. destruct t, u; cbn [data_FloatLit]; node ltac:(auto with inj). Qed.
#[export] Hint Resolve inj_FloatLit : inj.
Lemma inj_DefaultValue t : injat data_DefaultValue t.
Proof. intros u. destruct t, u; cbn [data_DefaultValue]; node ltac:(auto with inj). Qed.
#[export] Hint Resolve inj_DefaultValue : inj.
Lemma inj_ConstValue t : injat data_ConstValue t.
Proof. intros u. destruct t, u; cbn [data_ConstValue]; node ltac:(auto with inj). Qed.
#[export] Hint Resolve inj_ConstValue : inj.
Lemma inj_LongLongType t : injat data_LongLongType t.
Proof. intros u. destruct t, u; cbn [data_LongLongType]; node ltac:(auto with inj). Qed.
#[export] Hint Resolve inj_LongLongType : inj.
Lemma inj_LongType t : injat data_LongType t.
Proof. intros u. destruct t, u; cbn [data_LongType]; node ltac:(auto with inj). Qed.
#[export] Hint Resolve inj_LongType : inj.
Lemma inj_ShortType t : injat data_ShortType t.
Proof. intros u. destruct t, u; cbn [data_ShortType]; node ltac:(auto with inj). Qed.
#[export] Hint Resolve inj_ShortType : inj.
Lemma inj_IntegerType t : injat data_IntegerType t.
Proof. intros u. destruct t, u; cbn [data_IntegerType]; node ltac:(auto with inj). Qed.
#[export] Hint Resolve inj_IntegerType : inj.
Lemma inj_FloatType t : injat data_FloatType t.
Proof. intros u. destruct t, u; cbn [data_FloatType]; node ltac:(auto with inj). Qed.
#[export] Hint Resolve inj_FloatType : inj.
Lemma inj_DoubleType t : injat data_DoubleType t.
Proof. intros u. destruct t, u; cbn [data_DoubleType]; node ltac:(auto with inj). Qed.
#[export] Hint Resolve inj_DoubleType : inj.
Lemma inj_FloatingPointType t : injat data_FloatingPointType t.
Proof. intros u. destruct t, u; cbn [data_FloatingPointType]; node ltac:(auto with inj). Qed.
#[export] Hint Resolve inj_FloatingPointType : inj.
Lemma inj_ConstType t : injat data_ConstType t.
Proof. intros u. destruct t, u; cbn [data_ConstType]; node ltac:(auto with inj). Qed.
#[export] Hint Resolve inj_ConstType : inj.
Lemma inj_IdentifierOrString t : injat data_IdentifierOrString t.
Proof. intros u. destruct t, u; cbn [data_IdentifierOrString]; node ltac:(auto with inj). Qed.
#[export] Hint Resolve inj_IdentifierOrString : inj.
Lemma inj_ExtendedAttributeIdentList t : injat data_ExtendedAttributeIdentList t.
Proof. intros u. destruct t, u; cbn [data_ExtendedAttributeIdentList]; node ltac:(auto with inj). Qed.
#[export] Hint Resolve inj_ExtendedAttributeIdentList : inj.
Lemma inj_ExtendedAttributeIdent t : injat data_ExtendedAttributeIdent t.
Proof. intros u. destruct t, u; cbn [data_ExtendedAttributeIdent]; node ltac:(auto with inj). Qed.
#[export] Hint Resolve inj_ExtendedAttributeIdent : inj.
Lemma inj_ExtendedAttributeWildCard t : injat data_ExtendedAttributeWildCard t.
Proof. intros u. destruct t, u; cbn [data_ExtendedAttributeWildCard]; node ltac:(auto with inj). Qed.
#[export] Hint Resolve inj_ExtendedAttributeWildCard : inj.
(** The types that contain each other. *)
Fixpoint inj_Type (t : Type_) {struct t} : injat data_Type t
with inj_SingleType (t : SingleType) {struct t} : injat data_SingleType t
with inj_NonAnyType (t : NonAnyType) {struct t} : injat data_NonAnyType t
with inj_SequenceType (t : SequenceType) {struct t} : injat data_SequenceType t
with inj_FrozenArrayType (t : FrozenArrayType) {struct t} : injat data_FrozenArrayType t
with inj_PromiseType (t : PromiseType) {struct t} : injat data_PromiseType t
with inj_RecordType (t : RecordType) {struct t} : injat data_RecordType t
with inj_RecordKeyType (t : RecordKeyType) {struct t} : injat data_RecordKeyType t
with inj_UnionMemberType (t : UnionMemberType) {struct t} : injat data_UnionMemberType t
with inj_ReturnType (t : ReturnType) {struct t} : injat data_ReturnType t
with inj_AttributedType (t : AttributedType) {struct t} : injat data_AttributedType t
with inj_AttributedNonAnyType (t : AttributedNonAnyType) {struct t} : injat data_AttributedNonAnyType t
with inj_ExtendedAttribute (t : ExtendedAttribute) {struct t} : injat data_ExtendedAttribute t
with inj_ExtendedAttributeArgList (t : ExtendedAttributeArgList) {struct t} : injat data_ExtendedAttributeArgList t
with inj_ExtendedAttributeNamedArgList (t : ExtendedAttributeNamedArgList) {struct t} : injat data_ExtendedAttributeNamedArgList t
with inj_Argument (t : Argument) {struct t} : injat data_Argument t
with inj_SingleArgument (t : SingleArgument) {struct t} : injat data_SingleArgument t
with inj_VariadicArgument (t : VariadicArgument) {struct t} : injat data_VariadicArgument t.
Proof.
  - intros u. destruct t, u; cbn [data_Type]; node ltac:(recs).
  - intros u. destruct t, u; cbn [data_SingleType]; node ltac:(recs).
  - intros u. destruct t, u; cbn [data_NonAnyType]; node ltac:(recs).
  - intros u. destruct t, u; cbn [data_SequenceType]; node ltac:(recs).
  - intros u. destruct t, u; cbn [data_FrozenArrayType]; node ltac:(recs).
  - intros u. destruct t, u; cbn [data_PromiseType]; node ltac:(recs).
  - intros u. destruct t, u; cbn [data_RecordType]; node ltac:(recs).
  - intros u. destruct t, u; cbn [data_RecordKeyType]; node ltac:(recs).
  - intros u. destruct t, u; cbn [data_UnionMemberType]; node ltac:(recs).
  - intros u. destruct t, u; cbn [data_ReturnType]; node ltac:(recs).
  - intros u. destruct t, u; cbn [data_AttributedType]; node ltac:(recs).
  - intros u. destruct t, u; cbn [data_AttributedNonAnyType]; node ltac:(recs).
  - intros u. destruct t, u; cbn [data_ExtendedAttribute]; node ltac:(recs).
  - intros u. destruct t, u; cbn [data_ExtendedAttributeArgList]; node ltac:(recs).
  - intros u. destruct t, u; cbn [data_ExtendedAttributeNamedArgList]; node ltac:(recs).
  - intros u. destruct t, u; cbn [data_Argument]; node ltac:(recs).
  - intros u. destruct t, u; cbn [data_SingleArgument]; node ltac:(recs).
  - intros u. destruct t, u; cbn [data_VariadicArgument]; node ltac:(recs).
Qed.
#[export] Hint Resolve inj_Type inj_SingleType inj_NonAnyType inj_SequenceType inj_FrozenArrayType inj_PromiseType inj_RecordType inj_RecordKeyType inj_UnionMemberType inj_ReturnType inj_AttributedType inj_AttributedNonAnyType inj_ExtendedAttribute inj_ExtendedAttributeArgList inj_ExtendedAttributeNamedArgList inj_Argument inj_SingleArgument inj_VariadicArgument : inj.
Lemma inj_Inheritance t : injat data_Inheritance t.
Proof. intros u. destruct t, u; cbn [data_Inheritance]; node ltac:(auto with inj). Qed.
#[export] Hint Resolve inj_Inheritance : inj.
Lemma inj_ConstMember t : injat data_ConstMember t.
Proof. intros u. destruct t, u; cbn [data_ConstMember]; node ltac:(auto with inj). Qed.
#[export] Hint Resolve inj_ConstMember : inj.
Lemma inj_Special t : injat data_Special t.
Proof. intros u. destruct t, u; cbn [data_Special]; node ltac:(auto with inj). Qed.
#[export] Hint Resolve inj_Special : inj.
Lemma inj_StringifierOrInheritOrStatic t : injat data_StringifierOrInheritOrStatic t.
Proof. intros u. destruct t, u; cbn [data_StringifierOrInheritOrStatic]; node ltac:(auto with inj). Qed.
#[export] Hint Resolve inj_StringifierOrInheritOrStatic : inj.
Lemma inj_StringifierOrStatic t : injat data_StringifierOrStatic t.
Proof. intros u. destruct t, u; cbn [data_StringifierOrStatic]; node ltac:(auto with inj). Qed.
#[export] Hint Resolve inj_StringifierOrStatic : inj.
Lemma inj_AttributeInterfaceMember t : injat data_AttributeInterfaceMember t.
Proof. intros u. destruct t, u; cbn [data_AttributeInterfaceMember]; node ltac:(auto with inj). Qed.
#[export] Hint Resolve inj_AttributeInterfaceMember : inj.
Lemma inj_ConstructorInterfaceMember t : injat data_ConstructorInterfaceMember t.
Proof. intros u. destruct t, u; cbn [data_ConstructorInterfaceMember]; node ltac:(auto with inj). Qed.
#[export] Hint Resolve inj_ConstructorInterfaceMember : inj.
Lemma inj_OperationInterfaceMember t : injat data_OperationInterfaceMember t.
Proof. intros u. destruct t, u; cbn [data_OperationInterfaceMember]; node ltac:(auto with inj). Qed.
#[export] Hint Resolve inj_OperationInterfaceMember : inj.
Lemma inj_SingleTypedIterable t : injat data_SingleTypedIterable t.
Proof. intros u. destruct t, u; cbn [data_SingleTypedIterable]; node ltac:(auto with inj). Qed.
#[export] Hint Resolve inj_SingleTypedIterable : inj.
Lemma inj_DoubleTypedIterable t : injat data_DoubleTypedIterable t.
Proof. intros u. destruct t, u; cbn [data_DoubleTypedIterable]; node ltac:(auto with inj). Qed.
#[export] Hint Resolve inj_DoubleTypedIterable : inj.
Lemma inj_IterableInterfaceMember t : injat data_IterableInterfaceMember t.
Proof. intros u. destruct t, u; cbn [data_IterableInterfaceMember]; node ltac:(auto with inj). Qed.
#[export] Hint Resolve inj_IterableInterfaceMember : inj.
Lemma inj_SingleTypedAsyncIterable t : injat data_SingleTypedAsyncIterable t.
Proof. intros u. destruct t, u; cbn [data_SingleTypedAsyncIterable]; node ltac:(auto with inj). Qed.
#[export] Hint Resolve inj_SingleTypedAsyncIterable : inj.
Lemma inj_DoubleTypedAsyncIterable t : injat data_DoubleTypedAsyncIterable t.
Proof. intros u. destruct t, u; cbn [data_DoubleTypedAsyncIterable]; node ltac:(auto with inj). Qed.
#[export] Hint Resolve inj_DoubleTypedAsyncIterable : inj.
Lemma inj_AsyncIterableInterfaceMember t : injat data_AsyncIterableInterfaceMember t.
Proof. intros u. destruct t, u; cbn [data_AsyncIterableInterfaceMember]; node ltac:(auto with inj). Qed.
#[export] Hint Resolve inj_AsyncIterableInterfaceMember : inj.
Lemma inj_MaplikeInterfaceMember t : injat data_MaplikeInterfaceMember t.
Proof. intros u. destruct t, u; cbn [data_MaplikeInterfaceMember]; node ltac:(auto with inj). Qed.
#[export] Hint Resolve inj_MaplikeInterfaceMember : inj.
Lemma inj_SetlikeInterfaceMember t : injat data_SetlikeInterfaceMember t.
Proof. intros u. destruct t, u; cbn [data_SetlikeInterfaceMember]; node ltac:(auto with inj). Qed.
#[export] Hint Resolve inj_SetlikeInterfaceMember : inj.
Lemma inj_StringifierMember t : injat data_StringifierMember t.
Proof. intros u. destruct t, u; cbn [data_StringifierMember]; node ltac:(auto with inj). Qed.
#[export] Hint Resolve inj_StringifierMember : inj.
Lemma inj_InterfaceMember t : injat data_InterfaceMember t.
Proof. intros u. destruct t, u; cbn [data_InterfaceMember]; node ltac:(auto with inj). Qed.
#[export] Hint Resolve inj_InterfaceMember : inj.
Lemma inj_OperationMixinMember t : injat data_OperationMixinMember t.
Proof. intros u. destruct t, u; cbn [data_OperationMixinMember]; node ltac:(auto with inj). Qed.
#[export] Hint Resolve inj_OperationMixinMember : inj.
Lemma inj_AttributeMixinMember t : injat data_AttributeMixinMember t.
Proof. intros u. destruct t, u; cbn [data_AttributeMixinMember]; node ltac:(auto with inj). Qed.
#[export] Hint Resolve inj_AttributeMixinMember : inj.
Lemma inj_MixinMember t : injat data_MixinMember t.
Proof. intros u. destruct t, u; cbn [data_MixinMember]; node ltac:(auto with inj). Qed.
#[export] Hint Resolve inj_MixinMember : inj.
Lemma inj_ConstNamespaceMember t : injat data_ConstNamespaceMember t.
Proof. intros u. destruct t, u; cbn [data_ConstNamespaceMember]; node ltac:(auto with inj). Qed.
#[export] Hint Resolve inj_ConstNamespaceMember : inj.
Lemma inj_OperationNamespaceMember t : injat data_OperationNamespaceMember t.
Proof. intros u. destruct t, u; cbn [data_OperationNamespaceMember]; node ltac:(auto with inj). Qed.
#[export] Hint Resolve inj_OperationNamespaceMember : inj.
Lemma inj_AttributeNamespaceMember t : injat data_AttributeNamespaceMember t.
Proof. intros u. destruct t, u; cbn [data_AttributeNamespaceMember]; node ltac:(auto with inj). Qed.
#[export] Hint Resolve inj_AttributeNamespaceMember : inj.
Lemma inj_NamespaceMember t : injat data_NamespaceMember t.
Proof. intros u. destruct t, u; cbn [data_NamespaceMember]; node ltac:(auto with inj). Qed.
#[export] Hint Resolve inj_NamespaceMember : inj.
Lemma inj_DictionaryMember t : injat data_DictionaryMember t.
Proof. intros u. destruct t, u; cbn [data_DictionaryMember]; node ltac:(auto with inj). Qed.
#[export] Hint Resolve inj_DictionaryMember : inj.
Lemma inj_CallbackDefinition t : injat data_CallbackDefinition t.
Proof. intros u. destruct t, u; cbn [data_CallbackDefinition]; node ltac:(auto with inj). Qed.
#[export] Hint Resolve inj_CallbackDefinition : inj.
Lemma inj_CallbackInterfaceDefinition t : injat data_CallbackInterfaceDefinition t.
Proof. intros u. destruct t, u; cbn [data_CallbackInterfaceDefinition]; node ltac:(auto with inj). Qed.
#[export] Hint Resolve inj_CallbackInterfaceDefinition : inj.
Lemma inj_InterfaceDefinition t : injat data_InterfaceDefinition t.
Proof. intros u. destruct t, u; cbn [data_InterfaceDefinition]; node ltac:(auto with inj). Qed.
#[export] Hint Resolve inj_InterfaceDefinition : inj.
Lemma inj_InterfaceMixinDefinition t : injat data_InterfaceMixinDefinition t.
Proof. intros u. destruct t, u; cbn [data_InterfaceMixinDefinition]; node ltac:(auto with inj). Qed.
#[export] Hint Resolve inj_InterfaceMixinDefinition : inj.
Lemma inj_NamespaceDefinition t : injat data_NamespaceDefinition t.
Proof. intros u. destruct t, u; cbn [data_NamespaceDefinition]; node ltac:(auto with inj). Qed.
#[export] Hint Resolve inj_NamespaceDefinition : inj.
Lemma inj_DictionaryDefinition t : injat data_DictionaryDefinition t.
Proof. intros u. destruct t, u; cbn [data_DictionaryDefinition]; node ltac:(auto with inj). Qed.
#[export] Hint Resolve inj_DictionaryDefinition : inj.
Lemma inj_PartialInterfaceDefinition t : injat data_PartialInterfaceDefinition t.
Proof. intros u. destruct t, u; cbn [data_PartialInterfaceDefinition]; node ltac:(auto with inj). Qed.
#[export] Hint Resolve inj_PartialInterfaceDefinition : inj.
Lemma inj_PartialInterfaceMixinDefinition t : injat data_PartialInterfaceMixinDefinition t.
Proof. intros u. destruct t, u; cbn [data_PartialInterfaceMixinDefinition]; node ltac:(auto with inj). Qed.
#[export] Hint Resolve inj_PartialInterfaceMixinDefinition : inj.
Lemma inj_PartialDictionaryDefinition t : injat data_PartialDictionaryDefinition t.
Proof. intros u. destruct t, u; cbn [data_PartialDictionaryDefinition]; node ltac:(auto with inj). Qed.
#[export] Hint Resolve inj_PartialDictionaryDefinition : inj.
Lemma inj_PartialNamespaceDefinition t : injat data_PartialNamespaceDefinition t.
Proof. intros u. destruct t, u; cbn [data_PartialNamespaceDefinition]; node ltac:(auto with inj). Qed.
#[export] Hint Resolve inj_PartialNamespaceDefinition : inj.
Lemma inj_EnumDefinition t : injat data_EnumDefinition t.
Proof. intros u. destruct t, u; cbn [data_EnumDefinition]; node ltac:(auto with inj). Qed.
#[export] Hint Resolve inj_EnumDefinition : inj.
Lemma inj_TypedefDefinition t : injat data_TypedefDefinition t.
Proof. intros u. destruct t, u; cbn [data_TypedefDefinition]; node ltac:(auto with inj). Qed.
#[export] Hint Resolve inj_TypedefDefinition : inj.
Lemma inj_IncludesStatementDefinition t : injat data_IncludesStatementDefinition t.
Proof. intros u. destruct t, u; cbn [data_IncludesStatementDefinition]; node ltac:(auto with inj). Qed.
#[export] Hint Resolve inj_IncludesStatementDefinition : inj.
Lemma inj_ImplementsDefinition t : injat data_ImplementsDefinition t.
Proof. intros u. destruct t, u; cbn [data_ImplementsDefinition]; node ltac:(auto with inj). Qed.
#[export] Hint Resolve inj_ImplementsDefinition : inj.
Lemma inj_Definition t : injat data_Definition t.
Proof. intros u. destruct t, u; cbn [data_Definition]; node ltac:(auto with inj). Qed.
#[export] Hint Resolve inj_Definition : inj.

(** ** All types *)
(** [Repr A f]: [A] is a type of the crate, or made of such types by [Option], [Vec], pairs and [MayBeNull], and [f] its
    [data_] function. *)
Inductive Repr : forall A : Set, (A -> data) -> Prop :=
| R_text : Repr text d_text
| R_bool : Repr bool d_bool
| R_unit : Repr unit d_unit
| R_option A f : Repr A f -> Repr (option A) (d_option f)
| R_list A f : Repr A f -> Repr (list A) (d_list f)
| R_pair A B f g : Repr A f -> Repr B g -> Repr (A * B) (d_pair f g)
| R_null A f : Repr A f -> Repr (MayBeNull A) (d_null f)
| R_IntegerLit : Repr IntegerLit data_IntegerLit
| R_FloatLit : Repr FloatLit data_FloatLit
| R_DefaultValue : Repr DefaultValue data_DefaultValue
| R_ConstValue : Repr ConstValue data_ConstValue
| R_LongLongType : Repr LongLongType data_LongLongType
| R_LongType : Repr LongType data_LongType
| R_ShortType : Repr ShortType data_ShortType
| R_IntegerType : Repr IntegerType data_IntegerType
| R_FloatType : Repr FloatType data_FloatType
| R_DoubleType : Repr DoubleType data_DoubleType
| R_FloatingPointType : Repr FloatingPointType data_FloatingPointType
| R_ConstType : Repr ConstType data_ConstType
| R_IdentifierOrString : Repr IdentifierOrString data_IdentifierOrString
| R_ExtendedAttributeIdentList : Repr ExtendedAttributeIdentList data_ExtendedAttributeIdentList
| R_ExtendedAttributeIdent : Repr ExtendedAttributeIdent data_ExtendedAttributeIdent
| R_ExtendedAttributeWildCard : Repr ExtendedAttributeWildCard data_ExtendedAttributeWildCard
| R_Type : Repr Type_ data_Type
| R_SingleType : Repr SingleType data_SingleType
| R_NonAnyType : Repr NonAnyType data_NonAnyType
| R_SequenceType : Repr SequenceType data_SequenceType
| R_FrozenArrayType : Repr FrozenArrayType data_FrozenArrayType
| R_PromiseType : Repr PromiseType data_PromiseType
| R_RecordType : Repr RecordType data_RecordType
| R_RecordKeyType : Repr RecordKeyType data_RecordKeyType
| R_UnionMemberType : Repr UnionMemberType data_UnionMemberType
| R_ReturnType : Repr ReturnType data_ReturnType
| R_AttributedType : Repr AttributedType data_AttributedType
| R_AttributedNonAnyType : Repr AttributedNonAnyType data_AttributedNonAnyType
| R_ExtendedAttribute : Repr ExtendedAttribute data_ExtendedAttribute
| R_ExtendedAttributeArgList : Repr ExtendedAttributeArgList data_ExtendedAttributeArgList
| R_ExtendedAttributeNamedArgList : Repr ExtendedAttributeNamedArgList data_ExtendedAttributeNamedArgList
| R_Argument : Repr Argument data_Argument
| R_SingleArgument : Repr SingleArgument data_SingleArgument
| R_VariadicArgument : Repr VariadicArgument data_VariadicArgument
| R_Inheritance : Repr Inheritance data_Inheritance
| R_ConstMember : Repr ConstMember data_ConstMember
| R_Special : Repr Special data_Special
| R_StringifierOrInheritOrStatic : Repr StringifierOrInheritOrStatic data_StringifierOrInheritOrStatic
| R_StringifierOrStatic : Repr StringifierOrStatic data_StringifierOrStatic
| R_AttributeInterfaceMember : Repr AttributeInterfaceMember data_AttributeInterfaceMember
| R_ConstructorInterfaceMember : Repr ConstructorInterfaceMember data_ConstructorInterfaceMember
| R_OperationInterfaceMember : Repr OperationInterfaceMember data_OperationInterfaceMember
| R_SingleTypedIterable : Repr SingleTypedIterable data_SingleTypedIterable
| R_DoubleTypedIterable : Repr DoubleTypedIterable data_DoubleTypedIterable
| R_IterableInterfaceMember : Repr IterableInterfaceMember data_IterableInterfaceMember
| R_SingleTypedAsyncIterable : Repr SingleTypedAsyncIterable data_SingleTypedAsyncIterable
| R_DoubleTypedAsyncIterable : Repr DoubleTypedAsyncIterable data_DoubleTypedAsyncIterable
| R_AsyncIterableInterfaceMember : Repr AsyncIterableInterfaceMember data_AsyncIterableInterfaceMember
| R_MaplikeInterfaceMember : Repr MaplikeInterfaceMember data_MaplikeInterfaceMember
| R_SetlikeInterfaceMember : Repr SetlikeInterfaceMember data_SetlikeInterfaceMember
| R_StringifierMember : Repr StringifierMember data_StringifierMember
| R_InterfaceMember : Repr InterfaceMember data_InterfaceMember
| R_OperationMixinMember : Repr OperationMixinMember data_OperationMixinMember
| R_AttributeMixinMember : Repr AttributeMixinMember data_AttributeMixinMember
| R_MixinMember : Repr MixinMember data_MixinMember
| R_ConstNamespaceMember : Repr ConstNamespaceMember data_ConstNamespaceMember
| R_OperationNamespaceMember : Repr OperationNamespaceMember data_OperationNamespaceMember
| R_AttributeNamespaceMember : Repr AttributeNamespaceMember data_AttributeNamespaceMember
| R_NamespaceMember : Repr NamespaceMember data_NamespaceMember
| R_DictionaryMember : Repr DictionaryMember data_DictionaryMember
| R_CallbackDefinition : Repr CallbackDefinition data_CallbackDefinition
| R_CallbackInterfaceDefinition : Repr CallbackInterfaceDefinition data_CallbackInterfaceDefinition
| R_InterfaceDefinition : Repr InterfaceDefinition data_InterfaceDefinition
| R_InterfaceMixinDefinition : Repr InterfaceMixinDefinition data_InterfaceMixinDefinition
| R_NamespaceDefinition : Repr NamespaceDefinition data_NamespaceDefinition
| R_DictionaryDefinition : Repr DictionaryDefinition data_DictionaryDefinition
| R_PartialInterfaceDefinition : Repr PartialInterfaceDefinition data_PartialInterfaceDefinition
| R_PartialInterfaceMixinDefinition : Repr PartialInterfaceMixinDefinition data_PartialInterfaceMixinDefinition
| R_PartialDictionaryDefinition : Repr PartialDictionaryDefinition data_PartialDictionaryDefinition
| R_PartialNamespaceDefinition : Repr PartialNamespaceDefinition data_PartialNamespaceDefinition
| R_EnumDefinition : Repr EnumDefinition data_EnumDefinition
| R_TypedefDefinition : Repr TypedefDefinition data_TypedefDefinition
| R_IncludesStatementDefinition : Repr IncludesStatementDefinition data_IncludesStatementDefinition
| R_ImplementsDefinition : Repr ImplementsDefinition data_ImplementsDefinition
| R_Definition : Repr Definition_ data_Definition.

Lemma Repr_inj A f : Repr A f -> forall a, injat f a.
Proof.
  induction 1; intros; try solve [auto with inj].
  - apply at_text.
  - apply at_bool.
  - apply at_unit.
  - apply at_option. destruct a; auto.
  - apply at_list. induction a; auto.
  - apply at_pair; auto.
  - destruct a. apply at_null; auto.
Qed.

(** [a.cmp(b)] for values of any type. *)
Definition ord {A} (f : A -> data) (a b : A) : comparison := cmp (f a) (f b).
Theorem ord_total A f : Repr A f ->
  (forall a b, ord f a b = Eq <-> a = b) /\
  (forall a b, ord f b a = CompOpp (ord f a b)) /\
  (forall a b c x, ord f a b = x -> ord f b c = x -> ord f a c = x).
Proof.
  intros H. pose proof (Repr_inj _ _ H) as Hi. unfold ord. repeat split.
  - intros E. apply cmp_Eq in E. apply Hi; auto.
  - intros ->. apply cmp_Eq. auto.
  - intros a b. apply cmp_opp.
  - intros a b c [] H1 H2.
    + apply cmp_Eq in H1. apply cmp_Eq in H2. apply cmp_Eq. congruence.
    + eapply cmp_trans; eauto.
    + rewrite cmp_opp in H1, H2 |- *. destruct (cmp (f b) (f a)) eqn:E1; try discriminate. destruct (cmp (f c) (f b)) eqn:E2; try discriminate.
      rewrite (cmp_trans _ _ _ E2 E1). auto.
Qed.

(** ** [Ord] of [str] compares bytes *)
Lemma cmp_text_cons c d s t : cmp_text (c :: s) (d :: t) = match N.compare c d with Eq => cmp_text s t | x => x end.
Proof. reflexivity. Qed.
Lemma cmp_text_lt c d s t : (c < d)%N -> cmp_text (c :: s) (d :: t) = Lt.
Proof. intros H. cbn. apply N.compare_lt_iff in H. rewrite H. auto. Qed.
Lemma cmp_text_le c d s t : (c <= d)%N -> (c = d -> cmp_text s t = Lt) -> cmp_text (c :: s) (d :: t) = Lt.
Proof. intros H G. cbn. destruct (N.compare_spec c d); auto. lia. Qed.
Lemma utf8_lt c d a b : scalar c -> scalar d -> (c < d)%N -> cmp_text (utf8 c ++ a) (utf8 d ++ b) = Lt.
Proof.
  intros Hc Hd H.
  destruct (utf8_cases c Hc) as [[H1 ->]|[(x & y & -> & H1)|[(x & y & z & -> & H1)|(x & y & z & w & -> & H1)]]];
  destruct (utf8_cases d Hd) as [[H2 ->]|[(x' & y' & -> & H2)|[(x' & y' & z' & -> & H2)|(x' & y' & z' & w' & -> & H2)]]];
  cbn [app]; try (apply cmp_text_lt; lia); try (exfalso; lia);
  repeat (apply cmp_text_le; [lia|intros]); exfalso; lia.
Qed.
Theorem utf8_order s t : Scalars s -> Scalars t -> cmp_text (encode s) (encode t) = cmp_text s t.
Proof.
  intros Hs. revert t. induction Hs as [|c s Hc Hs IH]; intros t Ht; destruct Ht as [|d t Hd Ht]; cbn [encode flat_map]; auto.
  - destruct (utf8_first d) as (x & r & -> & _). auto.
  - destruct (utf8_first c) as (x & r & -> & _). auto.
  - rewrite cmp_text_cons. destruct (N.compare_spec c d) as [->|H|H].
    + rewrite <- IH by auto. unfold encode. induction (utf8 d) as [|x l IHl]; auto. cbn. rewrite N.compare_refl. auto.
    + apply utf8_lt; auto.
    + rewrite cmp_text_opp, utf8_lt; auto.
Qed.
