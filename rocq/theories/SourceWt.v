(** * The declarations in the source: types of values *)
From Coq Require Import String Ascii NArith Arith Bool List Lia.
From Verif Require Import Nom Lex Ast Grammar Api LexProps Source Crate Interp Embed SourceLex SourceProps.
Import ListNotations.
Open Scope string_scope.
Open Scope list_scope.

(** ** The values of the model have the types that the source declares *)
(** [wt v t]: the value [v] has the type [t], by the declarations of the source: all fields are there, in order, with values of
    their types. *)
Inductive wt : value -> rty -> Prop :=
| wt_str s : wt (VStr s) (Ty "str" [])
| wt_bool b : wt (VBool b) (Ty "bool" [])
| wt_none t : wt (VCon "None" []) (Ty "Option" [t])
| wt_some v t : wt v t -> wt (VCon "Some" [v]) (Ty "Option" [t])
| wt_box v t : wt v t -> wt (VCon "Box::new" [v]) (Ty "Box" [t])
| wt_vec l t : Forall (fun v => wt v t) l -> wt (VVec l) (Ty "Vec" [t])
| wt_tuple l ts : Forall2 wt l ts -> wt (VTup l) (TyTuple ts)
| wt_struct ds n vs fields args fs : In (IStruct ds n vs fields) crate_items -> length args = length vs ->
    Forall2 (fun f d => fst f = fst d /\ wt (snd f) (subst (combine vs args) (snd d))) fs fields -> wt (VData n "" fs) (Ty n args)
| wt_enum ds n variants v t x : In (IEnum ds n variants) crate_items -> In (v, t) variants -> wt x t -> wt (VData n v [("0", x)]) (Ty n []).
(** The structs of the crate. *)
Definition structs : list (string * (list string * (list string * list (string * rty)))) :=
  Eval vm_compute in flat_map (fun i => match i with IStruct ds n vs fs => [(n, (ds, (vs, fs)))] | _ => [] end) crate_items.
(** The enums of the crate, with what they derive. *)
Definition enum_decls : list (string * (list string * list (string * rty))) :=
  Eval vm_compute in flat_map (fun i => match i with IEnum ds n vs => [(n, (ds, vs))] | _ => [] end) crate_items.
Lemma lookup_In A n (l : list (string * A)) v : lookup n l = Some v -> In (n, v) l.
Proof.
  induction l as [|[m w] l IH]; [discriminate|]. cbn. destruct (String.eqb n m) eqn:E; [|auto].
  intros [= ->]. apply String.eqb_eq in E. subst. auto.
Qed.
Lemma struct_In n ds vs fs : lookup n structs = Some (ds, (vs, fs)) -> In (IStruct ds n vs fs) crate_items.
Proof.
  intros H. apply lookup_In in H.
  assert (E : structs = flat_map (fun i => match i with IStruct ds n vs fs => [(n, (ds, (vs, fs)))] | _ => [] end) crate_items) by (vm_compute; reflexivity).
  rewrite E in H. apply in_flat_map in H. destruct H as (i & Hi & K). destruct i; cbn in K; try contradiction. destruct K as [[= <- <- <- <-]|[]]. exact Hi.
Qed.
Lemma enum_In n ds vs : lookup n enum_decls = Some (ds, vs) -> In (IEnum ds n vs) crate_items.
Proof.
  intros H. apply lookup_In in H.
  assert (E : enum_decls = flat_map (fun i => match i with IEnum ds n vs => [(n, (ds, vs))] | _ => [] end) crate_items) by (vm_compute; reflexivity).
  rewrite E in H. apply in_flat_map in H. destruct H as (i & Hi & K). destruct i; cbn in K; try contradiction. destruct K as [[= <- <- <-]|[]]. exact Hi.
Qed.
Lemma wt_struct' ds n vs fields args fs : lookup n structs = Some (ds, (vs, fields)) -> length args = length vs ->
    Forall2 (fun f d => fst f = fst d /\ wt (snd f) (subst (combine vs args) (snd d))) fs fields -> wt (VData n "" fs) (Ty n args).
Proof. intros H. apply struct_In in H. eapply wt_struct, H. Qed.
Lemma wt_enum' ds n variants v t x : lookup n enum_decls = Some (ds, variants) -> lookup v variants = Some t -> wt x t -> wt (VData n v [("0", x)]) (Ty n []).
Proof. intros H K. apply enum_In in H. apply lookup_In in K. eapply wt_enum; [exact H|exact K]. Qed.
Lemma term_In c : In c all_terms.
Proof.
  unfold all_terms. rewrite in_map_iff. exists (term_index (term_text c)). split; [apply term_at_index|]. apply in_seq. destruct c; vm_compute; lia.
Qed.
Lemma w_term c : wt (vt (term_type c)) (tterm c).
Proof.
  assert (E : forallb (fun c => match lookup (term_type c) structs with Some (_, ([], [])) => true | _ => false end) all_terms = true) by (vm_compute; reflexivity).
  rewrite forallb_forall in E. specialize (E c (term_In c)). destruct (lookup (term_type c) structs) as [[ds [[|? ?] [|? ?]]]|] eqn:L; try discriminate.
  eapply wt_struct'; [exact L|reflexivity|constructor].
Qed.
Lemma w_option A (enc : A -> value) t o : match o with None => True | Some x => wt (enc x) t end -> wt (enc_Option enc o) (Ty "Option" [t]).
Proof. destruct o; cbn; intros H; constructor; exact H. Qed.
Lemma w_list A (enc : A -> value) t l : Forall (fun x => wt (enc x) t) l -> wt (VVec (map enc l)) (Ty "Vec" [t]).
Proof. intros H. constructor. induction H; constructor; auto. Qed.
Ltac wfield := split; [reflexivity|cbn [snd fst subst lookup combine map String.eqb Ascii.eqb Bool.eqb]].
Ltac wsplit fs :=
  lazymatch fs with
  | [] => apply Forall2_nil
  | _ :: ?fs' => apply Forall2_cons; [wfield|wsplit fs']
  end.
Ltac wstruct0 :=
  lazymatch goal with
  | |- wt (VData ?n "" ?fs) (Ty ?n ?args) =>
      let r := eval vm_compute in (lookup n structs) in
      lazymatch r with
      | Some (?ds, (?vs, ?fields)) => apply (wt_struct' ds n vs fields args fs); [vm_compute; reflexivity|reflexivity|wsplit fs]
      end
  end.
Ltac term := wstruct0.
Ltac wparts base :=
  lazymatch goal with
  | |- wt (enc_Option _ ?o) _ => apply w_option; destruct o; [wparts base|exact I]
  | |- wt (enc_Vec _ _) _ => unfold enc_Vec; apply w_list; match goal with |- Forall _ ?l => revert l end; let IH := fresh in fix IH 1; intros [|? ?]; constructor; [wparts base|apply IH]
  | |- wt (VVec (map _ _)) _ => apply w_list; match goal with |- Forall _ ?l => revert l end; let IH := fresh in fix IH 1; intros [|? ?]; constructor; [wparts base|apply IH]
  | |- wt (enc_Punctuated _ _ _) _ => unfold enc_Punctuated; wstruct0; wparts base
  | |- wt (enc_PunctuatedNonEmpty _ _ _) _ => unfold enc_PunctuatedNonEmpty; wstruct0; wparts base
  | |- wt (enc_Box _ _) _ => apply wt_box; wparts base
  | |- wt (enc_Parenthesized _ _) _ => unfold enc_Parenthesized; wstruct0; wparts base
  | |- wt (enc_Bracketed _ _) _ => unfold enc_Bracketed; wstruct0; wparts base
  | |- wt (enc_Braced _ _) _ => unfold enc_Braced; wstruct0; wparts base
  | |- wt (enc_Generics _ _) _ => unfold enc_Generics; wstruct0; wparts base
  | |- wt (enc_MayBeNull _ ?x) _ => destruct x; unfold enc_MayBeNull; wstruct0; wparts base
  | |- wt (enc_triple _ _ _ ?x) _ => first [destruct x | idtac]; unfold enc_triple; apply wt_tuple; repeat (apply Forall2_cons; [wparts base|]); apply Forall2_nil
  | |- wt (VTup _) _ => apply wt_tuple; repeat (apply Forall2_cons; [wparts base|]); apply Forall2_nil
  | |- wt (vu _ _) _ => unfold vu, vt; term
  | |- wt (vt _) _ => unfold vt; term
  | |- wt (VStr _) _ => constructor
  | |- wt (VBool _) _ => constructor
  | |- _ => base
  end.
Ltac wstruct base := wstruct0; wparts base.
Ltac wenum base :=
  lazymatch goal with
  | |- wt (VData ?n ?v _) _ =>
      let r := eval vm_compute in (lookup n enum_decls) in
      lazymatch r with
      | Some (?ds, ?vs) =>
          let q := eval vm_compute in (lookup v vs) in
          lazymatch q with Some ?t => apply (wt_enum' ds n vs v t); [vm_compute; reflexivity|vm_compute; reflexivity|wparts base] end
      end
  end.
Ltac wrecs := first [match goal with H : forall x, wt (?f x) ?t |- wt (?f _) ?t => apply H end | auto with wt].
Lemma wt_Identifier x : wt (enc_Identifier x) (Ty "Identifier" []).
Proof. unfold enc_Identifier; wstruct ltac:(auto with wt). Qed.
#[export] Hint Resolve wt_Identifier : wt.
Lemma wt_StringLit x : wt (enc_StringLit x) (Ty "StringLit" []).
Proof. unfold enc_StringLit; wstruct ltac:(auto with wt). Qed.
#[export] Hint Resolve wt_StringLit : wt.
Lemma wt_DecLit x : wt (enc_DecLit x) (Ty "DecLit" []).
Proof. unfold enc_DecLit; wstruct ltac:(auto with wt). Qed.
#[export] Hint Resolve wt_DecLit : wt.
Lemma wt_HexLit x : wt (enc_HexLit x) (Ty "HexLit" []).
Proof. unfold enc_HexLit; wstruct ltac:(auto with wt). Qed.
#[export] Hint Resolve wt_HexLit : wt.
Lemma wt_OctLit x : wt (enc_OctLit x) (Ty "OctLit" []).
Proof. unfold enc_OctLit; wstruct ltac:(auto with wt). Qed.
#[export] Hint Resolve wt_OctLit : wt.
Lemma wt_FloatValueLit x : wt (enc_FloatValueLit x) (Ty "FloatValueLit" []).
Proof. unfold enc_FloatValueLit; wstruct ltac:(auto with wt). Qed.
#[export] Hint Resolve wt_FloatValueLit : wt.
Lemma wt_BooleanLit x : wt (enc_BooleanLit x) (Ty "BooleanLit" []).
Proof. unfold enc_BooleanLit; wstruct ltac:(auto with wt). Qed.
#[export] Hint Resolve wt_BooleanLit : wt.
Lemma wt_ExtendedAttributeNoArgs x : wt (enc_ExtendedAttributeNoArgs x) (Ty "ExtendedAttributeNoArgs" []).
Proof. unfold enc_ExtendedAttributeNoArgs; wstruct ltac:(auto with wt). Qed.
#[export] Hint Resolve wt_ExtendedAttributeNoArgs : wt.
Lemma wt_EmptyArrayLit : wt enc_EmptyArrayLit (Ty "EmptyArrayLit" []).
Proof. unfold enc_EmptyArrayLit; wstruct ltac:(auto with wt). Qed.
#[export] Hint Resolve wt_EmptyArrayLit : wt.
Lemma wt_EmptyDictionaryLit : wt enc_EmptyDictionaryLit (Ty "EmptyDictionaryLit" []).
Proof. unfold enc_EmptyDictionaryLit; wstruct ltac:(auto with wt). Qed.
#[export] Hint Resolve wt_EmptyDictionaryLit : wt.
Lemma wt_FloatLit x : wt (enc_FloatLit x) (Ty "FloatLit" []).
Proof. destruct x; cbn [enc_FloatLit]; wenum ltac:(auto with wt). Qed.
#[export] Hint Resolve wt_FloatLit : wt.
Lemma wt_IntegerLit x : wt (enc_IntegerLit x) (Ty "IntegerLit" []).
Proof. destruct x; cbn [enc_IntegerLit]; wenum ltac:(auto with wt). Qed.
#[export] Hint Resolve wt_IntegerLit : wt.
Lemma wt_DefaultValue x : wt (enc_DefaultValue x) (Ty "DefaultValue" []).
Proof. destruct x; cbn [enc_DefaultValue]; wenum ltac:(auto with wt). Qed.
#[export] Hint Resolve wt_DefaultValue : wt.
Lemma wt_Default x : wt (enc_Default x) (Ty "Default" []).
Proof. unfold enc_Default; wstruct ltac:(auto with wt). Qed.
#[export] Hint Resolve wt_Default : wt.
Lemma wt_LongLongType x : wt (enc_LongLongType x) (Ty "LongLongType" []).
Proof. destruct x; cbn [enc_LongLongType]; wstruct ltac:(auto with wt). Qed.
#[export] Hint Resolve wt_LongLongType : wt.
Lemma wt_LongType x : wt (enc_LongType x) (Ty "LongType" []).
Proof. destruct x; cbn [enc_LongType]; wstruct ltac:(auto with wt). Qed.
#[export] Hint Resolve wt_LongType : wt.
Lemma wt_ShortType x : wt (enc_ShortType x) (Ty "ShortType" []).
Proof. destruct x; cbn [enc_ShortType]; wstruct ltac:(auto with wt). Qed.
#[export] Hint Resolve wt_ShortType : wt.
Lemma wt_IntegerType x : wt (enc_IntegerType x) (Ty "IntegerType" []).
Proof. destruct x; cbn [enc_IntegerType]; wenum ltac:(auto with wt). Qed.
#[export] Hint Resolve wt_IntegerType : wt.
Lemma wt_FloatType x : wt (enc_FloatType x) (Ty "FloatType" []).
Proof. destruct x; cbn [enc_FloatType]; wstruct ltac:(auto with wt). Qed.
#[export] Hint Resolve wt_FloatType : wt.
Lemma wt_DoubleType x : wt (enc_DoubleType x) (Ty "DoubleType" []).
Proof. destruct x; cbn [enc_DoubleType]; wstruct ltac:(auto with wt). Qed.
#[export] Hint Resolve wt_DoubleType : wt.
Lemma wt_FloatingPointType x : wt (enc_FloatingPointType x) (Ty "FloatingPointType" []).
Proof. destruct x; cbn [enc_FloatingPointType]; wenum ltac:(auto with wt). Qed.
#[export] Hint Resolve wt_FloatingPointType : wt.
Lemma wt_ExtendedAttributeIdentList x : wt (enc_ExtendedAttributeIdentList x) (Ty "ExtendedAttributeIdentList" []).
Proof. destruct x; cbn [enc_ExtendedAttributeIdentList]; wstruct ltac:(auto with wt). Qed.
#[export] Hint Resolve wt_ExtendedAttributeIdentList : wt.
Lemma wt_IdentifierOrString x : wt (enc_IdentifierOrString x) (Ty "IdentifierOrString" []).
Proof. destruct x; cbn [enc_IdentifierOrString]; wenum ltac:(auto with wt). Qed.
#[export] Hint Resolve wt_IdentifierOrString : wt.
Lemma wt_ExtendedAttributeIdent x : wt (enc_ExtendedAttributeIdent x) (Ty "ExtendedAttributeIdent" []).
Proof. destruct x; cbn [enc_ExtendedAttributeIdent]; wstruct ltac:(auto with wt). Qed.
#[export] Hint Resolve wt_ExtendedAttributeIdent : wt.
Lemma wt_ExtendedAttributeWildCard x : wt (enc_ExtendedAttributeWildCard x) (Ty "ExtendedAttributeWildCard" []).
Proof. destruct x; cbn [enc_ExtendedAttributeWildCard]; wstruct ltac:(auto with wt). Qed.
#[export] Hint Resolve wt_ExtendedAttributeWildCard : wt.
Fixpoint wt_Type (x : Type_) {struct x} : wt (enc_Type x) (Ty "Type" [])
with wt_SingleType (x : SingleType) {struct x} : wt (enc_SingleType x) (Ty "SingleType" [])
with wt_NonAnyType (x : NonAnyType) {struct x} : wt (enc_NonAnyType x) (Ty "NonAnyType" [])
with wt_SequenceType (x : SequenceType) {struct x} : wt (enc_SequenceType x) (Ty "SequenceType" [])
with wt_FrozenArrayType (x : FrozenArrayType) {struct x} : wt (enc_FrozenArrayType x) (Ty "FrozenArrayType" [])
with wt_PromiseType (x : PromiseType) {struct x} : wt (enc_PromiseType x) (Ty "PromiseType" [])
with wt_RecordType (x : RecordType) {struct x} : wt (enc_RecordType x) (Ty "RecordType" [])
with wt_RecordKeyType (x : RecordKeyType) {struct x} : wt (enc_RecordKeyType x) (Ty "RecordKeyType" [])
with wt_UnionMemberType (x : UnionMemberType) {struct x} : wt (enc_UnionMemberType x) (Ty "UnionMemberType" [])
with wt_ReturnType (x : ReturnType) {struct x} : wt (enc_ReturnType x) (Ty "ReturnType" [])
with wt_AttributedType (x : AttributedType) {struct x} : wt (enc_AttributedType x) (Ty "AttributedType" [])
with wt_AttributedNonAnyType (x : AttributedNonAnyType) {struct x} : wt (enc_AttributedNonAnyType x) (Ty "AttributedNonAnyType" [])
with wt_ExtendedAttribute (x : ExtendedAttribute) {struct x} : wt (enc_ExtendedAttribute x) (Ty "ExtendedAttribute" [])
with wt_ExtendedAttributeArgList (x : ExtendedAttributeArgList) {struct x} : wt (enc_ExtendedAttributeArgList x) (Ty "ExtendedAttributeArgList" [])
with wt_ExtendedAttributeNamedArgList (x : ExtendedAttributeNamedArgList) {struct x} : wt (enc_ExtendedAttributeNamedArgList x) (Ty "ExtendedAttributeNamedArgList" [])
with wt_Argument (x : Argument) {struct x} : wt (enc_Argument x) (Ty "Argument" [])
with wt_SingleArgument (x : SingleArgument) {struct x} : wt (enc_SingleArgument x) (Ty "SingleArgument" [])
with wt_VariadicArgument (x : VariadicArgument) {struct x} : wt (enc_VariadicArgument x) (Ty "VariadicArgument" []).
Proof.
  - destruct x; cbn [enc_Type]; wenum ltac:(wrecs).
  - destruct x; cbn [enc_SingleType]; wenum ltac:(wrecs).
  - destruct x; cbn [enc_NonAnyType]; wenum ltac:(wrecs).
  - destruct x; cbn [enc_SequenceType]; wstruct ltac:(wrecs).
  - destruct x; cbn [enc_FrozenArrayType]; wstruct ltac:(wrecs).
  - destruct x; cbn [enc_PromiseType]; wstruct ltac:(wrecs).
  - destruct x; cbn [enc_RecordType]; wstruct ltac:(wrecs).
  - destruct x; cbn [enc_RecordKeyType]; wenum ltac:(wrecs).
  - destruct x; cbn [enc_UnionMemberType]; wenum ltac:(wrecs).
  - destruct x; cbn [enc_ReturnType]; wenum ltac:(wrecs).
  - destruct x; cbn [enc_AttributedType]; wstruct ltac:(wrecs).
  - destruct x; cbn [enc_AttributedNonAnyType]; wstruct ltac:(wrecs).
  - destruct x; cbn [enc_ExtendedAttribute]; wenum ltac:(wrecs).
  - destruct x; cbn [enc_ExtendedAttributeArgList]; wstruct ltac:(wrecs).
  - destruct x; cbn [enc_ExtendedAttributeNamedArgList]; wstruct ltac:(wrecs).
  - destruct x; cbn [enc_Argument]; wenum ltac:(wrecs).
  - destruct x; cbn [enc_SingleArgument]; wstruct ltac:(wrecs).
  - destruct x; cbn [enc_VariadicArgument]; wstruct ltac:(wrecs).
Qed.
#[export] Hint Resolve wt_Type wt_SingleType wt_NonAnyType wt_SequenceType wt_FrozenArrayType wt_PromiseType wt_RecordType wt_RecordKeyType wt_UnionMemberType wt_ReturnType wt_AttributedType wt_AttributedNonAnyType wt_ExtendedAttribute wt_ExtendedAttributeArgList wt_ExtendedAttributeNamedArgList wt_Argument wt_SingleArgument wt_VariadicArgument : wt.
Lemma wt_DictionaryMember x : wt (enc_DictionaryMember x) (Ty "DictionaryMember" []).
Proof. destruct x; cbn [enc_DictionaryMember]; wstruct ltac:(auto with wt). Qed.
#[export] Hint Resolve wt_DictionaryMember : wt.
Lemma wt_Inheritance x : wt (enc_Inheritance x) (Ty "Inheritance" []).
Proof. destruct x; cbn [enc_Inheritance]; wstruct ltac:(auto with wt). Qed.
#[export] Hint Resolve wt_Inheritance : wt.
Lemma wt_ConstType x : wt (enc_ConstType x) (Ty "ConstType" []).
Proof. destruct x; cbn [enc_ConstType]; wenum ltac:(auto with wt). Qed.
#[export] Hint Resolve wt_ConstType : wt.
Lemma wt_ConstValue x : wt (enc_ConstValue x) (Ty "ConstValue" []).
Proof. destruct x; cbn [enc_ConstValue]; wenum ltac:(auto with wt). Qed.
#[export] Hint Resolve wt_ConstValue : wt.
Lemma wt_ConstMember x : wt (enc_ConstMember x) (Ty "ConstMember" []).
Proof. destruct x; cbn [enc_ConstMember]; wstruct ltac:(auto with wt). Qed.
#[export] Hint Resolve wt_ConstMember : wt.
Lemma wt_StringifierOrInheritOrStatic x : wt (enc_StringifierOrInheritOrStatic x) (Ty "StringifierOrInheritOrStatic" []).
Proof. destruct x; cbn [enc_StringifierOrInheritOrStatic]; wenum ltac:(auto with wt). Qed.
#[export] Hint Resolve wt_StringifierOrInheritOrStatic : wt.
Lemma wt_AttributeInterfaceMember x : wt (enc_AttributeInterfaceMember x) (Ty "AttributeInterfaceMember" []).
Proof. destruct x; cbn [enc_AttributeInterfaceMember]; wstruct ltac:(auto with wt). Qed.
#[export] Hint Resolve wt_AttributeInterfaceMember : wt.
Lemma wt_ConstructorInterfaceMember x : wt (enc_ConstructorInterfaceMember x) (Ty "ConstructorInterfaceMember" []).
Proof. destruct x; cbn [enc_ConstructorInterfaceMember]; wstruct ltac:(auto with wt). Qed.
#[export] Hint Resolve wt_ConstructorInterfaceMember : wt.
Lemma wt_StringifierOrStatic x : wt (enc_StringifierOrStatic x) (Ty "StringifierOrStatic" []).
Proof. destruct x; cbn [enc_StringifierOrStatic]; wenum ltac:(auto with wt). Qed.
#[export] Hint Resolve wt_StringifierOrStatic : wt.
Lemma wt_Special x : wt (enc_Special x) (Ty "Special" []).
Proof. destruct x; cbn [enc_Special]; wenum ltac:(auto with wt). Qed.
#[export] Hint Resolve wt_Special : wt.
Lemma wt_OperationInterfaceMember x : wt (enc_OperationInterfaceMember x) (Ty "OperationInterfaceMember" []).
Proof. destruct x; cbn [enc_OperationInterfaceMember]; wstruct ltac:(auto with wt). Qed.
#[export] Hint Resolve wt_OperationInterfaceMember : wt.
Lemma wt_SingleTypedIterable x : wt (enc_SingleTypedIterable x) (Ty "SingleTypedIterable" []).
Proof. destruct x; cbn [enc_SingleTypedIterable]; wstruct ltac:(auto with wt). Qed.
#[export] Hint Resolve wt_SingleTypedIterable : wt.
Lemma wt_DoubleTypedIterable x : wt (enc_DoubleTypedIterable x) (Ty "DoubleTypedIterable" []).
Proof. destruct x; cbn [enc_DoubleTypedIterable]; wstruct ltac:(auto with wt). Qed.
#[export] Hint Resolve wt_DoubleTypedIterable : wt.
Lemma wt_IterableInterfaceMember x : wt (enc_IterableInterfaceMember x) (Ty "IterableInterfaceMember" []).
Proof. destruct x; cbn [enc_IterableInterfaceMember]; wenum ltac:(auto with wt). Qed.
#[export] Hint Resolve wt_IterableInterfaceMember : wt.
Lemma wt_SingleTypedAsyncIterable x : wt (enc_SingleTypedAsyncIterable x) (Ty "SingleTypedAsyncIterable" []).
Proof. destruct x; cbn [enc_SingleTypedAsyncIterable]; wstruct ltac:(auto with wt). Qed.
#[export] Hint Resolve wt_SingleTypedAsyncIterable : wt.
Lemma wt_DoubleTypedAsyncIterable x : wt (enc_DoubleTypedAsyncIterable x) (Ty "DoubleTypedAsyncIterable" []).
Proof. destruct x; cbn [enc_DoubleTypedAsyncIterable]; wstruct ltac:(auto with wt). Qed.
#[export] Hint Resolve wt_DoubleTypedAsyncIterable : wt.
Lemma wt_AsyncIterableInterfaceMember x : wt (enc_AsyncIterableInterfaceMember x) (Ty "AsyncIterableInterfaceMember" []).
Proof. destruct x; cbn [enc_AsyncIterableInterfaceMember]; wenum ltac:(auto with wt). Qed.
#[export] Hint Resolve wt_AsyncIterableInterfaceMember : wt.
Lemma wt_MaplikeInterfaceMember x : wt (enc_MaplikeInterfaceMember x) (Ty "MaplikeInterfaceMember" []).
Proof. destruct x; cbn [enc_MaplikeInterfaceMember]; wstruct ltac:(auto with wt). Qed.
#[export] Hint Resolve wt_MaplikeInterfaceMember : wt.
Lemma wt_SetlikeInterfaceMember x : wt (enc_SetlikeInterfaceMember x) (Ty "SetlikeInterfaceMember" []).
Proof. destruct x; cbn [enc_SetlikeInterfaceMember]; wstruct ltac:(auto with wt). Qed.
#[export] Hint Resolve wt_SetlikeInterfaceMember : wt.
Lemma wt_StringifierMember x : wt (enc_StringifierMember x) (Ty "StringifierMember" []).
Proof. destruct x; cbn [enc_StringifierMember]; wstruct ltac:(auto with wt). Qed.
#[export] Hint Resolve wt_StringifierMember : wt.
Lemma wt_InterfaceMember x : wt (enc_InterfaceMember x) (Ty "InterfaceMember" []).
Proof. destruct x; cbn [enc_InterfaceMember]; wenum ltac:(auto with wt). Qed.
#[export] Hint Resolve wt_InterfaceMember : wt.
Lemma wt_OperationMixinMember x : wt (enc_OperationMixinMember x) (Ty "OperationMixinMember" []).
Proof. destruct x; cbn [enc_OperationMixinMember]; wstruct ltac:(auto with wt). Qed.
#[export] Hint Resolve wt_OperationMixinMember : wt.
Lemma wt_AttributeMixinMember x : wt (enc_AttributeMixinMember x) (Ty "AttributeMixinMember" []).
Proof. destruct x; cbn [enc_AttributeMixinMember]; wstruct ltac:(auto with wt). Qed.
#[export] Hint Resolve wt_AttributeMixinMember : wt.
Lemma wt_MixinMember x : wt (enc_MixinMember x) (Ty "MixinMember" []).
Proof. destruct x; cbn [enc_MixinMember]; wenum ltac:(auto with wt). Qed.
#[export] Hint Resolve wt_MixinMember : wt.
Lemma wt_ConstNamespaceMember x : wt (enc_ConstNamespaceMember x) (Ty "ConstNamespaceMember" []).
Proof. destruct x; cbn [enc_ConstNamespaceMember]; wstruct ltac:(auto with wt). Qed.
#[export] Hint Resolve wt_ConstNamespaceMember : wt.
Lemma wt_OperationNamespaceMember x : wt (enc_OperationNamespaceMember x) (Ty "OperationNamespaceMember" []).
Proof. destruct x; cbn [enc_OperationNamespaceMember]; wstruct ltac:(auto with wt). Qed.
#[export] Hint Resolve wt_OperationNamespaceMember : wt.
Lemma wt_AttributeNamespaceMember x : wt (enc_AttributeNamespaceMember x) (Ty "AttributeNamespaceMember" []).
Proof. destruct x; cbn [enc_AttributeNamespaceMember]; wstruct ltac:(auto with wt). Qed.
#[export] Hint Resolve wt_AttributeNamespaceMember : wt.
Lemma wt_NamespaceMember x : wt (enc_NamespaceMember x) (Ty "NamespaceMember" []).
Proof. destruct x; cbn [enc_NamespaceMember]; wenum ltac:(auto with wt). Qed.
#[export] Hint Resolve wt_NamespaceMember : wt.
Lemma wt_CallbackDefinition x : wt (enc_CallbackDefinition x) (Ty "CallbackDefinition" []).
Proof. destruct x; cbn [enc_CallbackDefinition]; wstruct ltac:(auto with wt). Qed.
#[export] Hint Resolve wt_CallbackDefinition : wt.
Lemma wt_CallbackInterfaceDefinition x : wt (enc_CallbackInterfaceDefinition x) (Ty "CallbackInterfaceDefinition" []).
Proof. destruct x; cbn [enc_CallbackInterfaceDefinition]; wstruct ltac:(auto with wt). Qed.
#[export] Hint Resolve wt_CallbackInterfaceDefinition : wt.
Lemma wt_InterfaceDefinition x : wt (enc_InterfaceDefinition x) (Ty "InterfaceDefinition" []).
Proof. destruct x; cbn [enc_InterfaceDefinition]; wstruct ltac:(auto with wt). Qed.
#[export] Hint Resolve wt_InterfaceDefinition : wt.
Lemma wt_InterfaceMixinDefinition x : wt (enc_InterfaceMixinDefinition x) (Ty "InterfaceMixinDefinition" []).
Proof. destruct x; cbn [enc_InterfaceMixinDefinition]; wstruct ltac:(auto with wt). Qed.
#[export] Hint Resolve wt_InterfaceMixinDefinition : wt.
Lemma wt_NamespaceDefinition x : wt (enc_NamespaceDefinition x) (Ty "NamespaceDefinition" []).
Proof. destruct x; cbn [enc_NamespaceDefinition]; wstruct ltac:(auto with wt). Qed.
#[export] Hint Resolve wt_NamespaceDefinition : wt.
Lemma wt_DictionaryDefinition x : wt (enc_DictionaryDefinition x) (Ty "DictionaryDefinition" []).
Proof. destruct x; cbn [enc_DictionaryDefinition]; wstruct ltac:(auto with wt). Qed.
#[export] Hint Resolve wt_DictionaryDefinition : wt.
Lemma wt_PartialInterfaceDefinition x : wt (enc_PartialInterfaceDefinition x) (Ty "PartialInterfaceDefinition" []).
Proof. destruct x; cbn [enc_PartialInterfaceDefinition]; wstruct ltac:(auto with wt). Qed.
#[export] Hint Resolve wt_PartialInterfaceDefinition : wt.
Lemma wt_PartialInterfaceMixinDefinition x : wt (enc_PartialInterfaceMixinDefinition x) (Ty "PartialInterfaceMixinDefinition" []).
Proof. destruct x; cbn [enc_PartialInterfaceMixinDefinition]; wstruct ltac:(auto with wt). Qed.
#[export] Hint Resolve wt_PartialInterfaceMixinDefinition : wt.
Lemma wt_PartialDictionaryDefinition x : wt (enc_PartialDictionaryDefinition x) (Ty "PartialDictionaryDefinition" []).
Proof. destruct x; cbn [enc_PartialDictionaryDefinition]; wstruct ltac:(auto with wt). Qed.
#[export] Hint Resolve wt_PartialDictionaryDefinition : wt.
Lemma wt_PartialNamespaceDefinition x : wt (enc_PartialNamespaceDefinition x) (Ty "PartialNamespaceDefinition" []).
Proof. destruct x; cbn [enc_PartialNamespaceDefinition]; wstruct ltac:(auto with wt). Qed.
#[export] Hint Resolve wt_PartialNamespaceDefinition : wt.
Lemma wt_EnumDefinition x : wt (enc_EnumDefinition x) (Ty "EnumDefinition" []).
Proof. destruct x; cbn [enc_EnumDefinition]; wstruct ltac:(auto with wt). Qed.
#[export] Hint Resolve wt_EnumDefinition : wt.
Lemma wt_TypedefDefinition x : wt (enc_TypedefDefinition x) (Ty "TypedefDefinition" []).
Proof. destruct x; cbn [enc_TypedefDefinition]; wstruct ltac:(auto with wt). Qed.
#[export] Hint Resolve wt_TypedefDefinition : wt.
Lemma wt_IncludesStatementDefinition x : wt (enc_IncludesStatementDefinition x) (Ty "IncludesStatementDefinition" []).
Proof. destruct x; cbn [enc_IncludesStatementDefinition]; wstruct ltac:(auto with wt). Qed.
#[export] Hint Resolve wt_IncludesStatementDefinition : wt.
Lemma wt_ImplementsDefinition x : wt (enc_ImplementsDefinition x) (Ty "ImplementsDefinition" []).
Proof. destruct x; cbn [enc_ImplementsDefinition]; wstruct ltac:(auto with wt). Qed.
#[export] Hint Resolve wt_ImplementsDefinition : wt.
Lemma wt_Definition x : wt (enc_Definition x) (Ty "Definition" []).
Proof. destruct x; cbn [enc_Definition]; wenum ltac:(auto with wt). Qed.
#[export] Hint Resolve wt_Definition : wt.
