(** * The declarations in the source: derived comparisons, and types of values *)
From Coq Require Import String Ascii NArith Arith Bool List Lia.
From Verif Require Import Nom Lex Ast Grammar Data Order Api Source Crate Interp Embed SourceLex SourceProps.
Import ListNotations.
Open Scope string_scope.
Open Scope list_scope.

(** The enums of the crate: names and variants, in the order of the source. *)
Definition enums : list (string * list (string * rty)) :=
  Eval vm_compute in flat_map (fun i => match i with IEnum _ n vs => [(n, vs)] | _ => [] end) crate_items.
(** The position of a name. *)
Fixpoint position (x : string) (l : list string) : nat :=
  match l with [] => 0 | y :: l' => if String.eqb x y then 0 else S (position x l') end.
(** The number of a variant of an enum of the source. *)
Definition variant_index (t v : string) : nat :=
  match lookup t enums with Some vs => position v (map fst vs) | None => 0 end.
(** What [#[derive(PartialOrd, Ord)]] compares: variants in the order of their declaration, then fields in the order of theirs.
    [None] is before [Some]; [Box] is compared by its contents, [Vec] and tuples element by element, [&str] and [bool] as such. *)
Fixpoint dv (v : value) : data :=
  match v with
  | VStr s => Text s
  | VBool b => Node (if b then 1 else 0) []
  | VTup l => Node 0 (map dv l)
  | VVec l => Node 0 (map dv l)
  | VCon c l => Node (if String.eqb c "Some" then 1 else 0) (map dv l)
  | VData t v fs => Node (variant_index t v) (map (fun f => dv (snd f)) fs)
  | VChr _ | VBytes _ | VNom _ | VKind _ => Node 0 []                    (* not in trees *)
  end.

(** ** The derived comparisons of the source are those of Data.v *)
Definition sameat {A} (enc : A -> value) (f : A -> data) (x : A) : Prop :=
  forall y, cmp (dv (enc x)) (dv (enc y)) = cmp (f x) (f y).
Lemma cmp_refl d : cmp d d = Eq.
Proof. apply cmp_Eq. reflexivity. Qed.
Lemma eta c : match c with Eq => Eq | Lt => Lt | Gt => Gt end = c.
Proof. destruct c; reflexivity. Qed.
Lemma cmps_map A (enc : A -> value) (f : A -> data) l : Forall (sameat enc f) l -> forall m,
  cmps (map dv (map enc l)) (map dv (map enc m)) = cmps (map f l) (map f m).
Proof. induction 1 as [|x l Hx Hl IH]; intros [|y m]; cbn; try reflexivity. rewrite Hx, IH. reflexivity. Qed.
Lemma o_unit s x : sameat (vu s) d_unit x.
Proof. intro y. unfold vu. rewrite cmp_refl. reflexivity. Qed.
Lemma o_option A (enc : A -> value) f o : match o with None => True | Some x => sameat enc f x end -> sameat (enc_Option enc) (d_option f) o.
Proof.
  intros H [y|]; destruct o as [x|]; try reflexivity. cbn [enc_Option d_option dv map]. rewrite !cmp_Node. cbn [cmps]. rewrite (H y). reflexivity.
Qed.
Lemma o_vec A (enc : A -> value) f l : Forall (sameat enc f) l -> sameat (enc_Vec enc) (d_list f) l.
Proof. intros H m. unfold enc_Vec, d_list. cbn [dv]. rewrite !cmp_Node. cbn [Nat.compare]. apply cmps_map, H. Qed.
Ltac wrap := cbn [dv map snd]; rewrite !cmp_Node, !Nat.compare_refl; cbn [cmps]; rewrite ?cmp_refl.
Lemma o_box A (enc : A -> value) f x : sameat enc f x -> sameat (enc_Box enc) f x.
Proof. intros H y. unfold enc_Box. wrap. rewrite (H y). apply eta. Qed.
Lemma o_Parenthesized A (enc : A -> value) f x : sameat enc f x -> sameat (enc_Parenthesized enc) f x.
Proof. intros H y. unfold enc_Parenthesized. wrap. rewrite (H y). apply eta. Qed.
Lemma o_Bracketed A (enc : A -> value) f x : sameat enc f x -> sameat (enc_Bracketed enc) f x.
Proof. intros H y. unfold enc_Bracketed. wrap. rewrite (H y). apply eta. Qed.
Lemma o_Braced A (enc : A -> value) f x : sameat enc f x -> sameat (enc_Braced enc) f x.
Proof. intros H y. unfold enc_Braced. wrap. rewrite (H y). apply eta. Qed.
Lemma o_Generics A (enc : A -> value) f x : sameat enc f x -> sameat (enc_Generics enc) f x.
Proof. intros H y. unfold enc_Generics. wrap. rewrite (H y). apply eta. Qed.
Lemma o_Punctuated A sep (enc : A -> value) f l : Forall (sameat enc f) l -> sameat (enc_Punctuated sep enc) (d_list f) l.
Proof. intros H m. unfold enc_Punctuated, d_list. wrap. rewrite cmp_Node, (cmps_map _ enc f l H). apply eta. Qed.
Lemma o_PunctuatedNonEmpty A sep (enc : A -> value) f l : Forall (sameat enc f) l -> sameat (enc_PunctuatedNonEmpty sep enc) (d_list f) l.
Proof. intros H m. unfold enc_PunctuatedNonEmpty, d_list. wrap. rewrite cmp_Node, (cmps_map _ enc f l H). apply eta. Qed.
Lemma o_pair A B (f : A -> value) sep (g : B -> value) f' g' x : sameat f f' (fst x) -> sameat g g' (snd x) -> sameat (enc_triple f sep g) (d_pair f' g') x.
Proof. destruct x as [a b]. intros H K [a' b']. unfold enc_triple, d_pair. wrap. cbn in H, K. rewrite (H a'), (K b'). reflexivity. Qed.
Lemma o_null (T : Set) (enc : T -> value) f t q : sameat enc f t -> sameat (enc_MayBeNull enc) (d_null f) (mkMayBeNull t q).
Proof.
  intros H [t' q']. unfold enc_MayBeNull, d_null. wrap. rewrite (H t'), (o_option _ _ d_unit q); [reflexivity|]. destruct q; [apply o_unit|exact I].
Qed.
Lemma o_Identifier x : sameat enc_Identifier d_text x.
Proof. intro y. unfold enc_Identifier. wrap. apply eta. Qed.
Lemma o_StringLit x : sameat enc_StringLit d_text x.
Proof. intro y. unfold enc_StringLit. wrap. apply eta. Qed.
Lemma o_DecLit x : sameat enc_DecLit d_text x.
Proof. intro y. unfold enc_DecLit. wrap. apply eta. Qed.
Lemma o_HexLit x : sameat enc_HexLit d_text x.
Proof. intro y. unfold enc_HexLit. wrap. apply eta. Qed.
Lemma o_OctLit x : sameat enc_OctLit d_text x.
Proof. intro y. unfold enc_OctLit. wrap. apply eta. Qed.
Lemma o_FloatValueLit x : sameat enc_FloatValueLit d_text x.
Proof. intro y. unfold enc_FloatValueLit. wrap. apply eta. Qed.
Lemma o_BooleanLit x : sameat enc_BooleanLit d_bool x.
Proof. intro y. unfold enc_BooleanLit. destruct x, y; reflexivity. Qed.
Lemma o_NoArgs x : sameat enc_ExtendedAttributeNoArgs d_text x.
Proof. intro y. unfold enc_ExtendedAttributeNoArgs. wrap. rewrite (o_Identifier x y). apply eta. Qed.
Ltac oparts base :=
  lazymatch goal with
  | |- sameat (enc_Option _) (d_option _) ?o => apply o_option; destruct o; [oparts base|exact I]
  | |- sameat (enc_Vec _) (d_list _) ?l => apply o_vec; revert l; let IH := fresh in fix IH 1; intros [|? ?]; constructor; [oparts base|apply IH]
  | |- sameat (enc_Punctuated _ _) (d_list _) ?l => apply o_Punctuated; revert l; let IH := fresh in fix IH 1; intros [|? ?]; constructor; [oparts base|apply IH]
  | |- sameat (enc_PunctuatedNonEmpty _ _) (d_list _) ?l => apply o_PunctuatedNonEmpty; revert l; let IH := fresh in fix IH 1; intros [|? ?]; constructor; [oparts base|apply IH]
  | |- sameat (enc_Box _) _ _ => apply o_box; oparts base
  | |- sameat (enc_Parenthesized _) _ _ => apply o_Parenthesized; oparts base
  | |- sameat (enc_Bracketed _) _ _ => apply o_Bracketed; oparts base
  | |- sameat (enc_Braced _) _ _ => apply o_Braced; oparts base
  | |- sameat (enc_Generics _) _ _ => apply o_Generics; oparts base
  | |- sameat (enc_MayBeNull _) (d_null _) ?x => destruct x; apply o_null; oparts base
  | |- sameat (enc_triple _ _ _) (d_pair _ _) ?x => destruct x; apply o_pair; cbn [fst snd]; oparts base
  | |- sameat (vu _) d_unit _ => apply o_unit
  | |- sameat enc_Identifier _ _ => apply o_Identifier
  | |- sameat enc_StringLit _ _ => apply o_StringLit
  | |- sameat enc_DecLit _ _ => apply o_DecLit
  | |- sameat enc_HexLit _ _ => apply o_HexLit
  | |- sameat enc_OctLit _ _ => apply o_OctLit
  | |- sameat enc_FloatValueLit _ _ => apply o_FloatValueLit
  | |- sameat enc_BooleanLit _ _ => apply o_BooleanLit
  | |- sameat enc_ExtendedAttributeNoArgs _ _ => apply o_NoArgs
  | |- _ => base
  end.
Ltac orecs := first [match goal with H : forall x, sameat ?f ?g x |- sameat ?f ?g _ => apply H end | auto with ord].
Ltac cmpfields base :=
  repeat match goal with
  | |- context [cmp (dv (?E ?a)) (dv (?E ?b))] =>
      match goal with
      | |- context [cmp (?D a) (?D b)] =>
          let H := fresh in assert (H : sameat E D a); [oparts base|rewrite (H b); clear H]
      end
  end.
Ltac cmpnode base E D :=
  first
    [ reflexivity
    | cbn [E D]; wrap; cmpfields base; repeat (try reflexivity; match goal with |- context [cmp ?a ?b] => destruct (cmp a b) end) ].
Lemma ord_FloatLit x : sameat enc_FloatLit data_FloatLit x.
Proof. intro y. destruct x, y; cmpnode ltac:(auto with ord) enc_FloatLit data_FloatLit. Qed.
#[export] Hint Resolve ord_FloatLit : ord.
Lemma ord_IntegerLit x : sameat enc_IntegerLit data_IntegerLit x.
Proof. intro y. destruct x, y; cmpnode ltac:(auto with ord) enc_IntegerLit data_IntegerLit. Qed.
#[export] Hint Resolve ord_IntegerLit : ord.
Lemma ord_DefaultValue x : sameat enc_DefaultValue data_DefaultValue x.
Proof. intro y. destruct x, y; cmpnode ltac:(auto with ord) enc_DefaultValue data_DefaultValue. Qed.
#[export] Hint Resolve ord_DefaultValue : ord.
Lemma ord_Default x : sameat enc_Default data_DefaultValue x.
Proof. intro y. unfold enc_Default. wrap. rewrite (ord_DefaultValue x y). apply eta. Qed.
#[export] Hint Resolve ord_Default : ord.
Lemma ord_LongLongType x : sameat enc_LongLongType data_LongLongType x.
Proof. intro y. destruct x, y; cmpnode ltac:(auto with ord) enc_LongLongType data_LongLongType. Qed.
#[export] Hint Resolve ord_LongLongType : ord.
Lemma ord_LongType x : sameat enc_LongType data_LongType x.
Proof. intro y. destruct x, y; cmpnode ltac:(auto with ord) enc_LongType data_LongType. Qed.
#[export] Hint Resolve ord_LongType : ord.
Lemma ord_ShortType x : sameat enc_ShortType data_ShortType x.
Proof. intro y. destruct x, y; cmpnode ltac:(auto with ord) enc_ShortType data_ShortType. Qed.
#[export] Hint Resolve ord_ShortType : ord.
Lemma ord_IntegerType x : sameat enc_IntegerType data_IntegerType x.
Proof. intro y. destruct x, y; cmpnode ltac:(auto with ord) enc_IntegerType data_IntegerType. Qed.
#[export] Hint Resolve ord_IntegerType : ord.
Lemma ord_FloatType x : sameat enc_FloatType data_FloatType x.
Proof. intro y. destruct x, y; cmpnode ltac:(auto with ord) enc_FloatType data_FloatType. Qed.
#[export] Hint Resolve ord_FloatType : ord.
Lemma ord_DoubleType x : sameat enc_DoubleType data_DoubleType x.
Proof. intro y. destruct x, y; cmpnode ltac:(auto with ord) enc_DoubleType data_DoubleType. Qed.
#[export] Hint Resolve ord_DoubleType : ord.
Lemma ord_FloatingPointType x : sameat enc_FloatingPointType data_FloatingPointType x.
Proof. intro y. destruct x, y; cmpnode ltac:(auto with ord) enc_FloatingPointType data_FloatingPointType. Qed.
#[export] Hint Resolve ord_FloatingPointType : ord.
Lemma ord_ExtendedAttributeIdentList x : sameat enc_ExtendedAttributeIdentList data_ExtendedAttributeIdentList x.
Proof. intro y. destruct x, y; cmpnode ltac:(auto with ord) enc_ExtendedAttributeIdentList data_ExtendedAttributeIdentList. Qed.
#[export] Hint Resolve ord_ExtendedAttributeIdentList : ord.
Lemma ord_IdentifierOrString x : sameat enc_IdentifierOrString data_IdentifierOrString x.
Proof. intro y. destruct x, y; cmpnode ltac:(auto with ord) enc_IdentifierOrString data_IdentifierOrString. Qed.
#[export] Hint Resolve ord_IdentifierOrString : ord.
Lemma ord_ExtendedAttributeIdent x : sameat enc_ExtendedAttributeIdent data_ExtendedAttributeIdent x.
Proof. intro y. destruct x, y; cmpnode ltac:(auto with ord) enc_ExtendedAttributeIdent data_ExtendedAttributeIdent. Qed.
#[export] Hint Resolve ord_ExtendedAttributeIdent : ord.
Lemma ord_ExtendedAttributeWildCard x : sameat enc_ExtendedAttributeWildCard data_ExtendedAttributeWildCard x.
Proof. intro y. destruct x, y; cmpnode ltac:(auto with ord) enc_ExtendedAttributeWildCard data_ExtendedAttributeWildCard. Qed.
#[export] Hint Resolve ord_ExtendedAttributeWildCard : ord.
(** The types that contain each other. *)
Fixpoint ord_Type (x : Type_) {struct x} : sameat enc_Type data_Type x
with ord_SingleType (x : SingleType) {struct x} : sameat enc_SingleType data_SingleType x
with ord_NonAnyType (x : NonAnyType) {struct x} : sameat enc_NonAnyType data_NonAnyType x
with ord_SequenceType (x : SequenceType) {struct x} : sameat enc_SequenceType data_SequenceType x
with ord_FrozenArrayType (x : FrozenArrayType) {struct x} : sameat enc_FrozenArrayType data_FrozenArrayType x
with ord_PromiseType (x : PromiseType) {struct x} : sameat enc_PromiseType data_PromiseType x
with ord_RecordType (x : RecordType) {struct x} : sameat enc_RecordType data_RecordType x
with ord_RecordKeyType (x : RecordKeyType) {struct x} : sameat enc_RecordKeyType data_RecordKeyType x
with ord_UnionMemberType (x : UnionMemberType) {struct x} : sameat enc_UnionMemberType data_UnionMemberType x
with ord_ReturnType (x : ReturnType) {struct x} : sameat enc_ReturnType data_ReturnType x
with ord_AttributedType (x : AttributedType) {struct x} : sameat enc_AttributedType data_AttributedType x
with ord_AttributedNonAnyType (x : AttributedNonAnyType) {struct x} : sameat enc_AttributedNonAnyType data_AttributedNonAnyType x
with ord_ExtendedAttribute (x : ExtendedAttribute) {struct x} : sameat enc_ExtendedAttribute data_ExtendedAttribute x
with ord_ExtendedAttributeArgList (x : ExtendedAttributeArgList) {struct x} : sameat enc_ExtendedAttributeArgList data_ExtendedAttributeArgList x
with ord_ExtendedAttributeNamedArgList (x : ExtendedAttributeNamedArgList) {struct x} : sameat enc_ExtendedAttributeNamedArgList data_ExtendedAttributeNamedArgList x
with ord_Argument (x : Argument) {struct x} : sameat enc_Argument data_Argument x
with ord_SingleArgument (x : SingleArgument) {struct x} : sameat enc_SingleArgument data_SingleArgument x
with ord_VariadicArgument (x : VariadicArgument) {struct x} : sameat enc_VariadicArgument data_VariadicArgument x.
Proof.
  - intro y. destruct x, y; cmpnode ltac:(orecs) enc_Type data_Type.
  - intro y. destruct x, y; cmpnode ltac:(orecs) enc_SingleType data_SingleType.
  - intro y. destruct x, y; cmpnode ltac:(orecs) enc_NonAnyType data_NonAnyType.
  - intro y. destruct x, y; cmpnode ltac:(orecs) enc_SequenceType data_SequenceType.
  - intro y. destruct x, y; cmpnode ltac:(orecs) enc_FrozenArrayType data_FrozenArrayType.
  - intro y. destruct x, y; cmpnode ltac:(orecs) enc_PromiseType data_PromiseType.
  - intro y. destruct x as [x1 x2], y as [y1 y2]. cbn [enc_RecordType data_RecordType]. unfold enc_Generics, enc_triple, enc_Box. do 4 wrap. rewrite (ord_RecordKeyType x1 y1), (ord_Type x2 y2). destruct (cmp (data_RecordKeyType x1) (data_RecordKeyType y1)), (cmp (data_Type x2) (data_Type y2)); reflexivity.
  - intro y. destruct x, y; cmpnode ltac:(orecs) enc_RecordKeyType data_RecordKeyType.
  - intro y. destruct x, y; cmpnode ltac:(orecs) enc_UnionMemberType data_UnionMemberType.
  - intro y. destruct x, y; cmpnode ltac:(orecs) enc_ReturnType data_ReturnType.
  - intro y. destruct x, y; cmpnode ltac:(orecs) enc_AttributedType data_AttributedType.
  - intro y. destruct x, y; cmpnode ltac:(orecs) enc_AttributedNonAnyType data_AttributedNonAnyType.
  - intro y. destruct x, y; cmpnode ltac:(orecs) enc_ExtendedAttribute data_ExtendedAttribute.
  - intro y. destruct x, y; cmpnode ltac:(orecs) enc_ExtendedAttributeArgList data_ExtendedAttributeArgList.
  - intro y. destruct x, y; cmpnode ltac:(orecs) enc_ExtendedAttributeNamedArgList data_ExtendedAttributeNamedArgList.
  - intro y. destruct x, y; cmpnode ltac:(orecs) enc_Argument data_Argument.
  - intro y. destruct x, y; cmpnode ltac:(orecs) enc_SingleArgument data_SingleArgument.
  - intro y. destruct x, y; cmpnode ltac:(orecs) enc_VariadicArgument data_VariadicArgument.
Qed.
#[export] Hint Resolve ord_Type ord_SingleType ord_NonAnyType ord_SequenceType ord_FrozenArrayType ord_PromiseType ord_RecordType ord_RecordKeyType ord_UnionMemberType ord_ReturnType ord_AttributedType ord_AttributedNonAnyType ord_ExtendedAttribute ord_ExtendedAttributeArgList ord_ExtendedAttributeNamedArgList ord_Argument ord_SingleArgument ord_VariadicArgument : ord.
Lemma ord_DictionaryMember x : sameat enc_DictionaryMember data_DictionaryMember x.
Proof. intro y. destruct x, y; cmpnode ltac:(auto with ord) enc_DictionaryMember data_DictionaryMember. Qed.
#[export] Hint Resolve ord_DictionaryMember : ord.
Lemma ord_Inheritance x : sameat enc_Inheritance data_Inheritance x.
Proof. intro y. destruct x, y; cmpnode ltac:(auto with ord) enc_Inheritance data_Inheritance. Qed.
#[export] Hint Resolve ord_Inheritance : ord.
Lemma ord_ConstType x : sameat enc_ConstType data_ConstType x.
Proof. intro y. destruct x, y; cmpnode ltac:(auto with ord) enc_ConstType data_ConstType. Qed.
#[export] Hint Resolve ord_ConstType : ord.
Lemma ord_ConstValue x : sameat enc_ConstValue data_ConstValue x.
Proof. intro y. destruct x, y; cmpnode ltac:(auto with ord) enc_ConstValue data_ConstValue. Qed.
#[export] Hint Resolve ord_ConstValue : ord.
Lemma ord_ConstMember x : sameat enc_ConstMember data_ConstMember x.
Proof. intro y. destruct x, y; cmpnode ltac:(auto with ord) enc_ConstMember data_ConstMember. Qed.
#[export] Hint Resolve ord_ConstMember : ord.
Lemma ord_StringifierOrInheritOrStatic x : sameat enc_StringifierOrInheritOrStatic data_StringifierOrInheritOrStatic x.
Proof. intro y. destruct x, y; cmpnode ltac:(auto with ord) enc_StringifierOrInheritOrStatic data_StringifierOrInheritOrStatic. Qed.
#[export] Hint Resolve ord_StringifierOrInheritOrStatic : ord.
Lemma ord_AttributeInterfaceMember x : sameat enc_AttributeInterfaceMember data_AttributeInterfaceMember x.
Proof. intro y. destruct x, y; cmpnode ltac:(auto with ord) enc_AttributeInterfaceMember data_AttributeInterfaceMember. Qed.
#[export] Hint Resolve ord_AttributeInterfaceMember : ord.
Lemma ord_ConstructorInterfaceMember x : sameat enc_ConstructorInterfaceMember data_ConstructorInterfaceMember x.
Proof. intro y. destruct x, y; cmpnode ltac:(auto with ord) enc_ConstructorInterfaceMember data_ConstructorInterfaceMember. Qed.
#[export] Hint Resolve ord_ConstructorInterfaceMember : ord.
Lemma ord_StringifierOrStatic x : sameat enc_StringifierOrStatic data_StringifierOrStatic x.
Proof. intro y. destruct x, y; cmpnode ltac:(auto with ord) enc_StringifierOrStatic data_StringifierOrStatic. Qed.
#[export] Hint Resolve ord_StringifierOrStatic : ord.
Lemma ord_Special x : sameat enc_Special data_Special x.
Proof. intro y. destruct x, y; cmpnode ltac:(auto with ord) enc_Special data_Special. Qed.
#[export] Hint Resolve ord_Special : ord.
Lemma ord_OperationInterfaceMember x : sameat enc_OperationInterfaceMember data_OperationInterfaceMember x.
Proof. intro y. destruct x, y; cmpnode ltac:(auto with ord) enc_OperationInterfaceMember data_OperationInterfaceMember. Qed.
#[export] Hint Resolve ord_OperationInterfaceMember : ord.
Lemma ord_SingleTypedIterable x : sameat enc_SingleTypedIterable data_SingleTypedIterable x.
Proof. intro y. destruct x, y; cmpnode ltac:(auto with ord) enc_SingleTypedIterable data_SingleTypedIterable. Qed.
#[export] Hint Resolve ord_SingleTypedIterable : ord.
Lemma ord_DoubleTypedIterable x : sameat enc_DoubleTypedIterable data_DoubleTypedIterable x.
Proof. intro y. destruct x, y; cmpnode ltac:(auto with ord) enc_DoubleTypedIterable data_DoubleTypedIterable. Qed.
#[export] Hint Resolve ord_DoubleTypedIterable : ord.
Lemma ord_IterableInterfaceMember x : sameat enc_IterableInterfaceMember data_IterableInterfaceMember x.
Proof. intro y. destruct x, y; cmpnode ltac:(auto with ord) enc_IterableInterfaceMember data_IterableInterfaceMember. Qed.
#[export] Hint Resolve ord_IterableInterfaceMember : ord.
Lemma ord_SingleTypedAsyncIterable x : sameat enc_SingleTypedAsyncIterable data_SingleTypedAsyncIterable x.
Proof. intro y. destruct x, y; cmpnode ltac:(auto with ord) enc_SingleTypedAsyncIterable data_SingleTypedAsyncIterable. Qed.
#[export] Hint Resolve ord_SingleTypedAsyncIterable : ord.
Lemma ord_DoubleTypedAsyncIterable x : sameat enc_DoubleTypedAsyncIterable data_DoubleTypedAsyncIterable x.
Proof. intro y. destruct x, y; cmpnode ltac:(auto with ord) enc_DoubleTypedAsyncIterable data_DoubleTypedAsyncIterable. Qed.
#[export] Hint Resolve ord_DoubleTypedAsyncIterable : ord.
Lemma ord_AsyncIterableInterfaceMember x : sameat enc_AsyncIterableInterfaceMember data_AsyncIterableInterfaceMember x.
Proof. intro y. destruct x, y; cmpnode ltac:(auto with ord) enc_AsyncIterableInterfaceMember data_AsyncIterableInterfaceMember. Qed.
#[export] Hint Resolve ord_AsyncIterableInterfaceMember : ord.
Lemma ord_MaplikeInterfaceMember x : sameat enc_MaplikeInterfaceMember data_MaplikeInterfaceMember x.
Proof. intro y. destruct x, y; cmpnode ltac:(auto with ord) enc_MaplikeInterfaceMember data_MaplikeInterfaceMember. Qed.
#[export] Hint Resolve ord_MaplikeInterfaceMember : ord.
Lemma ord_SetlikeInterfaceMember x : sameat enc_SetlikeInterfaceMember data_SetlikeInterfaceMember x.
Proof. intro y. destruct x, y; cmpnode ltac:(auto with ord) enc_SetlikeInterfaceMember data_SetlikeInterfaceMember. Qed.
#[export] Hint Resolve ord_SetlikeInterfaceMember : ord.
Lemma ord_StringifierMember x : sameat enc_StringifierMember data_StringifierMember x.
Proof. intro y. destruct x, y; cmpnode ltac:(auto with ord) enc_StringifierMember data_StringifierMember. Qed.
#[export] Hint Resolve ord_StringifierMember : ord.
Lemma ord_InterfaceMember x : sameat enc_InterfaceMember data_InterfaceMember x.
Proof. intro y. destruct x, y; cmpnode ltac:(auto with ord) enc_InterfaceMember data_InterfaceMember. Qed.
#[export] Hint Resolve ord_InterfaceMember : ord.
Lemma ord_OperationMixinMember x : sameat enc_OperationMixinMember data_OperationMixinMember x.
Proof. intro y. destruct x, y; cmpnode ltac:(auto with ord) enc_OperationMixinMember data_OperationMixinMember. Qed.
#[export] Hint Resolve ord_OperationMixinMember : ord.
Lemma ord_AttributeMixinMember x : sameat enc_AttributeMixinMember data_AttributeMixinMember x.
Proof. intro y. destruct x, y; cmpnode ltac:(auto with ord) enc_AttributeMixinMember data_AttributeMixinMember. Qed.
#[export] Hint Resolve ord_AttributeMixinMember : ord.
Lemma ord_MixinMember x : sameat enc_MixinMember data_MixinMember x.
Proof. intro y. destruct x, y; cmpnode ltac:(auto with ord) enc_MixinMember data_MixinMember. Qed.
#[export] Hint Resolve ord_MixinMember : ord.
Lemma ord_ConstNamespaceMember x : sameat enc_ConstNamespaceMember data_ConstNamespaceMember x.
Proof. intro y. destruct x, y; cmpnode ltac:(auto with ord) enc_ConstNamespaceMember data_ConstNamespaceMember. Qed.
#[export] Hint Resolve ord_ConstNamespaceMember : ord.
Lemma ord_OperationNamespaceMember x : sameat enc_OperationNamespaceMember data_OperationNamespaceMember x.
Proof. intro y. destruct x, y; cmpnode ltac:(auto with ord) enc_OperationNamespaceMember data_OperationNamespaceMember. Qed.
#[export] Hint Resolve ord_OperationNamespaceMember : ord.
Lemma ord_AttributeNamespaceMember x : sameat enc_AttributeNamespaceMember data_AttributeNamespaceMember x.
Proof. intro y. destruct x, y; cmpnode ltac:(auto with ord) enc_AttributeNamespaceMember data_AttributeNamespaceMember. Qed.
#[export] Hint Resolve ord_AttributeNamespaceMember : ord.
Lemma ord_NamespaceMember x : sameat enc_NamespaceMember data_NamespaceMember x.
Proof. intro y. destruct x, y; cmpnode ltac:(auto with ord) enc_NamespaceMember data_NamespaceMember. Qed.
#[export] Hint Resolve ord_NamespaceMember : ord.
Lemma ord_CallbackDefinition x : sameat enc_CallbackDefinition data_CallbackDefinition x.
Proof. intro y. destruct x, y; cmpnode ltac:(auto with ord) enc_CallbackDefinition data_CallbackDefinition. Qed.
#[export] Hint Resolve ord_CallbackDefinition : ord.
Lemma ord_CallbackInterfaceDefinition x : sameat enc_CallbackInterfaceDefinition data_CallbackInterfaceDefinition x.
Proof. intro y. destruct x, y; cmpnode ltac:(auto with ord) enc_CallbackInterfaceDefinition data_CallbackInterfaceDefinition. Qed.
#[export] Hint Resolve ord_CallbackInterfaceDefinition : ord.
Lemma ord_InterfaceDefinition x : sameat enc_InterfaceDefinition data_InterfaceDefinition x.
Proof. intro y. destruct x, y; cmpnode ltac:(auto with ord) enc_InterfaceDefinition data_InterfaceDefinition. Qed.
#[export] Hint Resolve ord_InterfaceDefinition : ord.
Lemma ord_InterfaceMixinDefinition x : sameat enc_InterfaceMixinDefinition data_InterfaceMixinDefinition x.
Proof. intro y. destruct x, y; cmpnode ltac:(auto with ord) enc_InterfaceMixinDefinition data_InterfaceMixinDefinition. Qed.
#[export] Hint Resolve ord_InterfaceMixinDefinition : ord.
Lemma ord_NamespaceDefinition x : sameat enc_NamespaceDefinition data_NamespaceDefinition x.
Proof. intro y. destruct x, y; cmpnode ltac:(auto with ord) enc_NamespaceDefinition data_NamespaceDefinition. Qed.
#[export] Hint Resolve ord_NamespaceDefinition : ord.
Lemma ord_DictionaryDefinition x : sameat enc_DictionaryDefinition data_DictionaryDefinition x.
Proof. intro y. destruct x, y; cmpnode ltac:(auto with ord) enc_DictionaryDefinition data_DictionaryDefinition. Qed.
#[export] Hint Resolve ord_DictionaryDefinition : ord.
Lemma ord_PartialInterfaceDefinition x : sameat enc_PartialInterfaceDefinition data_PartialInterfaceDefinition x.
Proof. intro y. destruct x, y; cmpnode ltac:(auto with ord) enc_PartialInterfaceDefinition data_PartialInterfaceDefinition. Qed.
#[export] Hint Resolve ord_PartialInterfaceDefinition : ord.
Lemma ord_PartialInterfaceMixinDefinition x : sameat enc_PartialInterfaceMixinDefinition data_PartialInterfaceMixinDefinition x.
Proof. intro y. destruct x, y; cmpnode ltac:(auto with ord) enc_PartialInterfaceMixinDefinition data_PartialInterfaceMixinDefinition. Qed.
#[export] Hint Resolve ord_PartialInterfaceMixinDefinition : ord.
Lemma ord_PartialDictionaryDefinition x : sameat enc_PartialDictionaryDefinition data_PartialDictionaryDefinition x.
Proof. intro y. destruct x, y; cmpnode ltac:(auto with ord) enc_PartialDictionaryDefinition data_PartialDictionaryDefinition. Qed.
#[export] Hint Resolve ord_PartialDictionaryDefinition : ord.
Lemma ord_PartialNamespaceDefinition x : sameat enc_PartialNamespaceDefinition data_PartialNamespaceDefinition x.
Proof. intro y. destruct x, y; cmpnode ltac:(auto with ord) enc_PartialNamespaceDefinition data_PartialNamespaceDefinition. Qed.
#[export] Hint Resolve ord_PartialNamespaceDefinition : ord.
Lemma ord_EnumDefinition x : sameat enc_EnumDefinition data_EnumDefinition x.
Proof. intro y. destruct x, y; cmpnode ltac:(auto with ord) enc_EnumDefinition data_EnumDefinition. Qed.
#[export] Hint Resolve ord_EnumDefinition : ord.
Lemma ord_TypedefDefinition x : sameat enc_TypedefDefinition data_TypedefDefinition x.
Proof. intro y. destruct x, y; cmpnode ltac:(auto with ord) enc_TypedefDefinition data_TypedefDefinition. Qed.
#[export] Hint Resolve ord_TypedefDefinition : ord.
Lemma ord_IncludesStatementDefinition x : sameat enc_IncludesStatementDefinition data_IncludesStatementDefinition x.
Proof. intro y. destruct x, y; cmpnode ltac:(auto with ord) enc_IncludesStatementDefinition data_IncludesStatementDefinition. Qed.
#[export] Hint Resolve ord_IncludesStatementDefinition : ord.
Lemma ord_ImplementsDefinition x : sameat enc_ImplementsDefinition data_ImplementsDefinition x.
Proof. intro y. destruct x, y; cmpnode ltac:(auto with ord) enc_ImplementsDefinition data_ImplementsDefinition. Qed.
#[export] Hint Resolve ord_ImplementsDefinition : ord.
Lemma ord_Definition x : sameat enc_Definition data_Definition x.
Proof. intro y. destruct x, y; cmpnode ltac:(auto with ord) enc_Definition data_Definition. Qed.
#[export] Hint Resolve ord_Definition : ord.
