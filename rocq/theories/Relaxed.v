(** * Everything the crate accepts is derivable in the grammar of the standard with some rules relaxed *)
From Coq Require Import String Ascii NArith Arith Bool List Lia.
From Verif Require Import Nom Lex Ast Grammar Spec LexFacts NumFacts TokFacts RunFacts Shapes TermFacts Api ApiFacts LexProps
  Tok TokRun TokSound TokComplete TokMembers Shows Exact Lexer WebIDL Standard.
Import ListNotations.
Open Scope list_scope.

(** The rules that are relaxed; all others are those of the standard:
    - any word is an identifier;
    - [A implements B;];
    - partial interfaces may have constructors; callback interfaces may inherit and have all members of interfaces;
    - nullable types and [null] for constants;
    - [inherit readonly attribute]; [static] and [stringifier] in front of special operations; [legacycaller];
    - two attribute lists in front of an argument that is not [optional];
    - a default behind a [required] member of a dictionary;
    - unions of less than two types, promises in unions, record keys of any type but [any] and unions;
    - empty attribute lists, empty lists of identifiers in attributes, strings in attributes;
    - (fewer texts) no attributes on the types inside of [sequence], [FrozenArray] and [record], no [ObservableArray]. *)
Definition relaxed_changes : rules_text := [
  ("Definition", ["CallbackOrInterfaceOrMixin"; "Namespace"; "Partial"; "Dictionary"; "Enum"; "Typedef"; "IncludesStatement";
    "ImplementsStatement"]);
  ("ImplementsStatement", ["identifier implements identifier ;"]);
  ("PartialInterfaceRest", ["identifier { InterfaceMembers } ;"]);
  ("CallbackRestOrInterface", ["CallbackRest"; "interface InterfaceRest"]);
  ("ConstType", ["PrimitiveType Null"; "identifier Null"]);
  ("ConstValue", ["BooleanLiteral"; "FloatLiteral"; "integer"; "null"]);
  ("InheritAttribute", ["inherit OptionalReadOnly AttributeRest"]);
  ("StringifierRest", ["OptionalReadOnly AttributeRest"; "Operation"; ";"]);
  ("StaticMemberRest", ["OptionalReadOnly AttributeRest"; "Operation"]);
  ("Special", ["getter"; "setter"; "deleter"; "legacycaller"]);
  ("MixinMember", ["Const"; "RegularOperation"; "stringifier MixinStringifierRest"; "OptionalReadOnly AttributeRest"]);
  ("MixinStringifierRest", ["OptionalReadOnly AttributeRest"; "RegularOperation"; ";"]);
  ("ArgumentRest", ["optional TypeWithExtendedAttributes ArgumentName Default"; "Type Ellipsis ArgumentName";
    "TypeWithExtendedAttributes ArgumentName"]);
  ("DictionaryMemberRest", ["required Type identifier Default ;"; "Type identifier Default ;"]);
  ("UnionType", ["( UnionMembers )"]);
  ("UnionMembers", ["UnionMemberType UnionMemberTypes"; ""]);
  ("UnionMemberType", ["ExtendedAttributeList DistinguishableType"; "ExtendedAttributeList PromiseType"; "UnionType Null"]);
  ("DistinguishableType", ["PrimitiveType Null"; "StringType Null"; "identifier Null"; "sequence < Type > Null";
    "object Null"; "symbol Null"; "BufferRelatedType Null"; "FrozenArray < Type > Null"; "RecordType Null"]);
  ("RecordType", ["record < RecordKey , Type >"]);
  ("RecordKey", ["StringType"; "DistinguishableType"; "PromiseType"]);
  ("ExtendedAttributeList", ["[ AttributesOrNone ]"; ""]);
  ("AttributesOrNone", ["ExtendedAttribute ExtendedAttributes"; ""]);
  ("ExtendedAttributeIdent", ["identifier = identifier"; "identifier = string"]);
  ("IdentifierList", ["identifier Identifiers"; ""])
]%string.
Definition relaxed_text : rules_text :=
  relaxed_changes ++ filter (fun x => negb (existsb (fun y => String.eqb (fst x) (fst y)) relaxed_changes)) webidl_text.
Definition relaxed : grammar := read relaxed_text.
Definition Relaxed (ts : list tok) : Prop := exists n, Der relaxed [] n [Nt "Definitions"] ts [].
Arguments relaxed : simpl never.

(** ** Rewriting *)
Inductive Rew : list sym -> list sym -> Prop :=
| Rew_nil : Rew [] []
| Rew_keep s a b : Rew a b -> Rew (s :: a) (s :: b)
| Rew_rule x rhs u a b : In rhs (rhs_of relaxed x) -> Rew rhs u -> Rew a b -> Rew (Nt x :: a) (u ++ b).
Definition Gen (a : list sym) (i r : list tok) : Prop := exists n, Der relaxed [] n a i r.
Lemma G_more n m a i r : Der relaxed [] n a i r -> n <= m -> Der relaxed [] m a i r.
Proof.
  intros H. revert m. induction H; intros m' Hm; [constructor|constructor; auto|]. destruct m' as [|m']; [lia|].
  econstructor; eauto. apply IHDer1. lia.
Qed.
Lemma Gen_tok s t a i r : matches [] s t -> Gen a i r -> Gen (s :: a) (t :: i) r.
Proof. intros H [n H1]. exists n. constructor; auto. Qed.
Lemma Gen_nt x rhs a i m r : In rhs (rhs_of relaxed x) -> Gen rhs i m -> Gen a m r -> Gen (Nt x :: a) i r.
Proof.
  intros H [n1 H1] [n2 H2]. exists (S (max n1 n2)). econstructor; [exact H|eapply G_more; [exact H1|lia]|eapply G_more; [exact H2|lia]].
Qed.
Lemma Gen_cons s a i r : Gen (s :: a) i r -> exists m, Gen [s] i m /\ Gen a m r.
Proof.
  intros [n H]. inversion H; subst.
  - eexists. split; [apply Gen_tok; eauto; exists 0; constructor|eexists; eauto].
  - eexists. split; [eapply Gen_nt; [eassumption|eexists; eassumption|exists 0; constructor]|eexists; eassumption].
Qed.
Lemma Gen_app a b : forall i m r, Gen a i m -> Gen b m r -> Gen (a ++ b) i r.
Proof.
  intros i m r [n H] Hb. induction H as [n q|n s t a i q Hm _ IH|n x rhs a i k q Hi H1 _ _ IH]; [exact Hb|eapply Gen_tok; eauto|].
  eapply Gen_nt; eauto. exists n. exact H1.
Qed.
Lemma Gen_split a b : forall i r, Gen (a ++ b) i r -> exists m, Gen a i m /\ Gen b m r.
Proof.
  induction a as [|s a IH]; intros i r H; [exists i; split; auto; exists 0; constructor|].
  apply Gen_cons in H as (m & H1 & H2). apply IH in H2 as (k & H2 & H3). exists k. split; auto. apply (Gen_app [s] a i m k); auto.
Qed.
Lemma Rew_Gen a b : Rew a b -> forall i r, Gen b i r -> Gen a i r.
Proof.
  induction 1 as [|s a b _ IH|x rhs u a b Hi _ IH1 _ IH2]; intros i r H; auto.
  - apply Gen_cons in H as (m & H1 & H2). apply (Gen_app [s] a i m r); auto.
  - apply Gen_split in H as (m & H1 & H2). eapply Gen_nt; eauto.
Qed.
Lemma Rew_refl a : Rew a a.
Proof. induction a; constructor; auto. Qed.
Lemma Rew_app a b u v : Rew a u -> Rew b v -> Rew (a ++ b) (u ++ v).
Proof.
  intros H Hb. induction H as [|s a u _ IH|x rhs w a u Hi H1 _ _ IH]; [exact Hb|apply Rew_keep; exact IH|].
  rewrite <- app_assoc. eapply Rew_rule; eauto.
Qed.
Lemma Rew_cons s a u v : Rew [s] u -> Rew a v -> Rew (s :: a) (u ++ v).
Proof. apply (Rew_app [s] a). Qed.
Lemma Rew_empty s a v : Rew [s] [] -> Rew a v -> Rew (s :: a) v.
Proof. apply (Rew_cons s a []). Qed.
Definition rule_in (x : string) (rhs : list sym) : bool := existsb (syms_eqb rhs) (rhs_of relaxed x).
Lemma Rew_one x rhs u : rule_in x rhs = true -> Rew rhs u -> Rew [Nt x] u.
Proof.
  unfold rule_in. intros H H1. rewrite <- (app_nil_r u). apply existsb_exists in H as (y & Hy & E). apply syms_eqb_ok in E. subst y.
  eapply Rew_rule; eauto. constructor.
Qed.

(** ** Concrete syntax as symbols *)
Definition gsym (g : gtok) : sym :=
  match g with
  | GKw s => if existsb (String.eqb s) extra_words then Id else Kw s   (* [Error] and others are identifiers for the standard *)
  | GP s => Pu s
  | GId _ _ | GTy _ _ => Id
  | GOptComma => Nt "EnumValueListComma"
  | GNegInf => NegInf
  | GInt _ => Int
  | GFloat _ => Dec
  | GStr _ => Str
  end.
Notation syms := (map gsym).
Ltac gs := cbn [map gsym existsb extra_words String.eqb Ascii.eqb Bool.eqb orb andb].
Lemma Rew_comma u : u = [Pu ","] \/ u = [] -> Rew [Nt "EnumValueListComma"] u.
Proof.
  intros [->| ->].
  - apply Rew_one with (rhs := [Pu ","; Nt "EnumValueListString"]); [vm_compute; reflexivity|]. apply Rew_keep.
    apply Rew_one with (rhs := []); [vm_compute; reflexivity|constructor].
  - apply Rew_one with (rhs := []); [vm_compute; reflexivity|constructor].
Qed.
Lemma Conc_Gen g i r : Conc g i r -> Gen (syms g) i r.
Proof.
  induction 1; cbn [map gsym]; try (match goal with |- context [existsb ?f ?l] => destruct (existsb f l) end); try (apply Gen_tok; [try exact Logic.I; try reflexivity; try (intros []); fail|assumption]).
  - exists 0. constructor.
  - apply (Gen_app [Nt "EnumValueListComma"] (syms g) (TPunct "," :: i) i r); [|assumption].
    eapply Rew_Gen; [apply Rew_comma; left; reflexivity|]. apply Gen_tok; [reflexivity|exists 0; constructor].
  - apply (Gen_app [Nt "EnumValueListComma"] (syms g) i i r); [|assumption].
    eapply Rew_Gen; [apply Rew_comma; right; reflexivity|]. exists 0. constructor.
Qed.

(** ** Trees *)
Ltac step x rhs := apply (Rew_one x rhs); [vm_compute; reflexivity|].
(** Match a right hand side with concrete syntax, piece by piece. *)
Ltac fit1 :=
  lazymatch goal with
  | |- Rew [] [] => apply Rew_nil
  | |- Rew (Nt _ :: _) (map gsym (_ ++ _)) => rewrite map_app
  | |- Rew _ (map gsym (_ :: _)) => gs
  | |- Rew _ (map gsym []) => cbn [map]
  | |- Rew _ ((_ ++ _) ++ _) => rewrite <- app_assoc
  | |- Rew _ ([] ++ _) => rewrite app_nil_l
  | |- Rew (Nt ?x :: ?a) (Nt ?x :: ?b) => apply Rew_keep
  | |- Rew [Nt _] _ => solve [eauto]
  | |- Rew (Nt _ :: _) (_ ++ _) => apply Rew_cons; [solve [eauto]|]
  | |- Rew (Nt _ :: _) _ => apply Rew_empty; [solve [eauto]|]
  | |- Rew (_ :: _) (_ :: _) => apply Rew_keep
  end.
Ltac fit := repeat fit1.
Lemma r_none x : rule_in x [] = true -> Rew [Nt x] [].
Proof. intros H. apply (Rew_one x []); auto. constructor. Qed.
Ltac none := apply r_none; vm_compute; reflexivity.
Lemma r_Null q : Rew [Nt "Null"] (syms (opt_q q)).
Proof. destruct q; cbn; [step "Null"%string [Pu "?"]; fit|none]. Qed.
Lemma r_Null_ : Rew [Nt "Null"] []. Proof. exact (r_Null None). Qed.
Lemma r_ReadOnly q : Rew [Nt "OptionalReadOnly"] (syms (opt_kw q "readonly")).
Proof. destruct q; cbn; [step "OptionalReadOnly"%string [Kw "readonly"]; fit|none]. Qed.
Lemma r_Attrs_ : Rew [Nt "ExtendedAttributeList"] []. Proof. none. Qed.
#[local] Hint Resolve r_Null r_Null_ r_ReadOnly r_Attrs_ : core.
Lemma r_Name x : In x ["ArgumentName"; "AttributeName"; "OperationName"]%string -> Rew [Nt x] [Id].
Proof.
  intros [<-|[<-|[<-|[]]]]; [step "ArgumentName"%string [Id]|step "AttributeName"%string [Id]|step "OperationName"%string [Id]]; fit.
Qed.
Lemma r_ArgumentName : Rew [Nt "ArgumentName"] [Id]. Proof. apply r_Name. cbn. auto. Qed.
Lemma r_AttributeName : Rew [Nt "AttributeName"] [Id]. Proof. apply r_Name. cbn. auto. Qed.
Lemma r_OptionalOperationName b n : Rew [Nt "OptionalOperationName"] (syms (show_opt_name b n)).
Proof.
  destruct n; cbn; [|none]. step "OptionalOperationName"%string [Nt "OperationName"]. apply r_Name. cbn. auto.
Qed.
Lemma r_ConstValue v : Rew [Nt "ConstValue"] (syms (show_ConstValue v)).
Proof.
  destruct v as [[]|[]|l|]; cbn.
  - step "ConstValue"%string [Nt "BooleanLiteral"]. step "BooleanLiteral"%string [Kw "true"]. fit.
  - step "ConstValue"%string [Nt "BooleanLiteral"]. step "BooleanLiteral"%string [Kw "false"]. fit.
  - step "ConstValue"%string [Nt "FloatLiteral"]. step "FloatLiteral"%string [Dec]. fit.
  - step "ConstValue"%string [Nt "FloatLiteral"]. step "FloatLiteral"%string [NegInf]. fit.
  - step "ConstValue"%string [Nt "FloatLiteral"]. step "FloatLiteral"%string [Kw "Infinity"]. fit.
  - step "ConstValue"%string [Nt "FloatLiteral"]. step "FloatLiteral"%string [Kw "NaN"]. fit.
  - step "ConstValue"%string [Int]. fit.
  - step "ConstValue"%string [Kw "null"]. fit.
Qed.
Lemma r_Default d : Rew [Nt "Default"] (syms (show_default d)).
Proof.
  destruct d as [d|]; cbn [show_default]; [|none]. step "Default"%string [Pu "="; Nt "DefaultValue"]. gs. apply Rew_keep.
  destruct d as [b| | |f|l| |s].
  - step "DefaultValue"%string [Nt "ConstValue"]. exact (r_ConstValue (ConstValue_Boolean b)).
  - step "DefaultValue"%string [Pu "["; Pu "]"]. cbn. fit.
  - step "DefaultValue"%string [Pu "{"; Pu "}"]. cbn. fit.
  - step "DefaultValue"%string [Nt "ConstValue"]. exact (r_ConstValue (ConstValue_Float f)).
  - step "DefaultValue"%string [Nt "ConstValue"]. exact (r_ConstValue (ConstValue_Integer l)).
  - step "DefaultValue"%string [Kw "null"]. cbn. fit.
  - step "DefaultValue"%string [Str]. cbn. fit.
Qed.
Lemma r_Default_ : Rew [Nt "Default"] []. Proof. exact (r_Default None). Qed.
#[local] Hint Resolve r_ArgumentName r_AttributeName r_OptionalOperationName r_ConstValue r_Default r_Default_ : core.
Lemma r_IntegerType t : Rew [Nt "PrimitiveType"] (syms (show_IntegerType t)).
Proof.
  step "PrimitiveType"%string [Nt "UnsignedIntegerType"].
  assert (G : forall h u, Rew [Nt "IntegerType"] h -> Rew [Nt "UnsignedIntegerType"] (syms (opt_kw u "unsigned") ++ h)).
  { intros h [u|] H; cbn; [step "UnsignedIntegerType"%string [Kw "unsigned"; Nt "IntegerType"]|step "UnsignedIntegerType"%string [Nt "IntegerType"]]; fit. }
  destruct t as [[u]|[u]|[u]]; cbn [show_IntegerType]; rewrite map_app; apply G; gs.
  - step "IntegerType"%string [Kw "long"; Nt "OptionalLong"]. apply Rew_keep. step "OptionalLong"%string [Kw "long"]. fit.
  - step "IntegerType"%string [Kw "long"; Nt "OptionalLong"]. apply Rew_keep. none.
  - step "IntegerType"%string [Kw "short"]. fit.
Qed.
Lemma r_FloatingPointType t : Rew [Nt "PrimitiveType"] (syms (show_FloatingPointType t)).
Proof.
  step "PrimitiveType"%string [Nt "UnrestrictedFloatType"].
  assert (G : forall h u, Rew [Nt "FloatType"] h -> Rew [Nt "UnrestrictedFloatType"] (syms (opt_kw u "unrestricted") ++ h)).
  { intros h [u|] H; cbn; [step "UnrestrictedFloatType"%string [Kw "unrestricted"; Nt "FloatType"]|step "UnrestrictedFloatType"%string [Nt "FloatType"]]; fit. }
  destruct t as [[u]|[u]]; cbn [show_FloatingPointType]; rewrite map_app; apply G; gs.
  - step "FloatType"%string [Kw "float"]. fit.
  - step "FloatType"%string [Kw "double"]. fit.
Qed.

Lemma r_kw_null s m : Rew [Nt "DistinguishableType"] (syms (show_kw_null s m)) ->
  Rew [Nt "DistinguishableType"] (syms (show_kw_null s m)).
Proof. auto. Qed.
Ltac kw_null m := destruct m as [[] q]; unfold show_kw_null, show_null; cbn [app]; gs.
Ltac prim s := step "DistinguishableType"%string [Nt "PrimitiveType"; Nt "Null"];
  apply (Rew_cons (Nt "PrimitiveType") [Nt "Null"] [Kw s]); [step "PrimitiveType"%string [Kw s]; fit|auto].
Ltac strt s := step "DistinguishableType"%string [Nt "StringType"; Nt "Null"];
  apply (Rew_cons (Nt "StringType") [Nt "Null"] [Kw s]); [step "StringType"%string [Kw s]; fit|auto].
Ltac buft s := step "DistinguishableType"%string [Nt "BufferRelatedType"; Nt "Null"];
  apply (Rew_cons (Nt "BufferRelatedType") [Nt "Null"] [Kw s]); [step "BufferRelatedType"%string [Kw s]; fit|auto].

Lemma r_Single u : Rew [Nt "DistinguishableType"] u \/ Rew [Nt "PromiseType"] u -> Rew [Nt "SingleType"] u.
Proof. intros [H|H]; [step "SingleType"%string [Nt "DistinguishableType"]|step "SingleType"%string [Nt "PromiseType"]]; auto. Qed.
Lemma r_undefined : Rew [Nt "Type"] [Kw "undefined"].
Proof.
  step "Type"%string [Nt "SingleType"]. apply r_Single. left. step "DistinguishableType"%string [Nt "PrimitiveType"; Nt "Null"].
  apply (Rew_cons (Nt "PrimitiveType") [Nt "Null"] [Kw "undefined"] []); auto. step "PrimitiveType"%string [Kw "undefined"]. fit.
Qed.
Lemma r_attrs_list (l : list ExtendedAttribute) : Forall (fun x => Rew [Nt "ExtendedAttribute"] (syms (show_ExtendedAttribute x))) l ->
  Rew [Nt "ExtendedAttributeList"] (syms (GP "[" :: join (GP ",") (map show_ExtendedAttribute l) ++ [GP "]"])).
Proof.
  intros H. step "ExtendedAttributeList"%string [Pu "["; Nt "AttributesOrNone"; Pu "]"]. gs. apply Rew_keep. rewrite map_app. apply Rew_cons; [|fit].
  destruct H as [|x l Hx Hl]; [cbn; none|]. rewrite join_cons. step "AttributesOrNone"%string [Nt "ExtendedAttribute"; Nt "ExtendedAttributes"].
  rewrite map_app. apply Rew_cons; auto. clear Hx x. induction Hl as [|x l Hx Hl IH]; [cbn; none|]. cbn [flat_map].
  step "ExtendedAttributes"%string [Pu ","; Nt "ExtendedAttribute"; Nt "ExtendedAttributes"]. rewrite <- app_comm_cons. gs. apply Rew_keep. rewrite map_app. apply Rew_cons; auto.
Qed.
Lemma r_arg_list (l : list Argument) : Forall (fun x => Rew [Nt "Argument"] (syms (show_Argument x))) l ->
  Rew [Nt "ArgumentList"] (syms (join (GP ",") (map show_Argument l))).
Proof.
  intros H. destruct H as [|x l Hx Hl]; [cbn; none|]. rewrite join_cons. step "ArgumentList"%string [Nt "Argument"; Nt "Arguments"].
  rewrite map_app. apply Rew_cons; auto. clear Hx x. induction Hl as [|x l Hx Hl IH]; [cbn; none|]. cbn [flat_map].
  step "Arguments"%string [Pu ","; Nt "Argument"; Nt "Arguments"]. rewrite <- app_comm_cons. gs. apply Rew_keep. rewrite map_app. apply Rew_cons; auto.
Qed.
Lemma r_union_list (l : list UnionMemberType) : Forall (fun x => Rew [Nt "UnionMemberType"] (syms (show_UnionMemberType x))) l ->
  Rew [Nt "UnionMembers"] (syms (join (GKw "or") (map show_UnionMemberType l))).
Proof.
  intros H. destruct H as [|x l Hx Hl]; [cbn; none|]. rewrite join_cons. step "UnionMembers"%string [Nt "UnionMemberType"; Nt "UnionMemberTypes"].
  rewrite map_app. apply Rew_cons; auto. clear Hx x. induction Hl as [|x l Hx Hl IH]; [cbn; none|]. cbn [flat_map].
  step "UnionMemberTypes"%string [Kw "or"; Nt "UnionMemberType"; Nt "UnionMemberTypes"]. rewrite <- app_comm_cons. gs. apply Rew_keep. rewrite map_app. apply Rew_cons; auto.
Qed.
Lemma r_union l q x : rule_in x [Nt "UnionType"; Nt "Null"] = true ->
  Forall (fun x => Rew [Nt "UnionMemberType"] (syms (show_UnionMemberType x))) l ->
  Rew [Nt x] (syms (GP "(" :: join (GKw "or") (map show_UnionMemberType l) ++ GP ")" :: opt_q q)).
Proof.
  intros Hx H. apply r_union_list in H. apply (Rew_one x _ _ Hx). gs. rewrite map_app. gs.
  change (Pu "(" :: syms (join (GKw "or") (map show_UnionMemberType l)) ++ Pu ")" :: syms (opt_q q)) with
    ((Pu "(" :: syms (join (GKw "or") (map show_UnionMemberType l))) ++ [Pu ")"] ++ syms (opt_q q)).
  rewrite app_assoc. apply Rew_cons; auto. step "UnionType"%string [Pu "("; Nt "UnionMembers"; Pu ")"]. rewrite <- app_comm_cons. apply Rew_keep. apply Rew_cons; auto. fit.
Qed.
Lemma r_id_list (l : list Identifier) : Rew [Nt "IdentifierList"] (syms (join (GP ",") (map (fun n => [GId [] n]) l))).
Proof.
  destruct l as [|x l]; [cbn; none|]. rewrite join_cons. step "IdentifierList"%string [Id; Nt "Identifiers"]. cbn [app]. gs. apply Rew_keep.
  clear x. induction l as [|x l IH]; [cbn; none|]. cbn [flat_map app]. gs. step "Identifiers"%string [Pu ","; Id; Nt "Identifiers"]. do 2 apply Rew_keep. exact IH.
Qed.
Definition r_attrs_at (a : option (list ExtendedAttribute)) :
  match a with Some l => Forall (fun x => Rew [Nt "ExtendedAttribute"] (syms (show_ExtendedAttribute x))) l | None => True end ->
  Rew [Nt "ExtendedAttributeList"] (syms (show_attributes a)).
Proof. destruct a as [l|]; intros H; [apply r_attrs_list; exact H|cbn; auto]. Qed.
Ltac elems := match goal with |- All _ ?l -> Forall _ ?l => revert l; let IH := fresh in let H := fresh in fix IH 1; intros [|? ?] H; [constructor|destruct H; constructor; [|apply IH; assumption]] end.
Ltac sh := match goal with |- context [match ?a with Some l => GP "[" :: join (GP ",") (map show_ExtendedAttribute l) ++ [GP "]"] | None => [] end] =>
  change (match a with Some l => GP "[" :: join (GP ",") (map show_ExtendedAttribute l) ++ [GP "]"] | None => [] end) with (show_attributes a) end.

Fixpoint r_Type bad (t : Type_) {struct t} : wf_Type t -> Rew [Nt "Type"] (syms (show_Type bad t))
with r_SingleType bad (t : SingleType) {struct t} : wf_SingleType t -> Rew [Nt "SingleType"] (syms (show_SingleType bad t))
with r_NonAnyType bad (t : NonAnyType) {struct t} : wf_NonAnyType t ->
  Rew [Nt "DistinguishableType"] (syms (show_NonAnyType bad t)) \/ Rew [Nt "PromiseType"] (syms (show_NonAnyType bad t))
with r_RecordKeyType (t : RecordKeyType) {struct t} : wf_RecordKeyType t -> Rew [Nt "RecordKey"] (syms (show_RecordKeyType t))
with r_UnionMemberType (t : UnionMemberType) {struct t} : wf_UnionMemberType t -> Rew [Nt "UnionMemberType"] (syms (show_UnionMemberType t))
with r_ReturnType bad (t : ReturnType) {struct t} : wf_ReturnType t -> Rew [Nt "Type"] (syms (show_ReturnType bad t))
with r_AttributedType bad (t : AttributedType) {struct t} : wf_AttributedType t ->
  Rew [Nt "TypeWithExtendedAttributes"] (syms (show_AttributedType bad t))
with r_ExtendedAttribute (t : ExtendedAttribute) {struct t} : wf_ExtendedAttribute t ->
  Rew [Nt "ExtendedAttribute"] (syms (show_ExtendedAttribute t))
with r_Argument (t : Argument) {struct t} : wf_Argument t -> Rew [Nt "Argument"] (syms (show_Argument t)).
Proof.
  - destruct t as [x|[l q]]; cbn [show_Type wf_Type].
    + intros H. step "Type"%string [Nt "SingleType"]. apply r_SingleType. exact H.
    + intros H. apply r_union; [vm_compute; reflexivity|]. revert H. elems. apply r_UnionMemberType. assumption.
  - destruct t as [|x]; cbn [show_SingleType wf_SingleType]; intros H.
    + step "SingleType"%string [Kw "any"]. gs. fit.
    + apply r_Single. apply r_NonAnyType. exact H.
  - destruct t as [[x]|m|m|m|m|m|m|m|m|[[x] q]|m|m|m|m|m|m|m|m|m|m|m|m|m|m|m|m|[[x] q]|[[k x] q]|m]; cbn [show_NonAnyType wf_NonAnyType]; intros H;
      try (left; kw_null m; lazymatch goal with
        | |- Rew _ (Id :: _) => step "DistinguishableType"%string [Id; Nt "Null"]; fit
        | |- Rew _ (Kw ?s :: _) => first [prim s | strt s | buft s | step "DistinguishableType"%string [Kw s; Nt "Null"]; fit]
        end; fail).
    + right. cbn [show_PromiseType]. gs. step "PromiseType"%string [Kw "Promise"; Pu "<"; Nt "Type"; Pu ">"]. apply (r_ReturnType [] x) in H. fit.
    + left. destruct m as [y q]. cbn [show_null]. rewrite map_app. step "DistinguishableType"%string [Nt "PrimitiveType"; Nt "Null"].
      apply Rew_cons; auto. apply r_IntegerType.
    + left. destruct m as [y q]. cbn [show_null]. rewrite map_app. step "DistinguishableType"%string [Nt "PrimitiveType"; Nt "Null"].
      apply Rew_cons; auto. apply r_FloatingPointType.
    + left. cbn [show_SequenceType]. step "DistinguishableType"%string [Kw "sequence"; Pu "<"; Nt "Type"; Pu ">"; Nt "Null"]. apply (r_Type [] x) in H. 
      rewrite map_app. gs. rewrite map_app, <- !app_comm_cons, <- app_assoc. do 2 apply Rew_keep. apply Rew_cons; auto. gs. rewrite <- app_comm_cons. apply Rew_keep. cbn [app]. auto.
    + left. cbn [show_FrozenArrayType]. step "DistinguishableType"%string [Kw "FrozenArray"; Pu "<"; Nt "Type"; Pu ">"; Nt "Null"]. apply (r_Type [] x) in H. 
      rewrite map_app. gs. rewrite map_app, <- !app_comm_cons, <- app_assoc. do 2 apply Rew_keep. apply Rew_cons; auto. gs. rewrite <- app_comm_cons. apply Rew_keep. cbn [app]. auto.
    + left. destruct H as [H1 H2]. apply (r_RecordKeyType k) in H1. apply (r_Type [] x) in H2. cbn [show_RecordType]. step "DistinguishableType"%string [Nt "RecordType"; Nt "Null"].
      rewrite map_app. apply Rew_cons; auto. step "RecordType"%string [Kw "record"; Pu "<"; Nt "RecordKey"; Pu ","; Nt "Type"; Pu ">"].
      gs. rewrite map_app. do 2 apply Rew_keep. apply Rew_cons; auto. gs. rewrite map_app. apply Rew_keep. apply Rew_cons; auto. fit.
  - destruct t as [| | |x]; cbn [show_RecordKeyType wf_RecordKeyType]; intros H.
    + step "RecordKey"%string [Nt "StringType"]. step "StringType"%string [Kw "ByteString"]. gs. fit.
    + step "RecordKey"%string [Nt "StringType"]. step "StringType"%string [Kw "DOMString"]. gs. fit.
    + step "RecordKey"%string [Nt "StringType"]. step "StringType"%string [Kw "USVString"]. gs. fit.
    + assert (wf_NonAnyType x) as H' by (destruct x; auto; destruct H). apply (r_NonAnyType [] x) in H' as [H'|H'].
      * step "RecordKey"%string [Nt "DistinguishableType"]. exact H'.
      * step "RecordKey"%string [Nt "PromiseType"]. exact H'.
  - destruct t as [[a x]|[l q]]; cbn [show_UnionMemberType wf_UnionMemberType]; intros H.
    + destruct H as [H1 H2]. assert (Ra : Rew [Nt "ExtendedAttributeList"] (syms (show_attributes a))).
      { apply r_attrs_at. destruct a as [l|]; [|exact Logic.I]. revert H1. elems. apply r_ExtendedAttribute. assumption. }
      sh. rewrite map_app. apply (r_NonAnyType [] x) in H2 as [H2|H2].
      * step "UnionMemberType"%string [Nt "ExtendedAttributeList"; Nt "DistinguishableType"]. apply Rew_cons; auto.
      * step "UnionMemberType"%string [Nt "ExtendedAttributeList"; Nt "PromiseType"]. apply Rew_cons; auto.
    + apply r_union; [vm_compute; reflexivity|]. revert H. elems. apply r_UnionMemberType. assumption.
  - destruct t as [|x]; cbn [show_ReturnType wf_ReturnType]; intros H; [apply r_undefined|apply r_Type; exact H].
  - destruct t as [a x]; cbn [show_AttributedType wf_AttributedType]. intros [H1 H2]. 
    step "TypeWithExtendedAttributes"%string [Nt "ExtendedAttributeList"; Nt "Type"]. destruct a as [l|].
    + replace (GP "[" :: join (GP ",") (map show_ExtendedAttribute l) ++ GP "]" :: show_Type [] x) with
        ((GP "[" :: join (GP ",") (map show_ExtendedAttribute l) ++ [GP "]"]) ++ show_Type [] x) by (rewrite <- app_comm_cons, <- app_assoc; reflexivity).
      rewrite map_app. apply Rew_cons; [|apply r_Type; exact H2]. apply r_attrs_list. revert H1. elems. apply r_ExtendedAttribute. assumption.
    + apply Rew_empty; auto.
  - destruct t as [[x l]|[x y l]|[x l]|[x y]|[x]|x]; cbn [show_ExtendedAttribute wf_ExtendedAttribute]; intros H.
    + assert (Rl : Rew [Nt "ArgumentList"] (syms (join (GP ",") (map show_Argument l)))).
      { apply r_arg_list. revert H. elems. apply r_Argument. assumption. }
      step "ExtendedAttribute"%string [Nt "ExtendedAttributeArgList"]. step "ExtendedAttributeArgList"%string [Id; Pu "("; Nt "ArgumentList"; Pu ")"].
      gs. do 2 apply Rew_keep. rewrite map_app. apply Rew_cons; auto. fit.
    + assert (Rl : Rew [Nt "ArgumentList"] (syms (join (GP ",") (map show_Argument l)))).
      { apply r_arg_list. revert H. elems. apply r_Argument. assumption. }
      step "ExtendedAttribute"%string [Nt "ExtendedAttributeNamedArgList"]. 
      step "ExtendedAttributeNamedArgList"%string [Id; Pu "="; Id; Pu "("; Nt "ArgumentList"; Pu ")"].
      gs. do 4 apply Rew_keep. rewrite map_app. apply Rew_cons; auto. fit.
    + step "ExtendedAttribute"%string [Nt "ExtendedAttributeIdentList"]. 
      step "ExtendedAttributeIdentList"%string [Id; Pu "="; Pu "("; Nt "IdentifierList"; Pu ")"].
      gs. do 3 apply Rew_keep. rewrite map_app. apply Rew_cons; [apply r_id_list|]. fit.
    + step "ExtendedAttribute"%string [Nt "ExtendedAttributeIdent"]. destruct y; cbn [show_IdentifierOrString]; gs;
        [step "ExtendedAttributeIdent"%string [Id; Pu "="; Id]|step "ExtendedAttributeIdent"%string [Id; Pu "="; Str]]; fit.
    + step "ExtendedAttribute"%string [Nt "ExtendedAttributeWildcard"]. step "ExtendedAttributeWildcard"%string [Id; Pu "="; Pu "*"]. gs. fit.
    + step "ExtendedAttribute"%string [Nt "ExtendedAttributeNoArgs"]. step "ExtendedAttributeNoArgs"%string [Id]. gs. fit.
  - destruct t as [[a o t i d]|[a t i]]; cbn [show_Argument wf_Argument].
    + intros (H1 & H2 & H3 & _). assert (Ra : Rew [Nt "ExtendedAttributeList"] (syms (show_attributes a))).
      { apply r_attrs_at. destruct a as [l|]; [|exact Logic.I]. revert H1. elems. apply r_ExtendedAttribute. assumption. }
      sh. rewrite map_app. step "Argument"%string [Nt "ExtendedAttributeList"; Nt "ArgumentRest"]. apply Rew_cons; auto.
      destruct o as [[]|]; cbn [opt_kw unless app].
      * apply (r_AttributedType [] t) in H2. step "ArgumentRest"%string [Kw "optional"; Nt "TypeWithExtendedAttributes"; Nt "ArgumentName"; Nt "Default"].
        gs. apply Rew_keep. rewrite map_app. apply Rew_cons; auto. unfold name_after. gs.
        apply (Rew_cons (Nt "ArgumentName") [Nt "Default"] [Id]); auto.
      * assert (d = None) as -> by (destruct d; auto; destruct (H3 ltac:(discriminate) eq_refl)).
        apply (r_AttributedType ["optional"%string] t) in H2. step "ArgumentRest"%string [Nt "TypeWithExtendedAttributes"; Nt "ArgumentName"].
        rewrite map_app. apply Rew_cons; auto.
    + intros (H1 & H2). assert (Ra : Rew [Nt "ExtendedAttributeList"] (syms (show_attributes a))).
      { apply r_attrs_at. destruct a as [l|]; [|exact Logic.I]. revert H1. elems. apply r_ExtendedAttribute. assumption. }
      sh. rewrite map_app. step "Argument"%string [Nt "ExtendedAttributeList"; Nt "ArgumentRest"]. apply Rew_cons; auto.
      apply (r_Type [] t) in H2. step "ArgumentRest"%string [Nt "Type"; Nt "Ellipsis"; Nt "ArgumentName"]. rewrite map_app. apply Rew_cons; auto. gs.
      apply (Rew_cons (Nt "Ellipsis") [Nt "ArgumentName"] [Pu "..."]); auto. step "Ellipsis"%string [Pu "..."]. fit.
Qed.

(** ** Members and definitions *)
Lemma Forall_All {A} (P : A -> Prop) (Q : A -> Prop) l : (forall x, P x -> Q x) -> All P l -> Forall Q l.
Proof. intros H. induction l as [|x l IH]; [constructor|intros [H1 H2]; constructor; auto]. Qed.
Lemma r_attributes a : wf_attributes a -> Rew [Nt "ExtendedAttributeList"] (syms (show_attributes a)).
Proof. intros H. apply r_attrs_at. destruct a; [|exact Logic.I]. revert H. apply Forall_All. apply r_ExtendedAttribute. Qed.
Lemma r_args l : wf_args l -> Rew [Nt "ArgumentList"] (syms (join (GP ",") (map show_Argument l))).
Proof. intros H. apply r_arg_list. revert H. apply Forall_All. apply r_Argument. Qed.
#[local] Hint Resolve r_attributes r_args r_Type r_ReturnType r_AttributedType : core.
Lemma r_ConstType t : Rew [Nt "ConstType"] (syms (show_ConstType t)).
Proof.
  destruct t as [[x q]|[x q]|[x q]|[x q]|[x q]|[x q]]; cbn [show_ConstType show_null]; unfold show_kw_null, show_null; cbn [app]; rewrite ?map_app; gs.
  - step "ConstType"%string [Nt "PrimitiveType"; Nt "Null"]. apply Rew_cons; auto. apply r_IntegerType.
  - step "ConstType"%string [Nt "PrimitiveType"; Nt "Null"]. apply Rew_cons; auto. apply r_FloatingPointType.
  - step "ConstType"%string [Nt "PrimitiveType"; Nt "Null"]. apply (Rew_cons (Nt "PrimitiveType") [Nt "Null"] [Kw "boolean"]); auto. step "PrimitiveType"%string [Kw "boolean"]. fit.
  - step "ConstType"%string [Nt "PrimitiveType"; Nt "Null"]. apply (Rew_cons (Nt "PrimitiveType") [Nt "Null"] [Kw "byte"]); auto. step "PrimitiveType"%string [Kw "byte"]. fit.
  - step "ConstType"%string [Nt "PrimitiveType"; Nt "Null"]. apply (Rew_cons (Nt "PrimitiveType") [Nt "Null"] [Kw "octet"]); auto. step "PrimitiveType"%string [Kw "octet"]. fit.
  - step "ConstType"%string [Id; Nt "Null"]. fit.
Qed.
#[local] Hint Resolve r_ConstType : core.
(** A name is one symbol. *)
Lemma syms_name b n g : syms (name_after b n :: g) = Id :: syms g. Proof. reflexivity. Qed.
Lemma r_Const t i v : Rew [Nt "Const"] (syms (GKw "const" :: show_ConstType t ++ name_after (const_ends_long t) i :: GP "=" :: show_ConstValue v ++ [GP ";"])).
Proof.
  step "Const"%string [Kw "const"; Nt "ConstType"; Id; Pu "="; Nt "ConstValue"; Pu ";"]. gs. apply Rew_keep. rewrite map_app. apply Rew_cons; auto.
  rewrite syms_name. gs. do 2 apply Rew_keep. rewrite map_app. apply Rew_cons; auto. fit.
Qed.
Lemma r_Attribute t i : wf_AttributedType t ->
  Rew [Nt "AttributeRest"] (syms (GKw "attribute" :: show_AttributedType [] t ++ [name_after (attributed_ends_long t) i; GP ";"])).
Proof.
  intros H. step "AttributeRest"%string [Kw "attribute"; Nt "TypeWithExtendedAttributes"; Nt "AttributeName"; Pu ";"]. gs. apply Rew_keep.
  rewrite map_app. apply Rew_cons; auto. rewrite syms_name. gs. apply (Rew_cons (Nt "AttributeName") [Pu ";"] [Id]); auto. fit.
Qed.
Lemma r_show_args s l a g : wf_args l -> Rew a (syms g) -> s = show_args l ++ g -> Rew (Pu "(" :: Nt "ArgumentList" :: Pu ")" :: a) (syms s).
Proof.
  intros H Ha ->. unfold show_args. rewrite <- app_comm_cons, <- app_assoc. gs. apply Rew_keep. rewrite map_app. apply Rew_cons; auto. cbn [app]. gs. apply Rew_keep. auto.
Qed.
Lemma r_Operation bad t i l : wf_ReturnType t -> wf_args l ->
  Rew [Nt "RegularOperation"] (syms (show_ReturnType bad t ++ show_opt_name (return_ends_long t) i ++ show_args l ++ [GP ";"])).
Proof.
  intros H1 H2. step "RegularOperation"%string [Nt "Type"; Nt "OperationRest"]. rewrite map_app. apply Rew_cons; auto.
  step "OperationRest"%string [Nt "OptionalOperationName"; Pu "("; Nt "ArgumentList"; Pu ")"; Pu ";"]. rewrite map_app. apply Rew_cons; auto.
  eapply r_show_args; eauto. apply Rew_refl.
Qed.
Lemma r_pair g : wf_pair g -> forall a u, Rew a u ->
  Rew (Pu "<" :: Nt "TypeWithExtendedAttributes" :: Pu "," :: Nt "TypeWithExtendedAttributes" :: Pu ">" :: a) (syms (show_pair g) ++ u).
Proof.
  intros [H1 H2] a u Ha. unfold show_pair. gs. rewrite map_app, <- app_comm_cons, <- app_assoc. apply Rew_keep. apply Rew_cons; auto. gs. rewrite map_app.
  rewrite <- app_comm_cons, <- app_assoc. apply Rew_keep. apply Rew_cons; auto. cbn [app]. gs. apply Rew_keep. auto.
Qed.
Lemma r_one g : wf_AttributedType g -> forall a u, Rew a u ->
  Rew (Pu "<" :: Nt "TypeWithExtendedAttributes" :: Pu ">" :: a) (syms (show_one g) ++ u).
Proof.
  intros H1 a u Ha. unfold show_one. gs. rewrite map_app, <- app_comm_cons, <- app_assoc. apply Rew_keep. apply Rew_cons; auto. gs. cbn [app]. apply Rew_keep. auto.
Qed.
(** A member behind its attributes. *)
Definition Mem {A} (wf : A -> Prop) (show : A -> list gtok) (x : string) (m : A) : Prop :=
  wf m -> exists a g, show m = show_attributes a ++ g /\ wf_attributes a /\ Rew [Nt x] (syms g).
Lemma r_members {A} (wf : A -> Prop) show x xs : rule_in xs [Nt "ExtendedAttributeList"; Nt x; Nt xs] = true -> rule_in xs [] = true ->
  (forall m, Mem wf show x m) -> forall l, All wf l -> Rew [Nt xs] (syms (flat_map show l)).
Proof.
  intros H1 H2 Hm l. induction l as [|m l IH]; intros H; [apply r_none; auto|]. destruct H as [Hw Hl]. cbn [flat_map].
  destruct (Hm m Hw) as (a & g & E & Ha & Hg). rewrite E. apply (Rew_one xs _ _ H1). rewrite !map_app, <- app_assoc. apply Rew_cons; auto. apply Rew_cons; auto.
Qed.
Lemma r_PIM u : Rew [Nt "PartialInterfaceMember"] u -> Rew [Nt "InterfaceMember"] u.
Proof. intros H. step "InterfaceMember"%string [Nt "PartialInterfaceMember"]. exact H. Qed.
Lemma r_special sp u : Rew [Nt "RegularOperation"] u -> Rew [Nt "Operation"] (syms (show_Special sp) ++ u).
Proof.
  intros H. destruct sp as [[]|]; cbn [show_Special map gsym existsb extra_words String.eqb Ascii.eqb Bool.eqb orb andb app].
  all: try (step "Operation"%string [Nt "SpecialOperation"]; step "SpecialOperation"%string [Nt "Special"; Nt "RegularOperation"];
    match goal with |- Rew _ (Kw ?s :: _) => apply (Rew_cons (Nt "Special") [Nt "RegularOperation"] [Kw s]); [|exact H]; step "Special"%string [Kw s]; fit end).
  step "Operation"%string [Nt "RegularOperation"]. exact H.
Qed.
Lemma r_operation md sp u : Rew [Nt "RegularOperation"] u -> Rew [Nt "InterfaceMember"] (syms (show_SS md) ++ syms (show_Special sp) ++ u).
Proof.
  intros H. apply (r_special sp) in H. apply r_PIM. destruct md as [[]|]; cbn [show_SS app]; gs.
  - step "PartialInterfaceMember"%string [Nt "Stringifier"]. step "Stringifier"%string [Kw "stringifier"; Nt "StringifierRest"]. apply Rew_keep. cbn [app].
    step "StringifierRest"%string [Nt "Operation"]. exact H.
  - step "PartialInterfaceMember"%string [Nt "StaticMember"]. step "StaticMember"%string [Kw "static"; Nt "StaticMemberRest"]. apply Rew_keep. cbn [app].
    step "StaticMemberRest"%string [Nt "Operation"]. exact H.
  - step "PartialInterfaceMember"%string [Nt "Operation"]. exact H.
Qed.
Lemma r_attribute md q u : Rew [Nt "AttributeRest"] u -> Rew [Nt "InterfaceMember"] (syms (show_SIS md) ++ syms (opt_kw q "readonly") ++ u).
Proof.
  intros H. apply r_PIM. destruct md as [[]|]; cbn [show_SIS app]; gs; cbn [app].
  - step "PartialInterfaceMember"%string [Nt "Stringifier"]. step "Stringifier"%string [Kw "stringifier"; Nt "StringifierRest"]. apply Rew_keep.
    step "StringifierRest"%string [Nt "OptionalReadOnly"; Nt "AttributeRest"]. apply Rew_cons; auto.
  - step "PartialInterfaceMember"%string [Nt "InheritAttribute"]. step "InheritAttribute"%string [Kw "inherit"; Nt "OptionalReadOnly"; Nt "AttributeRest"]. apply Rew_keep. apply Rew_cons; auto.
  - step "PartialInterfaceMember"%string [Nt "StaticMember"]. step "StaticMember"%string [Kw "static"; Nt "StaticMemberRest"]. apply Rew_keep.
    step "StaticMemberRest"%string [Nt "OptionalReadOnly"; Nt "AttributeRest"]. apply Rew_cons; auto.
  - destruct q; cbn [opt_kw app]; gs; cbn [app].
    + step "PartialInterfaceMember"%string [Nt "ReadOnlyMember"]. step "ReadOnlyMember"%string [Kw "readonly"; Nt "ReadOnlyMemberRest"]. apply Rew_keep.
      step "ReadOnlyMemberRest"%string [Nt "AttributeRest"]. exact H.
    + step "PartialInterfaceMember"%string [Nt "ReadWriteAttribute"]. step "ReadWriteAttribute"%string [Nt "AttributeRest"]. exact H.
Qed.
Lemma r_opt_args o : wf_opt_args o -> Rew [Nt "OptionalArgumentList"] (syms (show_opt_args o)).
Proof.
  destruct o as [l|]; intros H; cbn [show_opt_args]; [|cbn; none]. step "OptionalArgumentList"%string [Pu "("; Nt "ArgumentList"; Pu ")"].
  eapply (r_show_args _ l [] []); eauto; [constructor|]. rewrite app_nil_r. auto.
Qed.
#[local] Hint Resolve r_opt_args : core.
Lemma r_Maplike g : wf_pair g -> Rew [Nt "MaplikeRest"] (syms (GKw "maplike" :: show_pair g ++ [GP ";"])).
Proof.
  intros H. step "MaplikeRest"%string [Kw "maplike"; Pu "<"; Nt "TypeWithExtendedAttributes"; Pu ","; Nt "TypeWithExtendedAttributes"; Pu ">"; Pu ";"].
  gs. apply Rew_keep. rewrite map_app. apply r_pair; auto. fit.
Qed.
Lemma r_Setlike g : wf_AttributedType g -> Rew [Nt "SetlikeRest"] (syms (GKw "setlike" :: show_one g ++ [GP ";"])).
Proof.
  intros H. step "SetlikeRest"%string [Kw "setlike"; Pu "<"; Nt "TypeWithExtendedAttributes"; Pu ">"; Pu ";"].
  gs. apply Rew_keep. rewrite map_app. apply r_one; auto. fit.
Qed.
Lemma r_InterfaceMember m : Mem wf_InterfaceMember show_InterfaceMember "InterfaceMember" m.
Proof.
  intros H. destruct m as [[a t i v]|[a md q t i]|[a l]|[a md sp t i l]|[[a g]|[a g]]|[[a g o]|[a g o]]|[a q g]|[a q g]|[a]]; cbn in H.
  - do 2 eexists. split; [reflexivity|]. split; [exact H|]. apply r_PIM. step "PartialInterfaceMember"%string [Nt "Const"]. apply r_Const.
  - destruct H as [H1 H2]. do 2 eexists. split; [reflexivity|]. split; [exact H1|]. rewrite map_app, map_app. apply r_attribute. apply r_Attribute. exact H2.
  - destruct H as [H1 H2]. do 2 eexists. split; [reflexivity|]. split; [exact H1|]. step "InterfaceMember"%string [Nt "Constructor"].
    step "Constructor"%string [Kw "constructor"; Pu "("; Nt "ArgumentList"; Pu ")"; Pu ";"]. gs. apply Rew_keep. eapply r_show_args; eauto. apply Rew_refl.
  - destruct H as (H1 & H2 & H3). do 2 eexists. split; [reflexivity|]. split; [exact H1|]. rewrite map_app, map_app. apply r_operation. apply r_Operation; auto.
  - destruct H as [H1 H2]. do 2 eexists. split; [reflexivity|]. split; [exact H1|]. apply r_PIM. step "PartialInterfaceMember"%string [Nt "Iterable"].
    step "Iterable"%string [Kw "iterable"; Pu "<"; Nt "TypeWithExtendedAttributes"; Nt "OptionalType"; Pu ">"; Pu ";"]. gs. apply Rew_keep.
    unfold show_one. rewrite <- app_comm_cons, <- app_assoc. gs. apply Rew_keep. rewrite map_app. apply Rew_cons; auto. cbn [app]. gs. apply Rew_empty; [none|]. fit.
  - destruct H as [H1 [H2 H3]]. do 2 eexists. split; [reflexivity|]. split; [exact H1|]. apply r_PIM. step "PartialInterfaceMember"%string [Nt "Iterable"].
    step "Iterable"%string [Kw "iterable"; Pu "<"; Nt "TypeWithExtendedAttributes"; Nt "OptionalType"; Pu ">"; Pu ";"]. gs. apply Rew_keep.
    unfold show_pair. rewrite <- app_comm_cons, <- app_assoc. gs. apply Rew_keep. rewrite map_app. apply Rew_cons; auto.
    rewrite <- app_comm_cons, <- app_assoc. gs. rewrite map_app, app_comm_cons. apply Rew_cons; [|cbn [app]; gs; fit].
    step "OptionalType"%string [Pu ","; Nt "TypeWithExtendedAttributes"]. apply Rew_keep. auto.
  - destruct H as (H1 & H2 & H3). do 2 eexists. split; [reflexivity|]. split; [exact H1|]. apply r_PIM. step "PartialInterfaceMember"%string [Nt "AsyncIterable"].
    step "AsyncIterable"%string [Kw "async"; Kw "iterable"; Pu "<"; Nt "TypeWithExtendedAttributes"; Nt "OptionalType"; Pu ">"; Nt "OptionalArgumentList"; Pu ";"].
    gs. do 2 apply Rew_keep. unfold show_one. rewrite <- app_comm_cons, <- app_assoc. gs. apply Rew_keep. rewrite map_app. apply Rew_cons; auto. cbn [app]. gs.
    apply Rew_empty; [none|]. apply Rew_keep. rewrite map_app. apply Rew_cons; auto. fit.
  - destruct H as (H1 & [H2 H2'] & H3). do 2 eexists. split; [reflexivity|]. split; [exact H1|]. apply r_PIM. step "PartialInterfaceMember"%string [Nt "AsyncIterable"].
    step "AsyncIterable"%string [Kw "async"; Kw "iterable"; Pu "<"; Nt "TypeWithExtendedAttributes"; Nt "OptionalType"; Pu ">"; Nt "OptionalArgumentList"; Pu ";"].
    gs. do 2 apply Rew_keep. unfold show_pair. rewrite <- app_comm_cons, <- app_assoc. gs. apply Rew_keep. rewrite map_app. apply Rew_cons; auto.
    rewrite <- app_comm_cons, <- app_assoc. gs. rewrite map_app, app_comm_cons. apply Rew_cons.
    + step "OptionalType"%string [Pu ","; Nt "TypeWithExtendedAttributes"]. apply Rew_keep. auto.
    + cbn [app]. gs. apply Rew_keep. rewrite map_app. apply Rew_cons; auto. fit.
  - destruct H as [H1 H2]. do 2 eexists. split; [reflexivity|]. split; [exact H1|]. apply r_PIM. pose proof (r_Maplike g H2) as HM. destruct q; cbn [opt_kw app].
    + step "PartialInterfaceMember"%string [Nt "ReadOnlyMember"]. step "ReadOnlyMember"%string [Kw "readonly"; Nt "ReadOnlyMemberRest"]. cbn [map]. apply Rew_keep.
      step "ReadOnlyMemberRest"%string [Nt "MaplikeRest"]. exact HM.
    + step "PartialInterfaceMember"%string [Nt "ReadWriteMaplike"]. step "ReadWriteMaplike"%string [Nt "MaplikeRest"]. exact HM.
  - destruct H as [H1 H2]. do 2 eexists. split; [reflexivity|]. split; [exact H1|]. apply r_PIM. pose proof (r_Setlike g H2) as HM. destruct q; cbn [opt_kw app].
    + step "PartialInterfaceMember"%string [Nt "ReadOnlyMember"]. step "ReadOnlyMember"%string [Kw "readonly"; Nt "ReadOnlyMemberRest"]. cbn [map]. apply Rew_keep.
      step "ReadOnlyMemberRest"%string [Nt "SetlikeRest"]. exact HM.
    + step "PartialInterfaceMember"%string [Nt "ReadWriteSetlike"]. step "ReadWriteSetlike"%string [Nt "SetlikeRest"]. exact HM.
  - do 2 eexists. split; [reflexivity|]. split; [exact H|]. apply r_PIM. step "PartialInterfaceMember"%string [Nt "Stringifier"].
    step "Stringifier"%string [Kw "stringifier"; Nt "StringifierRest"]. gs. apply Rew_keep. step "StringifierRest"%string [Pu ";"]. fit.
Qed.
Lemma r_MixinMember m : Mem wf_MixinMember show_MixinMember "MixinMember" m.
Proof.
  intros H. destruct m as [[a t i v]|[a s t i l]|[a s q t i]|[a]]; cbn in H.
  - do 2 eexists. split; [reflexivity|]. split; [exact H|]. step "MixinMember"%string [Nt "Const"]. apply r_Const.
  - destruct H as (H1 & H2 & H3). do 2 eexists. split; [reflexivity|]. split; [exact H1|]. pose proof (r_Operation (unless s ["stringifier"%string]) t i l H2 H3) as HO.
    rewrite map_app. destruct s as [[]|]; cbn [opt_kw unless] in *; gs; cbn [app].
    + step "MixinMember"%string [Kw "stringifier"; Nt "MixinStringifierRest"]. apply Rew_keep. step "MixinStringifierRest"%string [Nt "RegularOperation"]. exact HO.
    + step "MixinMember"%string [Nt "RegularOperation"]. exact HO.
  - destruct H as (H1 & H2). do 2 eexists. split; [reflexivity|]. split; [exact H1|]. pose proof (r_Attribute t i H2) as HO.
    rewrite map_app, map_app. destruct s as [[]|]; cbn [opt_kw] in *; gs; cbn [app].
    + step "MixinMember"%string [Kw "stringifier"; Nt "MixinStringifierRest"]. apply Rew_keep.
      step "MixinStringifierRest"%string [Nt "OptionalReadOnly"; Nt "AttributeRest"]. apply Rew_cons; auto.
    + step "MixinMember"%string [Nt "OptionalReadOnly"; Nt "AttributeRest"]. apply Rew_cons; auto.
  - do 2 eexists. split; [reflexivity|]. split; [exact H|]. step "MixinMember"%string [Kw "stringifier"; Nt "MixinStringifierRest"]. gs. apply Rew_keep.
    step "MixinStringifierRest"%string [Pu ";"]. fit.
Qed.
Lemma r_NamespaceMember m : Mem wf_NamespaceMember show_NamespaceMember "NamespaceMember" m.
Proof.
  intros H. destruct m as [[a t i v]|[a t i l]|[a t i]]; cbn in H.
  - do 2 eexists. split; [reflexivity|]. split; [exact H|]. step "NamespaceMember"%string [Nt "Const"]. apply r_Const.
  - destruct H as (H1 & H2 & H3). do 2 eexists. split; [reflexivity|]. split; [exact H1|]. step "NamespaceMember"%string [Nt "RegularOperation"]. apply r_Operation; auto.
  - destruct H as (H1 & H2). do 2 eexists. split; [reflexivity|]. split; [exact H1|]. step "NamespaceMember"%string [Kw "readonly"; Nt "AttributeRest"].
    cbn [map]. apply Rew_keep. apply (r_Attribute t i H2).
Qed.
Lemma r_DictionaryMember m : Mem wf_DictionaryMember show_DictionaryMember "DictionaryMemberRest" m.
Proof.
  intros H. destruct m as [a q t i d]; cbn in H. destruct H as (H1 & H2). do 2 eexists. split; [reflexivity|]. split; [exact H1|].
  destruct q; cbn [opt_kw unless app]; gs.
  - step "DictionaryMemberRest"%string [Kw "required"; Nt "Type"; Id; Nt "Default"; Pu ";"]. apply Rew_keep. rewrite map_app. apply Rew_cons; auto.
    rewrite syms_name. apply Rew_keep. rewrite map_app. apply Rew_cons; auto. fit.
  - step "DictionaryMemberRest"%string [Nt "Type"; Id; Nt "Default"; Pu ";"]. rewrite map_app. apply Rew_cons; auto.
    rewrite syms_name. apply Rew_keep. rewrite map_app. apply Rew_cons; auto. fit.
Qed.

Lemma r_InterfaceMembers l : All wf_InterfaceMember l -> Rew [Nt "InterfaceMembers"] (syms (flat_map show_InterfaceMember l)).
Proof. apply r_members with (x := "InterfaceMember"%string); [vm_compute; reflexivity..|apply r_InterfaceMember]. Qed.
Lemma r_MixinMembers l : All wf_MixinMember l -> Rew [Nt "MixinMembers"] (syms (flat_map show_MixinMember l)).
Proof. apply r_members with (x := "MixinMember"%string); [vm_compute; reflexivity..|apply r_MixinMember]. Qed.
Lemma r_NamespaceMembers l : All wf_NamespaceMember l -> Rew [Nt "NamespaceMembers"] (syms (flat_map show_NamespaceMember l)).
Proof. apply r_members with (x := "NamespaceMember"%string); [vm_compute; reflexivity..|apply r_NamespaceMember]. Qed.
Lemma r_DictionaryMembers l : All wf_DictionaryMember l -> Rew [Nt "DictionaryMembers"] (syms (flat_map show_DictionaryMember l)).
Proof.
  induction l as [|m l IH]; intros H; [cbn; none|]. destruct H as [Hw Hl]. cbn [flat_map].
  destruct (r_DictionaryMember m Hw) as (a & g & E & Ha & Hg). rewrite E, map_app. step "DictionaryMembers"%string [Nt "DictionaryMember"; Nt "DictionaryMembers"].
  apply Rew_cons; auto. step "DictionaryMember"%string [Nt "ExtendedAttributeList"; Nt "DictionaryMemberRest"]. rewrite map_app. apply Rew_cons; auto.
Qed.
#[local] Hint Resolve r_InterfaceMembers r_MixinMembers r_NamespaceMembers r_DictionaryMembers : core.
Lemma r_body {A} (f : A -> list gtok) l x : Rew [Nt x] (syms (flat_map f l)) -> Rew [Pu "{"; Nt x; Pu "}"; Pu ";"] (syms (show_body f l ++ [GP ";"])).
Proof. intros H. unfold show_body. rewrite <- app_comm_cons, <- app_assoc. gs. apply Rew_keep. rewrite map_app. apply Rew_cons; auto. cbn [app]. gs. fit. Qed.
Lemma r_Inheritance h : Rew [Nt "Inheritance"] (syms (show_inheritance h)).
Proof. destruct h as [[i]|]; cbn [show_inheritance]; gs; [step "Inheritance"%string [Pu ":"; Id]; fit|none]. Qed.
#[local] Hint Resolve r_body r_Inheritance : core.
Lemma r_InterfaceRest i h l : All wf_InterfaceMember l ->
  Rew [Nt "InterfaceRest"] (syms (GId [] i :: show_inheritance h ++ show_body show_InterfaceMember l ++ [GP ";"])).
Proof.
  intros H. step "InterfaceRest"%string [Id; Nt "Inheritance"; Pu "{"; Nt "InterfaceMembers"; Pu "}"; Pu ";"]. gs. apply Rew_keep. rewrite map_app. apply Rew_cons; auto.
Qed.
Lemma r_MixinRest i l : All wf_MixinMember l -> Rew [Nt "MixinRest"] (syms (GKw "mixin" :: GId [] i :: show_body show_MixinMember l ++ [GP ";"])).
Proof. intros H. step "MixinRest"%string [Kw "mixin"; Id; Pu "{"; Nt "MixinMembers"; Pu "}"; Pu ";"]. gs. do 2 apply Rew_keep. auto. Qed.
Lemma r_Namespace i l : All wf_NamespaceMember l -> Rew [Nt "Namespace"] (syms (GKw "namespace" :: GId [] i :: show_body show_NamespaceMember l ++ [GP ";"])).
Proof. intros H. step "Namespace"%string [Kw "namespace"; Id; Pu "{"; Nt "NamespaceMembers"; Pu "}"; Pu ";"]. gs. do 2 apply Rew_keep. auto. Qed.
Lemma r_Definition d : Mem wf_Definition show_Definition "Definition" d.
Proof.
  intros H. destruct d as [[a i t l]|[a i h l]|[a i h l]|[a i l]|[a i l]|[a i h l]|[a i l]|[a i l]|[a i l]|[a i l]|[a i v]|[a t i]|[a x y]|[a x y]];
    cbn in H; do 2 eexists; (split; [reflexivity|]); (split; [solve [exact H|exact (proj1 H)]|]).
  - destruct H as (_ & H2 & H3). step "Definition"%string [Nt "CallbackOrInterfaceOrMixin"].
    step "CallbackOrInterfaceOrMixin"%string [Kw "callback"; Nt "CallbackRestOrInterface"]. gs. apply Rew_keep. step "CallbackRestOrInterface"%string [Nt "CallbackRest"].
    step "CallbackRest"%string [Id; Pu "="; Nt "Type"; Pu "("; Nt "ArgumentList"; Pu ")"; Pu ";"]. do 2 apply Rew_keep. rewrite map_app. apply Rew_cons; auto.
    eapply r_show_args; eauto. apply Rew_refl.
  - destruct H as (_ & H2). step "Definition"%string [Nt "CallbackOrInterfaceOrMixin"].
    step "CallbackOrInterfaceOrMixin"%string [Kw "callback"; Nt "CallbackRestOrInterface"]. cbn [map]. apply Rew_keep.
    step "CallbackRestOrInterface"%string [Kw "interface"; Nt "InterfaceRest"]. apply Rew_keep. apply (r_InterfaceRest i h l H2).
  - destruct H as (_ & H2). step "Definition"%string [Nt "CallbackOrInterfaceOrMixin"]. cbn [map].
    step "CallbackOrInterfaceOrMixin"%string [Kw "interface"; Nt "InterfaceOrMixin"]. apply Rew_keep. step "InterfaceOrMixin"%string [Nt "InterfaceRest"].
    apply (r_InterfaceRest i h l H2).
  - destruct H as (_ & H2). step "Definition"%string [Nt "CallbackOrInterfaceOrMixin"]. cbn [map].
    step "CallbackOrInterfaceOrMixin"%string [Kw "interface"; Nt "InterfaceOrMixin"]. apply Rew_keep. step "InterfaceOrMixin"%string [Nt "MixinRest"].
    apply (r_MixinRest i l H2).
  - destruct H as (_ & H2). step "Definition"%string [Nt "Namespace"]. apply (r_Namespace i l H2).
  - destruct H as (_ & H2). step "Definition"%string [Nt "Dictionary"]. gs.
    step "Dictionary"%string [Kw "dictionary"; Id; Nt "Inheritance"; Pu "{"; Nt "DictionaryMembers"; Pu "}"; Pu ";"]. do 2 apply Rew_keep. rewrite map_app. apply Rew_cons; auto.
  - destruct H as (_ & H2). step "Definition"%string [Nt "Partial"]. gs. step "Partial"%string [Kw "partial"; Nt "PartialDefinition"]. apply Rew_keep.
    step "PartialDefinition"%string [Kw "interface"; Nt "PartialInterfaceOrPartialMixin"]. apply Rew_keep. step "PartialInterfaceOrPartialMixin"%string [Nt "PartialInterfaceRest"].
    step "PartialInterfaceRest"%string [Id; Pu "{"; Nt "InterfaceMembers"; Pu "}"; Pu ";"]. apply Rew_keep. auto.
  - destruct H as (_ & H2). step "Definition"%string [Nt "Partial"]. cbn [map]. step "Partial"%string [Kw "partial"; Nt "PartialDefinition"]. apply Rew_keep.
    step "PartialDefinition"%string [Kw "interface"; Nt "PartialInterfaceOrPartialMixin"]. apply Rew_keep. step "PartialInterfaceOrPartialMixin"%string [Nt "MixinRest"].
    apply (r_MixinRest i l H2).
  - destruct H as (_ & H2). step "Definition"%string [Nt "Partial"]. gs. step "Partial"%string [Kw "partial"; Nt "PartialDefinition"]. apply Rew_keep.
    step "PartialDefinition"%string [Nt "PartialDictionary"]. step "PartialDictionary"%string [Kw "dictionary"; Id; Pu "{"; Nt "DictionaryMembers"; Pu "}"; Pu ";"].
    do 2 apply Rew_keep. auto.
  - destruct H as (_ & H2). step "Definition"%string [Nt "Partial"]. cbn [map]. step "Partial"%string [Kw "partial"; Nt "PartialDefinition"]. apply Rew_keep.
    step "PartialDefinition"%string [Nt "Namespace"]. apply (r_Namespace i l H2).
  - destruct H as (_ & H2). step "Definition"%string [Nt "Enum"]. gs. step "Enum"%string [Kw "enum"; Id; Pu "{"; Nt "EnumValueList"; Pu "}"; Pu ";"].
    do 3 apply Rew_keep. destruct v as [|s v]; [destruct H2; reflexivity|]. rewrite join_cons. cbn [app]. gs. rewrite map_app. gs.
    change (Str :: syms (flat_map (fun y => [GP ","; GStr y]) v) ++ [Nt "EnumValueListComma"; Pu "}"; Pu ";"]) with
      ((Str :: syms (flat_map (fun y => [GP ","; GStr y]) v)) ++ [Nt "EnumValueListComma"] ++ [Pu "}"; Pu ";"]).
    rewrite app_assoc. apply Rew_cons; [|fit]. step "EnumValueList"%string [Str; Nt "EnumValueListComma"]. rewrite <- app_comm_cons. apply Rew_keep. clear s H2.
    induction v as [|s v IH]; [apply Rew_refl|]. cbn [flat_map app]. gs. step "EnumValueListComma"%string [Pu ","; Nt "EnumValueListString"].
    apply Rew_keep. step "EnumValueListString"%string [Str; Nt "EnumValueListComma"]. apply Rew_keep. exact IH.
  - destruct H as (_ & H2). step "Definition"%string [Nt "Typedef"]. gs. step "Typedef"%string [Kw "typedef"; Nt "TypeWithExtendedAttributes"; Id; Pu ";"].
    apply Rew_keep. rewrite map_app. apply Rew_cons; auto. fit.
  - step "Definition"%string [Nt "IncludesStatement"]. gs. step "IncludesStatement"%string [Id; Kw "includes"; Id; Pu ";"]. fit.
  - step "Definition"%string [Nt "ImplementsStatement"]. gs. step "ImplementsStatement"%string [Id; Kw "implements"; Id; Pu ";"]. fit.
Qed.
Lemma r_Definitions l : wf_Definitions l -> Rew [Nt "Definitions"] (syms (show_Definitions l)).
Proof. apply r_members with (x := "Definition"%string); [vm_compute; reflexivity..|apply r_Definition]. Qed.
Theorem Sentence_Relaxed defs ts : wf_Definitions defs -> Sentence defs ts -> Relaxed ts.
Proof. intros Hw Hs. apply Conc_Gen in Hs. eapply Rew_Gen in Hs; [|apply r_Definitions; exact Hw]. exact Hs. Qed.
Theorem parse_Relaxed raw defs : parse raw = Parsed defs -> exists ts, Toks raw ts /\ Relaxed ts.
Proof. intros H. apply parse_exact in H as (ts & H1 & H2 & H3). exists ts. split; auto. eapply Sentence_Relaxed; eauto. Qed.
